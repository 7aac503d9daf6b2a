(** Pulling tokens from the HTML tokenizer. *)
From stdpp Require Import gmap.
From Verif Require Import Text SettingsModel CookieModel TokenModel TokenSpec TokenProofs TokenStep TokenStep2.

Local Arguments measure : simpl never.

(** ** Fuel *)
Lemma consume_stream_mono ent f f' foreign t r :
  consume_stream ent f foreign t = Ok r -> f <= f' -> consume_stream ent f' foreign t = Ok r.
Proof.
  revert f' t. induction f as [|f IH]; intros f' t H L; cbn in H; destruct (queue t) eqn:Q; try done.
  - by destruct f'; cbn; rewrite Q.
  - destruct f' as [|f']; [lia|]. cbn. rewrite Q. destruct (step ent foreign t) as [[t1|]| |]; cbn in *; try done.
    apply IH; [done|lia].
  - by destruct f'; cbn; rewrite Q.
Qed.
Lemma next_token_mono ent f f' foreign t r :
  next_token ent f foreign t = Ok r -> f <= f' -> next_token ent f' foreign t = Ok r.
Proof.
  unfold next_token. intros H L. destruct (consume_stream ent f foreign t) eqn:E; cbn in H; try done.
  by rewrite (consume_stream_mono _ _ _ _ _ _ E L).
Qed.
Lemma pulls_mono ent f f' ps t r : pulls ent f ps t = Some r -> f <= f' -> pulls ent f' ps t = Some r.
Proof.
  revert t r. induction ps as [|p ps IH]; intros t r H L; [done|]. cbn in *.
  destruct (next_token ent f (p_foreign p) (switched p t)) as [[[tok t1]|]| |] eqn:E; try done.
  rewrite (next_token_mono _ _ _ _ _ _ E L).
  destruct (pulls ent f ps t1) as [[l t2]|] eqn:E2; [|done]. by rewrite (IH _ _ E2 L).
Qed.

(** ** One pull *)
Definition ended (t : tk) : Prop := content (state t) /\ future t = [] /\ consumed t = [].
Lemma emit_eof t : consumed (emit_token Eof t) = [].
Proof. unfold emit_token. by destruct (consumed t) eqn:E; cbn. Qed.

Lemma run_ok ent fuel foreign t :
  good t -> state t <> CharacterReferenceInAttributeValue -> queue t = [] -> measure t < fuel ->
  exists t', consume_stream ent fuel foreign t = Ok (Some t') /\ good t' /\ state t' <> CharacterReferenceInAttributeValue /\
    measure t' <= measure t /\
    ((exists k, chunk k (queue t') /\ is_text k = false /\ k <> Eof /\ measure t' < measure t) \/
     (chunk Eof (queue t') /\ ended t')).
Proof.
  revert t. induction fuel as [|fuel IH]; intros t G N Q L; [lia|]. cbn. rewrite Q.
  destruct (step_ok ent foreign t G N) as (t1 & E & N1 & G1 & [[M Gr]|(C & F & E1)]); rewrite E; cbn.
  - destruct Gr as [Q1|(k & l & Q1 & K & T & O)].
    + destruct (IH t1 G1 N1 ltac:(congruence) ltac:(lia)) as (t2 & E2 & G2 & N2 & M2 & R).
      exists t2. split_and!; try done; [lia|]. destruct R as [(k & ? & ? & ? & ?)|?]; [left; exists k; split_and!; try done; lia|by right].
    + exists t1. rewrite Q in Q1. cbn in Q1. split_and!; try done.
      * destruct fuel; cbn; rewrite Q1; by destruct K as [->|(? & ? & ->)].
      * lia.
      * left. exists k. by rewrite Q1.
  - exists t1. destruct (emit_grows Eof (set_io (past t) [] None t)) as (l & Q1 & K).
    rewrite <- E1 in Q1. cbn in Q1. rewrite Q in Q1. cbn in Q1.
    assert (S1 : state t1 = state t) by (subst; by rewrite st_emit_token).
    assert (F1 : future t1 = []) by (subst; by rewrite future_io, io_emit_token).
    split_and!; try done.
    + destruct fuel; cbn; rewrite Q1; by destruct K as [->|(? & ? & ->)].
    + unfold measure. by rewrite S1, F, F1.
    + right. rewrite Q1. split; [done|]. unfold ended. rewrite S1, F1. split_and!; try done. subst. apply emit_eof.
Qed.

Lemma content_rank s f : content s -> rank s f = 0.
Proof.
  unfold content. intros H. repeat (apply elem_of_cons in H as [->|H]; [done|]). by apply elem_of_nil in H.
Qed.
Lemma content_not s : content s -> s <> CharacterReferenceInAttributeValue.
Proof. unfold content. intros H ->. repeat (apply elem_of_cons in H as [H|H]; [done|]). by apply elem_of_nil in H. Qed.
Lemma ended_run ent fuel foreign t :
  good t -> ended t -> queue t = [] -> 0 < fuel ->
  exists t', consume_stream ent fuel foreign t = Ok (Some t') /\ queue t' = [Eof].
Proof.
  intros G (C & F & O) Q L. destruct fuel as [|fuel]; [lia|]. cbn. rewrite Q.
  destruct (step_ok ent foreign t G (content_not _ C)) as (t1 & E & _ & _ & [[M _]|(_ & _ & E1)]).
  { unfold measure in M. rewrite (content_rank _ _ C), F in M. cbn in M. lia. }
  rewrite E. cbn. assert (Q1 : queue t1 = [Eof]).
  { subst. unfold emit_token. cbn. rewrite O. cbn. by rewrite Q. }
  exists t1. split; [|done]. destruct fuel; cbn; by rewrite Q1.
Qed.

Definition inv (t : tk) : Prop :=
  good t /\ state t <> CharacterReferenceInAttributeValue /\
  (queue t = [] \/ exists k, queue t = [k] /\ is_text k = false /\ (k = Eof -> ended t)).
(** how many tokens other than the end of the file may still come *)
Definition left_over (t : tk) : nat :=
  match queue t with [Eof] => 0 | q => 2 * measure t + 1 + length q end.

Lemma switched_inv p t : allowed p -> inv t ->
  inv (switched p t) /\ measure (switched p t) <= measure t /\ left_over (switched p t) <= left_over t /\
  (ended t -> ended (switched p t)) /\ queue (switched p t) = queue t.
Proof.
  unfold allowed, switched. destruct (p_switch p) as [s|]; [|naive_solver]. intros A (G & N & Q).
  assert (M : measure (goto s t) <= measure t) by (unfold measure; cbn; rewrite (content_rank _ _ A); lia).
  assert (E : ended t -> ended (goto s t)) by by intros (? & ? & ?).
  split_and!; try done.
  - split_and!; [done|by apply content_not|]. destruct Q as [Q|(k & Q & T & O)]; [by left|right].
    exists k. split_and!; try done. naive_solver.
  - unfold left_over. cbn [queue goto]. destruct (queue t) as [|[] []]; lia.
Qed.

Lemma pull_ok ent fuel p t :
  inv t -> allowed p -> measure t < fuel ->
  exists tok t', next_token ent fuel (p_foreign p) (switched p t) = Ok (Some (tok, t')) /\ inv t' /\ measure t' <= measure t /\
    (tok = Eof -> ended t' /\ queue t' = []) /\
    (tok <> Eof -> left_over t' < left_over t) /\
    (forall s, tok = Text s -> s <> [] /\ exists k, queue t' = [k]) /\
    (forall k, queue t = [k] -> tok = k) /\
    (ended t -> queue t = [] -> tok = Eof).
Proof.
  intros I0 A L0. destruct (switched_inv p t A I0) as (I & M & LO & Hend & HQ).
  assert (L : measure (switched p t) < fuel) by lia. unfold next_token.
  destruct I as (G & N & Q). rewrite <- HQ. clear I0 A. set (u := switched p t) in *.
  enough (exists tok t', (let* r := consume_stream ent fuel (p_foreign p) u in
    Ok match r with Some t => match queue t with [] => Some (Eof, t) | tok :: q => Some (tok, set_queue q t) end | None => None end)
      = Ok (Some (tok, t')) /\ inv t' /\ measure t' <= measure u /\
    (tok = Eof -> ended t' /\ queue t' = []) /\ (tok <> Eof -> left_over t' < left_over u) /\
    (forall s, tok = Text s -> s <> [] /\ exists k, queue t' = [k]) /\
    (forall k, queue u = [k] -> tok = k) /\ (ended u -> queue u = [] -> tok = Eof)) as (tok & t' & X1 & X2 & X3 & X4 & X5 & X6 & X7 & X8).
  { exists tok, t'. split_and!; try done; [lia| |].
    - intros X. specialize (X5 X). lia.
    - intros E. by apply X8, Hend. }
  clearbody u. clear LO Hend HQ M L0 t. rename u into t.
  destruct Q as [Q|(k & Q & T & O)].
  - destruct (run_ok ent fuel (p_foreign p) t G N Q L) as (t1 & E & G1 & N1 & M1 & R). rewrite E. cbn.
    destruct R as [(k & K & T & O & M2)|(K & En)].
    + assert (NE : ended t -> False).
      { intros (C & F & _). unfold measure in M2. rewrite (content_rank _ _ C), F in M2. cbn in M2. lia. }
      destruct K as [K|(s & Hs & K)]; rewrite K; eexists _, _; (split; [reflexivity|]).
      * split; [split_and!; [done..|by left]|]. split; [done|]. split; [by intros ->|]. split.
        { intros _. unfold left_over. rewrite Q. change (measure (set_queue _ t1)) with (measure t1). cbn. lia. }
        split; [by intros s ->|]. split; [by rewrite Q|]. by intros ?%NE.
      * split; [split_and!; [done..|right; exists k; by split_and!]|]. split; [done|]. split; [done|]. split.
        { intros _. unfold left_over. rewrite Q. change (measure (set_queue _ t1)) with (measure t1). cbn [queue set_queue length].
          destruct k; cbn [length]; lia. }
        split; [intros s' [= <-]; split; [done|by exists k]|]. split; [by rewrite Q|]. by intros ?%NE.
    + destruct K as [K|(s & Hs & K)]; rewrite K; eexists _, _; (split; [reflexivity|]).
      * split; [split_and!; [done..|by left]|]. split; [done|]. split; [done|]. split; [done|].
        split; [done|]. split; [by rewrite Q|done].
      * split; [split_and!; [done..|right; exists Eof; by split_and!]|]. split; [done|]. split; [done|]. split.
        { intros _. unfold left_over. rewrite Q. cbn. lia. }
        split; [intros s' [= <-]; split; [done|by exists Eof]|]. split; [by rewrite Q|].
        intros En' _. exfalso.
        destruct (ended_run ent fuel (p_foreign p) t) as (t2 & E2 & Q2); try done; [lia|].
        rewrite E2 in E. injection E as <-. by rewrite Q2 in K.
  - assert (E : consume_stream ent fuel (p_foreign p) t = Ok (Some t)) by (destruct fuel; cbn; by rewrite Q).
    rewrite E. cbn. rewrite Q. eexists _, _. split; [reflexivity|]. split_and!; try done.
    + split_and!; try done. by left.
    + naive_solver.
    + intros O'. unfold left_over. rewrite Q. change (measure (set_queue _ t)) with (measure t). cbn [queue set_queue].
      destruct k; cbn [length]; try lia. done.
    + intros s ->. done.
    + naive_solver.
Qed.

(** ** Many pulls *)
Lemma pulls_ok ent fuel ps t :
  inv t -> Forall allowed ps -> measure t < fuel ->
  exists l t', pulls ent fuel ps t = Some (l, t') /\ inv t' /\ length l = length ps /\
    (left_over t < length ps -> Eof ∈ l) /\
    (ended t -> queue t = [] -> Forall (fun k => k = Eof) l) /\
    (forall k k', queue t = [k] -> l !! 0 = Some k' -> k' = k) /\
    (Eof ∈ l -> future t' = []) /\
    (forall i k, l !! i = Some Eof -> l !! S i = Some k -> k = Eof) /\
    (forall i s, l !! i = Some (Text s) -> s <> [] /\ forall k, l !! S i = Some k -> is_text k = false).
Proof.
  revert t. induction ps as [|p ps IH]; intros t I A L.
  { exists [], t. cbn. split_and!; try done; try lia. intros H. by apply elem_of_nil in H. }
  apply Forall_cons in A as [A As].
  destruct (pull_ok ent fuel p t I A L) as (tok & t1 & E & I1 & M & HE & HP & HT & HQ & HN).
  destruct (IH t1 I1 As ltac:(lia)) as (l & t2 & E2 & I2 & HL & P1 & P2 & P3 & P4 & P5 & P6).
  exists (tok :: l), t2. cbn [pulls]. rewrite E, E2. split_and!; try done.
  - cbn. by rewrite HL.
  - cbn [length]. intros H. destruct (decide (tok = Eof)) as [->|Ht]; [by left|right].
    apply P1. specialize (HP Ht). lia.
  - intros En Q. pose proof (HN En Q) as ->. destruct (HE eq_refl) as [En1 Q1]. constructor; [done|by apply P2].
  - intros k k' Q [= <-]. by apply HQ.
  - intros H. apply elem_of_cons in H as [H|H]; [|by apply P4].
    destruct (HE (eq_sym H)) as [En1 Q1]. destruct ps as [|p' ps'].
    + cbn in E2. injection E2 as <- <-. apply En1.
    + apply P4. specialize (P2 En1 Q1). destruct l as [|k l]; [done|]. apply Forall_cons in P2 as [-> _]. by left.
  - intros [|i] k H1 H2; cbn in H1, H2.
    + injection H1 as ->. destruct (HE eq_refl) as [En1 Q1]. specialize (P2 En1 Q1).
      rewrite Forall_lookup in P2. by eapply P2.
    + by eapply P5.
  - intros [|i] s H1; cbn in H1.
    + injection H1 as ->. destruct (HT s eq_refl) as [Hs [k Qk]]. split; [done|]. intros k' H2. cbn in H2.
      pose proof (P3 _ _ Qk H2) as ->. destruct I1 as (_ & _ & [Q'|(k0 & Q' & T & _)]); congruence.
    + apply (P6 i s) in H1 as [? H]. split; [done|]. intros k H2. by apply H.
Qed.

Lemma inv_new input s ls : s <> CharacterReferenceInAttributeValue -> inv (new input s ls).
Proof. intros N. split_and!; try done. by left. Qed.
Lemma measure_new input s ls : measure (new input s ls) <= 8 * length input + 10.
Proof. unfold measure. cbn [future state new]. enough (rank s input <= 10) by lia. destruct s; cbn [rank]; try destruct (special input); lia. Qed.
