(** Proofs about doctypes. *)
From Verif Require Import Base Text QuirksModel QuirksSpec.
From Coq Require Import ZifyBool ZifyN.

(** Patterns that no character from 128 on can take part in *)
Definition safe (p : list N) : Prop := Forall (fun x => (x < 128)%N /\ x <> 107%N) p /\ last p <> Some 105%N.
Lemma ascii_lower_big x : (128 <= x)%N -> ascii_lower x = x.
Proof. unfold ascii_lower. destruct (_ && _) eqn:E; lia. Qed.
Lemma ascii_lower_small x : (ascii_lower x < 128)%N -> (x < 128)%N.
Proof. unfold ascii_lower. destruct (_ && _) eqn:E; lia. Qed.
Lemma safe_tail x p : safe (x :: p) -> (x < 128)%N /\ x <> 107%N /\ (p = [] -> x <> 105%N) /\ (p <> [] -> safe p).
Proof.
  intros [F L]. apply Forall_cons in F as [[F1 F2] F]. split_and!; [done|done| |].
  - intros -> ->. done.
  - intros N. split; [done|]. by destruct p.
Qed.
Lemma safe_nil : safe []. Proof. split; [constructor|done]. Qed.
Lemma safe_cons x p : safe (x :: p) -> safe p.
Proof. intros H. apply safe_tail in H as (_ & _ & _ & H). destruct p; [apply safe_nil|by apply H]. Qed.
Lemma prefix_lower p s parts : safe p -> Forall2 lowers s parts ->
  p `prefix_of` concat parts <-> exists a b, s = a ++ b /\ map ascii_lower a = p.
Proof.
  revert s parts. induction p as [|x p IH]; intros s parts Sf F.
  { split; [|intros _; apply prefix_nil]. intros _. by exists [], s. }
  destruct (safe_tail _ _ Sf) as (X1 & X2 & X3 & _). apply safe_cons in Sf.
  destruct F as [|c l s parts L F].
  { split; [intros H; by apply prefix_nil_not in H|]. intros (a & b & E & M). destruct a; [done|discriminate]. }
  split.
  - intros H. cbn in H. destruct L as [[Lc ->]|[Lc [->|[->|(y & r & -> & Ly)]]]].
    + cbn in H. assert (x = ascii_lower c) as -> by (by apply prefix_cons_inv_1 in H). apply prefix_cons_inv_2, (IH _ _ Sf F) in H as (a & b & -> & <-).
      by exists (c :: a), b.
    + cbn in H. apply prefix_cons_inv_1 in H. done.
    + cbn in H. pose proof (prefix_cons_inv_1 _ _ _ _ H) as ->. apply prefix_cons_inv_2 in H. destruct p as [|z p]; [by destruct X3|].
      apply prefix_cons_inv_1 in H as ->. apply safe_tail in Sf as (? & _). lia.
    + cbn in H. apply prefix_cons_inv_1 in H as ->. lia.
  - intros (a & b & E & M). destruct a as [|c' a]; [done|]. cbn in M, E. injection M as <- <-. injection E as <- ->.
    cbn. destruct L as [[Lc ->]|[Lc _]]; [|rewrite ascii_lower_big in X1 by done; lia].
    cbn. apply prefix_cons. apply (IH _ _ Sf F). by exists a, b.
Qed.
Lemma concat_nil (parts : list (list N)) s : Forall2 lowers s parts -> concat parts = [] -> s = [].
Proof.
  intros F E. destruct F as [|c l s parts L F]; [done|]. exfalso. cbn in E. apply app_nil in E as [-> _].
  destruct L as [[_ ?]|[_ [?|[?|(? & ? & ? & _)]]]]; done.
Qed.
Lemma equal_lower p s parts : safe p -> Forall2 lowers s parts -> p = concat parts <-> map ascii_lower s = p.
Proof.
  revert s parts. induction p as [|x p IH]; intros s parts Sf F.
  { split; [intros E; by rewrite (concat_nil _ _ F (eq_sym E))|]. intros E. apply map_eq_nil in E as ->. by inversion F. }
  destruct (safe_tail _ _ Sf) as (X1 & X2 & X3 & _). apply safe_cons in Sf.
  destruct F as [|c l s parts L F]; [done|]. cbn. split.
  - intros E. destruct L as [[Lc ->]|[Lc [->|[->|(y & r & -> & Ly)]]]]; cbn in E.
    + injection E as -> E. f_equal. by apply (IH _ _ Sf F).
    + by injection E as -> _.
    + injection E as -> ->. apply safe_tail in Sf as (? & _). lia.
    + injection E as -> _. lia.
  - intros [= <- E]. destruct L as [[Lc ->]|[Lc _]]; [|rewrite ascii_lower_big in X1 by done; lia]. cbn. f_equal. by apply (IH _ _ Sf F).
Qed.

Section quirks.
Context (lower : list N -> list N) (Lw : lowering lower).
Definition safe_check (p : list N) : bool :=
  forallb (fun x => (x <? 128)%N && negb (x =? 107)%N) p && negb (bool_decide (last p = Some 105%N)).
Lemma safe_checked p : safe_check p = true -> safe p.
Proof.
  intros H. apply andb_prop in H as [F L]. split; [|by apply negb_true_iff, bool_decide_eq_false in L].
  rewrite forallb_forall in F. apply Forall_forall. intros x Hx. apply elem_of_list_In, F in Hx. lia.
Qed.
(** a table of the source and a list of the standard *)
Definition tables_match (l std : list (list N)) : bool := bool_decide (map (map ascii_lower) std = l) && forallb safe_check l.
Lemma prefix_table l std v : tables_match l std = true -> any_prefix l (lower v) = true <-> begins_any std v.
Proof.
  intros H. apply andb_prop in H as [E S]. apply bool_decide_eq_true in E. rewrite forallb_forall in S.
  destruct (Lw v) as (parts & F & ->). unfold any_prefix. rewrite existsb_exists. split.
  - intros (p & Hp & Pp). apply bool_decide_eq_true in Pp.
    apply (prefix_lower _ _ _ (safe_checked _ (S _ Hp)) F) in Pp as (a & b & -> & <-).
    rewrite <- E in Hp. apply in_map_iff in Hp as (q & Eq & Hq). exists q. split; [by apply elem_of_list_In|]. by exists a, b.
  - intros (q & Hq & a & b & -> & Eq). assert (Hp : In (map ascii_lower q) l) by (rewrite <- E; apply in_map; by apply elem_of_list_In).
    exists (map ascii_lower q). split; [done|]. apply bool_decide_eq_true. apply (prefix_lower _ _ _ (safe_checked _ (S _ Hp)) F). by exists a, b.
Qed.
Lemma equal_table l std v : tables_match l std = true -> lower v ∈ l <-> exists q, q ∈ std /\ same q v.
Proof.
  intros H. apply andb_prop in H as [E S]. apply bool_decide_eq_true in E. rewrite forallb_forall in S.
  destruct (Lw v) as (parts & F & ->). split.
  - intros Hp. apply elem_of_list_In in Hp. pose proof (equal_lower _ _ _ (safe_checked _ (S _ Hp)) F) as X.
    rewrite <- E in Hp. apply in_map_iff in Hp as (q & Eq & Hq). exists q. split; [by apply elem_of_list_In|]. unfold same. rewrite Eq. symmetry. by apply X.
  - intros (q & Hq & Eq). assert (Hp : In (map ascii_lower q) l) by (rewrite <- E; apply in_map; by apply elem_of_list_In).
    pose proof (proj2 (equal_lower _ _ _ (safe_checked _ (S _ Hp)) F) (eq_sym Eq)) as <-. by apply elem_of_list_In.
Qed.
Lemma m1 : tables_match pub_eq std_public = true. Proof. vm_compute. reflexivity. Qed.
Lemma m2 : tables_match pub_prefix std_public_prefix = true. Proof. vm_compute. reflexivity. Qed.
Lemma m3 : tables_match pub_prefix_missing_sys std_html_401 = true. Proof. vm_compute. reflexivity. Qed.
Lemma m4 : tables_match sys_eq [std_system] = true. Proof. vm_compute. reflexivity. Qed.
Lemma m5 : tables_match limited_pub_prefix std_xhtml_10 = true. Proof. vm_compute. reflexivity. Qed.
Lemma m6 : tables_match limited_pub_prefix_not_missing_sys std_html_401 = true. Proof. vm_compute. reflexivity. Qed.

Lemma begins_one s : begins_any [std_system] s <-> begins std_system s.
Proof. unfold begins_any. split; [intros (p & E & H); by apply elem_of_list_singleton in E as ->|]. intros H. exists std_system. split; [by left|done]. Qed.
Lemma same_begins s : same std_system s -> begins std_system s.
Proof. intros H. exists s, []. by rewrite app_nil_r. Qed.
Lemma html_name d : default [] (dt_name d) = txt "html" <-> dt_name d = Some (txt "html").
Proof. destruct (dt_name d) as [n|]; cbn [default from_option]; split; intros H; [unfold id in H; by rewrite H|by injection H as ->|done|done]. Qed.

(** the mode by the source, as conditions *)
Lemma mode_of d (m := identify_quirks_mode lower d) :
  let force := dt_force d = true \/ dt_name d <> Some (txt "html") in
  let pub := has_public (fun p => exists q, q ∈ std_public /\ same q p) d \/ has_public (begins_any std_public_prefix) d \/
             (dt_system d = None /\ has_public (begins_any std_html_401) d) in
  let sys := exists s, dt_system d = Some s /\ begins std_system s in
  (force \/ pub -> m = Quirks) /\
  (~ force -> ~ pub -> std_limited d -> m = LimitedQuirks) /\
  (~ force -> ~ pub -> ~ std_limited d -> sys -> m = Quirks) /\
  (~ force -> ~ pub -> ~ std_limited d -> ~ sys -> m = NoQuirks).
Proof.
  cbv zeta. subst m. unfold identify_quirks_mode, std_limited, has_public.
  destruct (dt_force d || negb (bool_decide (default [] (dt_name d) = txt "html"))) eqn:Ef.
  { assert (F : dt_force d = true \/ dt_name d <> Some (txt "html")).
    { apply orb_prop in Ef as [Ef|Ef]; [by left|]. right. apply negb_true_iff, bool_decide_eq_false in Ef. by rewrite html_name in Ef. }
    tauto. }
  apply orb_false_iff in Ef as [Ef1 Ef2]. apply negb_false_iff, bool_decide_eq_true, html_name in Ef2. rewrite Ef1, Ef2.
  assert (S1 : forall s, any_prefix sys_eq (lower s) = true <-> begins std_system s).
  { intros s. rewrite (prefix_table _ _ s m4). apply begins_one. }
  destruct (dt_public d) as [v|].
  2: { split_and!; try (intros [[?|?]|[(? & ? & _)|[(? & ? & _)|(_ & ? & ? & _)]]]; done); try (intros _ _ [(? & ? & _)|(_ & ? & ? & _)]; done).
       - intros _ _ _ (s & -> & B). by apply S1 in B as ->.
       - intros _ _ _ B. destruct (dt_system d) as [s|]; [|done]. destruct (any_prefix sys_eq (lower s)) eqn:E; [|done].
         exfalso. apply B. exists s. split; [done|]. by apply S1. }
  pose proof (equal_table _ _ v m1) as T1. pose proof (prefix_table _ _ v m2) as T2. pose proof (prefix_table _ _ v m3) as T3.
  pose proof (prefix_table _ _ v m5) as T5. pose proof (prefix_table _ _ v m6) as T6.
  assert (HP : forall P : list N -> Prop, (exists p, Some v = Some p /\ P p) <-> P v) by (intros P; split; [by intros (p & [= <-] & H)|by exists v]).
  rewrite !HP, <- T1, <- T2, <- T3, <- T5.
  destruct (bool_decide (lower v ∈ pub_eq)) eqn:B1.
  { apply bool_decide_eq_true in B1. tauto. }
  apply bool_decide_eq_false in B1. destruct (any_prefix pub_prefix (lower v)); [tauto|].
  assert (T36 : any_prefix limited_pub_prefix_not_missing_sys (lower v) = any_prefix pub_prefix_missing_sys (lower v)) by done. rewrite T36.
  destruct (dt_system d) as [s|].
  - change (bool_decide (is_Some (Some s))) with true. cbn [andb negb].
    destruct (any_prefix pub_prefix_missing_sys (lower v)).
    { split_and!; try done; try tauto. intros [[?|?]|[?|[?|[? _]]]]; done. }
    destruct (any_prefix limited_pub_prefix (lower v)).
    { split_and!; try done; try tauto. intros [[?|?]|[?|[?|[? _]]]]; done. }
    split_and!.
    + intros [[?|?]|[?|[?|[? _]]]]; done.
    + intros _ _ [?|[_ ?]]; done.
    + intros _ _ _ (s' & [= <-] & B). by apply S1 in B as ->.
    + intros _ _ _ B. destruct (any_prefix sys_eq (lower s)) eqn:E; [|done]. exfalso. apply B. exists s. split; [done|]. by apply S1.
  - change (bool_decide (is_Some (@None (list N)))) with false. cbn [andb negb].
    destruct (any_prefix pub_prefix_missing_sys (lower v)).
    { split_and!; try done; try tauto. }
    destruct (any_prefix limited_pub_prefix (lower v)).
    { split_and!; try done; try tauto. intros [[?|?]|[?|[?|[_ ?]]]]; done. }
    split_and!.
    + intros [[?|?]|[?|[?|[_ ?]]]]; done.
    + intros _ _ [?|[? _]]; done.
    + intros _ _ _ (s' & ? & B). done.
    + done.
Qed.
Lemma standard d : (forall s, dt_system d = Some s -> begins std_system s -> same std_system s /\ ~ std_limited d) ->
  std_mode d (identify_quirks_mode lower d).
Proof.
  intros H. destruct (mode_of d) as (M1 & M2 & M3 & M4). cbv zeta in *.
  set (force := dt_force d = true \/ dt_name d <> Some (txt "html")) in *.
  set (pub := has_public (fun p => exists q, q ∈ std_public /\ same q p) d \/ has_public (begins_any std_public_prefix) d \/
             (dt_system d = None /\ has_public (begins_any std_html_401) d)) in *.
  set (sys := exists s, dt_system d = Some s /\ begins std_system s) in *.
  assert (Q : std_quirks d <-> force \/ pub \/ exists s, dt_system d = Some s /\ same std_system s).
  { clear. unfold std_quirks, force, pub. split; [intros [?|[?|[?|[?|[?|?]]]]]|intros [[?|?]|[[?|[?|?]]|?]]]; auto 10. }
  assert (SS : (exists s, dt_system d = Some s /\ same std_system s) -> sys).
  { intros (s & E & S). exists s. split; [done|]. by apply same_begins. }
  assert (SB : sys -> (exists s, dt_system d = Some s /\ same std_system s) /\ ~ std_limited d).
  { intros (s & E & B). destruct (H s E B). split; [|done]. by exists s. }
  assert (DF : force \/ ~ force).
  { unfold force. destruct (dt_force d); [by left; left|]. destruct (decide (dt_name d = Some (txt "html"))); [|by left; right]. right. intros [?|?]; done. }
  assert (D : forall l s, begins_any l s \/ ~ begins_any l s).
  { intros l s. assert (X : forall p, begins p s \/ ~ begins p s).
    { intros p. destruct (decide (map ascii_lower p `prefix_of` map ascii_lower s)) as [Y|Y].
      - left. destruct Y as [r E]. exists (take (length p) s), (drop (length p) s). split; [by rewrite take_drop|]. unfold same.
        rewrite <- firstn_map, E, <- (map_length ascii_lower p). by rewrite take_app.
      - right. intros (a & b & -> & E). apply Y. exists (map ascii_lower b). unfold same in E. by rewrite E, map_app. }
    induction l as [|p l IH]; [right; by intros (p & ?%elem_of_nil & _)|].
    destruct (X p) as [Y|Y]; [left; exists p; split; [by left|done]|]. destruct IH as [(q & I1 & I2)|IH].
    - left. exists q. split; [by right|done].
    - right. intros (q & [->|I1]%elem_of_cons & I2); [done|]. apply IH. by exists q. }
  assert (DP : forall l, has_public (begins_any l) d \/ ~ has_public (begins_any l) d).
  { intros l. unfold has_public. destruct (dt_public d) as [v|]; [|right; by intros (? & ? & _)].
    destruct (D l v) as [Y|Y]; [left; by exists v|]. right. by intros (p & [= <-] & ?). }
  assert (DL : std_limited d \/ ~ std_limited d).
  { unfold std_limited. destruct (DP std_xhtml_10) as [Y|Y]; [by left; left|]. destruct (DP std_html_401) as [Z|Z]; [|right; by intros [?|[_ ?]]].
    destruct (decide (dt_system d = None)); [right; by intros [?|[? _]]|by left; right]. }
  assert (DPub : pub \/ ~ pub).
  { unfold pub. destruct (DP std_public_prefix) as [Y|Y]; [by left; right; left|].
    assert (DE : has_public (fun p => exists q, q ∈ std_public /\ same q p) d \/ ~ has_public (fun p => exists q, q ∈ std_public /\ same q p) d).
    { unfold has_public. destruct (dt_public d) as [v|]; [|right; by intros (? & ? & _)].
      destruct (decide (map ascii_lower v ∈ map (map ascii_lower) std_public)) as [Z|Z].
      - left. exists v. split; [done|]. apply elem_of_list_fmap in Z as (q & E & I1). by exists q.
      - right. intros (p & [= <-] & q & I1 & E). apply Z. apply elem_of_list_fmap. by exists q. }
    destruct DE as [?|?]; [by left; left|]. destruct (DP std_html_401); [|right; by intros [?|[?|[_ ?]]]].
    destruct (decide (dt_system d = None)); [by left; right; right|right; by intros [?|[?|[? _]]]]. }
  assert (DS : sys \/ ~ sys).
  { unfold sys. destruct (dt_system d) as [s|]; [|right; by intros (? & ? & _)]. destruct (D [std_system] s) as [Y|Y]; rewrite begins_one in Y.
    - left. by exists s.
    - right. by intros (? & [= <-] & ?). }
  destruct DF as [F|F]; [rewrite M1 by (by left); cbn; rewrite Q; by left|].
  destruct DPub as [P|P]; [rewrite M1 by (by right); cbn; rewrite Q; by right; left|].
  destruct DL as [L|L].
  { rewrite M2 by done. cbn. split; [|done]. rewrite Q. intros [?|[?|X]]; [done..|]. apply SS, SB in X as [_ X]. done. }
  destruct DS as [X|X].
  - rewrite M3 by done. cbn. rewrite Q. destruct (SB X). by right; right.
  - rewrite M4 by done. cbn. split; [|done]. rewrite Q. intros [?|[?|?]]; [done..|]. by apply X, SS.
Qed.
Lemma longer_system t : t <> [] ->
  let d := mk_doctype (Some (txt "html")) None (Some (std_system ++ t)) false in
  identify_quirks_mode lower d = Quirks /\ std_mode d NoQuirks.
Proof.
  intros T d. destruct (mode_of d) as (M1 & M2 & M3 & M4). cbv zeta in *.
  assert (NP : forall P, ~ has_public P d) by (intros P (? & ? & _); done).
  assert (NF : ~ (dt_force d = true \/ dt_name d <> Some (txt "html"))) by (intros [?|?]; done).
  assert (L : ~ std_limited d) by (intros [?|[_ ?]]; by eapply NP).
  split.
  - apply M3; try done.
    + intros [?|[?|[_ ?]]]; by eapply NP.
    + exists (std_system ++ t). split; [done|]. by exists std_system, t.
  - split; [|done]. intros [?|[?|[?|[(s & E & X)|[?|[_ ?]]]]]]; try done; try by eapply NP.
    apply (inj Some) in E. rewrite <- E in X. apply (f_equal length) in X. rewrite !map_length, app_length in X. destruct t; [done|cbn in X; lia].
Qed.
Lemma limited_first p : begins_any std_xhtml_10 p -> ~ (exists q, q ∈ std_public /\ same q p) -> ~ begins_any std_public_prefix p ->
  let d := mk_doctype (Some (txt "html")) (Some p) (Some std_system) false in
  identify_quirks_mode lower d = LimitedQuirks /\ std_mode d Quirks.
Proof.
  intros B N1 N2 d. destruct (mode_of d) as (M1 & M2 & M3 & M4). cbv zeta in *. split.
  - apply M2.
    + intros [?|?]; done.
    + intros [(? & [= <-] & ?)|[(? & [= <-] & ?)|[? _]]]; done.
    + left. by exists p.
  - right; right; right; left. by exists std_system.
Qed.
End quirks.
