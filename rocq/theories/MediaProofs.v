(** Proofs about the media store. *)
From stdpp Require Import numbers option list gmap.
From Verif Require Import Base MediaModel MediaSpec.
Local Open Scope N_scope.

Definition holds_id (tr : list event) (σ : store) (s : key) (i : N) : Prop :=
  exists m, entries σ !! i = Some (s, m) /\ gave tr s m.
Definition held (p : pc) : option N := match p with LdStore _ _ _ i | DtStore _ _ i => Some i | _ => None end.
Definition okpc (tr : list event) (σ : store) (p : pc) : Prop :=
  match p with
  | LdFail _ s => Fetched s None ∈ tr
  | LdAlloc _ s m => gave tr s m
  | LdStore _ s m i => gave tr s m /\ i < next_id σ /\ entries σ !! i = None
  | LdCache _ s i => holds_id tr σ s i
  | WkClear s | WkFlag s => is_Some (cache σ !! s)
  | RqUndo s => SpawnFailed s ∈ tr
  | DtCheck d => Asked (Data d) ∈ tr
  | DtAlloc d m => gave tr d m /\ Asked (Data d) ∈ tr
  | DtStore d m i => gave tr d m /\ i < next_id σ /\ entries σ !! i = None /\ Asked (Data d) ∈ tr
  | DtCache d i => holds_id tr σ d i /\ Asked (Data d) ∈ tr
  | _ => True
  end.
Definition good_answer (tr : list event) (σ : store) (s : key) (i : N) : Prop :=
  (i = DEFAULT_IMAGE_ID /\ Fetched s None ∈ tr) \/ holds_id tr σ s i.
Definition okcache (tr : list event) (σ : store) : Prop := forall s i, cache σ !! s = Some i -> good_answer tr σ s i.
Definition oknext (σ : store) : Prop := 100 <= next_id σ /\ forall i e, entries σ !! i = Some e -> i < next_id σ.

(** What a step may change. *)
Definition grows (σ σ' : store) : Prop :=
  (forall i e, entries σ !! i = Some e -> entries σ' !! i = Some e)
  /\ (forall s, is_Some (cache σ !! s) -> is_Some (cache σ' !! s)) /\ next_id σ <= next_id σ'.
Lemma gave_mono tr ev s m : gave tr s m -> gave (tr ++ ev) s m.
Proof. intros [H|H]; [left|right]; apply elem_of_app; auto. Qed.
Lemma holds_mono tr ev σ σ' s i : grows σ σ' -> holds_id tr σ s i -> holds_id (tr ++ ev) σ' s i.
Proof. intros (G & _) (m & E & K). exists m. split; [by apply G|by apply gave_mono]. Qed.
Lemma answer_mono tr ev σ σ' s i : grows σ σ' -> good_answer tr σ s i -> good_answer (tr ++ ev) σ' s i.
Proof. intros G [[-> K]|K]; [left; split; [done|apply elem_of_app; auto]|right; by eapply holds_mono]. Qed.
Lemma okpc_mono tr ev σ σ' p :
  grows σ σ' -> (forall i, held p = Some i -> entries σ !! i = None -> entries σ' !! i = None) -> okpc tr σ p -> okpc (tr ++ ev) σ' p.
Proof.
  intros G Hh. pose proof G as (G1 & G2 & G3).
  destruct p; cbn in *; auto using gave_mono; rewrite ?elem_of_app; intuition eauto using gave_mono, holds_mono; try lia.
Qed.
Lemma grows_refl σ : grows σ σ.
Proof. split_and!; auto; lia. Qed.
Lemma in_snoc {A} (e : A) l : e ∈ l ++ [e].
Proof. apply elem_of_app. right. apply elem_of_list_singleton. done. Qed.
Lemma or_insert_some s i σ : is_Some (cache (or_insert s i σ) !! s).
Proof. unfold or_insert. destruct (cache σ !! s) eqn:E; cbn; [by rewrite E|rewrite lookup_insert; eauto]. Qed.
Lemma or_insert_grows s i σ : grows σ (or_insert s i σ).
Proof.
  unfold or_insert. destruct (cache σ !! s) eqn:E; [apply grows_refl|]. split_and!; cbn; auto; try lia.
  intros t. destruct (decide (s = t)) as [->|?]; [rewrite lookup_insert; eauto|by rewrite lookup_insert_ne].
Qed.
Lemma or_insert_cache tr s i σ : okcache tr σ -> good_answer tr σ s i -> okcache tr (or_insert s i σ).
Proof.
  intros C H. unfold or_insert. destruct (cache σ !! s) eqn:E; [done|]. intros t j. cbn.
  destruct (decide (s = t)) as [->|?]; [rewrite lookup_insert; intros [= <-]; apply H|rewrite lookup_insert_ne by done; apply C].
Qed.
Lemma okcache_mono tr ev σ σ' : grows σ σ' -> cache σ' = cache σ -> okcache tr σ -> okcache (tr ++ ev) σ'.
Proof. intros G E C s i. rewrite E. intros K. eapply answer_mono; [done|]. by apply C. Qed.
Lemma or_insert_entries s i σ : entries (or_insert s i σ) = entries σ.
Proof. unfold or_insert. by destruct (cache σ !! s). Qed.
Lemma or_insert_next s i σ : next_id (or_insert s i σ) = next_id σ.
Proof. unfold or_insert. by destruct (cache σ !! s). Qed.
Lemma or_insert_pending s i σ : pending (or_insert s i σ) = pending σ.
Proof. unfold or_insert. by destruct (cache σ !! s). Qed.
Lemma or_insert_completed s i σ : completed (or_insert s i σ) = completed σ.
Proof. unfold or_insert. by destruct (cache σ !! s). Qed.
Lemma enter_grows i e σ : entries σ !! i = None -> grows σ (enter i e σ).
Proof.
  intros H. split_and!; cbn; auto; try lia. intros j f K. destruct (decide (i = j)) as [->|?]; [congruence|by rewrite lookup_insert_ne].
Qed.

Section step.
Context (decode : key -> option N).
Notation step_pc := (step_pc decode).
Lemma step_ok tr p x σ σ' p' ev :
  step_pc p x σ = (σ', (p', ev)) -> okcache tr σ -> oknext σ -> okpc tr σ p ->
  grows σ σ' /\ (forall i, held p <> Some i -> entries σ !! i = None -> entries σ' !! i = None)
  /\ okcache (tr ++ option_list ev) σ' /\ oknext σ' /\ okpc (tr ++ option_list ev) σ' p'
  /\ (forall i, held p' = Some i -> held p = None /\ i = next_id σ /\ next_id σ' = i + 1).
Proof.
  intros E C Nx P.
  assert (Sm : forall e, okcache (tr ++ e) σ) by (intros; eapply okcache_mono; eauto using grows_refl).
  destruct p; cbn in E, P.
  - (* RqCheck *) destruct (cache σ !! s); injection E as <- <- <-; split_and!; eauto using grows_refl; done.
  - case_decide; injection E as <- <- <-; split_and!; eauto using grows_refl; try done; cbn; auto; try lia.
  - destruct (w_spawn x); injection E as <- <- <-; split_and!; eauto using grows_refl; try done. cbn. apply in_snoc.
  - injection E as <- <- <-; split_and!; eauto using grows_refl; try done; cbn; auto; lia.
  - destruct (cache σ !! s) as [i|] eqn:Ec; [unfold finish in E; destruct w|]; injection E as <- <- <-; split_and!; eauto using grows_refl; try done. cbn. rewrite Ec. eauto.
  - destruct (w_fetch x); injection E as <- <- <-; split_and!; eauto using grows_refl; try done; cbn; [left; apply in_snoc|apply in_snoc].
  - assert (G : good_answer tr σ s DEFAULT_IMAGE_ID) by (left; auto).
    assert (C' := or_insert_cache _ _ _ _ C G). pose proof (or_insert_grows s DEFAULT_IMAGE_ID σ) as Gr.
    unfold finish in E; destruct w; injection E as <- <- <-; split_and!; rewrite ?or_insert_entries; auto;
      try (eapply okcache_mono; [apply grows_refl|done|exact C']);
      try (red; rewrite or_insert_next, or_insert_entries; exact Nx); try done; cbn; apply or_insert_some.
  - injection E as <- <- <-; cbn. assert (G : grows σ (bump σ)) by (split_and!; cbn; auto; lia). destruct Nx as [N1 N2]. split_and!; auto.
    + eapply okcache_mono; eauto. + split; cbn; [lia|]. intros i e K. specialize (N2 _ _ K). lia.
    + by apply gave_mono. + lia. + destruct (entries σ !! next_id σ) eqn:Ee; [|done]. apply N2 in Ee. lia.
    + intros i [= <-]. auto.
  - destruct P as (P1 & P2 & P3). injection E as <- <- <-; cbn. pose proof (enter_grows i (s, m) σ P3) as G. destruct Nx as [N1 N2]. split_and!; auto; try done.
    + intros j Hj. rewrite lookup_insert_ne; [done|congruence].
    + eapply okcache_mono; eauto.
    + split; [done|]. cbn. intros j e. destruct (decide (i = j)) as [->|?]; [auto|rewrite lookup_insert_ne by done; apply N2].
    + exists m. split; [cbn; by rewrite lookup_insert|by apply gave_mono].
  - assert (G : good_answer tr σ s i) by (right; auto).
    assert (C' := or_insert_cache _ _ _ _ C G). pose proof (or_insert_grows s i σ) as Gr.
    unfold finish in E; destruct w; injection E as <- <- <-; split_and!; rewrite ?or_insert_entries; auto;
      try (eapply okcache_mono; [apply grows_refl|done|exact C']);
      try (red; rewrite or_insert_next, or_insert_entries; exact Nx); try done; cbn; apply or_insert_some.
  - injection E as <- <- <-; split_and!; eauto using grows_refl; try done; cbn; auto; lia.
  - injection E as <- <- <-; split_and!; eauto using grows_refl; try done; cbn; auto; lia.
  - destruct (cache σ !! d); [|destruct (decode d)]; injection E as <- <- <-; split_and!; eauto using grows_refl; try done; cbn.
    split; [right; apply in_snoc|apply elem_of_app; auto].
  - destruct P as [P Pa]. injection E as <- <- <-; cbn. assert (G : grows σ (bump σ)) by (split_and!; cbn; auto; lia). destruct Nx as [N1 N2]. split_and!; auto.
    + eapply okcache_mono; eauto. + split; cbn; [lia|]. intros i e K. specialize (N2 _ _ K). lia.
    + by apply gave_mono. + lia. + destruct (entries σ !! next_id σ) eqn:Ee; [|done]. apply N2 in Ee. lia.
    + apply elem_of_app. auto.
    + intros i [= <-]. auto.
  - destruct P as (P1 & P2 & P3 & Pa). injection E as <- <- <-; cbn. pose proof (enter_grows i (d, m) σ P3) as G. destruct Nx as [N1 N2]. split_and!; auto; try done.
    + intros j Hj. rewrite lookup_insert_ne; [done|congruence].
    + eapply okcache_mono; eauto.
    + split; [done|]. cbn. intros j e. destruct (decide (i = j)) as [->|?]; [auto|rewrite lookup_insert_ne by done; apply N2].
    + exists m. split; [cbn; by rewrite lookup_insert|by apply gave_mono].
    + apply elem_of_app. auto.
  - destruct P as [P Pa]. injection E as <- <- <-; cbn.
    assert (G : grows σ (cache_insert d i σ)).
    { split_and!; cbn; auto; try lia. intros t. destruct (decide (d = t)) as [->|?]; [rewrite lookup_insert; eauto|by rewrite lookup_insert_ne]. }
    split_and!; auto; try done. intros t j. cbn. destruct (decide (d = t)) as [->|?].
    + rewrite lookup_insert. intros [= <-]. right. eapply holds_mono; eauto.
    + rewrite lookup_insert_ne by done. intros K. eapply answer_mono; [exact G|]. by apply C.
  - injection E as <- <- <-; split_and!; eauto using grows_refl; done.
Qed.

Definition apart (ts : list pc) : Prop := forall j k p q i,
  ts !! j = Some p -> ts !! k = Some q -> held p = Some i -> held q = Some i -> j = k.
Definition inv (M : machine) : Prop :=
  okcache (trace M) (shared M) /\ oknext (shared M)
  /\ (forall k p, threads M !! k = Some p -> okpc (trace M) (shared M) p) /\ apart (threads M).
Notation exec := (exec decode).
Notation run := (run decode).
Lemma held_lt tr σ p i : okpc tr σ p -> held p = Some i -> i < next_id σ /\ entries σ !! i = None.
Proof. destruct p; cbn; try done; intros H [= <-]; tauto. Qed.
Lemma insert_some {A} (l : list A) k a j b : <[k := a]> l !! j = Some b -> (j = k /\ b = a) \/ (j <> k /\ l !! j = Some b).
Proof.
  destruct (decide (k = j)) as [->|?].
  - intros H. left. split; [done|]. assert (j < length l)%nat by (rewrite <- (insert_length l j a); by eapply lookup_lt_Some).
    rewrite list_lookup_insert in H by done. congruence.
  - rewrite list_lookup_insert_ne by done. auto.
Qed.
Lemma snoc_some {A} (l : list A) a j b : (l ++ [a]) !! j = Some b -> l !! j = Some b \/ (j = length l /\ b = a).
Proof.
  intros H. apply lookup_app_Some in H as [H|[L H]]; [auto|]. apply list_lookup_singleton_Some in H as [H ->]. right. split; [lia|done].
Qed.
Lemma inv_exec M a : inv M -> inv (exec M a).
Proof.
  intros (C & Nx & P & D). destruct a as [c|k x|]; unfold MediaModel.exec.
  - split_and!; cbn; auto.
    + eapply okcache_mono; eauto using grows_refl.
    + intros k p H. apply snoc_some in H as [H|[-> ->]].
      * eapply okpc_mono; eauto using grows_refl.
      * destruct c; cbn; auto. apply in_snoc.
    + intros j k p q i Hj Hk Ej Ek. apply snoc_some in Hj as [Hj|[-> ->]]; [|by destruct c].
      apply snoc_some in Hk as [Hk|[-> ->]]; [|by destruct c]. by eapply D.
  - destruct (threads M !! k) as [p|] eqn:Ek; [|by split_and!].
    destruct (step_pc p x (shared M)) as [σ' [p' ev]] eqn:Es.
    pose proof (step_ok (trace M) _ _ _ _ _ _ Es C Nx (P _ _ Ek)) as (G & Hn & C' & N' & P' & Hp).
    split_and!; cbn; auto.
    + intros j q H. apply insert_some in H as [[-> ->]|[Hne H]]; [done|]. eapply okpc_mono; [exact G| |by eapply P].
      intros i Hq. apply Hn. intros Hpi. apply Hne. by eapply (D j k).
    + intros j l q r i Hj Hl Eq Er. apply insert_some in Hj as [[-> ->]|[Hj1 Hj]]; apply insert_some in Hl as [[-> ->]|[Hl1 Hl]]; auto.
      * apply Hp in Eq as (_ & -> & _). destruct (held_lt _ _ _ _ (P _ _ Hl) Er). lia.
      * apply Hp in Er as (_ & -> & _). destruct (held_lt _ _ _ _ (P _ _ Hj) Eq). lia.
      * by eapply D.
  - assert (G : grows (shared M) (set_completed false (shared M))) by (split_and!; cbn; auto; lia). split_and!; cbn; auto.
    + eapply okcache_mono; eauto.
    + intros k p H. eapply okpc_mono; eauto.
Qed.
Lemma run_snoc acts a : run (acts ++ [a]) = exec (run acts) a.
Proof. unfold MediaModel.run. rewrite foldl_app. done. Qed.
Lemma run_inv (I : machine -> Prop) acts :
  I (mk_machine new_store [] []) -> (forall M a, inv M -> I M -> I (exec M a)) -> inv (run acts) /\ I (run acts).
Proof.
  intros H0 H. induction acts as [|a acts IH] using rev_ind.
  - split; [|done]. split_and!; cbn; try done.
    split; [done|]. intros i e. cbn. rewrite !lookup_insert_Some, lookup_empty. unfold DEFAULT_SVG_ID, FIRST_FREE_IMAGE_ID. intros [[<- _]|[_ [[<- _]|[_ [=]]]]]; done.
  - rewrite run_snoc. destruct IH as [IH1 IH2]. split; [by apply inv_exec|by apply H].
Qed.
(** ** Answers *)
Lemma cache_kept p x σ σ' p' ev s i :
  step_pc p x σ = (σ', (p', ev)) -> cache σ !! s = Some i -> (forall j, p <> DtCache s j) -> cache σ' !! s = Some i.
Proof.
  intros E Hs Hp. assert (forall t j, cache (or_insert t j σ) !! s = Some i) as Ho.
  { intros t j. unfold or_insert. destruct (cache σ !! t) eqn:Et; [done|]. cbn. rewrite lookup_insert_ne; [done|congruence]. }
  destruct p; cbn in E; repeat (case_match || case_decide); unfold finish in *; repeat case_match; simplify_eq; cbn; auto.
  rewrite lookup_insert_ne; [done|]. intros ->. by eapply Hp.
Qed.
Definition stable (M : machine) : Prop := forall s i,
  Ready s i ∈ trace M -> Asked (Data s) ∈ trace M \/ cache (shared M) !! s = Some i.
Lemma stable_exec M a : inv M -> stable M -> stable (exec M a).
Proof.
  intros (C & Nx & P & D) S s i. destruct a as [c|k x|]; unfold MediaModel.exec.
  - cbn. rewrite !elem_of_app, !elem_of_list_singleton. intros [H|[=]]. destruct (S _ _ H); auto.
  - destruct (threads M !! k) as [p|] eqn:Ek; [|by apply S].
    destruct (step_pc p x (shared M)) as [σ' [p' ev]] eqn:Es. cbn. rewrite !elem_of_app. intros [H|H].
    + destruct (S _ _ H) as [?|Hc]; [auto|]. specialize (P _ _ Ek).
      assert (Hd : (exists j, p = DtCache s j) \/ forall j, p <> DtCache s j).
      { destruct p as [| | | | | | | | | | | | | | |d j|]; try (right; intros; done). destruct (decide (d = s)) as [->|?]; [eauto|right; congruence]. }
      destruct Hd as [[j ->]|Hd]; [cbn in P; tauto|]. right. by eapply cache_kept.
    + destruct ev as [e|]; cbn in H; [|by apply elem_of_nil in H]. apply elem_of_list_singleton in H as <-. right.
      destruct p; cbn in Es; repeat (case_match || case_decide); unfold finish in *; repeat case_match; simplify_eq; done.
  - cbn. rewrite !elem_of_app, !elem_of_list_singleton. intros [H|[=]]. destruct (S _ _ H); auto.
Qed.
Definition answered (M : machine) : Prop := forall s i,
  Ready s i ∈ trace M -> good_answer (trace M) (shared M) s i.
Lemma answered_exec M a : inv M -> answered M -> answered (exec M a).
Proof.
  intros (C & Nx & P & D) S s i. destruct a as [c|k x|]; unfold MediaModel.exec.
  - cbn. rewrite !elem_of_app, !elem_of_list_singleton. intros [H|[=]]. eapply answer_mono; eauto using grows_refl.
  - destruct (threads M !! k) as [p|] eqn:Ek; [|by apply S].
    destruct (step_pc p x (shared M)) as [σ' [p' ev]] eqn:Es. cbn. rewrite !elem_of_app.
    pose proof (step_ok (trace M) _ _ _ _ _ _ Es C Nx (P _ _ Ek)) as (G & _). intros [H|H].
    + eapply answer_mono; eauto.
    + eapply answer_mono; [done|]. apply C. destruct ev as [e|]; cbn in H; [|by apply elem_of_nil in H]. apply elem_of_list_singleton in H as <-.
      destruct p; cbn in Es; repeat (case_match || case_decide); unfold finish in *; repeat case_match; simplify_eq; done.
  - cbn. rewrite !elem_of_app, !elem_of_list_singleton. intros [H|[=]].
    eapply answer_mono; [|by apply S]. split_and!; cbn; auto; lia.
Qed.
Lemma run_stable acts : stable (run acts).
Proof. apply (run_inv stable); [intros s i H; by apply elem_of_nil in H|apply stable_exec]. Qed.
Lemma run_answered acts : answered (run acts).
Proof. apply (run_inv answered); [intros s i H; by apply elem_of_nil in H|apply answered_exec]. Qed.

(** ** Loads in the background *)
Definition owner (p : pc) : option key :=
  match p with
  | RqSpawn s | RqUndo s | WkClear s => Some s
  | LdCheck w s | LdFetch w s | LdFail w s | LdAlloc w s _ | LdStore w s _ _ | LdCache w s _ => if w then Some s else None
  | _ => None
  end.
Definition raising (p : pc) : option key := match p with RqUndo _ => None | WkFlag s => Some s | _ => owner p end.
Definition owned (M : machine) : Prop :=
  (forall s, s ∈ pending (shared M) <-> exists k p, threads M !! k = Some p /\ owner p = Some s)
  /\ (forall j k p q s, threads M !! j = Some p -> threads M !! k = Some q -> owner p = Some s -> owner q = Some s -> j = k).
Lemma owner_step p x σ σ' p' ev :
  step_pc p x σ = (σ', (p', ev)) ->
  (owner p' = owner p /\ pending σ' = pending σ)
  \/ (exists s, owner p = None /\ owner p' = Some s /\ s ∉ pending σ /\ pending σ' = {[s]} ∪ pending σ)
  \/ (exists s, owner p = Some s /\ owner p' = None /\ pending σ' = pending σ ∖ {[s]}).
Proof.
  intros E. destruct p; cbn in E; repeat (case_match || case_decide); unfold finish in *; repeat case_match; simplify_eq; cbn;
    rewrite ?or_insert_pending; eauto; try (left; split; [congruence|done]); right; eauto 10.
Qed.
Lemma owned_exec M a : inv M -> owned M -> owned (exec M a).
Proof.
  intros _ (O1 & O2). destruct a as [c|k x|]; unfold MediaModel.exec.
  - split; cbn.
    + intros s. rewrite O1. split; intros (k & p & H & K).
      * exists k, p. split; [by apply lookup_app_l_Some|done].
      * apply snoc_some in H as [H|[-> ->]]; [eauto|by destruct c].
    + intros j k p q s Hj Hk Ej Ek. apply snoc_some in Hj as [Hj|[-> ->]]; [|by destruct c].
      apply snoc_some in Hk as [Hk|[-> ->]]; [|by destruct c]. by eapply O2.
  - destruct (threads M !! k) as [p|] eqn:Ek; [|by split].
    destruct (step_pc p x (shared M)) as [σ' [p' ev]] eqn:Es.
    assert (Lk : <[k := p']> (threads M) !! k = Some p') by (apply list_lookup_insert; by eapply lookup_lt_Some).
    apply owner_step in Es as [[Eo Ep]|[(t & Eo & Eo' & Hn & Ep)|(t & Eo & Eo' & Ep)]]; split; cbn.
    + intros s. rewrite Ep, O1. split; intros (j & q & H & K).
      * destruct (decide (j = k)) as [->|?]; [exists k, p'; split; [done|congruence]|exists j, q; by rewrite list_lookup_insert_ne].
      * apply insert_some in H as [[-> ->]|[Hj H]]; [exists k, p; split; [done|congruence]|eauto].
    + intros j l q r s Hj Hl Eq Er. apply insert_some in Hj as [[-> ->]|[Hj1 Hj]]; apply insert_some in Hl as [[-> ->]|[Hl1 Hl]]; auto.
      * eapply (O2 k l); eauto; congruence. * eapply (O2 j k); eauto; congruence. * by eapply O2.
    + intros s. rewrite Ep, elem_of_union, elem_of_singleton, O1. split.
      * intros [->|(j & q & H & K)]; [eauto|]. exists j, q. rewrite list_lookup_insert_ne; [done|congruence].
      * intros (j & q & H & K). apply insert_some in H as [[-> ->]|[Hj H]]; [left; congruence|right; eauto].
    + intros j l q r s Hj Hl Eq Er. apply insert_some in Hj as [[-> ->]|[Hj1 Hj]]; apply insert_some in Hl as [[-> ->]|[Hl1 Hl]]; auto.
      * exfalso. apply Hn, O1. exists l, r. split; [done|congruence]. * exfalso. apply Hn, O1. exists j, q. split; [done|congruence]. * by eapply O2.
    + intros s. rewrite Ep, elem_of_difference, elem_of_singleton, O1. split.
      * intros [(j & q & H & K) Hs]. exists j, q. rewrite list_lookup_insert_ne; [done|congruence].
      * intros (j & q & H & K). apply insert_some in H as [[-> ->]|[Hj H]]; [congruence|]. split; [eauto|]. intros ->. apply Hj. by eapply O2.
    + intros j l q r s Hj Hl Eq Er. apply insert_some in Hj as [[-> ->]|[Hj1 Hj]]; apply insert_some in Hl as [[-> ->]|[Hl1 Hl]]; auto; try congruence. by eapply O2.
  - by split.
Qed.
Lemma raising_step p x σ σ' p' ev s :
  step_pc p x σ = (σ', (p', ev)) -> raising p = Some s ->
  raising p' = Some s \/ ev = Some (Raised s) \/ ev = Some (SpawnFailed s).
Proof.
  intros E H. destruct p; cbn in E, H; repeat (case_match || case_decide); unfold finish in *; repeat case_match; simplify_eq; cbn; auto.
Qed.
Lemma snoc_split {A} (l : list A) e t1 a t2 :
  l ++ [e] = t1 ++ a :: t2 -> (t2 = [] /\ a = e /\ t1 = l) \/ (exists t3, t2 = t3 ++ [e] /\ l = t1 ++ a :: t3).
Proof.
  destruct t2 as [|b t2 _] using rev_ind.
  - intros H. apply app_inj_tail in H as [-> ->]. auto.
  - intros H. right. exists t2. rewrite app_comm_cons, app_assoc in H. apply app_inj_tail in H as [-> ->]. done.
Qed.
Definition promised (M : machine) : Prop := forall s t1 t2, trace M = t1 ++ Pending s :: t2 ->
  (exists k p, threads M !! k = Some p /\ raising p = Some s) \/ SpawnFailed s ∈ trace M \/ Raised s ∈ t2.
Lemma promised_exec M a : inv M /\ owned M -> promised M -> promised (exec M a).
Proof.
  intros [(C & Nx & P & D) (O1 & O2)] S s t1 t2. destruct a as [c|k x|]; unfold MediaModel.exec.
  - cbn. intros H. apply snoc_split in H as [(_ & [=] & _)|(t3 & -> & H)]. rewrite !elem_of_app. destruct (S _ _ _ H) as [(k & p & K & R)|[K|K]]; auto.
    left. exists k, p. split; [by apply lookup_app_l_Some|done].
  - destruct (threads M !! k) as [p|] eqn:Ek; [|by apply S].
    destruct (step_pc p x (shared M)) as [σ' [p' ev]] eqn:Es.
    assert (Lk : <[k := p']> (threads M) !! k = Some p') by (apply list_lookup_insert; by eapply lookup_lt_Some).
    assert (Old : forall t3, trace M = t1 ++ Pending s :: t3 -> (exists k0 p0, <[k:=p']> (threads M) !! k0 = Some p0 /\ raising p0 = Some s) \/ SpawnFailed s ∈ trace M ++ option_list ev \/ Raised s ∈ t3 ++ option_list ev).
    { intros t3 H. rewrite !elem_of_app. destruct (S _ _ _ H) as [(j & q & K & R)|[K|K]]; auto. destruct (decide (j = k)) as [->|?].
      - rewrite Ek in K. injection K as <-. destruct (raising_step _ _ _ _ _ _ _ Es R) as [?|[->| ->]]; [eauto|right; right; right|right; left; right]; by apply elem_of_list_singleton.
      - left. exists j, q. by rewrite list_lookup_insert_ne. }
    destruct ev as [e|]; cbn; [|rewrite app_nil_r; intros H; specialize (Old _ H); cbn in Old; by rewrite !app_nil_r in Old].
    intros H. apply snoc_split in H as [(-> & <- & ->)|(t3 & -> & H)]; [|by apply Old].
    assert (p = RqInsert s) as ->.
    { destruct p; cbn in Es; repeat (case_match || case_decide); unfold finish in *; repeat case_match; simplify_eq; done. }
    cbn in Es. case_decide as Hd; simplify_eq; [|left; by eauto].
    apply O1 in Hd as (j & q & K & R). assert (j <> k) as Hj by (intros ->; rewrite Ek in K; by simplify_eq).
    assert (q = RqUndo s \/ raising q = Some s) as [->|Hq] by (destruct q; cbn in *; simplify_eq; auto).
    + right. left. apply elem_of_app. left. by apply (P _ _ K).
    + left. exists j, q. by rewrite list_lookup_insert_ne.
  - cbn. intros H. apply snoc_split in H as [(_ & [=] & _)|(t3 & -> & H)]. rewrite !elem_of_app. destruct (S _ _ _ H) as [(k & p & K & R)|[K|K]]; eauto.
Qed.
Definition flagged (M : machine) : Prop :=
  (forall s t1 t2, trace M = t1 ++ Raised s :: t2 -> completed (shared M) = true \/ Took true ∈ t2)
  /\ forall s, Raised s ∈ trace M -> is_Some (cache (shared M) !! s).
Lemma flag_step p x σ σ' p' ev :
  step_pc p x σ = (σ', (p', ev)) -> completed σ' = completed σ \/ completed σ' = true.
Proof.
  intros E. destruct p; cbn in E; repeat (case_match || case_decide); unfold finish in *; repeat case_match; simplify_eq; cbn; rewrite ?or_insert_completed; auto.
Qed.
Lemma flagged_exec M a : inv M -> flagged M -> flagged (exec M a).
Proof.
  intros (C & Nx & P & D) [S1 S2]. destruct a as [c|k x|]; unfold MediaModel.exec.
  - split; cbn.
    + intros s t1 t2 H. apply snoc_split in H as [(_ & [=] & _)|(t3 & -> & H)]. rewrite elem_of_app. destruct (S1 _ _ _ H); auto.
    + intros s. rewrite elem_of_app, elem_of_list_singleton. intros [H|[=]]. auto.
  - destruct (threads M !! k) as [p|] eqn:Ek; [|by split].
    destruct (step_pc p x (shared M)) as [σ' [p' ev]] eqn:Es.
    pose proof (step_ok (trace M) _ _ _ _ _ _ Es C Nx (P _ _ Ek)) as ((_ & G & _) & _).
    assert (Hr : forall s, ev = Some (Raised s) -> p = WkFlag s).
    { intros s ->. destruct p; cbn in Es; repeat (case_match || case_decide); unfold finish in *; repeat case_match; simplify_eq; done. }
    split; cbn.
    + intros s t1 t2 H. pose proof (flag_step _ _ _ _ _ _ Es) as F. destruct ev as [e|]; cbn in H.
      * apply snoc_split in H as [(-> & <- & ->)|(t3 & -> & H)].
        -- rewrite (Hr s eq_refl) in Es. cbn in Es. simplify_eq. auto.
        -- rewrite elem_of_app. destruct (S1 _ _ _ H); [left; destruct F; congruence|auto].
      * rewrite app_nil_r in H. destruct (S1 _ _ _ H); [left; destruct F; congruence|auto].
    + intros s. rewrite elem_of_app. intros [H|H]; [auto|]. destruct ev as [e|]; cbn in H; [|by apply elem_of_nil in H].
      apply elem_of_list_singleton in H as <-. pose proof (P _ _ Ek) as Hp. rewrite (Hr s eq_refl) in Hp. by apply G.
  - split; cbn.
    + intros s t1 t2 H. apply snoc_split in H as [(_ & [=] & _)|(t3 & -> & H)]. right. rewrite elem_of_app, elem_of_list_singleton. destruct (S1 _ _ _ H) as [->|?]; auto.
    + intros s. rewrite elem_of_app, elem_of_list_singleton. intros [H|[=]]. auto.
Qed.
Lemma run_owned acts : owned (run acts).
Proof.
  apply (run_inv owned); [|apply owned_exec]. split; [|intros; done]. intros s. cbn. split; [intros H; by apply elem_of_empty in H|].
  intros (k & p & [=] & _).
Qed.
Lemma run_promised acts : promised (run acts).
Proof.
  apply (run_inv (fun M => owned M /\ promised M)).
  - split; [apply (run_owned [])|]. intros s t1 t2 H. cbn in H. by destruct t1.
  - intros M a H [K1 K2]. split; [by apply owned_exec|by apply promised_exec].
Qed.
Lemma run_flagged acts : flagged (run acts).
Proof.
  apply (run_inv flagged); [|apply flagged_exec]. split.
  - intros s t1 t2 H. cbn in H. by destruct t1.
  - intros s H. cbn in H. by apply elem_of_nil in H.
Qed.

(** ** Requests load once *)
Definition direct (p : pc) (s : key) : Prop :=
  match p with
  | LdCheck w t | LdFetch w t | LdFail w t | LdAlloc w t _ | LdStore w t _ _ | LdCache w t _ => w = false /\ t = s
  | _ => False
  end.
Definition past (p : pc) : option key :=
  match p with LdFail w s | LdAlloc w s _ | LdStore w s _ _ | LdCache w s _ => if w then Some s else None | _ => None end.
Definition once (M : machine) : Prop := forall s, Asked (Load s) ∈ trace M \/
  ((forall k p, threads M !! k = Some p -> ~ direct p s)
   /\ (forall r, Fetched s r ∈ trace M -> is_Some (cache (shared M) !! s) \/ exists k p, threads M !! k = Some p /\ past p = Some s)
   /\ (forall k r, threads M !! k = Some (LdFetch true s) -> Fetched s r ∉ trace M)
   /\ forall r1 r2, ~ later (trace M) (Fetched s r1) (Fetched s r2)).
Lemma past_owner p s : past p = Some s -> owner p = Some s.
Proof. by destruct p. Qed.
Lemma later_snoc tr e a b : later (tr ++ [e]) a b -> later tr a b \/ (b = e /\ a ∈ tr).
Proof.
  intros (t1 & t2 & H & K). apply snoc_split in H as [(-> & _ & _)|(t3 & -> & H)]; [by apply elem_of_nil in K|].
  apply elem_of_app in K as [K|K]; [left; exists t1, t3; auto|]. apply elem_of_list_singleton in K as ->. right. split; [done|].
  rewrite H, elem_of_app, elem_of_cons. auto.
Qed.
Lemma fetched_step p x σ σ' p' s r :
  step_pc p x σ = (σ', (p', Some (Fetched s r))) -> exists w, p = LdFetch w s /\ σ' = σ /\ (w = true -> past p' = Some s).
Proof.
  intros E. destruct p; cbn in E; repeat (case_match || case_decide); unfold finish in *; repeat case_match; simplify_eq; try done.
  all: eexists; split_and!; [done|done|by intros ->].
Qed.
Lemma direct_step p x σ σ' p' ev s : step_pc p x σ = (σ', (p', ev)) -> direct p' s -> direct p s.
Proof.
  intros E. destruct p; cbn in E; repeat (case_match || case_decide); unfold finish in *; repeat case_match; simplify_eq; cbn; auto; naive_solver.
Qed.
Lemma past_step p x σ σ' p' ev s :
  step_pc p x σ = (σ', (p', ev)) -> past p = Some s -> past p' = Some s \/ is_Some (cache σ' !! s).
Proof.
  intros E H. destruct p; cbn in E, H; try done; repeat (case_match || case_decide); unfold finish in *; repeat case_match; simplify_eq; cbn; auto using or_insert_some.
Qed.
Lemma fetch_step p x σ σ' ev s :
  step_pc p x σ = (σ', (LdFetch true s, ev)) -> p = LdCheck true s /\ cache σ !! s = None /\ ev = None.
Proof.
  intros E. destruct p; cbn in E; repeat (case_match || case_decide); unfold finish in *; repeat case_match; simplify_eq; done.
Qed.
Lemma once_exec M a : inv M /\ owned M -> once M -> once (exec M a).
Proof.
  intros [(C & Nx & P & D) (O1 & O2)] S s. destruct (S s) as [Ha|(A & B & Cc & Dd)].
  { left. unfold MediaModel.exec. destruct a as [c|k x|]; [cbn; apply elem_of_app; auto| |cbn; apply elem_of_app; auto].
    destruct (threads M !! k); [|done]. destruct (step_pc _ _ _) as [σ' [p' ev]]. cbn. apply elem_of_app; auto. }
  destruct a as [c|k x|]; unfold MediaModel.exec.
  - assert (c = Load s \/ ~ direct (start c) s) as [->|Hc].
    { destruct c as [?|t|?]; cbn; auto. destruct (decide (t = s)) as [->|?]; [auto|]. right. by intros [_ ?]. }
    { left. cbn. apply in_snoc. }
    right. split_and!; cbn.
    + intros k p H. apply snoc_some in H as [H|[-> ->]]; [by eapply A|done].
    + intros r. rewrite elem_of_app, elem_of_list_singleton. intros [H|[=]]. destruct (B _ H) as [?|(k & p & K & R)]; [auto|].
      right. exists k, p. split; [by apply lookup_app_l_Some|done].
    + intros k r H. rewrite elem_of_app, elem_of_list_singleton. intros [K|[=]]. apply snoc_some in H as [H|[_ H]]; [by eapply Cc|by destruct c].
    + intros r1 r2 H. apply later_snoc in H as [H|[[=] _]]. by eapply Dd.
  - destruct (threads M !! k) as [p|] eqn:Ek; [|by right].
    destruct (step_pc p x (shared M)) as [σ' [p' ev]] eqn:Es.
    pose proof (step_ok (trace M) _ _ _ _ _ _ Es C Nx (P _ _ Ek)) as ((_ & G & _) & _).
    assert (Lk : <[k := p']> (threads M) !! k = Some p') by (apply list_lookup_insert; by eapply lookup_lt_Some).
    assert (He : forall r, ev = Some (Fetched s r) -> p = LdFetch true s /\ past p' = Some s).
    { intros r ->. destruct (fetched_step _ _ _ _ _ _ _ Es) as (w & -> & _ & Hw). destruct w; [auto|]. destruct (A _ _ Ek). cbn. auto. }
    right. split_and!; cbn.
    + intros j q H. apply insert_some in H as [[-> ->]|[_ H]]; [|by eapply A]. intros K. eapply A; [exact Ek|]. by eapply direct_step.
    + intros r. rewrite elem_of_app. intros [H|H].
      * destruct (B _ H) as [?|(j & q & K & R)]; [auto|]. destruct (decide (j = k)) as [->|?].
        -- rewrite Ek in K. injection K as <-. destruct (past_step _ _ _ _ _ _ _ Es R); eauto.
        -- right. exists j, q. by rewrite list_lookup_insert_ne.
      * right. exists k, p'. split; [done|]. destruct ev as [e|]; cbn in H; [|by apply elem_of_nil in H]. apply elem_of_list_singleton in H as <-. by apply (He r).
    + intros j r H. rewrite elem_of_app. apply insert_some in H as [[-> <-]|[Hj H]].
      * apply fetch_step in Es as (-> & Ec & ->). intros [K|K]; [|by apply elem_of_nil in K].
        destruct (B _ K) as [[? ?]|(j & q & L & R)]; [congruence|]. assert (j = k) as -> by (eapply (O2 j k); eauto using past_owner).
        rewrite Ek in L. by simplify_eq.
      * intros [K|K]; [by eapply Cc|]. destruct ev as [e|]; cbn in K; [|by apply elem_of_nil in K]. apply elem_of_list_singleton in K as <-.
        destruct (He r eq_refl) as [-> _]. apply Hj. by eapply (O2 j k).
    + intros r1 r2. destruct ev as [e|]; cbn; [|rewrite app_nil_r; apply Dd]. intros H. apply later_snoc in H as [H|[<- H]]; [by eapply Dd|].
      destruct (He r2 eq_refl) as [-> _]. by eapply Cc.
  - right. split_and!; cbn; auto.
    + intros r. rewrite elem_of_app, elem_of_list_singleton. intros [H|[=]]. eauto.
    + intros k r H. rewrite elem_of_app, elem_of_list_singleton. intros [K|[=]]. by eapply Cc.
    + intros r1 r2 H. apply later_snoc in H as [H|[[=] _]]. by eapply Dd.
Qed.
Lemma run_once acts : once (run acts).
Proof.
  apply (run_inv (fun M => owned M /\ once M)).
  - split; [apply (run_owned [])|]. intros s. right. split_and!; cbn; try done.
    + intros r H. by apply elem_of_nil in H.
    + intros r1 r2 (t1 & t2 & H & _). by destruct t1.
  - intros M a H [K1 K2]. split; [by apply owned_exec|by apply once_exec].
Qed.
End step.

(** ** Every call ends *)
Definition rank (p : pc) : nat :=
  match p with
  | RqCheck _ => 10 | RqInsert _ => 9 | RqSpawn _ => 8 | RqUndo _ => 1
  | LdCheck _ _ => 7 | LdFetch _ _ => 6 | LdAlloc _ _ _ => 5 | LdStore _ _ _ _ => 4 | LdFail _ _ | LdCache _ _ _ => 3
  | WkClear _ => 2 | WkFlag _ => 1
  | DtCheck _ => 4 | DtAlloc _ _ => 3 | DtStore _ _ _ => 2 | DtCache _ _ => 1
  | Done => 0
  end%nat.
Lemma rank_step decode p x σ σ' p' ev :
  step_pc decode p x σ = (σ', (p', ev)) -> (rank p' <= pred (rank p))%nat.
Proof.
  intros E. destruct p; cbn in E; repeat (case_match || case_decide); unfold finish in *; repeat case_match; simplify_eq; cbn; lia.
Qed.
Fixpoint runs (decode : key -> option N) (k : nat) (xs : list wish) (M : machine) : machine :=
  match xs with [] => M | x :: xs => runs decode k xs (exec decode M (Run k x)) end.
Lemma runs_done decode k xs M p :
  threads M !! k = Some p -> (rank p <= length xs)%nat -> threads (runs decode k xs M) !! k = Some Done.
Proof.
  revert M p. induction xs as [|x xs IH]; intros M p H L; cbn in *; [destruct p; cbn in L; try lia; done|].
  rewrite H. destruct (step_pc decode p x (shared M)) as [σ' [p' ev]] eqn:Es. apply (IH _ p').
  - cbn. apply list_lookup_insert. by eapply lookup_lt_Some.
  - apply rank_step in Es. lia.
Qed.
Lemma runs_foldl decode k xs M : runs decode k xs M = foldl (exec decode) M (Run k <$> xs).
Proof. revert M. induction xs as [|x xs IH]; intros M; [done|]. cbn. by rewrite IH. Qed.
