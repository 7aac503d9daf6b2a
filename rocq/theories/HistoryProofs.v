(** Proofs for the session history. *)
From Verif Require Import Base HistoryModel HistorySpec.

Record Inv (log : list entry_id) (h : history) : Prop := {
  inv_par : forall i p, parent_of h i = Some p -> p < i;
  inv_chi : forall p e, h_entries h !! p = Some e -> e_children e = opened_from h p;
  inv_cur : match h_current h with None => h_entries h = [] | Some c => c < length (h_entries h) end;
  inv_pref : forall p e, h_entries h !! p = Some e -> e_preferred e = last_chosen_child h log p;
  inv_log : Forall (fun i => i < length (h_entries h)) log;
  inv_all : forall i, i < length (h_entries h) -> i ∈ log;
}.

Lemma parent_of_lt h i p : parent_of h i = Some p -> i < length (h_entries h).
Proof.
  unfold parent_of. destruct (_ !! _) eqn:E; [|done].
  intros _. by eapply lookup_lt_Some.
Qed.

(** same shape: lengths and parents agree *)
Definition same_par (h h' : history) : Prop :=
  length (h_entries h') = length (h_entries h) /\ forall i, parent_of h' i = parent_of h i.

Lemma same_par_opened h h' p : same_par h h' -> opened_from h' p = opened_from h p.
Proof.
  intros [Hl Hp]. unfold opened_from. rewrite Hl.
  apply list_filter_iff. intros i. by rewrite Hp.
Qed.
Lemma same_par_chosen h h' log p : same_par h h' -> last_chosen_child h' log p = last_chosen_child h log p.
Proof.
  intros [Hl Hp]. unfold last_chosen_child. f_equal.
  apply list_filter_iff. intros i. by rewrite Hp.
Qed.

(** an in-place update that keeps the parent *)
Lemma insert_same_par h i e e' cur :
  h_entries h !! i = Some e -> e_parent e' = e_parent e ->
  same_par h (mk_history (<[i := e']> (h_entries h)) cur).
Proof.
  intros Hi Hp. split; simpl; [by rewrite insert_length|].
  intros j. unfold parent_of; simpl.
  destruct (decide (i = j)) as [->|Hne].
  - rewrite list_lookup_insert by (by eapply lookup_lt_Some). by rewrite Hi.
  - by rewrite list_lookup_insert_ne.
Qed.

(** update of an entry that changes neither parent, children nor preferred *)
Lemma inv_field_update log h i e e' :
  Inv log h -> h_entries h !! i = Some e ->
  e_parent e' = e_parent e -> e_children e' = e_children e -> e_preferred e' = e_preferred e ->
  Inv log (mk_history (<[i := e']> (h_entries h)) (h_current h)).
Proof.
  intros [Hpar Hchi Hcur Hpref Hlog Hall] Hi H1 H2 H3.
  pose proof (insert_same_par h i e e' (h_current h) Hi H1) as Hs.
  assert (Hlk : forall p x, <[i := e']> (h_entries h) !! p = Some x ->
     exists y, h_entries h !! p = Some y /\ e_children x = e_children y /\ e_preferred x = e_preferred y).
  { intros p x. destruct (decide (i = p)) as [->|Hne].
    - rewrite list_lookup_insert by (by eapply lookup_lt_Some). intros [= <-]. eauto.
    - rewrite list_lookup_insert_ne by done. eauto. }
  split; simpl.
  - intros j p Hj. rewrite (proj2 Hs) in Hj. eauto.
  - intros p x Hx. destruct (Hlk _ _ Hx) as (y & Hy & -> & _).
    rewrite (same_par_opened h) by done. eauto.
  - destruct (h_current h); [by rewrite insert_length|]. rewrite Hcur in Hi. done.
  - intros p x Hx. destruct (Hlk _ _ Hx) as (y & Hy & _ & ->).
    rewrite (same_par_chosen h) by done. eauto.
  - by rewrite insert_length.
  - by rewrite insert_length.
Qed.

(** choosing child [id] of [p]: preferred of [p] becomes [id], current becomes [id] *)
Lemma inv_choose log h p id e :
  Inv log h -> h_entries h !! p = Some e -> parent_of h id = Some p ->
  Inv (log ++ [id]) (mk_history (<[p := with_preferred e (Some id)]> (h_entries h)) (Some id)).
Proof.
  intros [Hpar Hchi Hcur Hpref Hlog Hall] Hi Hid.
  pose proof (insert_same_par h p e (with_preferred e (Some id)) (Some id) Hi eq_refl) as Hs.
  pose proof (parent_of_lt _ _ _ Hid) as Hlt.
  assert (Hchosen : forall q, last_chosen_child h (log ++ [id]) q =
      if decide (q = p) then Some id else last_chosen_child h log q).
  { intros q. unfold last_chosen_child. rewrite filter_app.
    rewrite filter_cons, filter_nil. rewrite Hid.
    case_decide as H; [|rewrite app_nil_r; case_decide; [congruence|done]].
    injection H as ->. rewrite decide_True by done. by rewrite last_snoc. }
  split; simpl.
  - intros j q Hj. rewrite (proj2 Hs) in Hj. eauto.
  - intros q x. rewrite (same_par_opened h) by done.
    destruct (decide (p = q)) as [->|Hne].
    + rewrite list_lookup_insert by (by eapply lookup_lt_Some). intros [= <-]. simpl. eauto.
    + rewrite list_lookup_insert_ne by done. eauto.
  - by rewrite insert_length.
  - intros q x. rewrite (same_par_chosen h), Hchosen by done.
    destruct (decide (p = q)) as [->|Hne].
    + rewrite list_lookup_insert by (by eapply lookup_lt_Some). intros [= <-]. by rewrite decide_True.
    + rewrite list_lookup_insert_ne by done. rewrite decide_False by done. eauto.
  - rewrite insert_length. apply Forall_app; split; [done|]. by constructor.
  - rewrite insert_length. intros i Hi'. apply elem_of_app. auto.
Qed.

(** moving to another existing entry without choosing *)
Lemma inv_move log h c :
  Inv log h -> c < length (h_entries h) -> Inv log (mk_history (h_entries h) (Some c)).
Proof. intros [Hpar Hchi Hcur Hpref Hlog Hall] Hc. split; simpl; auto. Qed.

(** jumping to a root *)
Lemma inv_jump_root log h c :
  Inv log h -> c < length (h_entries h) -> parent_of h c = None ->
  Inv (log ++ [c]) (mk_history (h_entries h) (Some c)).
Proof.
  intros [Hpar Hchi Hcur Hpref Hlog Hall] Hc Hn. split; simpl; auto.
  - intros p e He. rewrite (Hpref _ _ He). unfold last_chosen_child.
    rewrite filter_app, filter_cons, filter_nil.
    change (parent_of (mk_history (h_entries h) (Some c))) with (parent_of h).
    rewrite Hn, decide_False, app_nil_r by done. done.
  - apply Forall_app; split; [done|]. by constructor.
  - intros i Hi. apply elem_of_app. auto.
Qed.

(** * push *)
Lemma parent_of_snoc es c e i :
  parent_of (mk_history (es ++ [e]) c) i =
    if decide (i = length es) then e_parent e else parent_of (mk_history es c) i.
Proof.
  unfold parent_of; simpl. case_decide as H.
  - subst. rewrite lookup_app_r by done. by rewrite Nat.sub_diag.
  - destruct (decide (i < length es)).
    + by rewrite lookup_app_l.
    + rewrite lookup_app_r by lia. rewrite (lookup_ge_None_2 es) by lia.
      rewrite lookup_ge_None_2; [done|]. simpl. lia.
Qed.

Lemma parent_of_cur es c c' i : parent_of (mk_history es c) i = parent_of (mk_history es c') i.
Proof. done. Qed.

Lemma opened_from_snoc es c e p :
  opened_from (mk_history (es ++ [e]) c) p =
    opened_from (mk_history es c) p ++ (if decide (e_parent e = Some p) then [length es] else []).
Proof.
  unfold opened_from; simpl. rewrite app_length; simpl. rewrite Nat.add_1_r, seq_S; simpl.
  rewrite filter_app, filter_cons, filter_nil. rewrite parent_of_snoc, (decide_True (P := length es = length es)) by done.
  f_equal. apply filter_ext_iff. intros x Hx%elem_of_seq. rewrite parent_of_snoc. rewrite decide_False by lia. done.
Qed.

Lemma chosen_snoc es c e log p :
  Forall (fun i => i < length es) log ->
  last_chosen_child (mk_history (es ++ [e]) c) (log ++ [length es]) p =
    if decide (e_parent e = Some p) then Some (length es)
    else last_chosen_child (mk_history es c) log p.
Proof.
  intros Hlog. unfold last_chosen_child. rewrite filter_app, filter_cons, filter_nil.
  rewrite parent_of_snoc, (decide_True (P := length es = length es)) by done.
  assert (Hf : filter (λ i, parent_of (mk_history (es ++ [e]) c) i = Some p) log =
               filter (λ i, parent_of (mk_history es c) i = Some p) log).
  { apply filter_ext_iff. intros x Hx. rewrite Forall_forall in Hlog.
    rewrite parent_of_snoc, decide_False; [done|]. specialize (Hlog x Hx). lia. }
  rewrite Hf. case_decide; [by rewrite last_snoc|by rewrite app_nil_r].
Qed.

Definition new_entry (u : str) (t : option str) (c : option entry_id) : entry :=
  mk_entry u t (0%Z, 0%Z) true c [] None.

Lemma push_shape log h u t :
  Inv log h ->
  exists es', push h u t = Ok (mk_history es' (Some (length (h_entries h))), length (h_entries h)) /\
    length es' = S (length (h_entries h)) /\
    es' !! length (h_entries h) = Some (new_entry u t (h_current h)) /\
    (forall i, i < length (h_entries h) -> exists e, h_entries h !! i = Some e /\
       es' !! i = Some (if decide (h_current h = Some i)
                        then with_preferred (with_children e (e_children e ++ [length (h_entries h)])) (Some (length (h_entries h)))
                        else e)) .
Proof.
  intros [Hpar Hchi Hcur Hpref Hlog Hall]. unfold push. fold (new_entry u t (h_current h)).
  destruct (h_current h) as [c|] eqn:Ec.
  - destruct (lookup_lt_is_Some_2 _ _ Hcur) as [ec Hec].
    unfold upd, of_opt. rewrite lookup_app_l, Hec by done. simpl.
    eexists. split; [done|]. split; [|split].
    + rewrite insert_length, app_length; simpl. lia.
    + rewrite list_lookup_insert_ne by lia. rewrite lookup_app_r, Nat.sub_diag by done. done.
    + intros i Hi. destruct (lookup_lt_is_Some_2 _ _ Hi) as [e He]. exists e. split; [done|].
      case_decide as Hd.
      * injection Hd as ->. rewrite list_lookup_insert by (rewrite app_length; lia). congruence.
      * rewrite list_lookup_insert_ne by congruence. by rewrite lookup_app_l.
  - simpl. eexists. split; [done|]. rewrite Hcur. simpl. split; [done|split;[done|]]. intros i Hi. lia.
Qed.

Lemma push_inv log h u t :
  Inv log h ->
  exists h', push h u t = Ok (h', length (h_entries h)) /\ Inv (log ++ [length (h_entries h)]) h'.
Proof.
  intros HI. pose proof HI as [Hpar Hchi Hcur Hpref Hlog Hall].
  destruct (push_shape log h u t HI) as (es' & Hp & Hlen & Hnew & Hold).
  eexists; split; [exact Hp|]. clear Hp.
  set (n := length (h_entries h)) in *.
  set (ne := new_entry u t (h_current h)).
  set (h1 := mk_history (h_entries h ++ [ne]) (Some n)).
  set (h' := mk_history es' (Some n)).
  assert (Hs : same_par h1 h').
  { split; simpl; [rewrite app_length; simpl; subst n; lia|].
    intros i. unfold parent_of at 1; simpl. unfold h1. rewrite parent_of_snoc. fold n.
    case_decide as Hd.
    - subst i. by rewrite Hnew.
    - destruct (decide (i < n)) as [Hlt|Hge].
      + destruct (Hold i Hlt) as (e & He & ->).
        unfold parent_of; simpl. rewrite He. by destruct (decide _).
      + rewrite lookup_ge_None_2 by lia. unfold parent_of; simpl.
        rewrite lookup_ge_None_2; [done|]. fold n. lia. }
  split.
  - intros i p. rewrite (proj2 Hs). unfold h1. rewrite parent_of_snoc. fold n.
    case_decide as Hd; [|eauto]. subst. simpl. intros Hc. rewrite Hc in Hcur. done.
  - intros p e He. change (es' !! p = Some e) in He. rewrite (same_par_opened h1) by done. unfold h1. rewrite opened_from_snoc. fold n.
    change (opened_from (mk_history (h_entries h) (Some n)) p) with (opened_from h p). simpl.
    assert (Hpn : p < S n) by (rewrite <- Hlen; by eapply lookup_lt_Some).
    destruct (decide (p = n)) as [->|Hne].
    + rewrite Hnew in He. injection He as <-. simpl.
      rewrite decide_False; cycle 1.
      { intros Hc. rewrite Hc in Hcur. lia. }
      rewrite app_nil_r. symmetry. unfold opened_from.
      apply filter_none. intros x Hx%elem_of_seq Hxp. specialize (Hpar _ _ Hxp). fold n in Hx. lia.
    + destruct (Hold p ltac:(lia)) as (e0 & He0 & He'). rewrite He' in He. injection He as <-.
      case_decide; simpl; [by rewrite (Hchi _ _ He0)|]. rewrite app_nil_r. eauto.
  - simpl. rewrite Hlen. lia.
  - intros p e He. change (es' !! p = Some e) in He. rewrite (same_par_chosen h1) by done. unfold h1.
    unfold n at 2. rewrite chosen_snoc by done. fold n.
    change (last_chosen_child (mk_history (h_entries h) (Some n)) log p) with (last_chosen_child h log p).
    assert (Hpn : p < S n) by (rewrite <- Hlen; by eapply lookup_lt_Some).
    simpl. destruct (decide (p = n)) as [->|Hne].
    + rewrite Hnew in He. injection He as <-. simpl.
      rewrite decide_False; cycle 1.
      { intros Hc. rewrite Hc in Hcur. lia. }
      symmetry. unfold last_chosen_child.
      rewrite filter_none; [done|].
      intros x Hx Hxp. rewrite Forall_forall in Hlog.
      specialize (Hpar _ _ Hxp). specialize (Hlog _ Hx). fold n in Hlog. lia.
    + destruct (Hold p ltac:(lia)) as (e0 & He0 & He'). rewrite He' in He. injection He as <-.
      case_decide; simpl; [done|eauto].
  - simpl. rewrite Hlen. apply Forall_app. split.
    + eapply Forall_impl; [exact Hlog|]. simpl. intros x Hx. fold n in Hx. lia.
    + constructor; [lia|done].
  - simpl. rewrite Hlen. intros i Hi. apply elem_of_app.
    destruct (decide (i = n)) as [->|Hne]; [right; by apply elem_of_list_singleton|left; apply Hall; fold n; lia].
Qed.

(** * back *)
Lemma is_navigable_dec h i e : h_entries h !! i = Some e -> is_navigable h i <-> e_navigable e = true.
Proof. intros He. unfold is_navigable. split; [intros (e' & ? & ?); congruence|eauto]. Qed.

Lemma back_loop_spec log h fuel i :
  Inv log h -> i < length (h_entries h) -> i <= fuel ->
  exists r, back_loop fuel (h_entries h) (parent_of h i) = Ok r /\ back_goes_to h i r.
Proof.
  intros HI. revert i. induction fuel as [|fuel IH]; intros i Hi Hf.
  - destruct (parent_of h i) as [p|] eqn:Hp.
    + pose proof (inv_par _ _ HI _ _ Hp). lia.
    + exists None. split; [done|]. by constructor.
  - destruct (parent_of h i) as [p|] eqn:Hp.
    + pose proof (inv_par _ _ HI _ _ Hp) as Hlt.
      destruct (lookup_lt_is_Some_2 (h_entries h) p) as [e He]; [lia|].
      simpl. rewrite He. simpl. destruct (e_navigable e) eqn:En.
      * exists (Some p). split; [done|]. apply BGhere; [done|]. by exists e.
      * destruct (IH p ltac:(lia) ltac:(lia)) as (r & Hr & Hb).
        unfold parent_of in Hr at 1. rewrite He in Hr.
        exists r. split; [done|]. eapply BGskip; eauto. rewrite is_navigable_dec by done. by rewrite En.
    + exists None. split; [by destruct fuel|]. by constructor.
Qed.

Lemma back_target_spec log h :
  Inv log h ->
  exists r, back_target h = Ok r /\
    match h_current h with None => r = None | Some c => back_goes_to h c r end.
Proof.
  intros HI. unfold back_target. pose proof (inv_cur _ _ HI) as Hc.
  destruct (h_current h) as [c|]; [|eauto].
  destruct (lookup_lt_is_Some_2 _ _ Hc) as [e He]. rewrite He. simpl.
  destruct (back_loop_spec log h (length (h_entries h)) c HI Hc ltac:(lia)) as (r & Hr & Hb).
  unfold parent_of in Hr at 1. rewrite He in Hr. eauto.
Qed.

Lemma back_goes_to_lt log h i p :
  Inv log h -> back_goes_to h i (Some p) -> p < length (h_entries h) /\ is_navigable h p /\ p < i.
Proof.
  intros HI Hb. remember (Some p) as r. induction Hb; simplify_eq.
  - split; [|split; [done|by eapply inv_par]]. destruct H0 as (e & He & _). by eapply lookup_lt_Some.
  - destruct (IHHb eq_refl) as (?&?&?). pose proof (inv_par _ _ HI _ _ H). split_and!; [done..|lia].
Qed.

Lemma back_goes_to_fun h i r r' : back_goes_to h i r -> back_goes_to h i r' -> r = r'.
Proof.
  intros H. revert r'. induction H; intros r' H'; inversion H'; simplify_eq; try congruence; try naive_solver.
Qed.

Lemma go_back_inv log h :
  Inv log h -> exists h' r, go_back h = Ok (h', r) /\ Inv log h' /\
     h_entries h' = h_entries h /\
     match r with Some i => h_current h' = Some i | None => h' = h end /\
     match h_current h with None => r = None | Some c => back_goes_to h c r end.
Proof.
  intros HI. unfold go_back.
  destruct (back_target_spec _ _ HI) as (r & -> & Hr). simpl.
  destruct r as [p|].
  - eexists _, _. split; [done|]. split_and!; [|done..].
    destruct (h_current h) as [c|]; [|done].
    apply inv_move; [done|]. by destruct (back_goes_to_lt _ _ _ _ HI Hr) as (? & _).
  - eexists _, _. done.
Qed.

(** * forward *)
Definition nav_b (h : history) (c : nat) : bool :=
  match h_entries h !! c with Some e => e_navigable e | None => false end.
Lemma filter_navigable_ok h cs :
  Forall (fun c => c < length (h_entries h)) cs ->
  exists r, filter_navigable (h_entries h) cs = Ok r /\
    r = filter (fun c => nav_b h c = true) cs.
Proof.
  induction 1 as [|c cs Hc Hcs IH]; [eauto|].
  destruct (lookup_lt_is_Some_2 _ _ Hc) as [e He]. destruct IH as (r & Hr & Hf).
  simpl. rewrite He. simpl. rewrite Hr. simpl. eexists; split; [done|].
  rewrite filter_cons. assert (Hn : nav_b h c = e_navigable e) by (unfold nav_b; by rewrite He). rewrite Hn. destruct (e_navigable e) eqn:En; [rewrite decide_True by done|rewrite decide_False by done]; by rewrite Hf.
Qed.

Lemma position_Some x l n : position x l = Some n -> l !! n = Some x.
Proof.
  revert n. induction l as [|y l IH]; intros n; [done|]. simpl. case_decide.
  - intros [= <-]. by subst.
  - intros (m & Hm & ->)%fmap_Some. simpl. by apply IH.
Qed.
Lemma position_None x l : position x l = None -> x ∉ l.
Proof.
  induction l as [|y l IH]; [intros _; apply not_elem_of_nil|]. simpl. case_decide; [done|].
  destruct (position x l); [done|]. intros _. apply not_elem_of_cons. auto.
Qed.

Lemma insert_0_perm (l : list entry_id) (k : nat) a b :
  l !! k = Some b -> b :: (<[k := a]> l) ≡ₚ a :: l.
Proof.
  revert k. induction l as [|x l IH]; intros k Hk; [done|]. destruct k; simpl in *.
  - injection Hk as ->. apply Permutation_swap.
  - rewrite Permutation_swap, (IH _ Hk). apply Permutation_swap.
Qed.

Lemma swap0_spec l pos x :
  l !! pos = Some x -> exists l', swap0 l pos = Ok l' /\ l' ≡ₚ l /\ head l' = Some x.
Proof.
  intros Hx. unfold swap0. destruct l as [|a l]; [done|]. simpl.
  destruct pos as [|k]; simpl in *.
  - injection Hx as ->. simpl. eauto.
  - rewrite Hx. simpl. eexists; split; [done|]. split; [|done]. by apply insert_0_perm.
Qed.

Lemma opened_from_elem h p i : i ∈ opened_from h p <-> parent_of h i = Some p.
Proof.
  unfold opened_from. rewrite elem_of_list_filter, elem_of_seq. split; [naive_solver|].
  intros H. split; [done|]. apply parent_of_lt in H. lia.
Qed.

Lemma opened_from_NoDup h p : NoDup (opened_from h p).
Proof. apply NoDup_filter, NoDup_seq. Qed.

Definition is_target (h : history) (c i : entry_id) : Prop := parent_of h i = Some c /\ is_navigable h i.

Lemma forward_targets_spec log h :
  Inv log h ->
  exists ts, forward_targets h = Ok ts /\
    match h_current h with
    | None => ts = []
    | Some c => NoDup ts /\ (forall i, i ∈ ts <-> is_target h c i) /\
                (forall i, last_chosen_child h log c = Some i -> is_navigable h i -> head ts = Some i)
    end.
Proof.
  intros HI. unfold forward_targets. pose proof (inv_cur _ _ HI) as Hc.
  destruct (h_current h) as [c|]; [|eauto].
  destruct (lookup_lt_is_Some_2 _ _ Hc) as [e He]. rewrite He. simpl.
  pose proof (inv_chi _ _ HI _ _ He) as Hch.
  destruct (filter_navigable_ok h (e_children e)) as (out & Hout & Hout').
  { rewrite Hch. apply Forall_forall. intros x Hx%opened_from_elem. by eapply parent_of_lt. }
  rewrite Hout. simpl.
  assert (Hel : forall i, i ∈ out <-> is_target h c i).
  { intros i. rewrite Hout', elem_of_list_filter, Hch, opened_from_elem. unfold is_target, is_navigable.
    split.
    - intros [H1 H2]. split; [done|]. unfold nav_b in H1. destruct (h_entries h !! i) eqn:E; [eauto|done].
    - intros [H1 (e' & He' & Hn)]. unfold nav_b. by rewrite He'. }
  assert (Hnd : NoDup out).
  { rewrite Hout', Hch. apply NoDup_filter, opened_from_NoDup. }
  pose proof (inv_pref _ _ HI _ _ He) as Hpr. rewrite Hpr.
  destruct (last_chosen_child h log c) as [pref|] eqn:Hl.
  - assert (Hpref : parent_of h pref = Some c).
    { unfold last_chosen_child in Hl. apply last_Some_elem_of in Hl. by apply elem_of_list_filter in Hl as [? _]. }
    destruct (position pref out) as [pos|] eqn:Epos.
    + apply position_Some in Epos. destruct (swap0_spec _ _ _ Epos) as (l' & -> & Hperm & Hhd).
      eexists; split; [done|]. split_and!.
      * by rewrite Hperm.
      * intros i. by rewrite Hperm, Hel.
      * intros i [= ->]. done.
    + apply position_None in Epos. eexists; split; [done|]. split_and!; [done..|].
      intros i [= ->] Hn. destruct Epos. by apply Hel.
  - eexists; split; [done|]. split_and!; [done..|]. done.
Qed.

Lemma forward_to_inv log h c i :
  Inv log h -> h_current h = Some c -> parent_of h i = Some c ->
  exists e, h_entries h !! c = Some e /\
   forward_to h i = Ok (mk_history (<[c := with_preferred e (Some i)]> (h_entries h)) (Some i), Some i) /\
   Inv (log ++ [i]) (mk_history (<[c := with_preferred e (Some i)]> (h_entries h)) (Some i)).
Proof.
  intros HI Hc Hi. pose proof (inv_cur _ _ HI) as Hcl. rewrite Hc in Hcl.
  destruct (lookup_lt_is_Some_2 _ _ Hcl) as [e He]. exists e. split; [done|].
  unfold forward_to. rewrite Hc. unfold upd. rewrite He. simpl. split; [done|].
  by apply inv_choose.
Qed.

Lemma go_forward_inv log h w :
  Inv log h -> exists h' r, go_forward h w = Ok (h', r) /\ Inv (log ++ arrival (OForward w) r) h' /\
    match r with
    | Some i => exists c e, h_current h = Some c /\ is_target h c i /\ h_entries h !! c = Some e /\
                h' = mk_history (<[c := with_preferred e (Some i)]> (h_entries h)) (Some i) /\
                match w with Some j => j = i | None => True end
    | None => h' = h /\ match w with
                        | Some j => forall c, h_current h = Some c -> ~ is_target h c j
                        | None => forall c j, h_current h = Some c -> ~ is_target h c j
                        end
    end.
Proof.
  intros HI. unfold go_forward. destruct (forward_targets_spec _ _ HI) as (ts & -> & Hts). simpl.
  assert (Hmove : forall i, i ∈ ts -> exists c e, h_current h = Some c /\ is_target h c i /\ h_entries h !! c = Some e /\
     forward_to h i = Ok (mk_history (<[c := with_preferred e (Some i)]> (h_entries h)) (Some i), Some i) /\
     Inv (log ++ [i]) (mk_history (<[c := with_preferred e (Some i)]> (h_entries h)) (Some i))).
  { intros i Hi. destruct (h_current h) as [c|] eqn:Hc.
    - destruct Hts as (_ & Hel & _). apply Hel in Hi as Ht.
      destruct (forward_to_inv log h c i HI Hc (proj1 Ht)) as (e & He & Hf & Hinv).
      exists c, e. done.
    - subst. by apply not_elem_of_nil in Hi. }
  assert (Hno : forall c i, h_current h = Some c -> i ∉ ts -> ~ is_target h c i).
  { intros c i Hc Hi. rewrite Hc in Hts. destruct Hts as (_ & Hel & _). by rewrite <- Hel. }
  destruct w as [j|].
  - case_decide as Hj.
    + destruct (Hmove j Hj) as (c & e & Hc & Ht & He & Hf & Hinv).
      eexists _, _. split; [exact Hf|]. split; [done|]. exists c, e. done.
    + eexists _, _. split; [done|]. rewrite app_nil_r. split_and!; [done..|]. eauto.
  - destruct ts as [|j ts'].
    + eexists _, _. split; [done|]. rewrite app_nil_r. split_and!; [done..|].
      intros c j Hc. eapply Hno; [done|]. apply not_elem_of_nil.
    + destruct (Hmove j) as (c & e & Hc & Ht & He & Hf & Hinv); [by left|].
      eexists _, _. split; [exact Hf|]. split; [done|]. exists c, e. done.
Qed.

(** * jump *)
Lemma go_to_inv log h id :
  Inv log h -> exists h' r, go_to h id = Ok (h', r) /\ Inv (log ++ arrival (OGoTo id) r) h' /\
    match r with
    | Some i => i = id /\ is_navigable h id /\ h_current h' = Some id /\
       match parent_of h id with
       | Some p => exists e, h_entries h !! p = Some e /\ h_entries h' = <[p := with_preferred e (Some id)]> (h_entries h)
       | None => h_entries h' = h_entries h
       end
    | None => h' = h /\ ~ is_navigable h id
    end.
Proof.
  intros HI. unfold go_to. destruct (h_entries h !! id) as [e|] eqn:He.
  - destruct (e_navigable e) eqn:En.
    + destruct (e_parent e) as [p|] eqn:Hp.
      * assert (Hpar : parent_of h id = Some p) by (unfold parent_of; by rewrite He).
        pose proof (inv_par _ _ HI _ _ Hpar) as Hlt.
        destruct (lookup_lt_is_Some_2 (h_entries h) p) as [pe Hpe].
        { apply lookup_lt_Some in He. lia. }
        unfold upd. rewrite Hpe. simpl. eexists _, _. split; [done|].
        split; [by apply inv_choose|].
        split_and!; [done| by exists e |done|]. rewrite Hpar. simpl. eauto.
      * simpl. eexists _, _. split; [done|]. 
        assert (Hpar : parent_of h id = None) by (unfold parent_of; by rewrite He).
        split; [apply inv_jump_root; [done|by eapply lookup_lt_Some|done]|].
        split_and!; [done|by exists e|done|]. by rewrite Hpar.
    + eexists _, _. split; [done|]. rewrite app_nil_r. split_and!; [done..|].
      intros (e' & ? & ?). congruence.
  - eexists _, _. split; [done|]. rewrite app_nil_r. split_and!; [done..|].
    intros (e' & ? & ?). congruence.
Qed.

(** * one step *)
Lemma upd_current_inv log h f :
  (forall e, e_parent (f e) = e_parent e) -> (forall e, e_children (f e) = e_children e) ->
  (forall e, e_preferred (f e) = e_preferred e) ->
  Inv log h -> exists h', upd_current h f = Ok h' /\ Inv log h' /\ h_current h' = h_current h /\
    match h_current h with
    | Some c => exists e, h_entries h !! c = Some e /\ h_entries h' = <[c := f e]> (h_entries h)
    | None => h' = h
    end.
Proof.
  intros H1 H2 H3 HI. unfold upd_current. pose proof (inv_cur _ _ HI) as Hcl.
  destruct (h_current h) as [c|] eqn:Hc; [|eauto].
  destruct (lookup_lt_is_Some_2 _ _ Hcl) as [e He]. unfold upd. rewrite He. simpl.
  eexists. split; [done|]. split_and!; [|done|eauto].
  rewrite <- Hc. by eapply inv_field_update.
Qed.

Lemma step_inv log h o :
  Inv log h -> exists h' r, step h o = Ok (h', r) /\ Inv (log ++ arrival o r) h'.
Proof.
  intros HI. destruct o; simpl.
  - destruct (push_inv log h url title HI) as (h' & -> & Hi). simpl. eauto.
  - destruct (upd_current_inv log h (fun e => with_url e url)) as (h' & Hu & Hi & _); [done..|].
    unfold replace_current_url. rewrite Hu. simpl. eexists _, _. split; [done|]. by rewrite app_nil_r.
  - destruct (upd_current_inv log h (fun e => with_title e t)) as (h' & Hu & Hi & _); [done..|].
    unfold set_current_title. rewrite Hu. simpl. eexists _, _. split; [done|]. by rewrite app_nil_r.
  - destruct (upd_current_inv log h (fun e => with_scroll e (x, y))) as (h' & Hu & Hi & _); [done..|].
    unfold set_current_scroll. rewrite Hu. simpl. eexists _, _. split; [done|]. by rewrite app_nil_r.
  - destruct (go_back_inv log h HI) as (h' & r & -> & Hi & _). eexists _, _. split; [done|]. by rewrite app_nil_r.
  - destruct (go_forward_inv log h want HI) as (h' & r & -> & Hi & _). eauto.
  - destruct (go_to_inv log h id HI) as (h' & r & -> & Hi & _). eauto.
  - destruct (h_entries h !! id) as [e|] eqn:He.
    + eexists _, _. split; [done|]. rewrite app_nil_r. by eapply inv_field_update.
    + eexists _, _. split; [done|]. by rewrite app_nil_r.
Qed.

Lemma empty_inv : Inv [] empty_history.
Proof. split; try done; simpl; intros; lia. Qed.

Lemma run_inv log h ops :
  Inv log h -> exists h' rs, run h ops = Ok (h', rs) /\ Inv (log ++ arrivals ops rs) h' /\ length rs = length ops.
Proof.
  revert log h. induction ops as [|o ops IH]; intros log h HI; simpl.
  - eexists _, _. split; [done|]. by rewrite app_nil_r.
  - destruct (step_inv log h o HI) as (h1 & r & -> & HI1). simpl.
    destruct (IH _ _ HI1) as (h2 & rs & -> & HI2 & Hl). simpl.
    eexists _, _. split; [done|]. simpl. rewrite app_assoc. split; [done|by rewrite Hl].
Qed.

Lemma run_empty_inv ops h rs : run empty_history ops = Ok (h, rs) -> Inv (arrivals ops rs) h.
Proof.
  intros H. destruct (run_inv [] empty_history ops empty_inv) as (h' & rs' & Hr & HI & _).
  rewrite Hr in H. injection H as -> ->. done.
Qed.

Lemma reachable_inv h : reachable h -> exists log, Inv log h.
Proof. intros (ops & rs & H). eexists. by eapply run_empty_inv. Qed.

Lemma inv_tree_ok log h : Inv log h -> tree_ok h.
Proof.
  intros [Hpar Hchi Hcur _ _ _]. split; [|done|done].
  intros i p H. split; [eauto|by eapply parent_of_lt].
Qed.

(** * C01 *)
Lemma step_push_ids h o h' r log :
  Inv log h -> step h o = Ok (h', r) ->
  length (h_entries h') = length (h_entries h) + length (pushed_ids [o] [r]) /\
  pushed_ids [o] [r] = seq (length (h_entries h)) (length (pushed_ids [o] [r])).
Proof.
  intros HI H. destruct o; simpl in H.
  - destruct (push_shape log h url title HI) as (es' & Hp & Hlen & _). rewrite Hp in H. simpl in H.
    injection H as <- <-. simpl. split; [lia|done].
  - destruct (upd_current_inv log h (fun e => with_url e url)) as (h1 & Hu & _ & _ & Hm); [done..|].
    unfold replace_current_url in H. rewrite Hu in H. injection H as <- <-. simpl. split; [|done].
    destruct (h_current h); [destruct Hm as (e & _ & ->); rewrite insert_length; lia|subst; lia].
  - destruct (upd_current_inv log h (fun e => with_title e t)) as (h1 & Hu & _ & _ & Hm); [done..|].
    unfold set_current_title in H. rewrite Hu in H. injection H as <- <-. simpl. split; [|done].
    destruct (h_current h); [destruct Hm as (e & _ & ->); rewrite insert_length; lia|subst; lia].
  - destruct (upd_current_inv log h (fun e => with_scroll e (x,y))) as (h1 & Hu & _ & _ & Hm); [done..|].
    unfold set_current_scroll in H. rewrite Hu in H. injection H as <- <-. simpl. split; [|done].
    destruct (h_current h); [destruct Hm as (e & _ & ->); rewrite insert_length; lia|subst; lia].
  - destruct (go_back_inv log h HI) as (h1 & r1 & Hg & _ & He & _). rewrite Hg in H. injection H as <- <-.
    simpl. rewrite He. split; [lia|done].
  - destruct (go_forward_inv log h want HI) as (h1 & r1 & Hg & _ & Hm). rewrite Hg in H. injection H as <- <-.
    simpl. split; [|done]. destruct r1; [|destruct Hm as [-> _]; lia].
    destruct Hm as (c & e' & _ & _ & _ & -> & _). simpl. rewrite insert_length. lia.
  - destruct (go_to_inv log h id HI) as (h1 & r1 & Hg & _ & Hm). rewrite Hg in H. injection H as <- <-.
    simpl. split; [|done]. destruct r1; [|destruct Hm as [-> _]; lia].
    destruct Hm as (_ & _ & _ & Hm). destruct (parent_of h id).
    + destruct Hm as (e' & _ & ->). rewrite insert_length. lia.
    + rewrite Hm. lia.
  - destruct (h_entries h !! id); injection H as <- <-; simpl; rewrite ?insert_length; split; try done; lia.
Qed.

Lemma pushed_ids_cons o r ops rs : pushed_ids (o :: ops) (r :: rs) = pushed_ids [o] [r] ++ pushed_ids ops rs.
Proof. destruct o, r; simpl; try done; by destruct ops. Qed.

Lemma run_push_ids log h ops h' rs :
  Inv log h -> run h ops = Ok (h', rs) ->
  length (h_entries h') = length (h_entries h) + length (pushed_ids ops rs) /\
  pushed_ids ops rs = seq (length (h_entries h)) (length (pushed_ids ops rs)).
Proof.
  revert log h rs. induction ops as [|o ops IH]; intros log h rs HI H.
  - simpl in H. injection H as <- <-. simpl. split; [lia|done].
  - simpl in H. destruct (step_inv log h o HI) as (h1 & r & Hs & HI1). rewrite Hs in H. simpl in H.
    destruct (run h1 ops) as [[h2 rs2]| |] eqn:Hr; try done. simpl in H. injection H as <- <-.
    destruct (step_push_ids _ _ _ _ _ HI Hs) as [L1 E1].
    destruct (IH _ _ _ HI1 Hr) as [L2 E2].
    rewrite pushed_ids_cons, app_length. split; [lia|].
    rewrite seq_app. rewrite <- E1. f_equal. rewrite <- L1. done.
Qed.

Lemma C01_total_lemma ops :
  exists h rs, run empty_history ops = Ok (h, rs) /\ tree_ok h /\
    pushed_ids ops rs = seq 0 (length (h_entries h)) /\
    (exists b, can_go_back h = Ok b) /\ (exists b, can_go_forward h = Ok b) /\
    (exists ts, forward_targets h = Ok ts) /\ (exists s, take_snapshot h = Ok s).
Proof.
  destruct (run_inv [] empty_history ops empty_inv) as (h & rs & Hr & HI & _).
  exists h, rs. split; [done|]. split; [by eapply inv_tree_ok|].
  destruct (run_push_ids _ _ _ _ _ empty_inv Hr) as [Hl He]. simpl in *.
  split; [rewrite Hl; exact He|].
  destruct (back_target_spec _ _ HI) as (r & Hb & _).
  destruct (forward_targets_spec _ _ HI) as (ts & Hf & Hts).
  assert (Hok : forall l, Forall (fun i => i < length (h_entries h)) l -> exists s, rmap (summarise (h_entries h)) l = Ok s).
  { induction 1 as [|x l Hx _ IH]; [eauto|]. destruct (lookup_lt_is_Some_2 _ _ Hx) as [e He'].
    destruct IH as [s Hs]. simpl. unfold summarise at 1. rewrite He'. simpl. rewrite Hs. simpl. eauto. }
  unfold can_go_back, can_go_forward, take_snapshot. unfold can_go_back. rewrite Hb, Hf. simpl.
  split_and!; eauto.
  destruct (Hok ts) as [s1 ->].
  { apply Forall_forall. intros x Hx. destruct (h_current h) as [c|].
    - destruct Hts as (_ & Hel & _). apply Hel in Hx as [Hx _]. by eapply parent_of_lt.
    - subst. by apply not_elem_of_nil in Hx. }
  simpl. destruct (Hok (seq 0 (length (h_entries h)))) as [s2 ->].
  { apply Forall_forall. intros x Hx%elem_of_seq. lia. }
  simpl. eauto.
Qed.

(** stability *)
Definition grows (h h' : history) : Prop :=
  forall i e, h_entries h !! i = Some e -> exists e', h_entries h' !! i = Some e' /\
     e_parent e' = e_parent e /\ e_children e `prefix_of` e_children e'.

Lemma grows_refl h : grows h h.
Proof. intros i e He. eauto. Qed.
Lemma grows_trans h1 h2 h3 : grows h1 h2 -> grows h2 h3 -> grows h1 h3.
Proof.
  intros H1 H2 i e He. destruct (H1 i e He) as (e' & He' & ? & ?).
  destruct (H2 i e' He') as (e'' & He'' & ? & ?). exists e''. split_and!; [done|congruence|by etrans].
Qed.
Lemma grows_insert h i e e' c :
  h_entries h !! i = Some e -> e_parent e' = e_parent e -> e_children e' = e_children e ->
  grows h (mk_history (<[i := e']> (h_entries h)) c).
Proof.
  intros Hi H1 H2 j x Hx. simpl. destruct (decide (i = j)) as [->|Hne].
  - rewrite list_lookup_insert by (by eapply lookup_lt_Some). eexists; split; [done|].
    assert (x = e) by congruence. subst. rewrite H2. done.
  - rewrite list_lookup_insert_ne by done. eauto.
Qed.

Lemma grows_insert' h h' i e e' :
  h_entries h !! i = Some e -> h_entries h' = <[i := e']> (h_entries h) ->
  e_parent e' = e_parent e -> e_children e' = e_children e -> grows h h'.
Proof.
  intros Hi Hh H1 H2 j x Hx. rewrite Hh.
  eapply (grows_insert h i e e' None) in Hx; [|done..]. done.
Qed.

Lemma step_grows log h o h' r : Inv log h -> step h o = Ok (h', r) -> grows h h'.
Proof.
  intros HI H. destruct o; simpl in H.
  - destruct (push_shape log h url title HI) as (es' & Hp & _ & _ & Hold). rewrite Hp in H.
    injection H as <- <-. intros i e He. simpl.
    destruct (Hold i ltac:(by eapply lookup_lt_Some)) as (e0 & He0 & ->).
    assert (e0 = e) by congruence; subst. eexists; split; [done|].
    case_decide; simpl; [|done]. split; [done|]. by apply prefix_app_r.
  - destruct (upd_current_inv log h (fun e => with_url e url)) as (h1 & Hu & _ & _ & Hm); [done..|].
    unfold replace_current_url in H. rewrite Hu in H. injection H as <- <-.
    destruct (h_current h); [destruct Hm as (e & He & Hh); by apply (grows_insert' _ _ _ _ _ He Hh)|subst; apply grows_refl].
  - destruct (upd_current_inv log h (fun e => with_title e t)) as (h1 & Hu & _ & _ & Hm); [done..|].
    unfold set_current_title in H. rewrite Hu in H. injection H as <- <-.
    destruct (h_current h); [destruct Hm as (e & He & Hh); by apply (grows_insert' _ _ _ _ _ He Hh)|subst; apply grows_refl].
  - destruct (upd_current_inv log h (fun e => with_scroll e (x,y))) as (h1 & Hu & _ & _ & Hm); [done..|].
    unfold set_current_scroll in H. rewrite Hu in H. injection H as <- <-.
    destruct (h_current h); [destruct Hm as (e & He & Hh); by apply (grows_insert' _ _ _ _ _ He Hh)|subst; apply grows_refl].
  - destruct (go_back_inv log h HI) as (h1 & r1 & Hg & _ & He & _). rewrite Hg in H. injection H as <- <-.
    intros i e Hi. rewrite He. eauto.
  - destruct (go_forward_inv log h want HI) as (h1 & r1 & Hg & _ & Hm). rewrite Hg in H. injection H as <- <-.
    destruct r1; [|destruct Hm as [-> _]; apply grows_refl].
    destruct Hm as (c & e' & _ & _ & He & -> & _). by eapply grows_insert.
  - destruct (go_to_inv log h id HI) as (h1 & r1 & Hg & _ & Hm). rewrite Hg in H. injection H as <- <-.
    destruct r1; [|destruct Hm as [-> _]; apply grows_refl].
    destruct Hm as (_ & _ & _ & Hm). destruct (parent_of h id).
    + destruct Hm as (e' & He & Hh). by apply (grows_insert' _ _ _ _ _ He Hh).
    + intros i e Hi. rewrite Hm. eauto.
  - destruct (h_entries h !! id) eqn:He; injection H as <- <-; [|apply grows_refl]. by eapply grows_insert.
Qed.

Lemma run_grows log h ops h' rs : Inv log h -> run h ops = Ok (h', rs) -> grows h h'.
Proof.
  revert log h rs. induction ops as [|o ops IH]; intros log h rs HI H.
  - injection H as <- <-. apply grows_refl.
  - simpl in H. destruct (step_inv log h o HI) as (h1 & r & Hs & HI1). rewrite Hs in H. simpl in H.
    destruct (run h1 ops) as [[h2 rs2]| |] eqn:Hr; try done. simpl in H. injection H as <- <-.
    eapply grows_trans; [by eapply step_grows|by eapply IH].
Qed.

Lemma C01_stable_lemma h ops h' rs :
  reachable h -> run h ops = Ok (h', rs) ->
  forall i e, h_entries h !! i = Some e ->
    exists e', h_entries h' !! i = Some e' /\ e_parent e' = e_parent e /\ e_children e `prefix_of` e_children e'.
Proof. intros [log HI]%reachable_inv H. by eapply run_grows. Qed.

Lemma C01_push_parent_lemma h u t h' i :
  reachable h -> push h u t = Ok (h', i) -> parent_of h' i = h_current h /\ h_current h' = Some i /\ i = length (h_entries h).
Proof.
  intros [log HI]%reachable_inv H.
  destruct (push_shape log h u t HI) as (es' & Hp & _ & Hn & _). rewrite Hp in H. injection H as <- <-.
  unfold parent_of; simpl. by rewrite Hn.
Qed.

(** * C02 *)
Lemma back_goes_to_same h h' i r :
  (forall j, parent_of h' j = parent_of h j) -> (forall j, j < i -> is_navigable h' j <-> is_navigable h j) ->
  (forall j p, parent_of h j = Some p -> p < j) ->
  back_goes_to h i r -> back_goes_to h' i r.
Proof.
  intros Hp Hn Hlt H. induction H.
  - apply BGroot. by rewrite Hp.
  - apply BGhere; [by rewrite Hp|]. apply Hn; eauto.
  - eapply BGskip; [by rewrite Hp|rewrite Hn; eauto|]. apply IHback_goes_to.
    intros j Hj. apply Hn. specialize (Hlt _ _ H). lia.
Qed.

Lemma C02_lemma h u t c :
  reachable h -> h_current h = Some c -> is_navigable h c ->
  exists h' id, run h [OPush u t; OBack; OForward None] = Ok (h', [Some id; Some c; Some id]) /\
    h_current h' = Some id /\ id = length (h_entries h).
Proof.
  intros [log HI]%reachable_inv Hc Hn.
  destruct (push_shape log h u t HI) as (es' & Hp & Hlen & Hnew & Hold).
  destruct (push_inv log h u t HI) as (h1 & Hp' & HI1). rewrite Hp in Hp'. injection Hp' as <-.
  set (n := length (h_entries h)) in *. set (h1 := mk_history es' (Some n)) in *.
  assert (Hpar : parent_of h1 n = Some c) by (unfold parent_of; simpl; by rewrite Hnew, Hc).
  assert (Hcn : c < n) by (pose proof (inv_cur _ _ HI) as X; rewrite Hc in X; exact X).
  assert (Hn1 : is_navigable h1 c).
  { destruct Hn as (e & He & Hen). destruct (Hold c Hcn) as (e0 & He0 & Hl). assert (e0 = e) by congruence; subst.
    eexists; split; [exact Hl|]. by case_decide. }
  destruct (go_back_inv _ _ HI1) as (h2 & r2 & Hb & HI2 & He2 & Hr2 & Hbt). simpl in Hbt.
  assert (r2 = Some c). { eapply back_goes_to_fun; [exact Hbt|]. by apply BGhere. } subst r2.
  destruct h2 as [es2 c2]. simpl in *. subst.
  destruct (forward_targets_spec _ _ HI2) as (ts & Hts & Hnd & Hel & Hhd).
  assert (Hh2 : forall i, parent_of (mk_history es' (Some c)) i = parent_of h1 i) by done.
  assert (Hhead : head ts = Some n).
  { apply Hhd.
    - unfold last_chosen_child. rewrite filter_app, filter_cons, filter_nil.
      rewrite decide_True by (by rewrite Hh2). by rewrite last_snoc.
    - eexists; split; [exact Hnew|done]. }
  destruct (forward_to_inv _ _ c n HI2 eq_refl Hpar) as (e & He & Hf & HI3).
  eexists _, n. cbn [run step]. rewrite Hp. cbn [rbind]. rewrite Hb. cbn [rbind].
  unfold go_forward. rewrite Hts. cbn [rbind]. destruct ts as [|x ts]; [done|]. injection Hhead as ->.
  rewrite Hf. cbn [rbind]. split; [done|]. done.
Qed.

Lemma C02_back_lemma h :
  reachable h -> exists h' r, step h OBack = Ok (h', r) /\
    h_entries h' = h_entries h /\
    match h_current h with
    | None => r = None /\ h' = h
    | Some c => back_goes_to h c r /\ h_current h' = match r with Some i => Some i | None => Some c end
    end.
Proof.
  intros [log HI]%reachable_inv.
  destruct (go_back_inv _ _ HI) as (h2 & r2 & Hb & HI2 & He2 & Hr2 & Hbt).
  exists h2, r2. split; [done|]. split; [done|]. destruct (h_current h) as [c|] eqn:Hc.
  - split; [done|]. destruct r2; [done|]. subst. done.
  - subst. done.
Qed.

(** * C03 *)
Lemma C03_lemma ops h rs :
  run empty_history ops = Ok (h, rs) ->
  exists ts, forward_targets h = Ok ts /\ NoDup ts /\
    (forall i, i ∈ ts <-> exists c, h_current h = Some c /\ parent_of h i = Some c /\ is_navigable h i) /\
    (forall c i, h_current h = Some c -> last_chosen_child h (arrivals ops rs) c = Some i -> is_navigable h i -> head ts = Some i).
Proof.
  intros HI%run_empty_inv. destruct (forward_targets_spec _ _ HI) as (ts & Hts & Hm).
  exists ts. split; [done|]. destruct (h_current h) as [c|].
  - destruct Hm as (Hnd & Hel & Hhd). split_and!; [done| |].
    + intros i. rewrite Hel. unfold is_target. split; [eauto|]. intros (c' & [= ->] & ?). done.
    + intros c' i [= ->]. eauto.
  - subst. split_and!; [constructor| |done]. intros i. split; [by intros ?%not_elem_of_nil|]. intros (? & ? & _). done.
Qed.

Lemma C03_move_lemma h w ts :
  reachable h -> forward_targets h = Ok ts ->
  exists h' r, step h (OForward w) = Ok (h', r) /\
    r = (match w with Some i => if decide (i ∈ ts) then Some i else None | None => head ts end) /\
    match r with Some i => h_current h' = Some i | None => h' = h end.
Proof.
  intros [log HI]%reachable_inv Hts.
  destruct (go_forward_inv log h w HI) as (h' & r & Hg & _ & Hm). simpl.
  exists h', r. split; [done|]. unfold go_forward in Hg. rewrite Hts in Hg. simpl in Hg.
  assert (Hr : r = match w with Some i => if decide (i ∈ ts) then Some i else None | None => head ts end).
  { destruct w as [i|].
    - case_decide; [|by injection Hg as <- <-]. unfold forward_to in Hg.
      destruct (match h_current h with Some _ => _ | None => _ end); try done. by injection Hg as <- <-.
    - destruct ts as [|i ts]; [by injection Hg as <- <-|]. simpl. unfold forward_to in Hg.
      destruct (match h_current h with Some _ => _ | None => _ end); try done. by injection Hg as <- <-. }
  split; [done|]. destruct r.
  - destruct Hm as (c & e0 & _ & _ & _ & -> & _). done.
  - by destruct Hm.
Qed.

(** * C04 *)
Definition agree (l : ledger) (h : history) : Prop :=
  lg_cur l = h_current h /\ forall i, lg_pages l i = page_of h i.

Lemma page_of_insert h i e e' c j :
  h_entries h !! i = Some e ->
  page_of (mk_history (<[i := e']> (h_entries h)) c) j =
    if decide (j = i) then Some (mk_page (e_url e') (e_title e') (e_scroll e')) else page_of h j.
Proof.
  intros Hi. unfold page_of; simpl. case_decide as Hd.
  - subst. by rewrite list_lookup_insert by (by eapply lookup_lt_Some).
  - by rewrite list_lookup_insert_ne.
Qed.

Lemma page_of_insert_same h i e e' c j :
  h_entries h !! i = Some e -> e_url e' = e_url e -> e_title e' = e_title e -> e_scroll e' = e_scroll e ->
  page_of (mk_history (<[i := e']> (h_entries h)) c) j = page_of h j.
Proof.
  intros Hi H1 H2 H3. rewrite (page_of_insert h i e e' c j Hi). case_decide; [|done].
  subst. unfold page_of. rewrite Hi. congruence.
Qed.

Lemma page_of_entries h h' : h_entries h' = h_entries h -> forall i, page_of h' i = page_of h i.
Proof. intros H i. unfold page_of. by rewrite H. Qed.

Lemma agree_upd_current log l h f g h' :
  Inv log h -> agree l h -> upd_current h f = Ok h' ->
  (forall e, e_parent (f e) = e_parent e) -> (forall e, e_children (f e) = e_children e) ->
  (forall e, e_preferred (f e) = e_preferred e) ->
  (forall e, g (mk_page (e_url e) (e_title e) (e_scroll e)) = mk_page (e_url (f e)) (e_title (f e)) (e_scroll (f e))) ->
  agree (on_cur l g) h'.
Proof.
  intros HI [Hcl Hpg] Hu H1 H2 H3 Hg.
  destruct (upd_current_inv log h f H1 H2 H3 HI) as (h1 & Hu' & _ & Hcur & Hm). rewrite Hu in Hu'. injection Hu' as <-.
  unfold on_cur. rewrite Hcl. destruct (h_current h) as [c|] eqn:Hc.
  - destruct Hm as (e & He & Hes). split; simpl; [congruence|].
    intros i. rewrite (page_of_entries (mk_history (<[c := f e]> (h_entries h)) None) h') by (by rewrite Hes).
    rewrite (page_of_insert h c e) by done. unfold put. case_decide; [|done].
    rewrite Hpg. unfold page_of. rewrite He. simpl. by rewrite Hg.
  - subst h'. split; [congruence|done].
Qed.

Lemma step_agree log l h o h' r :
  Inv log h -> agree l h -> step h o = Ok (h', r) -> agree (ledger_step l o r) h'.
Proof.
  intros HI Hag H. pose proof Hag as [Hcl Hpg]. destruct o; simpl in H.
  - destruct (push_shape log h url title HI) as (es' & Hp & Hlen & Hnew & Hold). rewrite Hp in H.
    injection H as <- <-. simpl. split; [done|]. intros i. simpl. unfold put. case_decide as Hd.
    + subst. unfold page_of; simpl. by rewrite Hnew.
    + rewrite Hpg. unfold page_of; simpl. destruct (decide (i < length (h_entries h))) as [Hlt|Hge].
      * destruct (Hold i Hlt) as (e & -> & ->). by case_decide.
      * rewrite !lookup_ge_None_2 by lia. done.
  - unfold replace_current_url in H. destruct (upd_current _ _) eqn:Hu in H; try done. injection H as <- <-.
    eapply agree_upd_current; eauto.
  - unfold set_current_title in H. destruct (upd_current _ _) eqn:Hu in H; try done. injection H as <- <-.
    eapply agree_upd_current; eauto.
  - unfold set_current_scroll in H. destruct (upd_current _ _) eqn:Hu in H; try done. injection H as <- <-.
    eapply agree_upd_current; eauto.
  - destruct (go_back_inv log h HI) as (h1 & r1 & Hg & _ & He & Hr & _). rewrite Hg in H. injection H as <- <-.
    destruct r1; simpl; [|by subst]. split; simpl; [done|]. intros i. rewrite Hpg. by rewrite (page_of_entries h h1).
  - destruct (go_forward_inv log h want HI) as (h1 & r1 & Hg & _ & Hm). rewrite Hg in H. injection H as <- <-.
    destruct r1; simpl; [|by destruct Hm as [-> _]].
    destruct Hm as (c & e' & _ & _ & He & -> & _). split; [done|]. intros i. simpl. rewrite Hpg.
    symmetry. by eapply page_of_insert_same.
  - destruct (go_to_inv log h id HI) as (h1 & r1 & Hg & _ & Hm). rewrite Hg in H. injection H as <- <-.
    destruct r1; simpl; [|by destruct Hm as [-> _]].
    destruct Hm as (-> & _ & Hc & Hm). split; simpl; [done|]. intros i. rewrite Hpg. destruct (parent_of h id).
    + destruct Hm as (e' & He & Hh).
      rewrite (page_of_entries (mk_history (<[n:=with_preferred e' (Some id)]> (h_entries h)) None) h1) by done.
      symmetry. by eapply page_of_insert_same.
    + by rewrite (page_of_entries h h1).
  - destruct (h_entries h !! id) eqn:He; injection H as <- <-; simpl; [|done].
    split; [done|]. intros i. rewrite Hpg. symmetry. by eapply page_of_insert_same.
Qed.

Lemma run_agree log l h ops h' rs :
  Inv log h -> agree l h -> run h ops = Ok (h', rs) -> agree (ledger_run l ops rs) h'.
Proof.
  revert log l h rs. induction ops as [|o ops IH]; intros log l h rs HI Ha H.
  - injection H as <- <-. done.
  - simpl in H. destruct (step_inv log h o HI) as (h1 & r & Hs & HI1). rewrite Hs in H. simpl in H.
    destruct (run h1 ops) as [[h2 rs2]| |] eqn:Hr; try done. simpl in H. injection H as <- <-.
    simpl. eapply IH; eauto. by apply (step_agree log l h).
Qed.

Lemma C04_lemma ops h rs :
  run empty_history ops = Ok (h, rs) ->
  forall i, page_of h i = lg_pages (ledger_run empty_ledger ops rs) i.
Proof.
  intros H i. destruct (run_agree [] empty_ledger empty_history ops h rs empty_inv) as [_ Hp]; [|done|by rewrite Hp].
  split; [done|]. intros j. done.
Qed.

(** * C06 *)
Lemma rmap_summarise h l s :
  rmap (summarise (h_entries h)) l = Ok s ->
  Forall2 (fun i x => s_id x = i /\ exists e, h_entries h !! i = Some e /\
      s_url x = e_url e /\ s_title x = e_title e /\ s_parent x = e_parent e) l s.
Proof.
  revert s. induction l as [|i l IH]; intros s; simpl.
  - intros [= <-]. constructor.
  - unfold summarise at 1. destruct (h_entries h !! i) as [e|] eqn:He; [|done]. simpl.
    destruct (rmap _ l) as [bs| |]; try done. intros [= <-]. constructor; [|eauto].
    simpl. split; [done|]. by exists e.
Qed.

Lemma summaries_elem h l s x :
  Forall2 (fun i x => s_id x = i /\ exists e, h_entries h !! i = Some e /\
      s_url x = e_url e /\ s_title x = e_title e /\ s_parent x = e_parent e) l s -> x ∈ s ->
  exists e, h_entries h !! s_id x = Some e /\
      s_url x = e_url e /\ s_title x = e_title e /\ s_parent x = e_parent e.
Proof.
  intros Hf [k Hk]%elem_of_list_lookup. destruct (Forall2_lookup_r _ _ _ _ _ Hf Hk) as (i & Hi & Hid & He).
  by rewrite Hid.
Qed.

Lemma C06_lemma h s :
  reachable h -> take_snapshot h = Ok s ->
  sn_current s = h_current h /\
  (sn_can_go_back s = true <-> exists h' i, step h OBack = Ok (h', Some i)) /\
  (exists ts, forward_targets h = Ok ts /\ map s_id (sn_forward s) = ts) /\
  map s_id (sn_entries s) = seq 0 (length (h_entries h)) /\
  (forall x, x ∈ sn_entries s ++ sn_forward s -> exists e, h_entries h !! s_id x = Some e /\
      s_url x = e_url e /\ s_title x = e_title e /\ s_parent x = e_parent e).
Proof.
  intros [log HI]%reachable_inv H. unfold take_snapshot in H.
  destruct (back_target_spec _ _ HI) as (r & Hb & _).
  unfold can_go_back in H. rewrite Hb in H. simpl in H.
  destruct (forward_targets h) as [ts| |] eqn:Hts; try done. simpl in H.
  destruct (rmap _ ts) as [fw| |] eqn:Hfw; try done. simpl in H.
  destruct (rmap _ (seq _ _)) as [en| |] eqn:Hen; try done. injection H as <-. simpl.
  apply rmap_summarise in Hfw, Hen.
  assert (Hids : forall l s, Forall2 (fun i x => s_id x = i /\ exists e, h_entries h !! i = Some e /\
      s_url x = e_url e /\ s_title x = e_title e /\ s_parent x = e_parent e) l s -> map s_id s = l).
  { induction 1 as [|i x l s [Hi _] _ IH]; [done|]. simpl. by rewrite IH, Hi. }
  split_and!; [done| | | |].
  - unfold go_back. rewrite Hb. simpl. destruct r; split; try done.
    + intros _. eauto.
    + intros (h' & i & [=]).
  - exists ts. split; [done|]. by apply Hids.
  - by apply Hids.
  - intros x [Hx|Hx]%elem_of_app.
    + exact (summaries_elem _ _ _ _ Hen Hx).
    + exact (summaries_elem _ _ _ _ Hfw Hx).
Qed.

(** * C05 and C47 *)
Definition pref (h : history) (c : nat) : option nat :=
  match h_entries h !! c with Some e => e_preferred e | None => None end.
Definition all_nav (h : history) : Prop := forall i e, h_entries h !! i = Some e -> e_navigable e = true.

(** the ancestors of [c], nearest first, each preferring the next one on the path *)
Inductive backs (h : history) : nat -> list nat -> Prop :=
| backs_root c : parent_of h c = None -> backs h c []
| backs_step c p l : parent_of h c = Some p -> pref h p = Some c -> backs h p l -> backs h c (p :: l).
(** the chain of preferred children below [c] *)
Inductive fwds (h : history) : nat -> list nat -> Prop :=
| fwds_leaf c : pref h c = None -> fwds h c []
| fwds_step c d l : pref h c = Some d -> fwds h d l -> fwds h c (d :: l).

Lemma pref_parent log h c d : Inv log h -> pref h c = Some d -> parent_of h d = Some c.
Proof.
  intros HI. unfold pref. destruct (h_entries h !! c) as [e|] eqn:He; [|done].
  rewrite (inv_pref _ _ HI _ _ He). unfold last_chosen_child. intros Hl%last_Some_elem_of.
  by apply elem_of_list_filter in Hl as [? _].
Qed.
Lemma pref_None log h c i : Inv log h -> pref h c = None -> parent_of h i = Some c -> False.
Proof.
  intros HI Hp Hi. pose proof (parent_of_lt _ _ _ Hi) as Hlt.
  pose proof (inv_par _ _ HI _ _ Hi) as Hci.
  destruct (lookup_lt_is_Some_2 (h_entries h) c ltac:(lia)) as [e He].
  unfold pref in Hp. rewrite He in Hp. rewrite (inv_pref _ _ HI _ _ He) in Hp.
  unfold last_chosen_child in Hp. apply last_None in Hp.
  assert (Hin : i ∈ filter (fun j => parent_of h j = Some c) log).
  { apply elem_of_list_filter. split; [done|]. by apply (inv_all _ _ HI). }
  rewrite Hp in Hin. by apply not_elem_of_nil in Hin.
Qed.

Lemma backs_mono h h' c l :
  (forall i p, parent_of h i = Some p -> p < i) ->
  (forall i, i <= c -> parent_of h' i = parent_of h i) -> (forall i, i < c -> pref h' i = pref h i) ->
  backs h c l -> backs h' c l.
Proof.
  intros Hlt Hp Hf H. induction H as [c Hc|c p l Hc Hpr Hb IH].
  - constructor. by rewrite Hp.
  - pose proof (Hlt _ _ Hc). constructor.
    + by rewrite Hp.
    + by rewrite Hf.
    + apply IH; intros i Hi; [apply Hp|apply Hf]; lia.
Qed.
Lemma backs_entries h h' c l : h_entries h' = h_entries h -> backs h c l -> backs h' c l.
Proof.
  intros He H. induction H; [apply backs_root|apply backs_step]; unfold parent_of, pref in *; rewrite ?He; done.
Qed.
Lemma fwds_entries h h' c l : h_entries h' = h_entries h -> fwds h c l -> fwds h' c l.
Proof.
  intros He H. induction H; [apply fwds_leaf|eapply fwds_step]; unfold parent_of, pref in *; rewrite ?He; done.
Qed.
Lemma insert_pref_id h c d e :
  h_entries h !! c = Some e -> pref h c = Some d -> <[c := with_preferred e (Some d)]> (h_entries h) = h_entries h.
Proof.
  intros He Hp. unfold pref in Hp. rewrite He in Hp. apply list_insert_id. rewrite He.
  destruct e; simpl in *. by rewrite Hp.
Qed.

Definition sim_at (h : history) (c : nat) (b f : list nat) : Prop := backs h c b /\ fwds h c f.

Lemma nav_lt h i : all_nav h -> i < length (h_entries h) -> is_navigable h i.
Proof. intros Hn [e He]%lookup_lt_is_Some_2. exists e. eauto. Qed.

Lemma back_at log h c :
  Inv log h -> all_nav h -> h_current h = Some c ->
  go_back h = Ok (match parent_of h c with
                  | Some p => (mk_history (h_entries h) (Some p), Some p)
                  | None => (h, None)
                  end).
Proof.
  intros HI Hn Hc. destruct (back_target_spec _ _ HI) as (r & Hb & Hr). rewrite Hc in Hr.
  unfold go_back. rewrite Hb. simpl. destruct (parent_of h c) as [p|] eqn:Hp.
  - assert (r = Some p) as ->; [|done]. eapply back_goes_to_fun; [exact Hr|]. apply BGhere; [done|].
    apply nav_lt; [done|]. pose proof (inv_par _ _ HI _ _ Hp). apply parent_of_lt in Hp. lia.
  - assert (r = None) as ->; [|done]. eapply back_goes_to_fun; [exact Hr|]. by apply BGroot.
Qed.

Lemma forward_at log h c :
  Inv log h -> all_nav h -> h_current h = Some c ->
  go_forward h None = Ok (match pref h c with
                          | Some d => (mk_history (h_entries h) (Some d), Some d)
                          | None => (h, None)
                          end).
Proof.
  intros HI Hn Hc. destruct (forward_targets_spec _ _ HI) as (ts & Hts & Hm). rewrite Hc in Hm.
  destruct Hm as (Hnd & Hel & Hhd). unfold go_forward. rewrite Hts. simpl.
  destruct (pref h c) as [d|] eqn:Hp.
  - pose proof (pref_parent _ _ _ _ HI Hp) as Hd.
    assert (Hh : head ts = Some d).
    { apply Hhd; [|apply nav_lt; [done|by eapply parent_of_lt]].
      unfold pref in Hp. destruct (h_entries h !! c) as [e|] eqn:He; [|done].
      by rewrite <- (inv_pref _ _ HI _ _ He). }
    destruct ts as [|x ts]; [done|]. injection Hh as ->.
    destruct (forward_to_inv _ _ c d HI Hc Hd) as (e & He & -> & _).
    by rewrite (insert_pref_id _ _ _ _ He Hp).
  - destruct ts as [|x ts]; [done|]. exfalso. destruct (proj1 (Hel x)) as [Hx _]; [by left|].
    eapply pref_None; eauto.
Qed.

(** setters keep parents, preferred children and navigability *)
Lemma setter_same log h f h' :
  (forall e, e_parent (f e) = e_parent e) -> (forall e, e_children (f e) = e_children e) ->
  (forall e, e_preferred (f e) = e_preferred e) -> (forall e, e_navigable (f e) = e_navigable e) ->
  Inv log h -> upd_current h f = Ok h' ->
  h_current h' = h_current h /\ length (h_entries h') = length (h_entries h) /\
  (forall i, parent_of h' i = parent_of h i) /\ (forall i, pref h' i = pref h i) /\ (all_nav h -> all_nav h').
Proof.
  intros H1 H2 H3 H4 HI Hu.
  destruct (upd_current_inv log h f H1 H2 H3 HI) as (h1 & Hu' & _ & Hcur & Hm). rewrite Hu in Hu'. injection Hu' as <-.
  split; [done|]. destruct (h_current h) as [c|]; [|by subst].
  destruct Hm as (e & He & Hes). rewrite Hes, insert_length. split; [done|].
  assert (Hlk : forall i, (exists x, h_entries h' !! i = Some (f x) /\ h_entries h !! i = Some x) \/ h_entries h' !! i = h_entries h !! i).
  { intros i. rewrite Hes. destruct (decide (c = i)) as [->|Hne].
    - left. rewrite list_lookup_insert by (by eapply lookup_lt_Some). eauto.
    - right. by rewrite list_lookup_insert_ne. }
  split_and!.
  - intros i. unfold parent_of. destruct (Hlk i) as [(x & -> & ->)| -> ]; [by rewrite H1|done].
  - intros i. unfold pref. destruct (Hlk i) as [(x & -> & ->)| -> ]; [by rewrite H3|done].
  - intros Hn i x Hx. destruct (Hlk i) as [(y & Hy & Hy')|Hy]; [|rewrite Hy in Hx; eauto].
    rewrite Hy in Hx. injection Hx as <-. rewrite H4. eauto.
Qed.

Lemma backs_same h h' c l : (forall i, parent_of h' i = parent_of h i) -> (forall i, pref h' i = pref h i) -> backs h c l -> backs h' c l.
Proof. intros H1 H2 H. induction H; [apply backs_root|apply backs_step]; rewrite ?H1, ?H2; done. Qed.
Lemma fwds_same h h' c l : (forall i, pref h' i = pref h i) -> fwds h c l -> fwds h' c l.
Proof. intros H2 H. induction H; [apply fwds_leaf|eapply fwds_step]; rewrite ?H2; done. Qed.

Lemma push_backs log h u t h' i :
  Inv log h -> all_nav h -> push h u t = Ok (h', i) ->
  i = length (h_entries h) /\ h_current h' = Some i /\ length (h_entries h') = S i /\ all_nav h' /\ fwds h' i [] /\
  match h_current h with
  | Some c => forall l, backs h c l -> backs h' i (c :: l)
  | None => backs h' i []
  end.
Proof.
  intros HI Hn H. destruct (push_shape log h u t HI) as (es' & Hp & Hlen & Hnew & Hold). rewrite Hp in H. injection H as <- <-.
  set (n := length (h_entries h)) in *. simpl. split_and!; [done|done|done| | |].
  - intros j x Hx. simpl in Hx. destruct (decide (j = n)) as [->|Hne].
    + rewrite Hnew in Hx. by injection Hx as <-.
    + assert (j < S n) by (rewrite <- Hlen; by eapply lookup_lt_Some).
      destruct (Hold j ltac:(lia)) as (e & He & He'). rewrite He' in Hx. injection Hx as <-.
      case_decide; simpl; eauto.
  - constructor. unfold pref; simpl. by rewrite Hnew.
  - pose proof (inv_cur _ _ HI) as Hcl. destruct (h_current h) as [c|] eqn:Hc.
    + intros l Hb. fold n in Hcl.
      destruct (Hold c Hcl) as (e & He & He'). rewrite decide_True in He' by done.
      constructor.
      * unfold parent_of; simpl. rewrite Hnew. done.
      * unfold pref; simpl. by rewrite He'.
      * eapply backs_mono; [apply (inv_par _ _ HI)| | |exact Hb].
        -- intros j Hj. unfold parent_of; simpl. destruct (Hold j ltac:(lia)) as (x & -> & ->). by case_decide.
        -- intros j Hj. unfold pref; simpl. destruct (Hold j ltac:(lia)) as (x & -> & ->).
           rewrite decide_False; [done|]. intros [= ->]. lia.
    + constructor. unfold parent_of; simpl. by rewrite Hnew.
Qed.

(** C05, positive part *)
Definition good (h : history) : Prop :=
  all_nav h /\ match h_current h with Some c => exists l, backs h c l | None => True end.

Lemma step_good log h o h' r :
  Inv log h -> good h -> no_jump o -> step h o = Ok (h', r) -> good h'.
Proof.
  intros HI [Hn Hb] Ho H.
  assert (Hset : forall f, (forall e, e_parent (f e) = e_parent e) -> (forall e, e_children (f e) = e_children e) ->
     (forall e, e_preferred (f e) = e_preferred e) -> (forall e, e_navigable (f e) = e_navigable e) ->
     upd_current h f = Ok h' -> good h').
  { intros f H1 H2 H3 H4 Hu. destruct (setter_same _ _ _ _ H1 H2 H3 H4 HI Hu) as (Hc & _ & Hp & Hpr & Hna).
    split; [auto|]. rewrite Hc. destruct (h_current h); [|done]. destruct Hb as [l Hb].
    exists l. by eapply backs_same. }
  destruct o; simpl in H; try done.
  - destruct (push h url title) as [[h1 i]| |] eqn:Hp; try done. injection H as <- <-.
    destruct (push_backs _ _ _ _ _ _ HI Hn Hp) as (_ & Hc & _ & Hn' & _ & Hb').
    split; [done|]. rewrite Hc. destruct (h_current h); [destruct Hb as [l Hb]|]; eauto.
  - unfold replace_current_url in H. destruct (upd_current _ _) eqn:Hu in H; try done. injection H as <- <-. by eapply Hset, Hu.
  - unfold set_current_title in H. destruct (upd_current _ _) eqn:Hu in H; try done. injection H as <- <-. by eapply Hset, Hu.
  - unfold set_current_scroll in H. destruct (upd_current _ _) eqn:Hu in H; try done. injection H as <- <-. by eapply Hset, Hu.
  - destruct (h_current h) as [c|] eqn:Hc.
    + rewrite (back_at _ _ _ HI Hn Hc) in H. destruct (parent_of h c) as [p|] eqn:Hp; injection H as <- <-.
      * split; [done|]. simpl. destruct Hb as [l Hb]. inversion Hb; simplify_eq. eexists. by eapply (backs_entries h).
      * split; [done|]. by rewrite Hc.
    + destruct (go_back_inv _ _ HI) as (h1 & r1 & Hg & _ & _ & Hr & Hm). rewrite Hg in H. injection H as <- <-.
      rewrite Hc in Hm. subst. rewrite Hr. split; [done|by rewrite Hc].
  - destruct (go_forward_inv log h want HI) as (h1 & r1 & Hg & _ & Hm). rewrite Hg in H. injection H as <- <-.
    destruct r1 as [i|]; [|destruct Hm as [-> _]; done].
    destruct Hm as (c & e & Hc & Ht & He & -> & _). rewrite Hc in Hb. destruct Hb as [l Hb].
    pose proof (inv_par _ _ HI _ _ (proj1 Ht)) as Hlt.
    assert (Hsp : same_par h (mk_history (<[c:=with_preferred e (Some i)]> (h_entries h)) (Some i))) by (by eapply insert_same_par).
    split.
    + intros j x. simpl. destruct (decide (c = j)) as [->|Hne].
      * rewrite list_lookup_insert by (by eapply lookup_lt_Some). intros [= <-]. simpl. eauto.
      * rewrite list_lookup_insert_ne by done. eauto.
    + simpl. exists (c :: l). constructor.
      * rewrite (proj2 Hsp). apply Ht.
      * unfold pref; simpl. by rewrite list_lookup_insert by (by eapply lookup_lt_Some).
      * eapply backs_mono; [apply (inv_par _ _ HI)| | |exact Hb].
        -- intros j _. apply (proj2 Hsp).
        -- intros j Hj. unfold pref; simpl. by rewrite list_lookup_insert_ne by lia.
Qed.

Lemma run_good log h ops h' rs :
  Inv log h -> good h -> Forall no_jump ops -> run h ops = Ok (h', rs) -> good h'.
Proof.
  revert log h rs. induction ops as [|o ops IH]; intros log h rs HI Hg Hf H.
  - injection H as <- <-. done.
  - simpl in H. inversion Hf; subst. destruct (step_inv log h o HI) as (h1 & r & Hs & HI1). rewrite Hs in H. simpl in H.
    destruct (run h1 ops) as [[h2 rs2]| |] eqn:Hr; try done. simpl in H. injection H as <- <-.
    eapply IH; eauto. by eapply (step_good log h).
Qed.

Lemma run_app h ops1 ops2 :
  run h (ops1 ++ ops2) =
    (let* (h1, r1) := run h ops1 in let* (h2, r2) := run h1 ops2 in Ok (h2, r1 ++ r2)).
Proof.
  revert h. induction ops1 as [|o ops IH]; intros h; simpl.
  - by destruct (run h ops2) as [[??]| |].
  - destruct (step h o) as [[h1 r]| |]; simpl; [|done..]. rewrite IH.
    destruct (run h1 ops) as [[h2 r2]| |]; simpl; [|done..].
    by destruct (run h2 ops2) as [[??]| |].
Qed.

Lemma back_forward_k log h k h1 rs :
  Inv log h -> good h -> run h (replicate k OBack) = Ok (h1, rs) -> Forall is_Some rs ->
  exists rs', run h1 (replicate k (OForward None)) = Ok (h, rs').
Proof.
  revert log h h1 rs. induction k as [|k IH]; intros log h h1 rs HI Hg H Hs.
  - injection H as <- <-. simpl. eauto.
  - simpl in H. pose proof Hg as [Hn Hb].
    destruct (h_current h) as [c|] eqn:Hc.
    2:{ destruct (go_back_inv _ _ HI) as (h2 & r1 & Hgb & _ & _ & Hr & Hm). rewrite Hgb in H. simpl in H.
        rewrite Hc in Hm. subst. destruct (run _ _) as [[??]| |]; try done. simpl in H. injection H as <- <-.
        inversion Hs as [|?? [? ?]]; done. }
    rewrite (back_at _ _ _ HI Hn Hc) in H. destruct (parent_of h c) as [p|] eqn:Hp.
    2:{ simpl in H. destruct (run h _) as [[??]| |]; try done. simpl in H. injection H as <- <-.
        inversion Hs as [|?? [? ?]]; done. }
    simpl in H. set (hp := mk_history (h_entries h) (Some p)) in *.
    destruct (run hp _) as [[h2 rs2]| |] eqn:Hr; try done. simpl in H. injection H as <- <-.
    inversion Hs; subst.
    assert (HIp : Inv log hp).
    { apply inv_move; [done|]. pose proof (inv_par _ _ HI _ _ Hp). apply parent_of_lt in Hp. lia. }
    destruct Hb as [l Hb]. inversion Hb; simplify_eq.
    assert (Hgp : good hp). { split; [done|]. simpl. eexists. by eapply (backs_entries h). }
    destruct (IH _ _ _ _ HIp Hgp Hr ltac:(done)) as (rs' & Hf).
    rewrite replicate_S_end, run_app, Hf. simpl.
    rewrite (forward_at _ hp p HIp ltac:(apply Hgp) eq_refl).
    change (pref hp p) with (pref h p). match goal with H : pref h p = Some c |- _ => rewrite H end.
    simpl. eexists. destruct h; simpl in *. by rewrite Hc.
Qed.

Lemma good_empty : good empty_history.
Proof. split; [|done]. intros i e. done. Qed.

Lemma C05_lemma ops h rs k h1 rs1 :
  Forall no_jump ops -> run empty_history ops = Ok (h, rs) ->
  run h (replicate k OBack) = Ok (h1, rs1) -> Forall is_Some rs1 ->
  exists rs2, run h1 (replicate k (OForward None)) = Ok (h, rs2).
Proof.
  intros Hf Hr. pose proof (run_empty_inv _ _ _ Hr) as HI.
  eapply back_forward_k; [exact HI|]. eapply run_good; [apply empty_inv|apply good_empty|done..].
Qed.

(** C47 *)
Definition sim (s : two_stack) (h : history) : Prop :=
  all_nav h /\ ts_next s = length (h_entries h) /\ ts_cur s = h_current h /\
  match h_current h with
  | Some c => backs h c (ts_back s) /\ fwds h c (ts_fwd s)
  | None => ts_back s = [] /\ ts_fwd s = []
  end.

Lemma step_sim log s h o :
  Inv log h -> sim s h -> linear o ->
  exists h', step h o = Ok (h', snd (two_step s o)) /\ sim (fst (two_step s o)) h'.
Proof.
  intros HI (Hn & Hnext & Hcur & Hm) Ho.
  assert (Hset : forall f, (forall e, e_parent (f e) = e_parent e) -> (forall e, e_children (f e) = e_children e) ->
     (forall e, e_preferred (f e) = e_preferred e) -> (forall e, e_navigable (f e) = e_navigable e) ->
     exists h', upd_current h f = Ok h' /\ sim s h').
  { intros f H1 H2 H3 H4. destruct (upd_current_inv log h f H1 H2 H3 HI) as (h' & Hu & _).
    exists h'. split; [done|]. destruct (setter_same _ _ _ _ H1 H2 H3 H4 HI Hu) as (Hc & Hl & Hp & Hpr & Hna).
    split; [auto|]. rewrite Hc, Hl. split_and!; [done..|]. destruct (h_current h); [|done].
    destruct Hm as [Hb Hf]. split; [by eapply backs_same|by eapply fwds_same]. }
  destruct o; simpl in Ho |- *; try done.
  - destruct (push_inv log h url title HI) as (h' & Hp & _).
    destruct (push_backs _ _ _ _ _ _ HI Hn Hp) as (_ & Hc & Hl & Hn' & Hf' & Hb').
    exists h'. rewrite Hp, Hnext. split; [done|]. split; [done|]. simpl. rewrite Hl. split; [done|].
    rewrite Hc. split; [done|]. split; [|done]. rewrite Hcur. destruct (h_current h).
    + apply Hb', Hm.
    + destruct Hm as [-> _]. done.
  - destruct (Hset (fun e => with_url e url)) as (h' & Hu & Hs); [done..|].
    unfold replace_current_url. rewrite Hu. simpl. eauto.
  - destruct (Hset (fun e => with_title e t)) as (h' & Hu & Hs); [done..|].
    unfold set_current_title. rewrite Hu. simpl. eauto.
  - destruct (Hset (fun e => with_scroll e (x,y))) as (h' & Hu & Hs); [done..|].
    unfold set_current_scroll. rewrite Hu. simpl. eauto.
  - rewrite Hcur. destruct (h_current h) as [c|] eqn:Hc.
    + destruct Hm as [Hb Hf]. rewrite (back_at _ _ _ HI Hn Hc). inversion Hb as [? Hp Heq|? p l Hp Hpr Hb2 Heq].
      * rewrite Hp. simpl. exists h. split; [done|]. split; [done|]. rewrite Hc. split_and!; [done|congruence|congruence|done].
      * rewrite Hp. simpl. eexists. split; [done|]. split; [done|]. simpl. split_and!; [done|done|by eapply (backs_entries h)|].
        econstructor; [exact Hpr|]. by eapply (fwds_entries h).
    + destruct (go_back_inv _ _ HI) as (h1 & r1 & Hg & _ & _ & Hr & Hm'). rewrite Hg, Hc in *. subst.
      simpl. eexists; split; [done|]. rewrite Hr. split; [done|]. rewrite Hc. simpl. done.
  - destruct want; [done|]. rewrite Hcur. destruct (h_current h) as [c|] eqn:Hc.
    + destruct Hm as [Hb Hf]. rewrite (forward_at _ _ _ HI Hn Hc). inversion Hf as [? Hp Heq|? d l Hp Hf2 Heq].
      * rewrite Hp. simpl. exists h. split; [done|]. split; [done|]. rewrite Hc. split_and!; [done|congruence|congruence|].
        by subst.
      * rewrite Hp. simpl. eexists. split; [done|]. split; [done|]. simpl. split_and!; [done|done| |by eapply (fwds_entries h)].
        econstructor; [by eapply pref_parent in Hp; [|exact HI]|exact Hp|]. by eapply (backs_entries h).
    + destruct (go_forward_inv _ _ None HI) as (h1 & r1 & Hg & _ & Hm'). rewrite Hg.
      destruct r1; [destruct Hm' as (? & ? & ? & _); congruence|]. destruct Hm' as [-> _].
      simpl. eexists; split; [done|]. split; [done|]. rewrite Hc. done.
Qed.

Lemma run_sim log s h ops :
  Inv log h -> sim s h -> Forall linear ops ->
  exists h', run h ops = Ok (h', snd (two_run s ops)) /\ sim (fst (two_run s ops)) h'.
Proof.
  revert log s h. induction ops as [|o ops IH]; intros log s h HI Hs Hf.
  - simpl. eauto.
  - inversion Hf; subst. destruct (step_sim _ _ _ _ HI Hs ltac:(done)) as (h1 & Hst & Hs1).
    destruct (step_inv log h o HI) as (h1' & r & Hst' & HI1). rewrite Hst in Hst'. injection Hst' as <- <-.
    destruct (IH _ _ _ HI1 Hs1 ltac:(done)) as (h2 & Hr & Hs2).
    simpl. rewrite Hst. simpl. rewrite Hr. simpl.
    destruct (two_step s o) as [s1 r1]. simpl in *. destruct (two_run s1 ops) as [s2 rs2]. simpl in *. eauto.
Qed.

Lemma C47_lemma ops :
  Forall linear ops ->
  exists h, run empty_history ops = Ok (h, snd (two_run two_empty ops)) /\
    let s := fst (two_run two_empty ops) in
    h_current h = ts_cur s /\
    can_go_back h = Ok (match ts_back s with [] => false | _ => true end) /\
    can_go_forward h = Ok (match ts_fwd s with [] => false | _ => true end).
Proof.
  intros Hf. destruct (run_sim [] two_empty empty_history ops empty_inv) as (h & Hr & Hs); [|done|].
  { split; [|done]. by intros ??. }
  exists h. split; [done|]. pose proof (run_empty_inv _ _ _ Hr) as HI.
  set (s := fst _) in *. destruct Hs as (Hn & _ & Hc & Hm). split; [done|].
  destruct (h_current h) as [c|] eqn:Hcur.
  - destruct Hm as [Hb Hfw]. split.
    + pose proof (back_at _ _ _ HI Hn Hcur) as Hg. unfold go_back in Hg. unfold can_go_back.
      destruct (back_target h) as [[?|]| |]; try done; simpl in *;
        inversion Hb as [? Hp Heq|? p l Hp Hpr Hb2 Heq]; rewrite Hp in Hg; simplify_eq; done.
    + destruct (forward_targets_spec _ _ HI) as (ts & Hts & Hm). rewrite Hcur in Hm. destruct Hm as (_ & Hel & _).
      unfold can_go_forward. rewrite Hts. simpl. f_equal. inversion Hfw as [? Hp Heq|? d l Hp Hf2 Heq].
      * destruct ts as [|x ts]; [done|]. destruct (proj1 (Hel x)) as [Hx _]; [by left|]. exfalso. by eapply pref_None.
      * pose proof (pref_parent _ _ _ _ HI Hp) as Hd. destruct ts as [|x ts]; [|done].
        assert (Hin : d ∈ @nil nat). { apply Hel. split; [done|]. apply nav_lt; [done|]. by eapply parent_of_lt. }
        by apply not_elem_of_nil in Hin.
  - destruct Hm as [-> ->]. unfold can_go_back, can_go_forward, back_target, forward_targets. by rewrite Hcur.
Qed.
