From stdpp Require Import gmap.
From Verif Require Import Base SettingsModel ConfigModel ConfigSpec SettingsProofs.

Lemma filter_sublist {A} (P : A -> Prop) `{!forall x, Decision (P x)} (l : list A) : filter P l `sublist_of` l.
Proof. induction l as [|x l IH]; [done|]. rewrite filter_cons. case_decide; by constructor. Qed.

(** ** Wildcards *)
Lemma glob_star p s : glob (42%N :: p) s = true <-> exists a b, s = a ++ b /\ glob p b = true.
Proof.
  induction s as [|c s IH].
  - cbn. rewrite orb_false_r. split; [intros H; by exists [], []|].
    intros (a & b & H & H2). symmetry in H. apply app_eq_nil in H as [-> ->]. done.
  - change (glob (42%N :: p) (c :: s)) with (glob p (c :: s) || glob (42%N :: p) s).
    rewrite orb_true_iff, IH. split.
    + intros [H|(a & b & -> & H)]; [by exists [], (c :: s)|by exists (c :: a), b].
    + intros ([|x a] & b & H & H2); [left; simpl in H; by subst|].
      injection H as -> ->. right. by exists a, b.
Qed.
Lemma glob_cons c p s : c <> 42%N ->
  glob (c :: p) s = match s with [] => false | d :: s' => ((c =? 63)%N || (c =? d)%N) && glob p s' end.
Proof. intros H. cbn [glob]. by rewrite (proj2 (N.eqb_neq c 42)). Qed.

Lemma wild_star p s : wild_matches (42%N :: p) s <-> exists a b, s = a ++ b /\ wild_matches p b.
Proof.
  split.
  - intros H. remember (42%N :: p) as q eqn:Eq. induction H as [|q s H IH|q c s H IH|q c s H IH|q c s H1 H2 H IH]; try done.
    + injection Eq as ->. by exists [], s.
    + destruct (IH Eq) as (a & b & -> & Hb). by exists (c :: a), b.
    + injection Eq as -> ->. done.
  - intros (a & b & -> & H). induction a as [|c a IH]; [by apply wm_skip|by apply wm_more].
Qed.

Lemma glob_spec p s : glob p s = true <-> wild_matches p s.
Proof.
  revert s. induction p as [|c p IH]; intros s.
  - cbn. destruct s; split; try done; [constructor|]. intros H. inversion H.
  - destruct (decide (c = 42%N)) as [->|Hc].
    + rewrite glob_star, wild_star. by setoid_rewrite IH.
    + rewrite glob_cons by done. destruct s as [|d s].
      * split; [done|]. intros H. inversion H; subst; done.
      * rewrite andb_true_iff, orb_true_iff, !N.eqb_eq, IH. split.
        -- intros [[->| ->] H]; [by constructor|]. destruct (decide (d = 63%N)) as [->|]; by constructor.
        -- intros H. inversion H; subst; try done; auto.
Qed.

Section proofs.
  Context {fo : float_ops} (is_bool_value : str -> bool).
  Notation step := (step is_bool_value).
  Notation run := (run is_bool_value).
  Notation cfg_set := (cfg_set is_bool_value).
  Notation store_set := (store_set is_bool_value).
  Notation accepted := (accepted is_bool_value).
  Notation valid_for := (valid_for is_bool_value).

  (** ** Schema *)
  Lemma new_snoc schema i : new (schema ++ [i]) = add_info (new schema) i.
  Proof. unfold new. by rewrite foldl_app. Qed.
  Lemma declared_snoc schema i k :
    declared (schema ++ [i]) k = if decide (i_key i = k) then Some i else declared schema k.
  Proof.
    unfold declared. rewrite filter_app, filter_cons, filter_nil. case_decide; [by rewrite last_snoc|by rewrite app_nil_r].
  Qed.
  Lemma new_infos schema k : infos (new schema) !! k = declared schema k.
  Proof.
    induction schema as [|i schema IH] using rev_ind; [by cbn; rewrite lookup_empty|].
    rewrite new_snoc, declared_snoc. simpl. case_decide; subst.
    - by rewrite lookup_insert.
    - by rewrite lookup_insert_ne.
  Qed.
  Lemma new_settings schema k : settings (new schema) !! k = i_default <$> declared schema k.
  Proof.
    induction schema as [|i schema IH] using rev_ind; [by cbn; rewrite lookup_empty|].
    rewrite new_snoc, declared_snoc. simpl. case_decide; subst.
    - by rewrite lookup_insert.
    - by rewrite lookup_insert_ne.
  Qed.
  Lemma new_keys schema : keys (new schema) = map i_key schema.
  Proof.
    induction schema as [|i schema IH] using rev_ind; [done|]. rewrite new_snoc, map_app. simpl. by rewrite IH.
  Qed.
  Lemma new_rest schema : storage (new schema) = ∅ /\ subs (new schema) = [] /\ next_sub (new schema) = 0%N.
  Proof. induction schema as [|i schema IH] using rev_ind; [done|]. rewrite new_snoc. done. Qed.
  Lemma declared_key schema k i : declared schema k = Some i -> i_key i = k /\ i ∈ schema.
  Proof.
    unfold declared. intros H. apply last_Some in H as [l H].
    assert (i ∈ filter (fun i => i_key i = k) schema) as Hi by (rewrite H; set_solver).
    apply elem_of_list_filter in Hi. done.
  Qed.

  (** ** Steps *)
  Lemma step_infos s o : infos (step s o).1.1 = infos s.
  Proof.
    destruct o as [k v ok|k ok|k ok|p|id]; unfold ConfigModel.step, ConfigModel.cfg_set, cfg_remove, ConfigModel.store_set, store_remove, get; simpl; repeat case_match; simplify_eq/=; done.
  Qed.
  Lemma step_keys s o : keys (step s o).1.1 = keys s.
  Proof.
    destruct o as [k v ok|k ok|k ok|p|id]; unfold ConfigModel.step, ConfigModel.cfg_set, cfg_remove, ConfigModel.store_set, store_remove, get; simpl; repeat case_match; simplify_eq/=; done.
  Qed.
  Lemma run_snoc s ops o : run s (ops ++ [o]) = (step (run s ops) o).1.1.
  Proof. unfold ConfigModel.run. by rewrite foldl_app. Qed.
  Lemma run_infos s ops : infos (run s ops) = infos s.
  Proof. induction ops as [|o ops IH] using rev_ind; [done|]. by rewrite run_snoc, step_infos. Qed.
  Lemma run_keys s ops : keys (run s ops) = keys s.
  Proof. induction ops as [|o ops IH] using rev_ind; [done|]. by rewrite run_snoc, step_keys. Qed.

  (** what a set does *)
  Lemma step_set s k v ok :
    step s (OSet k v ok) =
      if accepted s k v then
        let s1 := with_settings s (<[k := v]> (settings s)) in
        if ok then (with_storage s1 (<[k := v]> (storage s)), true,
                    if changed_to s k v then map (fun b => (sub_id b, k, v)) (matching s k) else [])
        else (s1, false, [])
      else (s, false, []).
  Proof.
    unfold ConfigModel.step, ConfigModel.cfg_set, ConfigModel.store_set. destruct (accepted s k v); [|done].
    destruct ok; [|done]. destruct (changed_to s k v); done.
  Qed.
  Lemma step_remove s k ok :
    step s (ORemove k ok) =
      match infos s !! k with
      | None => (s, false, [])
      | Some i =>
          if ok then (with_storage (with_settings s (<[k := i_default i]> (settings s))) (delete k (storage s)), true,
                      if changed_to s k (i_default i) then map (fun b => (sub_id b, k, i_default i)) (matching s k) else [])
          else (s, false, [])
      end.
  Proof.
    unfold ConfigModel.step, cfg_remove, store_remove. destruct (infos s !! k); [|done].
    destruct ok; [|done]. destruct (changed_to s k _); done.
  Qed.

  (** every declared key always has a live value *)
  Definition total (s : store) : Prop := forall k, is_Some (infos s !! k) -> is_Some (settings s !! k).
  Lemma step_total s o : total s -> total (step s o).1.1.
  Proof.
    intros Ht k. rewrite step_infos. intros Hk. specialize (Ht k Hk).
    assert (forall k' v, is_Some (<[k' := v]> (settings s) !! k)) as Hins.
    { intros k' v. destruct (decide (k' = k)) as [->|]; [by rewrite lookup_insert|by rewrite lookup_insert_ne]. }
    destruct o as [k' v ok|k' ok|k' ok|p|id].
    - rewrite step_set. repeat case_match; simpl; auto.
    - rewrite step_remove. repeat case_match; simpl; auto.
    - unfold ConfigModel.step, get. repeat case_match; simplify_eq/=; auto.
    - done.
    - done.
  Qed.
  Lemma new_total schema : total (new schema).
  Proof. intros k. rewrite new_infos, new_settings. intros [i ->]. by eexists. Qed.
  Lemma run_total s ops : total s -> total (run s ops).
  Proof. intros H. induction ops as [|o ops IH] using rev_ind; [done|]. rewrite run_snoc. by apply step_total. Qed.

  Lemma get_declared s k i ok : total s -> infos s !! k = Some i ->
    exists v, settings s !! k = Some v /\ get s k ok = (s, ROk (Some v)).
  Proof.
    intros Ht Hi. destruct (Ht k) as [v Hv]; [by eexists|]. exists v. split; [done|]. unfold get. by rewrite Hv.
  Qed.

  (** ** Acceptance *)
  Lemma kind_same a b : (kind a =? kind b) = true <-> same_type a b.
  Proof. rewrite Nat.eqb_eq. destruct a, b; simpl; try done; (split; [lia|done]). Qed.
  Lemma numeric_sint v : not_huge v -> to_sint is_bool_value v = numeric is_bool_value v.
  Proof. destruct v; simpl; try done. intros H. by rewrite (proj2 (Z.leb_le _ _) H). Qed.
  Lemma allows_spec c v : not_huge v -> allows is_bool_value c v = true <-> satisfies is_bool_value c v.
  Proof.
    intros Hv. destruct c as [l|l]; simpl.
    - rewrite existsb_exists. split.
      + intros (x & Hx & E). apply bool_decide_eq_true in E. subst. by apply elem_of_list_In.
      + intros H. exists (value_string v). split; [by apply elem_of_list_In|by apply bool_decide_eq_true].
    - rewrite existsb_exists, numeric_sint by done. split.
      + intros ([lo hi] & Hx & E). simpl in E. apply andb_true_iff in E as [E1 E2]. apply Z.leb_le in E1, E2.
        exists lo, hi. split; [by apply elem_of_list_In|done].
      + intros (lo & hi & Hx & E1 & E2). exists (lo, hi). split; [by apply elem_of_list_In|]. simpl.
        by rewrite (proj2 (Z.leb_le _ _) E1), (proj2 (Z.leb_le _ _) E2).
  Qed.
  Lemma accepted_spec s k v : not_huge v ->
    accepted s k v = true <-> exists i, infos s !! k = Some i /\ valid_for i v.
  Proof.
    intros Hv. unfold ConfigModel.accepted, ConfigSpec.valid_for. destruct (infos s !! k) as [i|]; [|naive_solver].
    rewrite andb_true_iff, kind_same. destruct (i_constraint i) as [c|] eqn:Ec.
    - rewrite allows_spec by done. split.
      + intros H. exists i. by rewrite Ec.
      + intros (j & [= <-] & H). by rewrite Ec in H.
    - split.
      + intros [H _]. exists i. by rewrite Ec.
      + by intros (j & [= <-] & H & _).
  Qed.

  (** ** C26 *)
  Lemma set_reply schema ops k v ok :
    not_huge v ->
    (step (run (new schema) ops) (OSet k v ok)).1.2 = true <->
    ok = true /\ exists i, declared schema k = Some i /\ valid_for i v.
  Proof.
    intros Hv. rewrite <- new_infos, <- (run_infos (new schema) ops), <- accepted_spec by done.
    rewrite step_set. destruct (accepted _ k v); simpl; [|naive_solver]. destruct ok; simpl; naive_solver.
  Qed.

  Lemma replies_snoc s ops o :
    replies is_bool_value s (ops ++ [o]) = replies is_bool_value s ops ++ [(step (run s ops) o).1.2].
  Proof.
    revert s. induction ops as [|x ops IH]; intros s; cbn [app replies].
    - unfold ConfigModel.run. simpl. by destruct (step s o) as [[s' b] ns].
    - assert (run s (x :: ops) = run (step s x).1.1 ops) as -> by done.
      destruct (step s x) as [[s' b] ns] eqn:E. by rewrite IH.
  Qed.
  Lemma replies_length s ops : length (replies is_bool_value s ops) = length ops.
  Proof. revert s. induction ops as [|x ops IH]; intros s; [done|]. cbn [replies]. destruct (step s x) as [[s' b] ns]. simpl. by rewrite IH. Qed.
  Lemma value_after_snoc k d cur log x :
    value_after k d cur (log ++ [x]) = value_after k d (value_after k d cur log) [x].
  Proof.
    revert cur. induction log as [|[o b] log IH]; intros cur; [done|]. cbn [app value_after].
    destruct o, b; apply IH.
  Qed.

  Lemma run_value s0 ops k v0 i :
    Forall storage_ok ops -> total s0 ->
    infos s0 !! k = Some i -> settings s0 !! k = Some v0 ->
    settings (run s0 ops) !! k = Some (value_after k (i_default i) v0 (zip ops (replies is_bool_value s0 ops))).
  Proof.
    intros HF Ht Hi Hv. induction ops as [|o ops IH] using rev_ind; [done|].
    apply Forall_app in HF as [HF Ho]. rewrite Forall_singleton in Ho. specialize (IH HF).
    rewrite run_snoc, replies_snoc, zip_with_app by (by rewrite replies_length).
    cbn [zip_with]. rewrite value_after_snoc.
    pose proof (run_infos s0 ops) as Hinf. pose proof (run_total s0 ops Ht) as Htot.
    set (cur := value_after _ _ _ _) in *. set (s := run s0 ops) in *.
    destruct o as [k' v ok|k' ok|k' ok|p|id]; simpl in Ho; subst; cbn [fst snd].
    - rewrite step_set. destruct (accepted s k' v); cbn [fst snd value_after]; [|done]. simpl. case_decide; subst.
      + by rewrite lookup_insert.
      + by rewrite lookup_insert_ne.
    - rewrite step_remove. destruct (infos s !! k') as [i'|] eqn:E; cbn [fst snd value_after]; [|done]. simpl. case_decide; subst.
      + rewrite Hinf, Hi in E. injection E as <-. by rewrite lookup_insert.
      + by rewrite lookup_insert_ne.
    - unfold ConfigModel.step, get. destruct (settings s !! k') eqn:E; [done|]. simpl.
      destruct (storage s !! k') eqn:E2; [|done]. cbn [fst snd value_after]. simpl.
      destruct (decide (k' = k)) as [->|]; [congruence|]. by rewrite lookup_insert_ne.
    - done.
    - destruct (unsubscribe s id) as [s' b] eqn:E. unfold ConfigModel.step. rewrite E. unfold unsubscribe in E. injection E as <- <-. cbn [fst snd].
      simpl. done.
  Qed.

  Lemma get_last_set schema ops k i ok :
    Forall storage_ok ops -> declared schema k = Some i ->
    (get (run (new schema) ops) k ok).2 =
      ROk (Some (value_after k (i_default i) (i_default i) (zip ops (replies is_bool_value (new schema) ops)))).
  Proof.
    intros HF Hi. unfold get.
    rewrite (run_value (new schema) ops k (i_default i) i); [done|done|apply new_total|by rewrite new_infos|].
    rewrite new_settings, Hi. done.
  Qed.

  Lemma failed_unchanged s o : storage_ok o -> (step s o).1.2 = false -> (step s o).1.1 = s.
  Proof.
    intros Ho. destruct o as [k v ok|k ok|k ok|p|id]; simpl in Ho; subst.
    - rewrite step_set. by destruct (accepted s k v).
    - rewrite step_remove. by destruct (infos s !! k).
    - unfold ConfigModel.step, get. destruct (settings s !! k); [done|]. simpl. by destruct (storage s !! k).
    - done.
    - unfold ConfigModel.step, unsubscribe. simpl. intros H. apply negb_false_iff, Nat.eqb_eq in H.
      assert (filter (fun b => sub_id b <> id) (subs s) = subs s) as ->.
      { clear -H. induction (subs s) as [|b l IH]; [done|]. rewrite filter_cons in *. case_decide.
        - simpl in H. injection H as H. by rewrite IH.
        - pose proof (filter_length (fun b => sub_id b <> id) l). simpl in H. lia. }
      by destruct s.
  Qed.

  (** every value a declared key holds is its default or a value that was checked *)
  Definition checked (s : store) : Prop :=
    forall k i v, infos s !! k = Some i -> settings s !! k = Some v -> v = i_default i \/ accepted s k v = true.
  Lemma accepted_infos s s' k v : infos s' = infos s -> accepted s' k v = accepted s k v.
  Proof. intros H. unfold ConfigModel.accepted. by rewrite H. Qed.
  Lemma step_checked s o : total s -> checked s -> checked (step s o).1.1.
  Proof.
    intros Ht Hc k i v. rewrite step_infos. rewrite (accepted_infos s _ k v) by apply step_infos. intros Hi.
    destruct o as [k' v' ok|k' ok|k' ok|p|id].
    - rewrite step_set. destruct (accepted s k' v') eqn:Ea; simpl; [|by apply Hc].
      destruct ok; simpl; (destruct (decide (k' = k)) as [->|]; [rewrite lookup_insert; intros [= <-]; by right|rewrite lookup_insert_ne by done; by apply Hc]).
    - rewrite step_remove. destruct (infos s !! k') as [i'|] eqn:E; simpl; [|by apply Hc]. destruct ok; simpl; [|by apply Hc].
      destruct (decide (k' = k)) as [->|]; [rewrite lookup_insert; intros [= <-]; left; congruence|rewrite lookup_insert_ne by done; by apply Hc].
    - unfold ConfigModel.step, get. destruct (settings s !! k') eqn:E; [by apply Hc|]. destruct ok; simpl; [|by apply Hc].
      destruct (storage s !! k') eqn:E2; simpl; [|by apply Hc].
      destruct (decide (k' = k)) as [->|]; [|rewrite lookup_insert_ne by done; by apply Hc].
      destruct (Ht k) as [x Hx]; [by eexists|congruence].
    - by apply Hc.
    - by apply Hc.
  Qed.
  Lemma run_checked schema ops : checked (run (new schema) ops).
  Proof.
    induction ops as [|o ops IH] using rev_ind.
    - intros k i v. simpl. rewrite new_infos, new_settings. intros -> [= <-]. by left.
    - rewrite run_snoc. apply step_checked; [|done]. apply run_total, new_total.
  Qed.

  Lemma values_valid schema ops k i v ok :
    declared schema k = Some i -> (get (run (new schema) ops) k ok).2 = ROk (Some v) ->
    v = i_default i \/ (not_huge v -> valid_for i v).
  Proof.
    intros Hi Hg. assert (infos (run (new schema) ops) !! k = Some i) as Hi2 by by rewrite run_infos, new_infos.
    destruct (get_declared (run (new schema) ops) k i ok) as (w & Hw & E); [apply run_total, new_total|done|].
    rewrite E in Hg. simpl in Hg. injection Hg as ->.
    destruct (run_checked schema ops k i v Hi2 Hw) as [->|H]; [by left|]. right. intros Hn.
    apply accepted_spec in H as (i' & Hi' & H); [|done]. congruence.
  Qed.

  Lemma eqb_same a b : setting_eqb a b = true <-> same_value a b.
  Proof.
    destruct a, b; simpl; try done; rewrite ?Z.eqb_eq, ?N.eqb_eq, ?bool_decide_eq_true, ?eqb_true_iff; naive_solver.
  Qed.
  Lemma eqb_neq a b : setting_eqb a b = false <-> ~ same_value a b.
  Proof. rewrite <- eqb_same. by rewrite not_true_iff_false. Qed.

  (** ** Subscriptions *)
  Definition pair_of (b : sub) : N * str := (sub_id b, sub_pat b).

  Lemma live_snoc n acc ops o :
    live n acc (ops ++ [o]) = live (n + N.of_nat (subscriptions_made ops)) (live n acc ops) [o].
  Proof.
    revert n acc. induction ops as [|x ops IH]; intros n acc.
    - cbn [app]. unfold subscriptions_made. rewrite filter_nil. simpl. by rewrite N.add_0_r.
    - assert (N.of_nat (subscriptions_made (x :: ops)) =
        (match x with OSubscribe _ => 1 | _ => 0 end + N.of_nat (subscriptions_made ops))%N) as ->.
      { unfold subscriptions_made. rewrite filter_cons. destruct x; simpl; try done. lia. }
      rewrite N.add_assoc. destruct x; rewrite ?N.add_0_r; exact (IH _ _).
  Qed.
  Lemma subs_made_snoc ops o :
    subscriptions_made (ops ++ [o]) = subscriptions_made ops + (match o with OSubscribe _ => 1 | _ => 0 end).
  Proof.
    unfold subscriptions_made. rewrite filter_app, app_length. f_equal. rewrite filter_cons, filter_nil.
    by destruct o.
  Qed.

  Lemma step_subs s o :
    map pair_of (subs (step s o).1.1) = live (next_sub s) (map pair_of (subs s)) [o] /\
    next_sub (step s o).1.1 = (next_sub s + match o with OSubscribe _ => 1 | _ => 0 end)%N.
  Proof.
    destruct o as [k v ok|k ok|k ok|p|id]; cbn [live].
    - rewrite step_set. repeat case_match; simpl; by rewrite N.add_0_r.
    - rewrite step_remove. repeat case_match; simpl; by rewrite N.add_0_r.
    - unfold ConfigModel.step, get. repeat case_match; simplify_eq/=; by rewrite N.add_0_r.
    - simpl. rewrite map_app. done.
    - simpl. split; [|by rewrite N.add_0_r]. induction (subs s) as [|b l IH]; [done|].
      cbn [map]. rewrite !filter_cons. simpl. case_decide; simpl; by rewrite IH.
  Qed.
  Lemma run_subs schema ops :
    map pair_of (subs (run (new schema) ops)) = live 0 [] ops /\
    next_sub (run (new schema) ops) = N.of_nat (subscriptions_made ops).
  Proof.
    destruct (new_rest schema) as (_ & Hs & Hn).
    induction ops as [|o ops [IH1 IH2]] using rev_ind.
    - unfold ConfigModel.run. simpl. by rewrite Hs, Hn.
    - rewrite run_snoc. destruct (step_subs (run (new schema) ops) o) as [H1 H2].
      rewrite H1, H2, IH1, IH2, live_snoc, N.add_0_l, subs_made_snoc. split; [done|]. destruct o; lia.
  Qed.

  Lemma matching_notifies schema ops k v :
    notifies_all ops k v (map (fun b => (sub_id b, k, v)) (matching (run (new schema) ops) k)).
  Proof.
    destruct (run_subs schema ops) as [H _]. unfold notifies_all. rewrite <- H.
    exists (map pair_of (matching (run (new schema) ops) k)). split; [|split].
    - by rewrite map_map.
    - unfold matching. apply (fmap_sublist pair_of), filter_sublist.
    - intros [id p]. rewrite !elem_of_list_fmap. unfold matching. split.
      + intros (b & E & Hb). apply elem_of_list_filter in Hb as [Hg Hb]. apply glob_spec in Hg. injection E as -> ->.
        split; [by exists b|done].
      + intros [(b & E & Hb) Hw]. injection E as -> ->. exists b. split; [done|].
        apply elem_of_list_filter. split; [by apply glob_spec|done].
  Qed.

  Lemma set_notifies schema ops k v ok s' b ns :
    step (run (new schema) ops) (OSet k v ok) = (s', b, ns) ->
    (b = true /\ (exists old, (get (run (new schema) ops) k true).2 = ROk (Some old) /\ ~ same_value old v) ->
      notifies_all ops k v ns) /\
    (b = false \/ (exists old, (get (run (new schema) ops) k true).2 = ROk (Some old) /\ same_value old v) -> ns = []).
  Proof.
    rewrite step_set. set (s := run (new schema) ops). destruct (accepted s k v) eqn:Ea.
    2:{ intros [= <- <- <-]. split; [by intros [? _]|done]. }
    destruct ok; [|intros [= <- <- <-]; split; [by intros [? _]|done]].
    assert (exists i, infos s !! k = Some i) as [i Hi].
    { unfold ConfigModel.accepted in Ea. destruct (infos s !! k); [by eexists|done]. }
    destruct (get_declared s k i true) as (old & Hold & Hg); [apply run_total, new_total|done|].
    rewrite Hg. unfold changed_to. rewrite Hold. simpl. intros [= <- <- <-]. split.
    - intros [_ (old' & [= <-] & Hne)]. rewrite (proj2 (eqb_neq _ _) Hne). simpl. apply matching_notifies.
    - intros [?|(old' & [= <-] & He)]; [done|]. rewrite (proj2 (eqb_same _ _) He). done.
  Qed.
  Lemma remove_notifies schema ops k ok s' b ns :
    step (run (new schema) ops) (ORemove k ok) = (s', b, ns) ->
    (forall i, b = true -> declared schema k = Some i ->
       (exists old, (get (run (new schema) ops) k true).2 = ROk (Some old) /\ ~ same_value old (i_default i)) ->
       notifies_all ops k (i_default i) ns) /\
    (b = false \/ (exists i old, declared schema k = Some i /\
       (get (run (new schema) ops) k true).2 = ROk (Some old) /\ same_value old (i_default i)) -> ns = []).
  Proof.
    rewrite step_remove. rewrite <- (new_infos schema k), <- (run_infos (new schema) ops). set (s := run (new schema) ops).
    destruct (infos s !! k) as [i|] eqn:Hi.
    2:{ intros [= <- <- <-]. split; [done|done]. }
    destruct ok; [|intros [= <- <- <-]; split; [done|done]].
    destruct (get_declared s k i true) as (old & Hold & Hg); [apply run_total, new_total|done|].
    rewrite Hg. unfold changed_to. rewrite Hold. simpl. intros [= <- <- <-]. split.
    - intros i' _ [= <-] (old' & [= <-] & Hne). rewrite (proj2 (eqb_neq _ _) Hne). simpl. apply matching_notifies.
    - intros [?|(i' & old' & [= <-] & [= <-] & He)]; [done|]. rewrite (proj2 (eqb_same _ _) He). done.
  Qed.
  Lemma others_silent s o s' b ns :
    step s o = (s', b, ns) -> match o with OSet _ _ _ | ORemove _ _ => True | _ => ns = [] end.
  Proof. destruct o; try done; unfold ConfigModel.step; repeat case_match; intros [= <- <- <-]; done. Qed.

  Lemma live_ids ops : NoDup (map fst (live 0 [] ops)) /\ Forall (fun x => (x.1 < N.of_nat (subscriptions_made ops))%N) (live 0 [] ops).
  Proof.
    induction ops as [|o ops [IH1 IH2]] using rev_ind; [split; constructor|].
    rewrite live_snoc, N.add_0_l, subs_made_snoc.
    assert (HF : Forall (fun x => (x.1 < N.of_nat (subscriptions_made ops + match o with OSubscribe _ => 1 | _ => 0 end))%N) (live 0 [] ops)).
    { eapply Forall_impl; [exact IH2|]. intros x Hx. simpl in Hx. lia. }
    destruct o as [k v ok|k ok|k ok|p|id]; cbn [live]; try done.
    - split.
      + rewrite map_app. apply NoDup_app. split; [done|]. split; [|apply NoDup_singleton].
        intros x Hx Hx2. apply elem_of_list_singleton in Hx2. simpl in Hx2. subst x.
        apply elem_of_list_fmap in Hx as (y & Hy1 & Hy2). rewrite Forall_forall in IH2. apply IH2 in Hy2. lia.
      + apply Forall_app. split; [done|]. apply Forall_singleton. simpl. lia.
    - split.
      + clear -IH1. induction (live 0 [] ops) as [|x l IH]; [done|]. apply NoDup_cons in IH1 as [H1 H2].
        rewrite filter_cons. case_decide; [|by apply IH]. simpl. apply NoDup_cons. split; [|by apply IH].
        intros Hin. apply H1. apply elem_of_list_fmap in Hin as (y & Hy1 & Hy2). apply elem_of_list_filter in Hy2 as [_ Hy2].
        apply elem_of_list_fmap. by exists y.
      + apply Forall_forall. intros x Hx. apply elem_of_list_filter in Hx as [_ Hx]. rewrite Forall_forall in HF. by apply HF.
  Qed.

  Lemma unsubscribed_gone ops1 id ops2 :
    (id < N.of_nat (subscriptions_made ops1))%N ->
    id ∉ map fst (live 0 [] (ops1 ++ OUnsubscribe id :: ops2)) /\
    (id < N.of_nat (subscriptions_made (ops1 ++ OUnsubscribe id :: ops2)))%N.
  Proof.
    intros Hid. induction ops2 as [|o ops2 [IH1 IH2]] using rev_ind.
    - rewrite live_snoc, subs_made_snoc. split; [|lia]. cbn [live]. intros Hin.
      apply elem_of_list_fmap in Hin as (y & Hy1 & Hy2). apply elem_of_list_filter in Hy2 as [Hy _]. done.
    - rewrite app_comm_cons, app_assoc, live_snoc, subs_made_snoc. set (ops := ops1 ++ OUnsubscribe id :: ops2) in *.
      split; [|lia]. destruct o as [k v ok|k ok|k ok|p|id']; cbn [live]; try done.
      + rewrite map_app. intros Hin. apply elem_of_app in Hin as [Hin|Hin]; [done|].
        apply elem_of_list_singleton in Hin. simpl in Hin. lia.
      + intros Hin. apply IH1. apply elem_of_list_fmap in Hin as (y & Hy1 & Hy2). apply elem_of_list_filter in Hy2 as [_ Hy2].
        apply elem_of_list_fmap. by exists y.
  Qed.

  Lemma notes_live schema ops o s' b ns n :
    step (run (new schema) ops) o = (s', b, ns) -> n ∈ ns -> n.1.1 ∈ map fst (live 0 [] ops).
  Proof.
    intros E Hn. destruct (run_subs schema ops) as [H _]. rewrite <- H.
    assert (forall k v, n ∈ map (fun b => (sub_id b, k, v)) (matching (run (new schema) ops) k) ->
       n.1.1 ∈ map fst (map pair_of (subs (run (new schema) ops)))) as Hm.
    { intros k v Hin. apply elem_of_list_fmap in Hin as (x & -> & Hx). apply elem_of_list_filter in Hx as [_ Hx].
      apply elem_of_list_fmap. exists (pair_of x). split; [done|]. apply elem_of_list_fmap. by exists x. }
    destruct o as [k v ok|k ok|k ok|p|id].
    - rewrite step_set in E. cbv zeta in E. repeat case_match; simplify_eq; try (by apply elem_of_nil in Hn). eauto.
    - rewrite step_remove in E. repeat case_match; simplify_eq; try (by apply elem_of_nil in Hn). eauto.
    - apply others_silent in E. simpl in E. subst. by apply elem_of_nil in Hn.
    - apply others_silent in E. simpl in E. subst. by apply elem_of_nil in Hn.
    - apply others_silent in E. simpl in E. subst. by apply elem_of_nil in Hn.
  Qed.

  Lemma unsubscribed_silent schema ops1 id ops2 o s' b ns n :
    (id < N.of_nat (subscriptions_made ops1))%N ->
    step (run (new schema) (ops1 ++ OUnsubscribe id :: ops2)) o = (s', b, ns) -> n ∈ ns -> n.1.1 <> id.
  Proof.
    intros Hid E Hn Heq. apply (notes_live _ _ _ _ _ _ _ E) in Hn. rewrite Heq in Hn. by apply unsubscribed_gone in Hn.
  Qed.

  (** ** A listener stays in sync *)
  Lemma callbacks_snoc s ops o :
    callbacks is_bool_value s (ops ++ [o]) = callbacks is_bool_value s ops ++ (step (run s ops) o).2.
  Proof.
    revert s. induction ops as [|x ops IH]; intros s; cbn [app callbacks].
    - unfold ConfigModel.run. simpl. destruct (step s o) as [[s' b] ns]. by rewrite app_nil_r.
    - assert (run s (x :: ops) = run (step s x).1.1 ops) as -> by done.
      destruct (step s x) as [[s' b] ns] eqn:E. by rewrite IH, app_assoc.
  Qed.
  Lemma run_app s a b : run s (a ++ b) = run (run s a) b.
  Proof. unfold ConfigModel.run. by rewrite foldl_app. Qed.

  Lemma told_app id k cur a b : told id k cur (a ++ b) = told id k (told id k cur a) b.
  Proof.
    assert (forall l1 l2 : list setting, default cur (last (l1 ++ l2)) = default (default cur (last l1)) (last l2)) as H.
    { intros l1 l2. rewrite last_app. by destruct (last l2). }
    unfold told. rewrite filter_app, map_app. exact (H _ _).
  Qed.
  Lemma told_matching s id k v cur p k' :
    NoDup (map sub_id (subs s)) -> mk_sub id p ∈ subs s -> wild_matches p k ->
    told id k cur (map (fun b => (sub_id b, k', v)) (matching s k')) = if decide (k' = k) then v else cur.
  Proof.
    intros Hnd Hin Hw. unfold told. case_decide as Hk; [subst k'|].
    - assert (mk_sub id p ∈ matching s k) as Hm.
      { apply elem_of_list_filter. split; [by apply glob_spec|done]. }
      assert (map (fun n : note => n.2) (filter (fun n : note => n.1 = (id, k)) (map (fun b => (sub_id b, k, v)) (matching s k))) <> [] /\
         forall x, x ∈ map (fun n : note => n.2) (filter (fun n : note => n.1 = (id, k)) (map (fun b => (sub_id b, k, v)) (matching s k))) -> x = v) as [H1 H2].
      { split.
        - intros E. assert (v ∈ ([] : list setting)) as Hv; [|by apply elem_of_nil in Hv]. rewrite <- E.
          apply elem_of_list_fmap. exists (id, k, v). split; [done|]. apply elem_of_list_filter. split; [done|].
          apply elem_of_list_fmap. by exists (mk_sub id p).
        - intros x Hx. apply elem_of_list_fmap in Hx as (n & -> & Hn). apply elem_of_list_filter in Hn as [_ Hn].
          apply elem_of_list_fmap in Hn as (b & -> & _). done. }
      assert (forall l : list setting, l <> [] -> (forall x, x ∈ l -> x = v) -> default cur (last l) = v) as Hl.
      { intros l Hne Hall. destruct (last l) as [x|] eqn:E.
        - simpl. apply Hall. apply last_Some in E as [l' ->]. set_solver.
        - apply last_None in E. done. }
      exact (Hl _ H1 H2).
    - rewrite filter_none; [done|]. intros n Hn Heq. apply elem_of_list_fmap in Hn as (b & -> & _). simpl in Heq. congruence.
  Qed.

  Lemma live_stays id ops1 p ops2 :
    id = N.of_nat (subscriptions_made ops1) -> OUnsubscribe id ∉ ops2 ->
    (id, p) ∈ live 0 [] (ops1 ++ OSubscribe p :: ops2).
  Proof.
    intros Hid. induction ops2 as [|o ops2 IH] using rev_ind; intros Hno.
    - rewrite live_snoc, N.add_0_l. cbn [live]. rewrite <- Hid. set_solver.
    - rewrite app_comm_cons, app_assoc, live_snoc. assert (OUnsubscribe id ∉ ops2) as H1 by set_solver.
      assert (o <> OUnsubscribe id) as H2 by set_solver. specialize (IH H1).
      destruct o as [k v ok|k ok|k ok|p'|id']; cbn [live]; try done.
      + set_solver.
      + apply elem_of_list_filter. split; [simpl; congruence|done].
  Qed.

  Lemma checked_kind s k i v : checked s -> infos s !! k = Some i -> settings s !! k = Some v -> same_type (i_default i) v.
  Proof.
    intros Hc Hi Hv. destruct (Hc k i v Hi Hv) as [->|Ha]; [by destruct (i_default i)|].
    unfold ConfigModel.accepted in Ha. rewrite Hi in Ha. apply andb_true_iff in Ha as [Ha _]. by apply kind_same.
  Qed.
  Lemma not_float_same a b : ~ is_float a -> same_value a b -> a = b.
  Proof. destruct a, b; simpl; naive_solver. Qed.

  Lemma listener_sync schema ops1 p ops2 k i v0 :
    Forall storage_ok ops2 -> declared schema k = Some i -> ~ is_float (i_default i) ->
    wild_matches p k -> OUnsubscribe (N.of_nat (subscriptions_made ops1)) ∉ ops2 ->
    let s := (run (new schema) (ops1 ++ [OSubscribe p])) in
    (get s k true).2 = ROk (Some v0) ->
    (get (run s ops2) k true).2 =
      ROk (Some (told (N.of_nat (subscriptions_made ops1)) k v0 (callbacks is_bool_value s ops2))).
  Proof.
    intros HF Hi Hfl Hw Hno s Hv0. set (id := N.of_nat (subscriptions_made ops1)) in *.
    assert (forall l, infos (run s l) !! k = Some i) as Hinf.
    { intros l. unfold s. by rewrite <- run_app, run_infos, new_infos. }
    assert (forall l, total (run s l)) as Htot.
    { intros l. unfold s. rewrite <- run_app. apply run_total, new_total. }
    assert (forall l v, settings (run s l) !! k = Some v -> (get (run s l) k true).2 = ROk (Some v)) as Hget.
    { intros l v H. unfold get. by rewrite H. }
    assert (settings (run s []) !! k = Some v0) as Hs0.
    { destruct (get_declared (run s []) k i true (Htot []) (Hinf [])) as (v & Hv & E). unfold ConfigModel.run at 1 in E. simpl in E.
      rewrite E in Hv0. simpl in Hv0. congruence. }
    apply Hget. induction ops2 as [|o ops2 IH] using rev_ind; [done|].
    apply Forall_app in HF as [HF Ho]. rewrite Forall_singleton in Ho.
    assert (OUnsubscribe id ∉ ops2) as Hno1 by set_solver.
    assert (o <> OUnsubscribe id) as Hno2 by set_solver.
    specialize (IH HF Hno1). rewrite callbacks_snoc, told_app, run_snoc.
    set (cur := told _ _ _ (callbacks _ _ ops2)) in *.
    pose proof (Hinf ops2) as Hi2.
    assert (run s ops2 = run (new schema) (ops1 ++ OSubscribe p :: ops2)) as Hrun.
    { unfold s. rewrite <- run_app, <- app_assoc. done. }
    destruct (run_subs schema (ops1 ++ OSubscribe p :: ops2)) as [Hsub _]. rewrite <- Hrun in Hsub.
    pose proof (live_stays id ops1 p ops2 eq_refl Hno1) as Hlive. rewrite <- Hsub in Hlive.
    destruct (live_ids (ops1 ++ OSubscribe p :: ops2)) as [Hnd _]. rewrite <- Hsub in Hnd.
    assert (mk_sub id p ∈ subs (run s ops2)) as Hin.
    { apply elem_of_list_fmap in Hlive as ([id' p'] & E & Hb). injection E as <- <-. done. }
    assert (NoDup (map sub_id (subs (run s ops2)))) as Hnd2.
    { rewrite map_map in Hnd. exact Hnd. }
    pose proof (run_checked schema (ops1 ++ OSubscribe p :: ops2)) as Hck. rewrite <- Hrun in Hck.
    set (st := run s ops2) in *.
    assert (~ is_float cur) as Hcf.
    { pose proof (checked_kind st k i cur Hck Hi2 IH) as Hst. destruct (i_default i), cur; simpl in *; tauto. }
    destruct o as [k' v ok|k' ok|k' ok|p'|id']; simpl in Ho; subst.
    - rewrite step_set. destruct (accepted st k' v) eqn:Ea; cbn [fst snd]; [|done]. simpl. unfold changed_to.
      destruct (decide (k' = k)) as [->|Hk].
      + rewrite lookup_insert, IH. destruct (setting_eqb cur v) eqn:Ee; simpl.
        * apply eqb_same, not_float_same in Ee; [|done]. by rewrite <- Ee.
        * rewrite (told_matching st id k v cur p k) by done. by rewrite decide_True.
      + rewrite lookup_insert_ne by done. destruct (match settings st !! k' with Some _ => _ | None => _ end); [|done].
        rewrite (told_matching st id k v cur p k') by done. by rewrite decide_False.
    - rewrite step_remove. destruct (infos st !! k') as [i'|] eqn:Ei; cbn [fst snd]; [|done]. simpl. unfold changed_to.
      destruct (decide (k' = k)) as [->|Hk].
      + rewrite lookup_insert, IH. destruct (setting_eqb cur (i_default i')) eqn:Ee; simpl.
        * apply eqb_same, not_float_same in Ee; [|done]. by rewrite <- Ee.
        * rewrite (told_matching st id k _ cur p k) by done. by rewrite decide_True.
      + rewrite lookup_insert_ne by done. destruct (match settings st !! k' with Some _ => _ | None => _ end); [|done].
        rewrite (told_matching st id k _ cur p k') by done. by rewrite decide_False.
    - unfold ConfigModel.step, get. destruct (settings st !! k') eqn:E; [done|]. simpl.
      destruct (storage st !! k'); [|done]. simpl.
      destruct (decide (k' = k)) as [->|]; [congruence|]. by rewrite lookup_insert_ne.
    - done.
    - done.
  Qed.

  (** ** Threads *)
  Lemma concurrent_delivery st0 x all :
    sh_run is_bool_value st0 x all -> sh_log x ++ concat (sh_pending x) ≡ₚ all.
  Proof.
    induction 1 as [|x k v ok st' r ns all Hr IH E|x k ok st' r ns all Hr IH E|x all pre n ns post Hr IH E]; simpl.
    - done.
    - rewrite concat_app. simpl. rewrite app_nil_r, app_assoc, IH. done.
    - rewrite concat_app. simpl. rewrite app_nil_r, app_assoc, IH. done.
    - rewrite <- IH, E, !concat_app. simpl. rewrite <- app_assoc. apply Permutation_app_head. simpl.
      rewrite Permutation_middle. done.
  Qed.
  Lemma concurrent_all_delivered st0 x all :
    sh_run is_bool_value st0 x all -> all_delivered x -> sh_log x ≡ₚ all.
  Proof.
    intros H HF. apply concurrent_delivery in H. unfold all_delivered in HF.
    assert (concat (sh_pending x) = []) as Hc.
    { induction HF as [|l ls -> HF IH]; [done|]. simpl. apply IH. clear -H. simpl in H. done. }
    by rewrite Hc, app_nil_r in H.
  Qed.

  (** ** Merge *)
  Lemma trim_dots_spec s : exists n, s = trim_dots s ++ replicate n 46%N /\ last (trim_dots s) <> Some 46%N.
  Proof.
    assert (forall t, exists n, t = replicate n 46%N ++ drop_dots t /\ head (drop_dots t) <> Some 46%N) as H.
    { induction t as [|c t (n & Ht & Hh)]; [by exists 0|]. cbn [drop_dots]. destruct (N.eqb_spec c 46) as [->|Hc].
      - exists (S n). split; [by rewrite Ht at 1|done].
      - exists 0. split; [done|]. simpl. congruence. }
    destruct (H (rev s)) as (n & Hs & Hh). exists n. unfold trim_dots. split.
    - rewrite <- (rev_involutive s) at 1. rewrite Hs at 1. rewrite rev_app_distr. f_equal.
      clear. induction n as [|n IH]; [done|]. simpl. rewrite IH. clear IH. rewrite <- (replicate_cons_app n 46%N). done.
    - destruct (drop_dots (rev s)) as [|c r]; [done|]. simpl. rewrite last_snoc. done.
  Qed.
  Lemma base_unique a b n m (d : N) : a ++ replicate n d = b ++ replicate m d -> last a <> Some d -> last b <> Some d -> a = b.
  Proof.
    revert m. induction n as [|n IH]; intros m H Ha Hb.
    - simpl in H. rewrite app_nil_r in H. subst a. destruct m; [by rewrite app_nil_r in *|].
      exfalso. apply Ha. rewrite replicate_S_end, app_assoc, last_snoc. done.
    - destruct m as [|m].
      + simpl in H. rewrite app_nil_r in H. subst b. exfalso. apply Hb.
        change (d :: replicate n d) with (replicate (S n) d). rewrite replicate_S_end, app_assoc, last_snoc. done.
      + rewrite !replicate_S_end, !app_assoc in H. apply app_inj_tail in H as [H _]. eauto.
  Qed.
  Lemma qualified_merged ns k p : qualified ns k p <-> p = merged_key ns k.
  Proof.
    unfold qualified, merged_key. destruct (trim_dots_spec ns) as (n & Hns & Hl). split.
    - intros (base & m & H1 & H2 & ->). rewrite Hns in H1. apply base_unique in H1; [|done..]. rewrite H1. by destruct base.
    - intros ->. exists (trim_dots ns), n. split; [done|]. split; [done|]. by destruct (trim_dots ns).
  Qed.
  Lemma merged_key_inj ns a b : merged_key ns a = merged_key ns b -> a = b.
  Proof. unfold merged_key. destruct (trim_dots ns); [done|]. intros H. apply app_inv_head in H. by injection H. Qed.

  (** what absorb does to one key *)
  Definition absorbed (s : store) (es : list (info * setting)) (ns p : str) : option (info * setting) :=
    match infos s !! p with
    | Some _ => None
    | None => head (filter (fun e => merged_key ns (i_key e.1) = p) es)
    end.
  Definition renamed (p : str) (i : info) : info := mk_info p (i_desc i) (i_default i) (i_constraint i).

  Lemma absorb_fold ns es : forall s n,
    let r := foldl (absorb_one ns) (s, n) es in
    (forall p, infos r.1 !! p = match absorbed s es ns p with Some e => Some (renamed p e.1) | None => infos s !! p end) /\
    (forall p, settings r.1 !! p = match absorbed s es ns p with Some e => Some e.2 | None => settings s !! p end) /\
    (exists new, keys r.1 = keys s ++ new /\ r.2 = n + length new /\ NoDup new /\
       forall p, p ∈ new <-> is_Some (absorbed s es ns p)) /\
    storage r.1 = storage s /\ subs r.1 = subs s /\ next_sub r.1 = next_sub s.
  Proof.
    induction es as [|e es IH]; intros s n r.
    - assert (forall p, absorbed s [] ns p = None) as Hn.
      { intros p. unfold absorbed. by destruct (infos s !! p). }
      split; [intros p; by rewrite Hn|]. split; [intros p; by rewrite Hn|]. split; [|done].
      exists []. rewrite app_nil_r. split; [done|]. split; [simpl; lia|]. split; [constructor|].
      intros p. rewrite Hn. split; [by intros H; apply elem_of_nil in H|by intros [? ?]].
    - set (k := merged_key ns (i_key e.1)).
      destruct (infos s !! k) as [i|] eqn:Ek.
      + assert (r = foldl (absorb_one ns) (s, n) es) as Hr by (unfold r; simpl; fold k; by rewrite Ek).
        assert (forall p, absorbed s (e :: es) ns p = absorbed s es ns p) as Ha.
        { intros p. unfold absorbed. destruct (infos s !! p) eqn:Ep; [done|]. rewrite filter_cons.
          rewrite decide_False; [done|]. fold k. intros <-. congruence. }
        rewrite Hr. destruct (IH s n) as (H1 & H2 & (new & H3 & H4 & H5 & H6) & H7).
        split; [intros p; by rewrite Ha, H1|]. split; [intros p; by rewrite Ha, H2|]. split; [|done].
        exists new. split; [done|]. split; [done|]. split; [done|]. intros p. by rewrite Ha, H6.
      + set (s1 := mk_store (<[k := e.2]> (settings s)) (<[k := renamed k e.1]> (infos s)) (keys s ++ [k]) (storage s) (subs s) (next_sub s)).
        assert (r = foldl (absorb_one ns) (s1, S n) es) as Hr by (unfold r; simpl; fold k; by rewrite Ek).
        assert (absorbed s (e :: es) ns k = Some e) as Hak.
        { unfold absorbed. rewrite Ek, filter_cons. by rewrite decide_True. }
        assert (absorbed s1 es ns k = None) as Hak1 by (unfold absorbed; simpl; by rewrite lookup_insert).
        assert (forall p, p <> k -> absorbed s (e :: es) ns p = absorbed s1 es ns p) as Ha.
        { intros p Hp. unfold absorbed. simpl. rewrite lookup_insert_ne by done. destruct (infos s !! p); [done|].
          rewrite filter_cons. by rewrite decide_False. }
        rewrite Hr. destruct (IH s1 (S n)) as (H1 & H2 & (new & H3 & H4 & H5 & H6) & H7).
        split; [|split; [|split; [|done]]].
        * intros p. rewrite H1. destruct (decide (p = k)) as [->|Hp].
          -- rewrite Hak, Hak1. simpl. by rewrite lookup_insert.
          -- rewrite <- Ha by done. simpl. by rewrite lookup_insert_ne.
        * intros p. rewrite H2. destruct (decide (p = k)) as [->|Hp].
          -- rewrite Hak, Hak1. simpl. by rewrite lookup_insert.
          -- rewrite <- Ha by done. simpl. by rewrite lookup_insert_ne.
        * exists (k :: new). split; [rewrite H3; simpl; by rewrite <- app_assoc|]. split; [rewrite H4; simpl; lia|].
          split.
          -- apply NoDup_cons. split; [|done]. rewrite H6, Hak1. by intros [? ?].
          -- intros p. rewrite elem_of_cons, H6. destruct (decide (p = k)) as [->|Hp].
             ++ rewrite Hak. split; [by eexists|by left].
             ++ rewrite Ha by done. naive_solver.
  Qed.

  Lemma snapshot_spec s i v :
    (i, v) ∈ snapshot s <-> exists k, k ∈ keys s /\ infos s !! k = Some i /\ v = default (i_default i) (settings s !! k).
  Proof.
    unfold snapshot. rewrite elem_of_list_omap. split.
    - intros (k & Hk & E). destruct (infos s !! k) as [j|] eqn:Ej; [|done]. injection E as -> <-. by exists k.
    - intros (k & Hk & Hi & ->). exists k. by rewrite Hi.
  Qed.

  (** A store whose schema is consistent: each info sits under its own key, listed. *)
  Definition keyed (s : store) : Prop :=
    forall k i, infos s !! k = Some i -> i_key i = k /\ k ∈ keys s.
  Lemma run_keyed schema ops : keyed (run (new schema) ops).
  Proof.
    intros k i. rewrite run_infos, run_keys, new_infos, new_keys. intros H.
    apply declared_key in H as [H1 H2]. split; [done|]. apply elem_of_list_fmap. by exists i.
  Qed.

  Lemma absorbed_snapshot s o ns p :
    keyed o -> total o ->
    forall e, absorbed s (snapshot o) ns p = Some e <->
      infos s !! p = None /\ exists k, qualified ns k p /\ infos o !! k = Some e.1 /\ settings o !! k = Some e.2.
  Proof.
    intros Hk Ht [i v]. unfold absorbed. destruct (infos s !! p) as [j|]; [split; [done|by intros [? _]]|].
    set (l := filter _ _). assert (forall e, e ∈ l <-> exists k, merged_key ns k = p /\ infos o !! k = Some e.1 /\ settings o !! k = Some e.2) as Hl.
    { intros [i' v']. unfold l. rewrite elem_of_list_filter, snapshot_spec. simpl. split.
      - intros [H1 (k & H2 & H3 & H4)]. destruct (Hk _ _ H3) as [H5 _]. exists k. rewrite <- H5 at 1. split; [done|].
        split; [done|]. destruct (Ht k) as [w Hw]; [by eexists|]. rewrite Hw in *. simpl in H4. by subst.
      - intros (k & H1 & H2 & H3). destruct (Hk _ _ H2) as [H5 H6]. split; [by rewrite H5|].
        exists k. rewrite H3. done. }
    assert (forall e e', e ∈ l -> e' ∈ l -> e = e') as Huniq.
    { intros [i1 v1] [i2 v2] H1 H2. apply Hl in H1 as (k1 & Hk1 & A1 & B1). apply Hl in H2 as (k2 & Hk2 & A2 & B2).
      rewrite <- Hk2 in Hk1. apply merged_key_inj in Hk1. subst. simpl in *. congruence. }
    setoid_rewrite qualified_merged. split.
    - intros Hh. split; [done|]. assert ((i, v) ∈ l) as Hin. { destruct l; [done|]. injection Hh as ->. set_solver. }
      apply Hl in Hin as (k & H1 & H2). by exists k.
    - intros [_ (k & H1 & H2)]. assert ((i, v) ∈ l) as Hin. { apply Hl. by exists k. }
      destruct l as [|e l']; [by apply elem_of_nil in Hin|]. simpl. f_equal. apply Huniq; [set_solver|done].
  Qed.

  Lemma merge_spec s o ns :
    keyed o -> total o ->
    let r := merge s o ns in
    (* keys known before: declaration and value untouched *)
    (forall p, is_Some (infos s !! p) -> infos r.1 !! p = infos s !! p /\ settings r.1 !! p = settings s !! p) /\
    (* new keys: exactly the other configuration's keys under the namespace *)
    (forall p, infos s !! p = None -> forall k i v, qualified ns k p -> infos o !! k = Some i -> settings o !! k = Some v ->
       infos r.1 !! p = Some (renamed p i) /\ settings r.1 !! p = Some v) /\
    (forall p, infos s !! p = None -> ~ (exists k, qualified ns k p /\ is_Some (infos o !! k)) ->
       infos r.1 !! p = None /\ settings r.1 !! p = settings s !! p) /\
    (* the number reported is the number of added keys *)
    (exists added, keys r.1 = keys s ++ added /\ NoDup added /\ r.2 = length added /\
       forall p, p ∈ added <-> infos s !! p = None /\ is_Some (infos r.1 !! p)) /\
    storage r.1 = storage s /\ subs r.1 = subs s.
  Proof.
    intros Hk Ht r. unfold r, merge, absorb.
    destruct (absorb_fold ns (snapshot o) s 0) as (H1 & H2 & (new & H3 & H4 & H5 & H6) & H7 & H8 & H9).
    split; [|split; [|split; [|split; [|done]]]].
    - intros p Hp. assert (absorbed s (snapshot o) ns p = None) as Ha.
      { unfold absorbed. by destruct Hp as [? ->]. }
      by rewrite H1, H2, Ha.
    - intros p Hp k i v Hq Hi Hv. assert (absorbed s (snapshot o) ns p = Some (i, v)) as Ha.
      { apply absorbed_snapshot; [done..|]. split; [done|]. by exists k. }
      by rewrite H1, H2, Ha.
    - intros p Hp Hno. assert (absorbed s (snapshot o) ns p = None) as Ha.
      { destruct (absorbed s (snapshot o) ns p) as [e|] eqn:E; [|done]. apply absorbed_snapshot in E as [_ (k & Hq & Hi & _)]; [|done..].
        exfalso. apply Hno. exists k. split; [done|by eexists]. }
      by rewrite H1, H2, Ha.
    - exists new. split; [done|]. split; [done|]. split; [done|]. intros p. rewrite H6, H1. unfold absorbed.
      destruct (infos s !! p) eqn:E; [split; [by intros [? ?]|by intros [? _]]|].
      destruct (head _); split.
      + intros _. split; [done|by eexists].
      + intros _. by eexists.
      + by intros [? ?].
      + by intros [_ [? ?]].
  Qed.

  (** ** find *)
  Lemma find_spec schema ops pat :
    find (run (new schema) ops) pat `sublist_of` map i_key schema /\
    forall k, k ∈ find (run (new schema) ops) pat <-> is_Some (declared schema k) /\ wild_matches pat k.
  Proof.
    unfold find. rewrite run_keys, new_keys. split; [apply filter_sublist|]. intros k.
    rewrite elem_of_list_filter, glob_spec, elem_of_list_fmap. split.
    - intros [H (i & -> & Hi)]. split; [|done]. unfold declared.
      destruct (last (filter _ schema)) eqn:E; [by eexists|]. apply last_None in E.
      assert (i ∈ filter (fun j => i_key j = i_key i) schema) as Hf by by apply elem_of_list_filter.
      rewrite E in Hf. by apply elem_of_nil in Hf.
    - intros [[i Hi] H]. apply declared_key in Hi as [H1 H2]. split; [done|]. by exists i.
  Qed.

  (** ** Restart *)
  Definition op_survives (o : op) : Prop := match o with OSet _ v _ => survives v | _ => True end.

  Lemma load_save m : map_Forall (fun _ v => survives v) m -> load_table (save_table m) = Some m.
  Proof.
    intros Hm. unfold load_table, save_table. rewrite decide_True.
    - f_equal. apply map_eq. intros k. rewrite lookup_omap, lookup_fmap. destruct (m !! k) as [v|] eqn:E; [|done].
      simpl. apply survives_round_trip. by apply (Hm k).
    - intros k t Hk. pose proof (lookup_fmap display m k) as Hf. assert (display <$> m !! k = Some t) as Hk2 by (rewrite <- Hf; exact Hk).
      clear Hf Hk. rename Hk2 into Hk. destruct (m !! k) as [v|] eqn:E; [|done]. injection Hk as <-.
      exists v. apply survives_round_trip. by apply (Hm k).
  Qed.

  (** the live value of a declared key is what storage holds, or the default *)
  Definition mirrored (s : store) : Prop :=
    (forall k i, infos s !! k = Some i -> settings s !! k = Some (default (i_default i) (storage s !! k))) /\
    (forall k, is_Some (storage s !! k) -> is_Some (infos s !! k)) /\
    map_Forall (fun _ v => survives v) (storage s).
  Lemma step_mirrored s o : storage_ok o -> op_survives o -> mirrored s -> mirrored (step s o).1.1.
  Proof.
    intros Ho Hs (H1 & H2 & H3). destruct o as [k v ok|k ok|k ok|p|id]; simpl in Ho, Hs; subst.
    - rewrite step_set. destruct (accepted s k v) eqn:Ea; simpl; [|done].
      assert (is_Some (infos s !! k)) as Hk. { unfold ConfigModel.accepted in Ea. destruct (infos s !! k); [by eexists|done]. }
      split; [|split]; simpl.
      + intros k' i Hi. destruct (decide (k = k')) as [->|]; [by rewrite !lookup_insert|]. rewrite !lookup_insert_ne by done. by apply H1.
      + intros k'. destruct (decide (k = k')) as [->|]; [done|]. rewrite !lookup_insert_ne by done. by apply H2.
      + by apply map_Forall_insert_2.
    - rewrite step_remove. destruct (infos s !! k) as [i|] eqn:Ei; simpl; [|done].
      split; [|split]; simpl.
      + intros k' i' Hi'. destruct (decide (k = k')) as [->|].
        * rewrite lookup_insert, lookup_delete. simpl. congruence.
        * rewrite lookup_insert_ne, lookup_delete_ne by done. by apply H1.
      + intros k' Hk'. apply H2. destruct (decide (k = k')) as [->|]; [rewrite lookup_delete in Hk'; by destruct Hk'|]. by rewrite lookup_delete_ne in Hk'.
      + by apply map_Forall_delete.
    - unfold ConfigModel.step, get. destruct (settings s !! k) eqn:E; [done|]. simpl. destruct (storage s !! k) eqn:E2; [|done].
      destruct (H2 k) as [i Hi]; [by eexists|]. rewrite (H1 _ _ Hi) in E. done.
    - done.
    - done.
  Qed.
  Lemma run_mirrored schema ops :
    Forall storage_ok ops -> Forall op_survives ops -> mirrored (run (new schema) ops).
  Proof.
    intros HF HS. induction ops as [|o ops IH] using rev_ind.
    - unfold ConfigModel.run. simpl. destruct (new_rest schema) as (Hst & _ & _). split; [|split].
      + intros k i. rewrite new_infos, new_settings, Hst, lookup_empty. intros ->. done.
      + intros k. rewrite Hst, lookup_empty. by intros [? ?].
      + rewrite Hst. apply map_Forall_empty.
    - apply Forall_app in HF as [HF Ho], HS as [HS Hso]. rewrite Forall_singleton in Ho, Hso. rewrite run_snoc.
      apply step_mirrored; auto.
  Qed.

  Lemma restart_keeps schema ops k i ok ok' :
    Forall storage_ok ops -> Forall op_survives ops -> declared schema k = Some i ->
    (get (reopen schema (save_table (storage (run (new schema) ops)))) k ok').2 = (get (run (new schema) ops) k ok).2.
  Proof.
    intros HF HS Hi. destruct (run_mirrored schema ops HF HS) as (H1 & H2 & H3).
    unfold reopen. rewrite load_save by done.
    assert (infos (run (new schema) ops) !! k = Some i) as Hi2 by by rewrite run_infos, new_infos.
    unfold get at 2. rewrite (H1 _ _ Hi2). simpl.
    unfold get, set_storage. simpl. rewrite lookup_union. destruct (storage (run (new schema) ops) !! k) as [v|] eqn:E.
    - rewrite new_settings, Hi. done.
    - rewrite new_settings, Hi. simpl. done.
  Qed.
End proofs.
