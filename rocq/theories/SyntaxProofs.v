(** Proofs about the matching of values against grammars. *)
From stdpp Require Import gmap relations.
From Verif Require Import Base Text SelectorModel SyntaxModel SyntaxSpec.

Section ind.
Context (P : component -> Prop).
Context (Hkey : forall s ms, P (CKeyword s ms)) (Hprop : forall s ms, P (CProperty s ms))
  (Hfun0 : forall n ms, P (CFunction n None ms)) (Hfun : forall n a ms, P a -> P (CFunction n (Some a) ms))
  (Hdef : forall s q rg ms, P (CDefinition s q rg ms)) (Hinh : forall ms, P (CInherit ms)) (Hini : forall ms, P (CInitial ms))
  (Huns : forall ms, P (CUnset ms)) (Hlit : forall s ms, P (CLiteral s ms)) (Hblt : forall t rg ms, P (CBuiltin t rg ms))
  (Hgrp : forall k cs ms, Forall P cs -> P (CGroup k cs ms)).
Fixpoint component_ind' (c : component) : P c :=
  match c with
  | CKeyword s ms => Hkey s ms
  | CProperty s ms => Hprop s ms
  | CFunction n None ms => Hfun0 n ms
  | CFunction n (Some a) ms => Hfun n a ms (component_ind' a)
  | CDefinition s q rg ms => Hdef s q rg ms
  | CInherit ms => Hinh ms
  | CInitial ms => Hini ms
  | CUnset ms => Huns ms
  | CLiteral s ms => Hlit s ms
  | CBuiltin t rg ms => Hblt t rg ms
  | CGroup k cs ms => Hgrp k cs ms ((fix go cs := match cs return Forall P cs with [] => List.Forall_nil P | c :: cs => List.Forall_cons P c cs (component_ind' c) (go cs) end) cs)
  end.
End ind.

Ltac rb H := let x := fresh "x" in let E := fresh "E" in
  match type of H with rbind ?r _ = Ok _ => destruct r as [x| |] eqn:E; simpl in H; [|discriminate H|discriminate H] end.

Lemma Ok_pair {A B} (a a' : A) (b b' : B) : Ok (a, b) = Ok (a', b') -> a = a' /\ b = b'.
Proof. by intros [= -> ->]. Qed.

(** ** What a matched run took *)
Definition sound (f : run) (P : words) : Prop :=
  forall input r s m s', f input r s = Ok (m, s') -> m_ok m = true -> exists w, input = w ++ m_rest m /\ P w.
Definition sound_runner (x : runner) (P : words) : Prop := sound (ru_run x) P /\ (ru_omits x = true -> P []).

Lemma stepped_sound f cl i P : sound f P -> sound (stepped f cl i) P.
Proof.
  intros Hf input r s m s' E Hm. unfold stepped in E. destruct r as [r|]; [|by eapply Hf].
  destruct (step r i s) as [|r'|names s1]; [by eapply Hf|by eapply Hf|].
  rb E. destruct x as [m0 s2]. simpl in E. destruct (cl m0); injection E as -> _; by eapply Hf.
Qed.

Lemma try_all_sound xs Ps i input r s ms s' :
  Forall2 sound_runner xs Ps -> try_all xs i input r s = Ok (ms, s') ->
  Forall (fun m => m_ok m = true /\ exists w, input = w ++ m_rest m /\ Exists (fun P => P w) Ps) ms.
Proof.
  intros HF. revert i s ms s'. induction HF as [|x P xs Ps [Hx _] HF IH]; intros i s ms s' E; simpl in E.
  { injection E as <- _. constructor. }
  rb E. destruct x0 as [m s1]. rb E. destruct x0 as [ms' s2]. injection E as <- _.
  assert (Forall (fun m => m_ok m = true /\ exists w, input = w ++ m_rest m /\ Exists (fun P => P w) (P :: Ps)) ms') as Hms.
  { eapply Forall_impl; [by eapply IH|]. intros m' [Hm' (w & Hw & He)]. split; [done|]. exists w. split; [done|]. by apply Exists_cons_tl. }
  destruct (m_ok m) eqn:Hm; [|done]. constructor; [|done]. split; [done|].
  destruct (stepped_sound _ m_ok i P Hx _ _ _ _ _ E0 Hm) as (w & Hw & HP). exists w. split; [done|]. by apply Exists_cons_hd.
Qed.
Lemma shortest_in m ms : shortest m ms ∈ m :: ms.
Proof.
  revert m. induction ms as [|x ms IH]; intros m; simpl; [by left|]. destruct (_ <? _).
  - right. apply IH.
  - specialize (IH m). rewrite elem_of_cons in IH. destruct IH as [->|IH]; [by left|]. right. by right.
Qed.
Lemma exactly_one_sound xs Ps : Forall2 sound_runner xs Ps -> sound (exactly_one xs) (fun w => Exists (fun P => P w) Ps).
Proof.
  intros HF input r s m s' E Hm. unfold exactly_one in E. destruct input as [|v input].
  { injection E as <- _. discriminate Hm. }
  rb E. destruct x as [ms s1]. simpl in E. destruct ms as [|m0 ms]; injection E as <- _; [discriminate Hm|].
  pose proof (try_all_sound _ _ _ _ _ _ _ _ HF E0) as Hall. rewrite Forall_forall in Hall.
  by destruct (Hall _ (shortest_in m0 ms)).
Qed.

(** *** in any order *)
Global Instance words_inhabited : Inhabited words := populate (fun _ => False).
Definition indexed (l : list (nat * runner)) (Ps : list words) : Prop :=
  NoDup l.*1 /\ forall i x, (i, x) ∈ l -> exists P, Ps !! i = Some P /\ sound_runner x P.
Lemma one_each_app A B u v : one_each A u -> one_each B v -> one_each (A ++ B) (u ++ v).
Proof.
  revert u. induction A as [|P A IH]; intros u Hu Hv; simpl in *; [by subst u|].
  destruct Hu as (u1 & u2 & -> & HP & Hu). exists u1, (u2 ++ v). rewrite <-app_assoc. eauto.
Qed.
Lemma total_at (Ps : list words) i P : Ps !! i = Some P -> Ps !!! i = P.
Proof. intros HP. by apply list_lookup_total_correct. Qed.
Lemma scan_sound all l (Ps : list words) used input r s i m s' :
  (forall i x, (i, x) ∈ l -> exists P, Ps !! i = Some P /\ sound_runner x P) ->
  scan all l used input r s = Ok (Some (i, m), s') ->
  i ∉ used /\ i ∈ l.*1 /\ exists P w, Ps !! i = Some P /\ input = w ++ m_rest m /\ P w.
Proof.
  intros Hl. revert s. induction l as [|[j x] l IH]; intros s E; simpl in E; [discriminate E|].
  case_bool_decide as Hj.
  { destruct (IH ltac:(intros; eapply Hl; by right) _ E) as (?&?&?). split_and!; [done|by right|done]. }
  rb E. destruct x0 as [m0 s0]. simpl in E. destruct (claim _ _ _ _) eqn:Hc.
  - injection E as -> -> ->. destruct (Hl i x ltac:(by left)) as (P & HP & [Hx _]). split_and!; [done|by left|].
    unfold claim in Hc. apply andb_true_iff in Hc as [Hok _].
    destruct (stepped_sound _ _ _ _ Hx _ _ _ _ _ E0 Hok) as (w & Hw & Hp). eauto.
  - destruct (IH ltac:(intros; eapply Hl; by right) _ E) as (?&?&?). split_and!; [done|by right|done].
Qed.
Lemma claims_sound fuel all l (Ps : list words) used input vals r s used' rest vals' s' :
  (forall i x, (i, x) ∈ l -> exists P, Ps !! i = Some P /\ sound_runner x P) ->
  NoDup used -> claims fuel all l used input vals r s = Ok (used', rest, vals', s') ->
  exists new w, used' = used ++ new /\ NoDup used' /\ new ⊆ l.*1 /\ input = w ++ rest /\ one_each (map (fun i => Ps !!! i) new) w.
Proof.
  intros Hl. revert used input vals s. induction fuel as [|fuel IH]; intros used input vals s Hnd E; simpl in E; [discriminate E|].
  destruct input as [|v input].
  { injection E as <- <- _ _. exists [], []. rewrite app_nil_r. split_and!; [done|done|set_solver|done|done]. }
  rb E. destruct x as [o s1]. destruct o as [[i m]|]; simpl in E.
  2:{ injection E as <- <- _ _. exists [], []. rewrite app_nil_r. split_and!; [done|done|set_solver|done|done]. }
  destruct (scan_sound _ _ _ _ _ _ _ _ _ _ Hl E0) as (Hi & Hil & P & w & HP & Hw & Hp).
  apply IH in E as (new & w' & -> & Hnd' & Hsub & Hrest & Hone).
  2:{ rewrite NoDup_app. split_and!; [done| |apply NoDup_singleton]. intros j Hj ->%elem_of_list_singleton. done. }
  exists (i :: new), (w ++ w'). rewrite <-app_assoc in Hnd' |- *. simpl in *. split_and!; [done|done| | |].
  - intros j [->|Hj]%elem_of_cons; [done|]. by apply Hsub.
  - rewrite Hw, Hrest. by rewrite app_assoc.
  - exists w, w'. split; [done|]. split; [|done]. by rewrite (total_at _ _ _ HP).
Qed.
Lemma total_seq (Ps : list words) : map (fun i => Ps !!! i) (seq 0 (length Ps)) = Ps.
Proof.
  apply list_eq. intros i. rewrite list_lookup_fmap. destruct (decide (i < length Ps)) as [Hi|Hi].
  - rewrite lookup_seq_lt by done. simpl. destruct (lookup_lt_is_Some_2 _ _ Hi) as [P HP]. by rewrite (total_at _ _ _ HP).
  - rewrite lookup_seq_ge by lia. simpl. symmetry. apply lookup_ge_None. lia.
Qed.
(** the operands that were used, then those that may be left out, are all of them *)
Lemma used_then_rest (Ps : list words) (used : list nat) :
  NoDup used -> (forall i, i ∈ used -> i < length Ps) ->
  exists rest, used ++ rest ≡ₚ seq 0 (length Ps) /\ (forall i, i ∈ rest -> i ∉ used /\ i < length Ps).
Proof.
  intros Hnd Hlt. exists (filter (fun i => i ∉ used) (seq 0 (length Ps))). split.
  - apply NoDup_Permutation.
    + apply NoDup_app. split_and!; [done| |apply NoDup_filter, NoDup_seq].
      intros i Hi. rewrite elem_of_list_filter. tauto.
    + apply NoDup_seq.
    + intros i. rewrite elem_of_app, elem_of_list_filter, elem_of_seq. destruct (decide (i ∈ used)) as [Hi|Hi].
      * specialize (Hlt _ Hi). split; [lia|]. intros _. by left.
      * split; [intros [|[_ ?]]; [done|lia]|]. intros. right. split; [done|lia].
  - intros i [Hi Hs]%elem_of_list_filter. apply elem_of_seq in Hs. split; [done|lia].
Qed.
Lemma one_each_nil A : Forall (fun P : words => P []) A -> one_each A [].
Proof. induction 1 as [|P A HP HA IH]; simpl; [done|]. by exists [], []. Qed.

Lemma pass_sound all l (Ps : list words) :
  indexed l Ps -> length l = length Ps ->
  sound (any_order_pass all l)
    (if all then (fun w => exists o, o ≡ₚ Ps /\ one_each o w) else (fun w => exists o, o ⊆+ Ps /\ o <> [] /\ one_each o w)).
Proof.
  intros [Hnd Hl] Hlen input r s m s' E Hm. unfold any_order_pass in E. rb E. destruct x as [[[used rest] vals] s1]. simpl in E.
  injection E as <- _. destruct (claims_sound _ _ _ _ _ _ _ _ _ _ _ _ _ Hl (NoDup_nil_2) E0) as (new & w & -> & Hn & Hsub & -> & Hone).
  simpl in *. assert (forall i, i ∈ l.*1 -> i < length Ps) as Hidx.
  { intros i ([j x] & -> & Hin)%elem_of_list_fmap. destruct (Hl _ _ Hin) as (P & HP & _). by eapply lookup_lt_Some. }
  exists w. destruct all.
  - destruct (forallb _ l) eqn:Hf; simpl in *; [|discriminate Hm]. split; [done|].
    destruct (used_then_rest Ps new Hn (fun i Hi => Hidx i (Hsub i Hi))) as (more & Hperm & Hmore).
    exists (map (fun i => Ps !!! i) (new ++ more)). split.
    + transitivity (map (fun i => Ps !!! i) (seq 0 (length Ps))); [by rewrite Hperm|by rewrite total_seq].
    + rewrite map_app, <-(app_nil_r w). apply one_each_app; [done|]. apply one_each_nil. apply Forall_map, Forall_forall.
      intros i Hi. destruct (Hmore i Hi) as [Hnot Hlt]. simpl.
      assert (i ∈ l.*1) as ([j x] & -> & Hin)%elem_of_list_fmap.
      { assert (l.*1 ≡ₚ seq 0 (length Ps)) as ->; [|apply elem_of_seq; lia].
        apply submseteq_Permutation_length_le; [rewrite fmap_length, seq_length; lia|].
        apply NoDup_submseteq; [done|]. intros k Hk. apply elem_of_seq. specialize (Hidx _ Hk). lia. }
      simpl in *. rewrite forallb_forall in Hf. specialize (Hf (j, x) ltac:(by apply elem_of_list_In)). simpl in Hf.
      rewrite bool_decide_eq_false_2 in Hf by done. simpl in Hf. destruct (Hl _ _ Hin) as (P & HP & [_ Ho]).
      rewrite (total_at _ _ _ HP). by apply Ho.
  - case_bool_decide as He; simpl in *; [discriminate Hm|]. split; [done|].
    exists (map (fun i => Ps !!! i) new). split_and!; [| |done].
    + transitivity (map (fun i => Ps !!! i) (seq 0 (length Ps))); [|by rewrite total_seq]. apply fmap_submseteq. apply NoDup_submseteq; [done|].
      intros i Hi. apply elem_of_seq. specialize (Hidx i (Hsub i Hi)). lia.
    + by destruct new.
Qed.
Lemma imap_pair_lookup {A} (l : list A) i x : (i, x) ∈ imap pair l <-> l !! i = Some x.
Proof.
  rewrite elem_of_list_lookup. split.
  - intros [j Hj]. rewrite list_lookup_imap in Hj. destruct (l !! j) as [y|] eqn:E; [|discriminate Hj].
    simpl in Hj. by injection Hj as <- <-.
  - intros Hi. exists i. by rewrite list_lookup_imap, Hi.
Qed.
Lemma imap_pair_fst {A} (l : list A) : (imap pair l).*1 = seq 0 (length l).
Proof.
  apply list_eq. intros i. rewrite list_lookup_fmap, list_lookup_imap. destruct (decide (i < length l)) as [Hi|Hi].
  - rewrite lookup_seq_lt by done. by destruct (lookup_lt_is_Some_2 _ _ Hi) as [x ->].
  - rewrite lookup_seq_ge by lia. rewrite lookup_ge_None_2 by lia. done.
Qed.
Lemma rotated {A} (l : list A) o : o ∈ rotations l -> o ≡ₚ l.
Proof.
  unfold rotations. intros (i & -> & _)%elem_of_list_fmap. rewrite Permutation_app_comm. by rewrite take_drop.
Qed.
Lemma indexed_imap xs Ps : Forall2 sound_runner xs Ps -> indexed (imap pair xs) Ps.
Proof.
  intros HF. split; [rewrite imap_pair_fst; apply NoDup_seq|]. intros i x Hi%imap_pair_lookup.
  destruct (Forall2_lookup_l _ _ _ _ _ HF Hi) as (P & HP & Hs). eauto.
Qed.
Lemma indexed_perm l l' Ps : l ≡ₚ l' -> indexed l Ps -> indexed l' Ps.
Proof. intros Hp [Hn Hl]. split; [by rewrite <-Hp|]. intros i x. rewrite <-Hp. apply Hl. Qed.
Lemma best_sound os all input b s m s' (Q : words) :
  (forall o, o ∈ os -> sound (any_order_pass all o) Q) ->
  (forall x, b = Some x -> m_ok x = true -> exists w, input = w ++ m_rest x /\ Q w) ->
  best os all input b s = Ok (m, s') -> m_ok m = true -> exists w, input = w ++ m_rest m /\ Q w.
Proof.
  intros Hos. revert b s. induction os as [|o os IH]; intros b s Hb E Hm; simpl in E.
  { injection E as <- _. destruct b as [x|]; [by apply Hb|discriminate Hm]. }
  rb E. destruct x as [m1 s1]. simpl in E. specialize (IH ltac:(intros; apply Hos; by right)).
  destruct (m_ok m1) eqn:Hm1; simpl in E; [|by eapply IH].
  pose proof (Hos o ltac:(by left) _ _ _ _ _ E0 Hm1) as Hw.
  destruct (m_rest m1) as [|v rest] eqn:Hr.
  { injection E as <- _. rewrite Hr. done. }
  rewrite <-Hr in *. eapply IH; [|exact E|done]. intros x Hx Hok. destruct b as [b|]; [destruct (_ <? _)|]; injection Hx as <-; [done|by apply Hb|done].
Qed.
Lemma any_order_sound all xs Ps : Forall2 sound_runner xs Ps ->
  sound (any_order all xs)
    (if all then (fun w => exists o, o ≡ₚ Ps /\ one_each o w) else (fun w => exists o, o ⊆+ Ps /\ o <> [] /\ one_each o w)).
Proof.
  intros HF input r s m s' E Hm. unfold any_order in E. pose proof (Forall2_length _ _ _ HF) as Hlen.
  destruct r as [r|].
  - eapply pass_sound; [by apply indexed_imap| |exact E|done]. by rewrite imap_length.
  - eapply best_sound with (b := None); [|intros x [=]|exact E|done]. intros o Ho%rotated. apply pass_sound.
    + eapply indexed_perm; [symmetry; exact Ho|]. by apply indexed_imap.
    + by rewrite Ho, imap_length.
Qed.

(** *** in turn *)
Lemma in_order_mono (A B : Prop) l w : (A -> B) -> in_order A l w -> in_order B l w.
Proof. destruct l as [|[c P] l]; simpl; [done|]. intros HAB [H|[(? & ? & ?)|H]]; [by left|right; left; auto|by right; right]. Qed.
Lemma in_turn_sound xs Ps i input vals prev r s m s' (A : Prop) :
  Forall2 (fun x P => sound_runner x P.2 /\ ru_comma x = P.1) xs Ps ->
  (prev = false -> A) -> in_turn xs i input vals prev r s = Ok (m, s') -> m_ok m = true ->
  exists w, input = w ++ m_rest m /\ in_order A Ps w.
Proof.
  intros HF. revert i input vals prev s A. induction HF as [|x [c P] xs Ps [[Hx Ho] Hc] HF IH]; intros i input vals prev s A HA E Hm; simpl in E.
  { injection E as <- _. by exists []. }
  simpl in *. rb E. destruct x0 as [m1 s1]. simpl in E. destruct (m_ok m1) eqn:Hm1.
  { destruct (stepped_sound _ _ _ _ Hx _ _ _ _ _ E0 Hm1) as (w & Hw & HP).
    assert ((length (m_rest m1) <? length input) = false -> w = []) as Hwn.
    { intros Hl%Nat.ltb_ge. rewrite Hw, app_length in Hl. destruct w; [done|simpl in Hl; lia]. }
    destruct (IH _ _ _ _ _ _ Hwn E Hm) as (w' & Hw' & Hin).
    exists (w ++ w'). split; [by rewrite <-app_assoc, <-Hw'|]. left. eauto. }
  subst c. destruct (ru_comma x) eqn:Hcx; [|injection E as <- _; discriminate Hm].
  destruct prev; simpl in E.
  - destruct (bool_decide_reflect (length xs = 0)); simpl in E; [injection E as <- _; discriminate Hm|].
    destruct (forallb ru_omits xs) eqn:Hf; simpl in E; injection E as <- _; [|discriminate Hm].
    exists []. simpl. split; [done|]. right. right. split_and!; [done|done|by intros ->; inversion HF; subst|].
    apply Forall_forall. intros [c' P'] Hin. destruct (elem_of_list_lookup_1 _ _ Hin) as [j Hj].
    destruct (Forall2_lookup_r _ _ _ _ _ HF Hj) as (y & Hy & [[_ Hom] _]). apply Hom. rewrite forallb_forall in Hf. apply Hf, elem_of_list_In. by eapply elem_of_list_lookup_2.
  - destruct (IH _ _ _ _ _ True ltac:(done) E Hm) as (w & Hw & Hin). exists w. split; [done|]. right. left. auto.
Qed.

Lemma group_sound k xs (Ps : list (bool * words)) :
  Forall2 (fun x P => sound_runner x P.2 /\ ru_comma x = P.1) xs Ps -> sound (run_group k xs) (combined k Ps).
Proof.
  intros HF. assert (Forall2 sound_runner xs Ps.*2) as HF2.
  { apply Forall2_fmap_r. eapply Forall2_impl; [exact HF|]. naive_solver. }
  destruct k; simpl.
  - intros input r s m s' E Hm. by eapply (in_turn_sound _ _ 0 input [] true).
  - by apply (any_order_sound true).
  - by apply (any_order_sound false).
  - by apply exactly_one_sound.
Qed.

(** *** multipliers *)
Lemma times_snoc P k u v : times P k u -> P v -> times P (S k) (u ++ v).
Proof.
  revert u. induction k as [|k IH]; intros u Hu Hv; simpl in *.
  - subst u. exists v, []. by rewrite app_nil_r.
  - destruct Hu as (a & b & -> & Ha & Hb). exists a, (b ++ v). rewrite <-app_assoc. split_and!; [done|done|]. by apply IH.
Qed.
Lemma not_yet_zero m k : fulfilled m k = NotYet -> enough (fulfilled m 0) = false.
Proof.
  destruct m; simpl; try done; try by destruct k as [|[|k]].
  intros H. destruct (k <? lo) eqn:E; [|by destruct (k =? hi); [|destruct (_ && _)]].
  apply Nat.ltb_lt in E. destruct (0 <? lo) eqn:E0; [done|]. apply Nat.ltb_ge in E0. lia.
Qed.
Lemma repeated_sound fuel once P m raw input cnt vals r s x s' before :
  sound once P -> times P cnt before -> (cnt = 0 \/ fulfilled m cnt = NotYet \/ (fulfilled m cnt = MoreAllowed /\ input <> [])) ->
  repeated fuel once (fulfilled m) raw input cnt vals r s = Ok (x, s') -> m_ok x = true ->
  exists w k, input = w ++ m_rest x /\ enough (fulfilled m k) = true /\ times P k (before ++ w) /\ (k = 0 -> before ++ w = []).
Proof.
  intros Hs. revert input cnt vals s before. induction fuel as [|fuel IH]; intros input cnt vals s before Hb Hc E Hm; simpl in E; [discriminate E|].
  destruct input as [|v input].
  { injection E as <- _. destruct (enough (fulfilled m 0)) eqn:He; [|discriminate Hm]. simpl.
    destruct Hc as [->|[Hc|[_ Hc]]]; [|by rewrite (not_yet_zero _ _ Hc) in He|done].
    simpl in Hb. subst before. exists [], 0. done. }
  rb E. destruct x0 as [y s1]. simpl in E. destruct (m_ok y) eqn:Hy.
  - destruct (Hs _ _ _ _ _ E0 Hy) as (w & Hw & HP). pose proof (times_snoc _ _ _ _ Hb HP) as Ht.
    assert (repeated fuel once (fulfilled m) raw (m_rest y) (S cnt) (vals ++ m_vals y) r s1 = Ok (x, s') ->
      (S cnt = 0 \/ fulfilled m (S cnt) = NotYet \/ (fulfilled m (S cnt) = MoreAllowed /\ m_rest y <> [])) ->
      exists w k, v :: input = w ++ m_rest x /\ enough (fulfilled m k) = true /\ times P k (before ++ w) /\ (k = 0 -> before ++ w = [])) as Hnext.
    { intros Ez Hcz. destruct (IH _ _ _ _ _ Ht Hcz Ez Hm) as (w' & k & Hw' & He & Hk & Hk0).
      exists (w ++ w'), k. rewrite Hw, Hw', <-!app_assoc in *. done. }
    destruct (fulfilled m (S cnt)) eqn:Hf.
    + apply Hnext; [exact E|by right; left].
    + injection E as -> _. exists w, (S cnt). rewrite Hf. split_and!; try done.
    + destruct (m_rest y) eqn:Hr; [|apply Hnext; [exact E|by right; right]].
      injection E as -> _. rewrite Hr. exists w, (S cnt). rewrite Hf. split_and!; try done.
    + injection E as <- _. discriminate Hm.
  - destruct (fulfilled m cnt) eqn:Hf; injection E as <- _; simpl in *; try congruence.
    exists [], cnt. rewrite app_nil_r, Hf. split_and!; try done. intros ->. done.
Qed.
Lemma multiplied_of m P k w : is_primary m = true -> enough (fulfilled m k) = true -> times P k w -> multiplied m P w.
Proof.
  intros Hp He Ht. destruct m; simpl in *; try done.
  - destruct k as [|[|k]]; try done. simpl in Ht. destruct Ht as (u & v & -> & HP & ->). by rewrite app_nil_r.
  - by exists k.
  - exists k. split; [|done]. destruct k; [done|lia].
  - destruct k as [|[|k]]; try done; simpl in Ht; [by left|]. destruct Ht as (u & v & -> & HP & ->). rewrite app_nil_r. by right.
  - exists k. split; [|done]. destruct (k <? lo) eqn:E1; [done|]. apply Nat.ltb_ge in E1.
    destruct (k =? hi) eqn:E2; [apply Nat.eqb_eq in E2; lia|]. destruct ((lo <=? k) && (k <? hi)) eqn:E3; [|done].
    apply andb_true_iff in E3 as [_ E3]. apply Nat.ltb_lt in E3. lia.
Qed.
Definition item_of (ms : list multiplier) (once : run) : run := fun input r s =>
  repeated (S (S (length input + bound (primary ms)))) once (fulfilled (primary ms)) input input 0 [] r s.
Lemma primary_primary ms : is_primary (primary ms) = true.
Proof.
  unfold primary. destruct (List.filter is_primary ms) as [|m l] eqn:E; [done|].
  assert (In m (List.filter is_primary ms)) as H by (rewrite E; by left). by apply filter_In in H as [_ ?].
Qed.
Lemma item_sound ms once P : sound once P -> sound (item_of ms once) (multiplied (primary ms) P).
Proof.
  intros Hs input r s m s' E Hm. unfold item_of in E.
  destruct (repeated_sound _ _ P _ _ _ 0 _ _ _ _ _ [] Hs eq_refl (or_introl eq_refl) E Hm) as (w & k & Hw & He & Hk & _).
  exists w. split; [done|]. eapply multiplied_of; [apply primary_primary|done|done].
Qed.
(** a comma-separated list that took everything *)
Lemma commas_sound fuel item P lo hi raw input cnt vals r s m s' :
  sound item P -> commas fuel item lo hi raw input cnt vals r s = Ok (m, s') -> m_ok m = true -> m_rest m = [] ->
  (cnt <> 0 -> input <> []) ->
  (cnt = 0 /\ lo = 0 /\ input = []) \/ (exists k, (lo <= cnt + S k /\ (N.of_nat (cnt + S k) <= hi)%N) /\ comma_separated P k input).
Proof.
  intros Hs. revert input cnt vals s. induction fuel as [|fuel IH]; intros input cnt vals s E Hm Hr Hin; cbn [commas] in E; [discriminate E|].
  destruct (item input r s) as [[y s1]| |] eqn:E0; cbn [rbind] in E; [|discriminate E|discriminate E].
  assert (forall c inp vs, comma_end lo hi raw c inp vs = m -> (lo <= c /\ (N.of_nat c <= hi)%N) /\ inp = []) as Hend.
  { intros c inp vs <-. unfold comma_end in *. destruct ((lo <=? c) && (N.of_nat c <=? hi)%N) eqn:Hb; [|discriminate Hm]. apply andb_true_iff in Hb as [Hb1 Hb2].
    apply Nat.leb_le in Hb1. apply N.leb_le in Hb2. done. }
  destruct (m_ok y) eqn:Hy; cbn [negb] in E.
  2:{ apply Ok_pair in E as [E _]. apply Hend in E as [Hb ->].
      left. destruct cnt; [|by destruct (Hin ltac:(done))]. split_and!; [done|lia|done]. }
  destruct (Hs _ _ _ _ _ E0 Hy) as (w & Hw & HP). right.
  destruct (after_comma (m_rest y)) as [[|v rest]|] eqn:Ha.
  - apply Ok_pair in E as [E _]. rewrite <-E in Hm. discriminate Hm.
  - assert (m_rest y = VComma :: v :: rest) as Hrest.
    { destruct (m_rest y) as [|z l]; [discriminate Ha|]. destruct z; try discriminate Ha. simpl in Ha. by injection Ha as ->. }
    destruct (IH _ _ _ _ E Hm Hr ltac:(done)) as [(? & _)|(k & Hk & Hc)]; [done|].
    exists (S k). split; [lia|]. simpl. exists w, (v :: rest). by rewrite <-Hrest.
  - apply Ok_pair in E as [E _]. apply Hend in E as [Hb He].
    rewrite He, app_nil_r in Hw. subst w. exists 0. split; [lia|done].
Qed.

Section fits.
Context (fits : str -> str -> value -> bool).
Notation match_component := (match_component fits).
Notation language := (language fits).

(** how a component matches once *)
Definition once_run (c : component) : run :=
  match c with
  | CKeyword s _ => single (keyword_ok s)
  | CDefinition _ _ _ _ => fun input _ s => Ok (no_match input, s)
  | CBuiltin t rg _ => single (fits t rg)
  | CInherit _ => single inherit_ok
  | CInitial _ => single initial_ok
  | CUnset _ => single (says (txt "unset"))
  | CLiteral l _ => single (literal_ok l)
  | CProperty _ _ => fun input _ s => Panic
  | CFunction name args _ => fun input _ s =>
      match input with
      | VFunction n vs :: rest =>
          if negb (same_ignoring_case name n) then Ok (no_match input, s)
          else match args with
               | None => Ok (mk_m true rest [VFunction n vs], s)
               | Some a =>
                   let* (m, s') := match_component a vs None s in
                   Ok (if m_ok m && bool_decide (length (m_rest m) = 0) then mk_m true rest [VFunction n vs] else no_match input, s')
               end
      | _ => Ok (no_match input, s)
      end
  | CGroup k cs _ => run_group k (map (fun c => mk_runner (omissible c) (is_comma c) (match_component c)) cs)
  end.
Lemma match_component_eq c : match_component c = with_multipliers (multipliers c) (once_run c).
Proof. by destruct c. Qed.
Definition once_language_of (mult : list multiplier -> words -> words) (c : component) : words :=
  match c with
  | CKeyword s _ => fun w => exists v, w = [v] /\ (text_is s v \/ (v = VNone /\ map ascii_low s = txt "none"))
  | CProperty _ _ | CDefinition _ _ _ _ => fun w => False
  | CFunction name args _ => fun w => exists n vs, w = [VFunction n vs] /\ map ascii_low n = map ascii_low name /\
      match args with None => True | Some a => language_of fits mult a vs end
  | CInherit _ => fun w => exists v, w = [v] /\ (v = VInherit \/ text_is (txt "inherit") v)
  | CInitial _ => fun w => exists v, w = [v] /\ (v = VInitial \/ text_is (txt "initial") v)
  | CUnset _ => fun w => exists v, w = [v] /\ text_is (txt "unset") v
  | CLiteral s _ => fun w => exists v, w = [v] /\ (text_is s v \/ (v = VComma /\ s = comma))
  | CBuiltin t rg _ => fun w => exists v, w = [v] /\ fits t rg v = true
  | CGroup k cs _ => combined k (map (fun c => (is_comma c, language_of fits mult c)) cs)
  end.
Lemma language_of_eq mult c : language_of fits mult c = mult (multipliers c) (once_language_of mult c).
Proof. by destruct c. Qed.
Definition once_language (c : component) : words := once_language_of as_written c.
Lemma language_eq c : language c = foldl (fun P m => multiplied m P) (once_language c) (multipliers c).
Proof. by destruct c. Qed.

Lemma single_sound ok : sound (single ok) (fun w => exists v, w = [v] /\ ok v = true).
Proof.
  intros input r s m s' E Hm. destruct input as [|v input]; simpl in E; injection E as <- _; [discriminate Hm|].
  destruct (ok v) eqn:Hok; [|discriminate Hm]. exists [v]. simpl. eauto.
Qed.
Lemma sound_mono f (P Q : words) : (forall w, P w -> Q w) -> sound f P -> sound f Q.
Proof. intros HPQ Hf input r s m s' E Hm. destruct (Hf _ _ _ _ _ E Hm) as (w & Hw & HP). eauto. Qed.
Lemma says_text s v : says s v = true -> text_is s v.
Proof. destruct v; simpl; try done. unfold same_ignoring_case. rewrite bool_decide_eq_true. intros H. by exists s0. Qed.
Lemma low_none : map ascii_low (txt "none") = txt "none".
Proof. by vm_compute. Qed.
(** the leaves *)
Lemma leaf_sound mult c : (match c with CGroup _ _ _ | CFunction _ (Some _) _ => False | _ => True end) -> sound (once_run c) (once_language_of mult c).
Proof.
  destruct c as [s ms|s ms|n [a|] ms|s ms|ms|ms|ms|s ms|t rg ms|k cs ms]; intros Hc; try done; simpl.
  - eapply sound_mono; [|apply single_sound]. intros w (v & -> & Hv). exists v. split; [done|]. unfold keyword_ok in Hv.
    destruct v; try (left; by apply says_text). right. split; [done|]. unfold same_ignoring_case in Hv.
    apply bool_decide_eq_true in Hv. by rewrite Hv, low_none.
  - intros input r s' m s'' E Hm. destruct input as [|v input]; [injection E as <- _; discriminate Hm|].
    destruct v; try (injection E as <- _; discriminate Hm). destruct (same_ignoring_case n name) eqn:Hn; simpl in E; injection E as <- _; [|discriminate Hm].
    exists [VFunction name args]. simpl. split; [done|]. exists name, args. split_and!; try done. symmetry. by apply bool_decide_eq_true in Hn.
  - intros input r s' m s'' E Hm. injection E as <- _. discriminate Hm.
  - eapply sound_mono; [|apply single_sound]. intros w (v & -> & Hv). exists v. split; [done|].
    destruct v; try (right; by apply says_text); try done. by left.
  - eapply sound_mono; [|apply single_sound]. intros w (v & -> & Hv). exists v. split; [done|].
    destruct v; try (right; by apply says_text); try done. by left.
  - eapply sound_mono; [|apply single_sound]. intros w (v & -> & Hv). exists v. split; [done|]. by apply says_text.
  - eapply sound_mono; [|apply single_sound]. intros w (v & -> & Hv). exists v. split; [done|]. unfold literal_ok in Hv.
    destruct v; try (left; by apply says_text). right. split; [done|]. by apply bool_decide_eq_true in Hv.
  - apply single_sound.
Qed.

Lemma plain_bounds ms : plain_ms ms -> comma_bounds ms = None /\ forall P, foldl (fun P m => multiplied m P) P ms = multiplied (primary ms) P.
Proof. destruct ms as [|m [|m' ms]]; simpl; try done. intros Hm. unfold primary. simpl. rewrite Hm. by destruct m. Qed.
Lemma plain_sound ms once P : plain_ms ms -> sound once P -> sound (with_multipliers ms once) (foldl (fun P m => multiplied m P) P ms).
Proof.
  intros Hp Hs. destruct (plain_bounds ms Hp) as [Hb ->]. intros input r s m s' E. unfold with_multipliers in E. rewrite Hb in E.
  by eapply (item_sound ms once P Hs).
Qed.
Lemma omissible_empty c : plain_ms (multipliers c) -> omissible c = true -> language c [].
Proof.
  intros Hp Ho. rewrite language_eq. destruct (plain_bounds _ Hp) as [_ ->]. unfold omissible in Ho.
  eapply multiplied_of; [apply primary_primary|exact Ho|done].
Qed.
(** a whole grammar, when nothing is left over *)
Definition sound_whole (c : component) : Prop :=
  forall input r s m s', match_component c input r s = Ok (m, s') -> m_ok m = true -> m_rest m = [] -> language c input.
Lemma app_primary ms' lo hi : plain_ms ms' -> primary (ms' ++ [CommaRepeat lo hi]) = primary ms'.
Proof. destruct ms' as [|m [|m' ms']]; simpl; try done. Qed.
Lemma app_bounds ms' lo hi : plain_ms ms' -> comma_bounds (ms' ++ [CommaRepeat lo hi]) = Some (lo, hi).
Proof. destruct ms' as [|m [|m' ms']]; simpl; done. Qed.
Lemma whole_sound c : list_ms (multipliers c) -> sound (once_run c) (once_language c) -> sound_whole c.
Proof.
  intros [Hp|(ms' & lo & hi & Hms & Hp)] Hs input r s m s' E Hm Hr; rewrite match_component_eq in E; rewrite language_eq.
  - destruct (plain_sound _ _ _ Hp Hs _ _ _ _ _ E Hm) as (w & Hw & HP). rewrite Hr, app_nil_r in Hw. by subst w.
  - rewrite Hms in E |- *. unfold with_multipliers in E. rewrite app_bounds in E by done.
    rewrite foldl_app. simpl. destruct (plain_bounds _ Hp) as [_ ->].
    change (commas (S (length input)) (item_of (ms' ++ [CommaRepeat lo hi]) (once_run c)) lo hi input input 0 [] r s = Ok (m, s')) in E.
    eapply commas_sound in E; [|apply item_sound; exact Hs|done|done|done].
    rewrite app_primary in E by done. destruct E as [(_ & ? & ?)|(k & Hk & Hc)]; [by left|]. right. exists k. split_and!; [apply Hk..|done].
Qed.
Lemma tidy_sound c : (tidy false c -> sound (match_component c) (language c)) /\ (tidy true c -> sound_whole c).
Proof.
  assert (forall c, (forall b, tidy b c -> sound (once_run c) (once_language c)) ->
    (tidy false c -> sound (match_component c) (language c)) /\ (tidy true c -> sound_whole c)) as Hdo.
  { intros c' Hc. split; intros Ht; pose proof (Hc _ Ht) as Hs.
    - rewrite match_component_eq, language_eq. apply plain_sound; [|done]. destruct c'; apply Ht.
    - apply whole_sound; [|done]. destruct c'; apply Ht. }
  induction c as [s ms|s ms|n ms|n a ms IH|s q0 rg0 ms|ms|ms|ms|s ms|t rg ms|k cs ms IH] using component_ind'; apply Hdo; intros b Ht;
    try (by apply leaf_sound).
  - (* a function with arguments *)
    destruct Ht as [_ Ha]. simpl. destruct IH as [_ IH]. specialize (IH Ha).
    intros input r s' m s'' E Hm. destruct input as [|v input]; [injection E as <- _; discriminate Hm|].
    destruct v; try (injection E as <- _; discriminate Hm).
    destruct (same_ignoring_case n name) eqn:Hn; simpl in E; [|injection E as <- _; discriminate Hm].
    rb E. destruct x as [m' s1]. simpl in E. destruct (m_ok m' && bool_decide (length (m_rest m') = 0)) eqn:Hb; injection E as <- _; [|discriminate Hm].
    apply andb_true_iff in Hb as [Hok Hrest]. apply bool_decide_eq_true, nil_length_inv in Hrest.
    exists [VFunction name args]. simpl. split; [done|]. exists name, args. split_and!; try done.
    + symmetry. by apply bool_decide_eq_true in Hn.
    + by eapply IH.
  - destruct Ht as [_ Ht]. simpl. apply group_sound. apply Forall2_fmap.
    induction cs as [|c cs IHcs]; [constructor|]. simpl in Ht. destruct Ht as [Hc Ht]. inversion IH as [|? ? [Hs _] HF]; subst.
    constructor; [|by apply IHcs]. simpl. split; [|done]. split; [by apply Hs|]. simpl. apply omissible_empty. destruct c; apply Hc.
Qed.

(** with the liberties, every grammar *)
Lemma commas_loosely fuel item (P : words) lo hi raw input cnt vals r s m s' :
  sound item P -> commas fuel item lo hi raw input cnt vals r s = Ok (m, s') -> m_ok m = true ->
  exists w, input = w ++ m_rest m /\
    ((w = [] /\ lo <= cnt /\ (N.of_nat cnt <= hi)%N) \/
     exists k, lo <= cnt + S k /\ (N.of_nat (cnt + S k) <= hi)%N /\ (comma_separated P k w \/ exists u, w = u ++ [VComma] /\ comma_separated P k u)).
Proof.
  intros Hs. revert input cnt vals s. induction fuel as [|fuel IH]; intros input cnt vals s E Hm; cbn [commas] in E; [discriminate E|].
  destruct (item input r s) as [[y s1]| |] eqn:E0; cbn [rbind] in E; [|discriminate E|discriminate E].
  assert (forall c inp vs, comma_end lo hi raw c inp vs = m -> (lo <= c /\ (N.of_nat c <= hi)%N) /\ inp = m_rest m) as Hend.
  { intros c inp vs <-. unfold comma_end in *. destruct ((lo <=? c) && (N.of_nat c <=? hi)%N) eqn:Hb; [|discriminate Hm]. apply andb_true_iff in Hb as [Hb1 Hb2].
    apply Nat.leb_le in Hb1. apply N.leb_le in Hb2. done. }
  destruct (m_ok y) eqn:Hy; cbn [negb] in E.
  2:{ apply Ok_pair in E as [E _]. apply Hend in E as [Hb ->]. exists []. split; [done|]. left. done. }
  destruct (Hs _ _ _ _ _ E0 Hy) as (w & Hw & HP).
  destruct (after_comma (m_rest y)) as [[|v rest]|] eqn:Ha.
  - apply Ok_pair in E as [E _]. rewrite <-E in Hm. discriminate Hm.
  - assert (m_rest y = VComma :: v :: rest) as Hrest.
    { destruct (m_rest y) as [|z l]; [discriminate Ha|]. destruct z; try discriminate Ha. simpl in Ha. by injection Ha as ->. }
    destruct (IH _ _ _ _ E Hm) as (w' & Hw' & H). exists (w ++ VComma :: w'). split.
    { rewrite Hw, Hrest, Hw'. by rewrite <-app_assoc. }
    right. destruct H as [(-> & H1 & H2)|(k & H1 & H2 & H)].
    + exists 0. split_and!; [lia|lia|]. right. exists w. done.
    + exists (S k). split_and!; [lia|lia|]. destruct H as [H|(u & -> & H)].
      * left. exists w, w'. done.
      * right. exists (w ++ VComma :: u). split; [by rewrite <-app_assoc|]. exists w, u. done.
  - apply Ok_pair in E as [E _]. apply Hend in E as [[Hb1 Hb2] He]. exists w. split; [by rewrite <-He|]. right. exists 0.
    split_and!; [lia|lia|by left].
Qed.
Lemma loosely_sound ms once P : sound once P -> sound (with_multipliers ms once) (loosely ms P).
Proof.
  intros Hs input r s m s' E Hm. unfold with_multipliers in E. unfold loosely. destruct (comma_bounds ms) as [[lo hi]|].
  - change (commas (S (length input)) (item_of ms once) lo hi input input 0 [] r s = Ok (m, s')) in E.
    destruct (commas_loosely _ _ _ _ _ _ _ _ _ _ _ _ _ (item_sound ms once P Hs) E Hm) as (w & Hw & H). exists w. split; [done|].
    destruct H as [(-> & H1 & _)|H]; [|by right; right]. right. left. split; [lia|done].
  - by eapply (item_sound ms once P Hs).
Qed.
Lemma loose_sound c : sound (match_component c) (loose_language fits c).
Proof.
  assert (forall c, sound (once_run c) (once_language_of loosely c) -> sound (match_component c) (loose_language fits c)) as Hdo.
  { intros c' Hs. unfold loose_language. rewrite match_component_eq, language_of_eq. by apply loosely_sound. }
  induction c as [s ms|s ms|n ms|n a ms IH|s q0 rg0 ms|ms|ms|ms|s ms|t rg ms|k cs ms IH] using component_ind'; apply Hdo;
    try (by apply leaf_sound).
  - (* a function with arguments *)
    simpl. intros input r s' m s'' E Hm. destruct input as [|v input]; [injection E as <- _; discriminate Hm|].
    destruct v; try (injection E as <- _; discriminate Hm).
    destruct (same_ignoring_case n name) eqn:Hn; simpl in E; [|injection E as <- _; discriminate Hm].
    rb E. destruct x as [m' s1]. simpl in E. destruct (m_ok m' && bool_decide (length (m_rest m') = 0)) eqn:Hb; injection E as <- _; [|discriminate Hm].
    apply andb_true_iff in Hb as [Hok Hrest]. apply bool_decide_eq_true, nil_length_inv in Hrest.
    exists [VFunction name args]. simpl. split; [done|]. exists name, args. split_and!; try done.
    + symmetry. by apply bool_decide_eq_true in Hn.
    + destruct (IH _ _ _ _ _ E0 Hok) as (w & Hw & HL). rewrite Hrest, app_nil_r in Hw. by subst w.
  - simpl. apply group_sound. apply Forall2_fmap.
    induction cs as [|c cs IHcs]; [constructor|]. inversion IH as [|? ? Hs HF]; subst.
    constructor; [|by apply IHcs]. simpl. split; [|done]. split; [done|]. simpl. intros Ho. rewrite language_of_eq. unfold loosely.
    assert (multiplied (primary (multipliers c)) (once_language_of loosely c) []) as Hm.
    { eapply multiplied_of; [apply primary_primary|exact Ho|done]. }
    destruct (comma_bounds (multipliers c)) as [[lo hi]|]; [by left|done].
Qed.

(** ** Values waved through *)
Lemma existsb_elem {A} (f : A -> bool) l : existsb f l = true <-> exists x, x ∈ l /\ f x = true.
Proof. rewrite existsb_exists. by setoid_rewrite elem_of_list_In. Qed.
Fixpoint value_size (v : value) : nat :=
  match v with VFunction _ l | VList l => S (foldr (fun v n => value_size v + n) 0 l) | _ => 1 end.
Lemma size_in v l : v ∈ l -> value_size v <= foldr (fun v n => value_size v + n) 0 l.
Proof. induction 1; simpl; lia. Qed.
Lemma substitutes_has v : substitutes v = true <-> has_substitution v.
Proof.
  remember (value_size v) as n eqn:Hn. assert (value_size v <= n) as Hle by lia. clear Hn. revert v Hle.
  induction n as [|n IH]; intros v Hle; [destruct v; simpl in Hle; lia|].
  assert (forall l, foldr (fun v n => value_size v + n) 0 l <= n -> forall x, x ∈ l -> (substitutes x = true <-> has_substitution x)) as Hl.
  { intros l Hs x Hx. apply IH. pose proof (size_in _ _ Hx). lia. }
  assert (map ascii_low (txt "var") = txt "var") as Hvar by by vm_compute.
  assert (map ascii_low (txt "env") = txt "env") as Henv by by vm_compute.
  destruct v; try (split; [discriminate|intros H; inversion H]).
  - simpl in Hle. specialize (Hl args ltac:(lia)). simpl. unfold same_ignoring_case. rewrite !orb_true_iff, !bool_decide_eq_true, Hvar, Henv, existsb_elem. split.
    + intros [H|(x & Hx & H)]; [by apply sub_here|]. eapply sub_arg; [exact Hx|]. by apply Hl.
    + intros H. inversion H as [? ? H0|? ? x Hx Hs|]; subst; [by left|]. right. exists x. split; [done|]. by apply Hl.
  - simpl in Hle. specialize (Hl l ltac:(lia)). simpl. rewrite existsb_elem. split.
    + intros (x & Hx & H). eapply sub_item; [exact Hx|]. by apply Hl.
    + intros H. inversion H as [| |? x Hx Hs]; subst. exists x. split; [done|]. by apply Hl.
Qed.
Lemma vendor_low p : p ∈ vendor_prefixes -> map ascii_low p = p.
Proof.
  assert (forallb (fun p => bool_decide (map ascii_low p = p)) vendor_prefixes = true) as H by by vm_compute.
  rewrite forallb_forall in H. intros Hp%elem_of_list_In. specialize (H _ Hp). by apply bool_decide_eq_true in H.
Qed.
Lemma waved l : is_css_wide_keyword l || contains_substitution l || is_vendor_prefixed_keyword l = true <-> waved_through l.
Proof.
  unfold waved_through. rewrite !orb_true_iff. assert (is_css_wide_keyword l = true <-> css_wide l) as ->.
  { unfold css_wide. split.
    - destruct l as [|v [|v' l]]; simpl; try done; [|by destruct v]. destruct v; try done; [|by right; left|by left].
      rewrite <-(orb_false_r false) at 1. intros H. right. right.
      assert (exists k, k ∈ [txt "inherit"; txt "initial"; txt "unset"; txt "revert"; txt "revert-layer"] /\ same_ignoring_case s k = true) as (k & Hk & Hs).
      { by apply existsb_elem. }
      exists k, (VString s). split_and!; [done| |done]. exists s. split; [done|]. by apply bool_decide_eq_true in Hs.
    - intros [->|[->|(k & v & -> & (t & -> & Ht) & Hk)]]; [done|done|].
      change (existsb (fun k => same_ignoring_case t k) [txt "inherit"; txt "initial"; txt "unset"; txt "revert"; txt "revert-layer"] = true).
      apply existsb_elem. exists k. split; [done|]. by apply bool_decide_eq_true. }
  assert (contains_substitution l = true <-> Exists has_substitution l) as ->.
  { unfold contains_substitution. rewrite existsb_elem, Exists_exists. by setoid_rewrite substitutes_has. }
  assert (is_vendor_prefixed_keyword l = true <-> vendor_keyword l) as ->; [|tauto].
  unfold vendor_keyword. split.
  - destruct l as [|v [|v' l]]; [done| |by destruct v]. destruct v; try done. intros H.
    assert (exists p, p ∈ vendor_prefixes /\ (length p <? length s) && same_ignoring_case (take (length p) s) p = true) as (p & Hp & Hb) by by apply existsb_elem.
    apply andb_true_iff in Hb as [Hlen Hb]. apply Nat.ltb_lt in Hlen. apply bool_decide_eq_true in Hb.
    exists p, (take (length p) s), (drop (length p) s). rewrite take_drop, Hb. split_and!; [done|by apply vendor_low| |done].
    intros Hd. apply (f_equal length) in Hd. rewrite drop_length in Hd. simpl in Hd. lia.
  - intros (p & q & r & -> & Hq & Hr & Hp).
    change (existsb (fun p => (length p <? length (q ++ r)) && same_ignoring_case (take (length p) (q ++ r)) p) vendor_prefixes = true).
    apply existsb_elem. exists p. split; [done|]. assert (length p = length q) as Hl by (rewrite <-Hq; apply map_length).
    rewrite Hl, take_app, app_length. destruct r; [done|]. apply andb_true_iff. split; [apply Nat.ltb_lt; simpl; lia|].
    apply bool_decide_eq_true. rewrite Hq. symmetry. by apply vendor_low.
Qed.
End fits.
