From stdpp Require Import gmap relations.
From Verif Require Import Text SettingsModel DomModel DomSpec DomProofs.

(** * Document order *)
Lemma forall2_choice {A B} (P : A -> B -> Prop) (l : list A) : (forall x, x ∈ l -> exists y, P x y) -> exists l', Forall2 P l l'.
Proof.
  induction l as [|x l IH]; intros H; [exists []; constructor|].
  destruct (H x) as [y Hy]; [left|]. destruct IH as [l' Hl]; [intros; apply H; by right|]. exists (y :: l'). by constructor.
Qed.
(** induction along an acyclic document *)
Lemma acyclic_ind d (Q : nat -> Prop) : acyclic d -> (forall i, (forall c, child d i c -> Q c) -> Q i) -> forall i, Q i.
Proof.
  intros A H.
  assert (K : forall f i anc, NoDup anc -> (forall a, a ∈ anc -> exists_in d a /\ tc (child d) a i) -> length (slots (ar d)) < length anc + f -> Q i).
  { induction f as [|f IH]; intros i anc Hnd Hanc Hlen.
    - exfalso. assert (length anc <= length (slots (ar d))); [|lia].
      apply nodup_bound; [done|]. intros x Hx. apply get_lt. by apply Hanc.
    - apply H. intros c Hc. apply (IH c (i :: anc)).
      + constructor; [|done]. intros Hi. by apply (A i), Hanc.
      + intros a [->|Ha]%elem_of_cons; [split; [by eapply child_exists|by apply tc_once]|].
        split; [by apply Hanc|]. eapply tc_r; [by apply Hanc|done].
      + simpl. lia. }
  intros i. apply (K (S (length (slots (ar d)))) i []); [constructor| |simpl; lia]. intros a Ha. by apply elem_of_nil in Ha.
Qed.
Lemma preorder_exists d i : acyclic d -> exists l, preorder d i l.
Proof.
  intros A. revert i. apply (acyclic_ind d _ A). intros i IH.
  destruct (forall2_choice (preorder d) (children d i)) as [ls H]; [intros; by apply IH|].
  exists (i :: concat ls). by constructor.
Qed.
Lemma concat_length_le {A} (ls : list (list A)) l : l ∈ ls -> length l <= length (concat ls).
Proof. induction 1; simpl; rewrite app_length; lia. Qed.
(** the iterator pops a subtree *)
Lemma iter_subtree d n : forall i l, length l <= n -> preorder d i l -> forall f s r, iter_all f d s = Ok r -> iter_all (length l + f) d (i :: s) = Ok (l ++ r).
Proof.
  induction n as [|n IH]; intros i l Hn Hp.
  { inversion Hp; subst. simpl in Hn. lia. }
  inversion Hp as [i' ls HF]; subst. intros f s r Hr. simpl in Hn.
  assert (K : forall cs ls', Forall2 (preorder d) cs ls' -> (forall l, l ∈ ls' -> length l <= n) ->
    iter_all (length (concat ls') + f) d (cs ++ s) = Ok (concat ls' ++ r)).
  { induction 1 as [|c l cs ls' Hc _ IHc]; intros Hl; [done|]. simpl. rewrite app_length, <- Nat.add_assoc, <- app_assoc.
    apply IH; [apply Hl; left|done|]. apply IHc. intros l' Hl'. apply Hl. by right. }
  simpl. rewrite K; [done|done|]. intros l Hl. apply concat_length_le in Hl. lia.
Qed.
Lemma iter_preorder d i l f : preorder d i l -> length l < f -> iter_all f d [i] = Ok l.
Proof.
  intros H Hf. replace f with (length l + S (f - length l - 1)) by lia.
  rewrite (iter_subtree d (length l) i l (le_n _) H (S (f - length l - 1)) [] []); [by rewrite app_nil_r|done].
Qed.
Lemma preorder_reach d n : forall i l, length l <= n -> preorder d i l -> forall x, x ∈ l <-> rtc (child d) i x.
Proof.
  induction n as [|n IH]; intros i l Hn Hp x.
  { inversion Hp; subst. simpl in Hn. lia. }
  inversion Hp as [i' ls HF]; subst. simpl in Hn. rewrite elem_of_cons.
  assert (K : forall cs ls', Forall2 (preorder d) cs ls' -> (forall l, l ∈ ls' -> length l <= n) ->
    x ∈ concat ls' <-> exists c, c ∈ cs /\ rtc (child d) c x).
  { induction 1 as [|c l cs ls' Hc _ IHc]; intros Hl; simpl.
    - rewrite elem_of_nil. split; [done|]. intros (c&Hc&_). by apply elem_of_nil in Hc.
    - rewrite elem_of_app, (IH c l), IHc; [|intros; apply Hl; by right|apply Hl; left|done]. split.
      + intros [H|(c'&Hc'&H)]; eexists; (split; [|done]); [left|by right].
      + intros (c'&[->|Hc']%elem_of_cons&H); [by left|right; eauto]. }
  rewrite K; [|done|intros l Hl; apply concat_length_le in Hl; lia]. split.
  - intros [->|(c&Hc&H)]; [apply rtc_refl|]. by eapply rtc_l.
  - intros H. inversion H; subst; [by left|]. right. eauto.
Qed.
Lemma rtc_comparable d a b x : linked d -> rtc (child d) a x -> rtc (child d) b x -> rtc (child d) a b \/ rtc (child d) b a.
Proof.
  intros L H. revert x H b.
  apply (rtc_ind_r (fun x => forall b, rtc (child d) b x -> rtc (child d) a b \/ rtc (child d) b a) a); [by right|].
  intros x y H E IH b Hb.
  apply rtc_inv_r in Hb as [->|(z&Hb&Ez)].
  - left. by eapply rtc_r.
  - pose proof (lk_parent d L _ _ E). pose proof (lk_parent d L _ _ Ez). assert (z = x) by congruence. subst. by apply IH.
Qed.
Lemma preorder_nodup d n : linked d -> acyclic d -> forall i l, length l <= n -> preorder d i l -> NoDup l.
Proof.
  intros L A. induction n as [|n IH]; intros i l Hn Hp.
  { inversion Hp; subst. simpl in Hn. lia. }
  inversion Hp as [i' ls HF]; subst. simpl in Hn. constructor.
  - intros Hi.
    assert (K : exists c, child d i c /\ rtc (child d) c i).
    { clear -HF Hi. unfold child. revert HF. generalize (children d i). intros cs HF.
      induction HF as [|c l cs ls Hc _ IHc]; simpl in Hi; [by apply elem_of_nil in Hi|].
      apply elem_of_app in Hi as [Hi|Hi].
      - exists c. split; [left|]. by apply (preorder_reach d (length l) c l).
      - destruct (IHc Hi) as (c'&?&?). exists c'. split; [by right|done]. }
    destruct K as (c&Hc&H). apply (A i). eapply tc_rtc_r; [by apply tc_once|done].
  - assert (Hall : forall l, l ∈ ls -> length l <= n). { intros l Hl. apply concat_length_le in Hl. lia. }
    assert (Hnd := lk_once d L i).
    assert (Hcs : forall c, c ∈ children d i -> child d i c) by done.
    revert HF Hnd Hcs Hall. clear Hp Hn. generalize (children d i) at 1 2 3. intros cs HF. induction HF as [|c l cs ls Hc HF IHc]; intros Hnd Hcs Hall; simpl; [constructor|].
    apply NoDup_app. split_and!.
    + eapply IH; [|done]. apply Hall. left.
    + intros x Hx Hx'.
      apply (preorder_reach d (length l) c l) in Hx; [|done|done].
      assert (K : exists c', c' ∈ cs /\ rtc (child d) c' x).
      { clear -HF Hx'. induction HF as [|c l cs ls Hc _ IHc]; simpl in Hx'; [by apply elem_of_nil in Hx'|].
        apply elem_of_app in Hx' as [Hi|Hi].
        - exists c. split; [left|]. by apply (preorder_reach d (length l) c l).
        - destruct (IHc Hi) as (c'&?&?). exists c'. split; [by right|done]. }
      destruct K as (c'&Hc'&Hx2).
      assert (Hne : c <> c'). { intros ->. apply NoDup_cons in Hnd as [? _]. done. }
      assert (Pc : child d i c) by (apply Hcs; left). assert (Pc' : child d i c') by (apply Hcs; by right).
      assert (Q : forall a b, child d i a -> child d i b -> a <> b -> rtc (child d) a b -> False).
      { intros a b Ha Hb Hab R. apply rtc_inv_r in R as [?|(z&Hz&Ez)]; [done|].
        pose proof (lk_parent d L _ _ Ez). pose proof (lk_parent d L _ _ Hb). assert (z = i) by congruence. subst z.
        apply (A i). eapply tc_rtc_r; [apply tc_once, Ha|exact Hz]. }
      destruct (rtc_comparable d c c' x L Hx Hx2) as [R|R]; [by apply (Q c c')|by apply (Q c' c)].
    + apply IHc.
      * by apply NoDup_cons in Hnd as [_ ?].
      * intros. apply Hcs. by right.
      * intros. apply Hall. by right.
Qed.

(** * Queries *)
Lemma split_ws_app_nonspace acc w s : Forall (fun c => is_space c = false) w -> split_ws_acc acc (w ++ s) = split_ws_acc (rev w ++ acc) s.
Proof.
  revert acc. induction w as [|c w IH]; intros acc H; [done|]. apply Forall_cons in H as [Hc Hw]. simpl. rewrite Hc, IH by done.
  by rewrite <- app_assoc.
Qed.
(** the words, characterised *)
Lemma split_ws_spec s : forall acc, Forall (fun c => is_space c = false) acc -> forall w,
  w ∈ split_ws_acc acc s <->
  (exists p q, w = rev acc ++ p /\ w <> [] /\ s = p ++ q /\ Forall (fun c => is_space c = false) p /\ (forall c, head q = Some c -> is_space c = true))
  \/ (w <> [] /\ Forall (fun c => is_space c = false) w /\ exists a b, s = a ++ w ++ b /\ (exists c, last a = Some c /\ is_space c = true) /\ (forall c, head b = Some c -> is_space c = true)).
Proof.
  induction s as [|c s IH]; intros acc Hacc w; simpl.
  - split.
    + destruct acc as [|x acc]; [by intros ?%elem_of_nil|]. intros ->%elem_of_list_singleton. left.
      exists [], []. rewrite app_nil_r. split_and!; try done. simpl. by destruct (rev acc).
    + intros [(p&q&->&Hne&E&Hp&Hq)|(Hne&Hw&a&b&E&(c&Hc&_)&_)].
      * symmetry in E. apply app_nil in E as [-> ->]. rewrite app_nil_r in *. destruct acc; [done|]. left.
      * symmetry in E. apply app_nil in E as [-> _]. done.
  - destruct (is_space c) eqn:Ec.
    + assert (IH0 := IH [] (Forall_nil_2 _) w). simpl in IH0.
      assert (Hsub : w ∈ split_ws_acc [] s <->
        (w <> [] /\ Forall (fun c => is_space c = false) w /\ exists a b, c :: s = a ++ w ++ b /\ (exists c, last a = Some c /\ is_space c = true) /\ (forall c, head b = Some c -> is_space c = true))).
      { rewrite IH0. split.
        - intros [(p&q&->&Hne&->&Hp&Hq)|(Hne&Hw&a&b&->&(x&Hx&Hxs)&Hb)]; split_and!; try done.
          + exists [c], q. split_and!; try done. by exists c.
          + exists (c :: a), b. split_and!; try done. exists x. split; [|done]. by destruct a.
        - intros (Hne&Hw&a&b&E&(x&Hx&Hxs)&Hb). destruct a as [|y a]; [done|]. simpl in E. simplify_eq.
          destruct a as [|z a].
          + left. exists w, b. split_and!; done.
          + right. split_and!; try done. exists (z :: a), b. split_and!; try done. exists x. by split. }
      assert (Hcase : forall P : Prop, (P <-> w ∈ split_ws_acc [] s) -> True) by done.
      destruct acc as [|y acc].
      * rewrite Hsub. split; [by right|]. intros [(p&q&->&Hne&E&Hp&Hq)|H]; [|done].
        destruct p as [|z p]; [done|]. simpl in E. simplify_eq. apply Forall_cons in Hp as [Hz _]. congruence.
      * rewrite elem_of_cons, Hsub. split.
        -- intros [->|H]; [|by right]. left. exists [], (c :: s). rewrite app_nil_r. split_and!; try done.
           ++ simpl. by destruct (rev acc).
           ++ intros x [= <-]. done.
        -- intros [(p&q&->&Hne&E&Hp&Hq)|H]; [|by right]. left.
           destruct p as [|z p]; [by rewrite app_nil_r|]. simpl in E. simplify_eq. apply Forall_cons in Hp as [Hz _]. congruence.
    + rewrite (IH (c :: acc)) by (by constructor). simpl. split.
      * intros [(p&q&->&Hne&->&Hp&Hq)|(Hne&Hw&a&b&->&(x&Hx&Hxs)&Hb)].
        -- left. exists (c :: p), q. split_and!; try done.
           ++ by rewrite <- app_assoc.
           ++ by constructor.
        -- right. split_and!; try done. exists (c :: a), b. split_and!; try done. exists x. split; [|done]. by destruct a.
      * intros [(p&q&->&Hne&E&Hp&Hq)|(Hne&Hw&a&b&E&(x&Hx&Hxs)&Hb)].
        -- destruct p as [|z p].
           ++ simpl in E. subst q. specialize (Hq c eq_refl). congruence.
           ++ simpl in E. simplify_eq. left. exists p, q. apply Forall_cons in Hp as [_ Hp]. split_and!; try done. by rewrite <- app_assoc.
        -- destruct a as [|z a]; [done|]. simpl in E. simplify_eq. destruct a as [|y a].
           ++ simpl in Hx. simplify_eq. congruence.
           ++ right. split_and!; try done. exists (y :: a), b. split_and!; try done. exists x. by split.
Qed.
Lemma split_whitespace_words s w : w ∈ split_whitespace s <-> is_word w s.
Proof.
  unfold split_whitespace, is_word. rewrite (split_ws_spec s [] (Forall_nil_2 _) w). simpl. split.
  - intros [(p&q&->&Hne&->&Hp&Hq)|(Hne&Hw&a&b&->&(x&Hx&Hxs)&Hb)]; split_and!; try done.
    + exists [], q. split_and!; done.
    + exists a, b. split_and!; try done. intros c Hc. congruence.
  - intros (Hne&Hw&a&b&->&Ha&Hb). destruct a as [|y a].
    + left. exists w, b. by split_and!.
    + right. split_and!; try done. exists (y :: a), b. split_and!; try done.
      destruct (last (y :: a)) as [x|] eqn:Ex; [|by apply last_None in Ex]. exists x. eauto.
Qed.

Lemma is_element_spec d i : is_element d i = true <-> is_elem d i.
Proof. unfold is_element, is_elem. destruct (get d i ≫= element_of); naive_solver. Qed.
Lemma tag_is_elem d i s : tag_name d i = Some s -> is_elem d i.
Proof. unfold tag_name, is_elem. destruct (get d i ≫= element_of); naive_solver. Qed.
Lemma matches_spec d i c : matches d i c = true <-> satisfies d i c.
Proof.
  unfold matches, satisfies. rewrite andb_true_iff, is_element_spec.
  apply and_iff_compat_l. destruct c; rewrite ?bool_decide_eq_true; try done.
  - destruct (attribute d i (txt "class")); [|naive_solver]. rewrite bool_decide_eq_true, split_whitespace_words. naive_solver.
  - destruct (attribute d i s); naive_solver.
  - rewrite existsb_exists. unfold child. split.
    + intros (x&Hx&H). exists x. rewrite elem_of_list_In. split; [done|]. apply andb_true_iff in H as [_ H]. by apply bool_decide_eq_true in H.
    + intros (x&Hx&H). exists x. rewrite <- elem_of_list_In. split; [done|]. apply andb_true_iff. split; [|by apply bool_decide_eq_true].
      apply is_element_spec. by eapply tag_is_elem.
  - destruct (parent d i); [|naive_solver]. rewrite bool_decide_eq_true. naive_solver.
Qed.
Lemma forallb_sat d i cs : forallb (matches d i) cs = true <-> Forall (satisfies d i) cs.
Proof.
  rewrite forallb_forall, Forall_forall. split; intros H c Hc.
  - apply matches_spec, H. by apply elem_of_list_In.
  - apply matches_spec, H. by apply elem_of_list_In.
Qed.
Definition sel (d : doc) (cs : list condition) (x : nat) : Prop := forallb (matches d x) cs = true.
Global Instance sel_dec d cs x : Decision (sel d cs x). Proof. unfold sel. apply _. Defined.
Lemma query_all_loop d cs : forall f s l, iter_all f d s = Ok l -> query_loop f d cs false s = Ok (filter (sel d cs) l).
Proof.
  induction f as [|f IH]; intros s l H; [done|]. simpl in *. destruct (iter_next d s) as [[i s']|]; [|by simplify_eq].
  destruct (iter_all f d s') as [l'| |] eqn:E; simpl in H; simplify_eq. rewrite (IH _ _ E). rewrite filter_cons. unfold sel at 1.
  destruct (forallb (matches d i) cs) eqn:Em.
  - rewrite decide_True by done. done.
  - rewrite decide_False; [done|]. unfold sel. congruence.
Qed.
Lemma query_first_loop d cs : forall f s l, iter_all f d s = Ok l -> query_loop f d cs true s = Ok (take 1 (filter (sel d cs) l)).
Proof.
  induction f as [|f IH]; intros s l H; [done|]. simpl in *. destruct (iter_next d s) as [[i s']|]; [|by simplify_eq].
  destruct (iter_all f d s') as [l'| |] eqn:E; simpl in H; simplify_eq. rewrite (IH _ _ E). rewrite filter_cons. unfold sel at 1.
  destruct (forallb (matches d i) cs) eqn:Em.
  - rewrite decide_True by done. done.
  - rewrite decide_False; [done|]. unfold sel. congruence.
Qed.
Lemma query_spec d cs l fuel : acyclic d -> preorder d 0 l -> length l < fuel ->
  query fuel d cs FindAll = Ok (Some (filter (sel d cs) l)) /\
  query fuel d cs FindFirst = Ok (Some (take 1 (filter (sel d cs) l))).
Proof.
  intros A Hp Hf. pose proof (iter_preorder d 0 l fuel Hp Hf) as E. unfold query.
  rewrite (query_all_loop d cs _ _ _ E), (query_first_loop d cs _ _ _ E). done.
Qed.
Lemma sublist_filter {A} (P : A -> Prop) `{!forall x, Decision (P x)} (l : list A) : sublist (filter P l) l.
Proof. induction l as [|x l IH]; [constructor|]. rewrite filter_cons. case_decide; by constructor. Qed.

(** * Walking *)
Lemma walk_ok d : acyclic d -> forall f i anc, NoDup anc -> (forall a, a ∈ anc -> exists_in d a /\ tc (child d) a i) ->
  length (slots (ar d)) < length anc + f -> exists l, walk f d i = Ok l /\ walked d i l.
Proof.
  intros A. induction f as [|f IH]; intros i anc Hnd Hanc Hlen.
  { exfalso. assert (length anc <= length (slots (ar d))); [|lia].
    apply nodup_bound; [done|]. intros x Hx. apply get_lt. by apply Hanc. }
  simpl. set (each := fix each (l : list nat) : res (list visit) := _).
  assert (K : forall cs, (forall c, c ∈ cs -> child d i c) ->
    exists ls, each cs = Ok (concat ls) /\ Forall2 (walked d) (filter (fun c => is_Some (get d c)) cs) ls).
  { induction cs as [|c cs IHc]; intros Hcs; [exists []; split; [done|constructor]|].
    destruct IHc as (ls&Els&HF); [intros; apply Hcs; by right|]. simpl.
    rewrite filter_cons. destruct (get d c) as [n|] eqn:Ec.
    - rewrite decide_True by eauto. destruct (IH c (i :: anc)) as (l&El&Hl).
      + constructor; [|done]. intros Hi. by apply (A i), Hanc.
      + assert (Hc : child d i c) by (apply Hcs; left).
        intros a [->|Ha]%elem_of_cons; [split; [by eapply child_exists|by apply tc_once]|].
        split; [by apply Hanc|]. eapply tc_r; [by apply Hanc|done].
      + simpl. lia.
      + rewrite El. simpl. fold each. rewrite Els. simpl. exists (l :: ls). split; [done|]. by constructor.
    - rewrite decide_False by (intros [? ?]; congruence). exists ls. split; [done|done]. }
  destruct (K (children d i)) as (ls&Els&HF); [done|]. rewrite Els. simpl. eexists. split; [done|]. by constructor.
Qed.

(** * Ancestors *)
Lemma parent_acyclic d : linked d -> acyclic d -> forall x y, tc (parent_of d) x y -> exists_in d y -> tc (child d) y x.
Proof.
  intros L A x y T. induction T as [x y E|x y z E T IH]; intros Hy.
  - apply tc_once. by apply (lk_listed d L).
  - specialize (IH Hy). eapply tc_r; [done|]. apply (lk_listed d L); [done|].
    clear -T Hy. unfold parent_of, parent in T. unfold exists_in.
    inversion T; subst; destruct (get d y); try done.
Qed.
Lemma chain_ok d : linked d -> acyclic d -> forall f i des, NoDup des -> (forall a, a ∈ des -> exists_in d a /\ tc (parent_of d) a i) ->
  length (slots (ar d)) < length des + f -> exists l, chain f d i = Ok l /\ forall x, x ∈ l <-> rtc (parent_of d) i x.
Proof.
  intros L A. induction f as [|f IH]; intros i des Hnd Hdes Hlen.
  { exfalso. assert (length des <= length (slots (ar d))); [|lia].
    apply nodup_bound; [done|]. intros x Hx. apply get_lt. by apply Hdes. }
  simpl. change (get d i ≫= n_parent) with (parent d i). destruct (parent d i) as [p|] eqn:Ep.
  - assert (Ei : exists_in d i). { unfold parent in Ep. unfold exists_in. by destruct (get d i). }
    destruct (IH p (i :: des)) as (l&El&Hl).
    + constructor; [|done]. intros Hi. apply Hdes in Hi as [_ Hi]. apply (A i). by apply parent_acyclic.
    + intros a [->|Ha]%elem_of_cons; [split; [done|by apply tc_once]|]. split; [by apply Hdes|]. eapply tc_r; [by apply Hdes|done].
    + simpl. lia.
    + rewrite El. simpl. exists (i :: l). split; [done|]. intros x. rewrite elem_of_cons, Hl. split.
      * intros [->|H]; [apply rtc_refl|by eapply rtc_l].
      * intros H. inversion H as [|? q ? Hq Hr]; subst; [by left|]. right. unfold parent_of in Hq. rewrite Ep in Hq. by simplify_eq.
  - exists [i]. split; [done|]. intros x. rewrite elem_of_list_singleton. split; [intros ->; apply rtc_refl|].
    intros H. inversion H as [|? q ? Hq Hr]; subst; [done|]. unfold parent_of in Hq. congruence.
Qed.
Lemma hovered_ok d i : linked d -> acyclic d -> exists d', set_hovered (Some i) d = Ok d' /\ forall x, x ∈ hovered d' <-> rtc (parent_of d) i x.
Proof.
  intros L A. destruct (chain_ok d L A (depth d) i []) as (l&El&Hl); [constructor| |unfold depth; simpl; lia|].
  - intros a Ha. by apply elem_of_nil in Ha.
  - unfold set_hovered. rewrite El. simpl. eexists. split; [done|]. intros x. simpl. by rewrite elem_of_list_to_set.
Qed.

(** * Next sibling *)
Lemma next_sibling_spec d i j : linked d -> next_sibling d i = Some j <-> exists p l r, exists_in d i /\ children d p = l ++ i :: j :: r.
Proof.
  intros L. unfold next_sibling. split.
  - destruct (get d i) as [n|] eqn:Ei; [|done]. simpl. destruct (n_parent n) as [p|] eqn:Ep; [|done]. simpl.
    destruct (get d p) as [m|] eqn:Em; [|done]. simpl. destruct (list_find _ (n_children m)) as [[k x]|] eqn:Ef; [|done]. simpl.
    intros Hj. apply list_find_Some in Ef as (Hk&->&_).
    exists p, (take k (n_children m)), (drop (S (S k)) (n_children m)). split; [unfold exists_in; by rewrite Ei|].
    unfold children. rewrite Em. rewrite <- (take_drop_middle _ _ _ Hk) at 1. f_equal. f_equal.
    rewrite (drop_S _ j) by done. done.
  - intros (p&l&r&Hi&E).
    assert (Hc : child d p i). { unfold child. rewrite E. apply elem_of_app. right. left. }
    pose proof (lk_parent d L _ _ Hc) as Hp. pose proof (lk_once d L p) as Hnd. pose proof (child_exists _ _ _ Hc) as Hep.
    unfold parent, exists_in, children in *. destruct (get d i) as [n|]; [|done]. simpl in Hp. destruct (get d p) as [m|] eqn:Em; [|done].
    simpl. rewrite Hp. simpl. rewrite Em. simpl. rewrite E.
    assert (Hf : list_find (fun x => x = i) (l ++ i :: j :: r) = Some (length l, i)).
    { apply list_find_Some. split_and!; try done.
      - by rewrite list_lookup_middle.
      - intros k y Hy Hk ->. rewrite lookup_app_l in Hy by done. rewrite E in Hnd. apply NoDup_app in Hnd as (_&Hd&_).
        apply (Hd i); [by eapply elem_of_list_lookup_2|left]. }
    rewrite Hf. simpl. rewrite lookup_app_r by lia. by replace (S (length l) - length l) with 1 by lia.
Qed.

(** * Effects of single operations on tidy documents *)
Lemma exists_get d i : exists_in d i -> exists n, get d i = Some n.
Proof. unfold exists_in. destruct (get d i); [eauto|done]. Qed.
Lemma attach_effect ops d i p pos : history careful new_doc ops d -> careful d (OAttach i p pos) ->
  exists d', apply (OAttach i p pos) d = Ok d' /\
  (rtc (child d) i p -> d' = d) /\
  (~ rtc (child d) i p ->
     (exists l r, children d p = l ++ r /\ children d' p = l ++ i :: r /\
        match pos with Some k => length l = k \/ (length (l ++ r) < k /\ r = []) | None => r = [] end) /\
     (forall q, q <> p -> children d' q = children d q) /\
     parent d' i = Some p /\ (forall c, c <> i -> parent d' c = parent d c) /\
     (forall x, exists_in d' x <-> exists_in d x)).
Proof.
  intros H (Ei&Ep&Hd). destruct (careful_new ops d H) as (G&A&T). cbn [apply].
  destruct (attach_cases i p pos d A) as [[E R]|(E&Hpi&R)]; rewrite E; eexists; (split; [reflexivity|]).
  - split; done.
  - split; [intros R'; apply rtc_tc in R' as [->|R']; done|]. intros _.
    destruct (exists_get _ _ Ei) as [ni Ni], (exists_get _ _ Ep) as [np Np]. split_and!.
    + rewrite children_attached, bool_decide_true, Np by done. unfold placed, insert_at. destruct pos as [k|].
      * case_bool_decide as Hk.
        -- exists (take k (children d p)), (drop k (children d p)). rewrite take_drop. split_and!; try done. left. by rewrite take_length_le.
        -- exists (children d p), []. rewrite app_nil_r. split_and!; try done. right. split; [lia|done].
      * exists (children d p), []. by rewrite app_nil_r.
    + intros q Hq. by rewrite children_attached, bool_decide_false.
    + rewrite parent_attached, bool_decide_true by done. by rewrite Ni.
    + intros c Hc. by rewrite parent_attached, bool_decide_false.
    + intros x. by apply exists_attached.
Qed.
Lemma detach_effect ops d i : history careful new_doc ops d ->
  exists d', apply (ODetach i) d = Ok d' /\
  (forall q, children d' q = filter (fun x => x <> i) (children d q)) /\
  parent d' i = None /\ (forall c, c <> i -> parent d' c = parent d c) /\ (forall x, exists_in d' x <-> exists_in d x).
Proof.
  intros H. destruct (careful_new ops d H) as (G&A&T). eexists. split; [reflexivity|]. split_and!.
  - intros q. by apply children_detach, t_linked.
  - by rewrite parent_detach, bool_decide_true.
  - intros c Hc. by rewrite parent_detach, bool_decide_false.
  - intros x. apply exists_detach.
Qed.
Lemma remove_effect ops d i : history careful new_doc ops d ->
  exists d', apply (ORemove i) d = Ok d' /\
  (forall q, q <> i -> children d' q = filter (fun x => x <> i) (children d q)) /\
  (forall c, c <> i -> parent d' c = parent d c) /\ (forall x, exists_in d' x <-> exists_in d x /\ x <> i).
Proof.
  intros H. destruct (careful_new ops d H) as (G&A&T). eexists. split; [reflexivity|]. split_and!.
  - intros q Hq. rewrite children_remove, bool_decide_false by (done || by apply t_linked). done.
  - intros c Hc. by rewrite parent_remove, bool_decide_false.
  - intros x. rewrite exists_remove. tauto.
Qed.
Lemma relocate_effect ops d i p : history careful new_doc ops d -> careful d (ORelocate i p) -> ~ rtc (child d) i p ->
  exists d', apply (ORelocate i p) d = Ok d' /\
  (forall q, children d' q = filter (fun x => x <> i) (children d q) ++ (if bool_decide (q = p) then [i] else [])) /\
  parent d' i = Some p /\ (forall c, c <> i -> parent d' c = parent d c) /\ (forall x, exists_in d' x <-> exists_in d x).
Proof.
  intros H (Ei&Ep) Hn. destruct (careful_new ops d H) as (G&A&T). cbn [apply]. unfold relocate.
  assert (Hn' : ~ rtc (child (detach i d)) i p).
  { intros R. apply Hn. clear -R. induction R; [apply rtc_refl|]. eapply rtc_l; [by eapply child_detach|done]. }
  assert (L := t_linked d T).
  assert (Ei' : exists_in (detach i d) i) by (by apply exists_detach). assert (Ep' : exists_in (detach i d) p) by (by apply exists_detach).
  destruct (exists_get _ _ Ei') as [ni Ni], (exists_get _ _ Ep') as [np Np].
  destruct (attach_cases i p None (detach i d) (acyclic_detach i d A)) as [[E R]|(E&Hpi&R)]; rewrite E; eexists; (split; [reflexivity|]); [done|].
  split_and!.
  - intros q. rewrite children_attached by done. case_bool_decide; subst.
    + rewrite Np. unfold placed. by rewrite children_detach.
    + rewrite app_nil_r. by rewrite children_detach.
  - rewrite parent_attached, bool_decide_true by done. by rewrite Ni.
  - intros c Hc. rewrite parent_attached, bool_decide_false by done. by rewrite parent_detach, bool_decide_false.
  - intros x. rewrite exists_attached by done. apply exists_detach.
Qed.
Lemma next_sibling_effect ops d i j : history careful new_doc ops d ->
  next_sibling d i = Some j <-> exists p l r, children d p = l ++ i :: j :: r.
Proof.
  intros H. destruct (careful_new ops d H) as (G&A&T). rewrite next_sibling_spec by (by apply t_linked). split; [naive_solver|].
  intros (p&l&r&E). exists p, l, r. split; [|done]. apply (lk_exists d (t_linked d T) p). unfold child. rewrite E. apply elem_of_app. right. left.
Qed.
