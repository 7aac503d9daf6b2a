(** Skipping the restyle when no hover rule can see the pointer's path. *)
From stdpp Require Import gmap relations.
From Verif Require Import Text SettingsModel DomModel DomSpec DomProofs SelectorModel SelectorSpec SelectorProofs.

Definition with_hover (H : gset nat) (d : doc) : doc := mk_doc (ar d) (named d) (named_by d) H (focused d).
Notation hover := (PPseudoClass (txt "hover")).

(** * What the scan of the rules finds *)
Definition noted (fp : fingerprints) (q : part) : Prop :=
  match q with PType t => t ∈ fp_types fp | PClass c => c ∈ fp_classes fp | PId v => v ∈ fp_ids fp | _ => False end.
Definition grows (fp fp' : fingerprints) : Prop := fp_universal fp' = fp_universal fp /\ forall q, noted fp q -> noted fp' q.
Lemma grows_refl fp : grows fp fp. Proof. done. Qed.
Lemma grows_trans a b c : grows a b -> grows b c -> grows a c.
Proof. intros [H1 H2] [H3 H4]. split; [congruence|auto]. Qed.
Lemma note_grows q fp b fp' b' : note_part q (fp, b) = (fp', b') ->
  grows fp fp' /\ (b' = true -> b = true \/ noted fp' q).
Proof.
  destruct q; simpl; intros [= <- <-]; (split; [|try (intros _; right; left); auto]); (split; [done|]); intros [] H; simpl in *; try done; by right.
Qed.
Lemma fold_grows c : forall fp b fp' b', fold_left (fun x q => note_part q x) c (fp, b) = (fp', b') ->
  grows fp fp' /\ (b' = true -> b = true \/ exists q, q ∈ c /\ noted fp' q).
Proof.
  induction c as [|p c IH]; cbn [fold_left]; intros fp b fp' b' E; [simplify_eq; split; [done|auto]|].
  destruct (note_part p (fp, b)) as [fp1 b1] eqn:E1. apply note_grows in E1 as [G1 H1]. apply IH in E as [G2 H2].
  split; [by eapply grows_trans|]. intros Hb. destruct (H2 Hb) as [Hb1|(q&Hq&Hn)].
  - destruct (H1 Hb1) as [?|?]; [by left|]. right. exists p. split; [left|]. by apply G2.
  - right. exists q. split; [by right|done].
Qed.
(** the parts since the last combinator *)
Fixpoint current (compound a : list part) : list part :=
  match a with [] => compound | PCombinator _ :: r => current [] r | p :: r => current (compound ++ [p]) r end.
Lemma scan_ok : forall parts compound fp fp', scan_parts parts compound fp = inl fp' ->
  grows fp fp' /\ forall a b, parts = a ++ hover :: b -> exists q, q ∈ current compound a /\ noted fp' q.
Proof.
  induction parts as [|p parts IH]; intros compound fp fp'; simpl.
  - intros [= <-]. split; [done|]. by intros [] ?.
  - intros E. destruct (is_comb p) eqn:Ec.
    + destruct p as [| | | | | |k|]; try done. apply IH in E as [G H]. split; [done|]. intros [|p a] b Eq; simplify_eq/=. by eapply H.
    + replace (match p with PCombinator _ => scan_parts parts [] fp | _ =>
        if bool_decide (p = hover) then
          let '(fp1, specific) := fold_left (fun x q => note_part q x) (compound ++ [p]) (fp, false) in
          if (specific : bool) then scan_parts parts (compound ++ [p]) fp1
          else inr (mk_fp true (fp_types fp1) (fp_classes fp1) (fp_ids fp1))
        else scan_parts parts (compound ++ [p]) fp end) with
       (if bool_decide (p = hover) then
          let '(fp1, specific) := fold_left (fun x q => note_part q x) (compound ++ [p]) (fp, false) in
          if (specific : bool) then scan_parts parts (compound ++ [p]) fp1
          else inr (mk_fp true (fp_types fp1) (fp_classes fp1) (fp_ids fp1))
        else scan_parts parts (compound ++ [p]) fp) in E by (by destruct p).
      assert (Hcur : forall a, current compound (p :: a) = current (compound ++ [p]) a) by (by destruct p).
      case_bool_decide as Hp.
      * destruct (fold_left _ _ _) as [fp1 sp] eqn:Ef. destruct sp; [|done]. apply fold_grows in Ef as [G1 H1]. apply IH in E as [G2 H2].
        split; [by eapply grows_trans|]. intros [|p' a] b Eq; simplify_eq/=.
        -- destruct (H1 eq_refl) as [?|(q&Hq&Hn)]; [done|]. exists q. split; [|by apply G2].
           apply elem_of_app in Hq as [Hq|Hq]; [done|]. apply elem_of_list_singleton in Hq. by subst.
        -- by eapply H2.
      * apply IH in E as [G2 H2]. split; [done|]. intros [|p' a] b Eq; [by simplify_eq/=|]. injection Eq as <- Eq. rewrite Hcur. by eapply H2.
Qed.
Lemma scan_bad : forall parts compound fp fp', scan_parts parts compound fp = inr fp' -> fp_universal fp' = true.
Proof.
  induction parts as [|p parts IH]; intros compound fp fp'; simpl; [done|].
  destruct p; try (case_bool_decide as Hp; [|by apply IH]); try done; try by apply IH.
  destruct (fold_left _ _ _) as [fp1 sp]. destruct sp; [by apply IH|]. by intros [= <-].
Qed.
Lemma scan_all_ok : forall l fp fp', scan_all l fp = fp' -> fp_universal fp' = false ->
  grows fp fp' /\ forall parts, parts ∈ l -> forall a b, parts = a ++ hover :: b -> exists q, q ∈ current [] a /\ noted fp' q.
Proof.
  induction l as [|p l IH]; simpl; intros fp fp' E U.
  - subst. split; [done|]. intros parts Hp. by apply elem_of_nil in Hp.
  - destruct (scan_parts p [] fp) as [fp1|fp1] eqn:E1.
    + apply scan_ok in E1 as [G1 H1]. apply IH in E as [G2 H2]; [|done]. split; [by eapply grows_trans|].
      intros parts Hp a b Eq. apply elem_of_cons in Hp as [->|Hp]; [|by eapply H2].
      destruct (H1 a b Eq) as (q&Hq&Hn). exists q. split; [done|]. by apply G2.
    + apply scan_bad in E1. congruence.
Qed.
Lemma current_app c1 : Forall no_comb c1 -> forall c, current c c1 = c ++ c1.
Proof.
  induction 1 as [|p c1 Hp _ IH]; intros c; simpl; [by rewrite app_nil_r|]. destruct p; try done; rewrite IH; by rewrite <- app_assoc.
Qed.
Lemma current_comb k c1 : Forall no_comb c1 -> forall a c, current c (a ++ PCombinator k :: c1) = c1.
Proof.
  intros Hc1. induction a as [|p a IH]; intros c; simpl; [by apply current_app|]. destruct p; apply IH.
Qed.

(** * Matching when nothing sensitive is hovered *)
Fixpoint covered (fp : fingerprints) (s : complex) : Prop :=
  let here c := forall c1 c2, c = c1 ++ hover :: c2 -> exists q, q ∈ c1 /\ noted fp q in
  match s with One c => here c | Then s k c => covered fp s /\ here c end.
Lemma covered_of fp s : well_formed s -> (forall a b, parts_of s = a ++ hover :: b -> exists q, q ∈ current [] a /\ noted fp q) -> covered fp s.
Proof.
  induction s as [c|s IH k c]; simpl.
  - intros [_ Hc] H c1 c2 ->. destruct (H c1 c2 eq_refl) as (q&Hq&Hn). apply Forall_app in Hc as [Hc1 _].
    rewrite current_app in Hq by done. by exists q.
  - intros (Hw&_&Hc) H. split.
    + apply IH; [done|]. intros a b E. apply (H a (b ++ PCombinator k :: c)). by rewrite E, <- app_assoc.
    + intros c1 c2 ->. destruct (H (parts_of s ++ PCombinator k :: c1) c2) as (q&Hq&Hn); [by rewrite <- app_assoc|].
      apply Forall_app in Hc as [Hc1 _]. rewrite current_comb in Hq by done. by exists q.
Qed.
Lemma covered_subject fp s c1 c2 : covered fp s -> subject s = c1 ++ hover :: c2 -> exists q, q ∈ c1 /\ noted fp q.
Proof. destruct s; simpl; [by intros H ?; eapply H|]. intros [_ H] ?. by eapply H. Qed.
Lemma no_comb_bool c : Forall no_comb c -> Forall (fun p => is_comb p = false) c.
Proof. intros H. eapply Forall_impl; [exact H|]. by intros []. Qed.
Lemma well_subject s : well_formed s -> subject s <> [] /\ Forall no_comb (subject s).
Proof. destruct s; simpl; tauto. Qed.

Section quiet.
Context (lower : str -> str) (d : doc) (L : linked d) (A : acyclic d) (fp : fingerprints) (H : gset nat) (pseudo : option str).
Context (Quiet : forall x, x ∈ H -> hover_matches fp d x = false).
Notation dH := (with_hover H d).
Notation d0 := (with_hover ∅ d).
Lemma linked_hover X : linked (with_hover X d). Proof. destruct L. by split. Qed.
Lemma acyclic_hover X : acyclic (with_hover X d). Proof. exact A. Qed.
Notation LH := (linked_hover H). Notation L0 := (linked_hover ∅). Notation AH := (acyclic_hover H). Notation A0 := (acyclic_hover ∅).
Lemma simple_same x p : p <> hover -> simple lower dH pseudo x p = simple lower d0 pseudo x p.
Proof.
  intros Hp. destruct p; try done. simpl. unfold pseudo_class. rewrite bool_decide_false by congruence. done.
Qed.
Lemma simple_cold x : simple lower d0 pseudo x hover = false.
Proof. simpl. unfold pseudo_class. rewrite bool_decide_true by done. apply bool_decide_false. set_solver. Qed.
Lemma simple_hot x : simple lower dH pseudo x hover = bool_decide (x ∈ H).
Proof. simpl. unfold pseudo_class. by rewrite bool_decide_true by done. Qed.
Lemma noted_sensitive x q : noted fp q -> simple lower dH pseudo x q = true -> hover_matches fp d x = true.
Proof.
  unfold hover_matches. destruct q as [| |s|s| | | |s]; simpl; try done; intros Hn Hs.
  - assert (existsb (has_class d x) (fp_classes fp) = true) as ->; [|by rewrite ?orb_true_r].
    apply existsb_exists. exists s. split; [by apply elem_of_list_In|done].
  - apply andb_true_iff in Hs as [_ Hs]. apply bool_decide_eq_true in Hs. change (attribute dH x) with (attribute d x) in Hs. rewrite Hs.
    rewrite (bool_decide_true (s ∈ fp_ids fp)) by done. by rewrite ?orb_true_r.
  - apply andb_true_iff in Hs as [_ Hs]. apply bool_decide_eq_true in Hs. change (tag_name dH x) with (tag_name d x) in Hs. rewrite Hs.
    rewrite (bool_decide_true (s ∈ fp_types fp)) by done. by rewrite ?orb_true_r.
Qed.
Lemma compound_same x c : (forall c1 c2, c = c1 ++ hover :: c2 -> exists q, q ∈ c1 /\ noted fp q) ->
  forallb (simple lower dH pseudo x) c = forallb (simple lower d0 pseudo x) c.
Proof.
  intros Hc. destruct (decide (hover ∈ c)) as [Hin|Hout].
  - apply elem_of_list_split in Hin as (c1&c2&E). destruct (Hc c1 c2 E) as (q&Hq&Hn). transitivity false.
    + apply not_true_iff_false. rewrite forallb_forall. intros HF.
      assert (Sq : simple lower dH pseudo x q = true). { apply HF. apply elem_of_list_In. rewrite E. apply elem_of_app. by left. }
      apply noted_sensitive in Sq; [|done]. assert (Sh : simple lower dH pseudo x hover = true).
      { apply HF. apply elem_of_list_In. rewrite E. apply elem_of_app. right. left. }
      rewrite simple_hot in Sh. apply bool_decide_eq_true in Sh. rewrite (Quiet x Sh) in Sq. done.
    + symmetry. apply not_true_iff_false. rewrite forallb_forall. intros HF.
      assert (Sh : simple lower d0 pseudo x hover = true). { apply HF. apply elem_of_list_In. rewrite E. apply elem_of_app. right. left. }
      by rewrite simple_cold in Sh.
  - clear Hc. induction c as [|p c IH]; [done|]. simpl. rewrite IH by (intros ?; apply Hout; by right).
    rewrite simple_same; [done|]. intros ->. apply Hout. left.
Qed.
Lemma quiet_tail s : well_formed s -> no_extra s -> covered fp s ->
  (forall x, go lower dH pseudo (tail_of s) x = go lower d0 pseudo (tail_of s) x) ->
  forall x, go lower dH pseudo (rev (parts_of s)) x = go lower d0 pseudo (rev (parts_of s)) x.
Proof.
  intros Hw Hx Hc Q x. rewrite rev_parts. destruct (well_subject s Hw) as [Hne Hnc]. destruct (parent d x) as [q|] eqn:Ex.
  - rewrite (go_compound lower dH LH AH), (go_compound lower d0 L0 A0); [|by apply no_comb_bool|change (parent d x <> None); congruence|by apply no_comb_bool|change (parent d x <> None); congruence].
    rewrite (compound_same x (subject s)); [|intros; by eapply covered_subject]. by rewrite Q.
  - assert (rev (subject s) ++ tail_of s <> []).
    { intros E. apply app_eq_nil in E as [E _]. apply (f_equal (@rev _)) in E. by rewrite rev_involutive in E. }
    rewrite (go_orphan lower dH), (go_orphan lower d0); done.
Qed.
Lemma quiet_left s : well_formed s -> covered fp s ->
  (forall x, go lower dH pseudo (rev (parts_of s)) x = go lower d0 pseudo (rev (parts_of s)) x) ->
  exists l c, subject s = c ++ [l] /\ rev (parts_of s) = l :: rev c ++ tail_of s /\ is_comb l = false /\ forall y,
    (if simple lower dH pseudo y l then go lower dH pseudo (rev c ++ tail_of s) y else Ok false) =
    (if simple lower d0 pseudo y l then go lower d0 pseudo (rev c ++ tail_of s) y else Ok false).
Proof.
  intros Hw Hc P. destruct (well_subject s Hw) as [Hne Hnc]. destruct (subject s) as [|l c _] eqn:Es using rev_ind; [done|].
  exists l, c. split; [done|]. assert (Er : rev (parts_of s) = l :: rev c ++ tail_of s). { rewrite rev_parts, Es, rev_app_distr. done. }
  split; [done|]. apply Forall_app in Hnc as [_ Hl]. inversion Hl; subst. split; [by destruct l|].
  intros y. specialize (P y). rewrite Er in P. assert (Hl' : is_comb l = false) by (by destruct l).
  rewrite (go_part lower dH LH AH), (go_part lower d0 L0 A0) in P by done. change (parent dH y) with (parent d y) in P. change (parent d0 y) with (parent d y) in P.
  destruct (parent d y) eqn:Ey; [done|]. destruct (rev c ++ tail_of s) as [|r ps] eqn:Et.
  - assert (l <> hover).
    { intros ->. apply app_eq_nil in Et as [Et _]. apply (f_equal (@rev _)) in Et. rewrite rev_involutive in Et. simpl in Et. subst c.
      destruct (covered_subject fp s [] [] Hc Es) as (q&Hq&_). by apply elem_of_nil in Hq. }
    by rewrite simple_same.
  - rewrite (go_orphan lower dH), (go_orphan lower d0) by done. by destruct (simple lower dH pseudo y l), (simple lower d0 pseudo y l).
Qed.
Lemma quiet s : well_formed s -> no_extra s -> covered fp s ->
  (forall x, go lower dH pseudo (tail_of s) x = go lower d0 pseudo (tail_of s) x).
Proof.
  induction s as [c|s IH k c]; [done|]. simpl. intros (Hw&_&_) [Hx Hk] [Hc _] x. specialize (IH Hw Hx Hc).
  pose proof (quiet_tail s Hw Hx Hc IH) as P. destruct (quiet_left s Hw Hc P) as (l&c0&Es&Er&Hl&Left). rewrite Er. destruct k; try done.
  - rewrite (go_desc lower dH LH AH), (go_desc lower d0 L0 A0) by done.
    change (parent dH x) with (parent d x). change (parent d0 x) with (parent d x). destruct (parent d x) as [y|]; [|done].
    change (depth dH) with (depth d). change (depth d0) with (depth d).
    assert (Ec : forall X k z, chain k (with_hover X d) z = chain k d z). { intros X. induction k as [|k IHk]; intros z; [done|]. simpl. change (get (with_hover X d) z) with (get d z). by destruct (get d z ≫= n_parent) as [?|]; [rewrite IHk|]. }
    rewrite !Ec. destruct (chain (depth d) d y) as [up| |]; try done. destruct (decide (l = hover)) as [->|Hnh].
    + destruct (list_find (fun q => simple lower d0 pseudo q hover = true) up) as [[n z]|] eqn:E0.
      { apply list_find_Some in E0 as (_&E0&_). by rewrite simple_cold in E0. }
      destruct (list_find (fun q => simple lower dH pseudo q hover = true) up) as [[n z]|] eqn:E1; [|done].
      apply list_find_Some in E1 as (_&E1&_). specialize (Left z). by rewrite E1, simple_cold in Left.
    + assert (Hf : list_find (fun q => simple lower dH pseudo q l = true) up = list_find (fun q => simple lower d0 pseudo q l = true) up).
      { induction up as [|z up IHu]; [done|]. simpl. rewrite IHu. rewrite (simple_same z l Hnh). done. }
      rewrite Hf. clear Hf. destruct (list_find (fun q => simple lower d0 pseudo q l = true) up) as [[n z]|] eqn:E0; [|done]. apply list_find_Some in E0 as (_&E0&_). specialize (Left z).
      rewrite (simple_same z l Hnh), E0 in Left. done.
  - rewrite (go_child lower dH LH AH), (go_child lower d0 L0 A0) by done.
    change (parent dH x) with (parent d x). change (parent d0 x) with (parent d x). destruct (parent d x) as [y|]; [|done]. apply Left.
  - rewrite (go_next lower dH LH AH), (go_next lower d0 L0 A0) by done.
    change (parent dH x) with (parent d x). change (parent d0 x) with (parent d x). destruct (parent d x) as [y|]; [|done].
    change (children dH y) with (children d y). change (children d0 y) with (children d y).
    destruct (position (children d y) x) as [[|n]|]; try done. destruct (children d y !! n); [|done]. apply Left.
  - rewrite (go_subsequent lower dH LH AH), (go_subsequent lower d0 L0 A0) by done.
    change (parent dH x) with (parent d x). change (parent d0 x) with (parent d x). destruct (parent d x) as [y|]; [|done].
    change (children dH y) with (children d y). change (children d0 y) with (children d y).
    assert (Hl1 : length (subject s) = 1). { destruct s; simpl in *; tauto. } rewrite Es, app_length in Hl1. simpl in Hl1.
    assert (c0 = []) as -> by (destruct c0; [done|simpl in Hl1; lia]).
    assert (Hnh : l <> hover). { intros ->. destruct (covered_subject fp s [] [] Hc Es) as (q&Hq&_). by apply elem_of_nil in Hq. }
    assert (He : forall l', existsb (fun y => simple lower dH pseudo y l) l' = existsb (fun y => simple lower d0 pseudo y l) l').
    { induction l' as [|z l' IHl]; [done|]. simpl. by rewrite IHl, simple_same. }
    rewrite He. simpl rev. simpl app. by rewrite IH.
Qed.
Lemma quiet_match s x : well_formed s -> no_extra s -> covered fp s ->
  match_parts lower dH x (parts_of s) pseudo = match_parts lower d0 x (parts_of s) pseudo.
Proof. intros. rewrite (match_go lower dH), (match_go lower d0). apply quiet_tail; try done. by apply quiet. Qed.
End quiet.

(** * The pointer's path *)
Definition sits_quiet (fp : fingerprints) (d : doc) (C : gset nat) : Prop := forall x, x ∈ C -> hover_matches fp d x = false.
Inductive tracked (fp : fingerprints) (d : doc) (s : hover_state) : Prop :=
  mk_tracked (D C : gset nat) :
    hs_doc s = with_hover D d -> set_hovered (hs_leaf s) d = Ok (with_hover C d) ->
    (hs_sensitive s = false -> sits_quiet fp d C) ->
    (D = C \/ (sits_quiet fp d D /\ sits_quiet fp d C)) -> tracked fp d s.
Lemma chain_hover X d : forall k z, chain k (with_hover X d) z = chain k d z.
Proof.
  induction k as [|k IHk]; intros z; [done|]. simpl. change (get (with_hover X d) z) with (get d z).
  by destruct (get d z ≫= n_parent) as [?|]; [rewrite IHk|].
Qed.
Lemma set_hovered_hover X d leaf C : set_hovered leaf d = Ok (with_hover C d) -> set_hovered leaf (with_hover X d) = Ok (with_hover C d).
Proof.
  destruct leaf as [i|]; cbn [set_hovered]; [|intros [= <-]; done]. change (depth (with_hover X d)) with (depth d). rewrite chain_hover.
  destruct (chain (depth d) d i) as [l| |]; simpl; [|done|done]. intros [= <-]. done.
Qed.
Lemma update_tracked fp d leaf s : linked d -> acyclic d -> tracked fp d s ->
  exists s' b, update_hover fp leaf s = Ok (s', b) /\ hs_leaf s' = leaf /\ tracked fp d s'.
Proof.
  intros L A [D C Hd Hc Hs Hsame]. unfold update_hover. case_bool_decide as El; [exists s, false; split_and!; [done|done|by exists D C]|].
  assert (Hch : exists C', set_hovered leaf d = Ok (with_hover C' d) /\
            exists b, chain_sensitive fp (hs_doc s) leaf = Ok b /\ (b = false -> sits_quiet fp d C')).
  { destruct leaf as [i|]; cbn [set_hovered chain_sensitive].
    - rewrite Hd. change (depth (with_hover D d)) with (depth d). rewrite chain_hover. destruct (chain_total d L A i) as [l El']. rewrite El'. cbn [rbind].
      eexists. split; [done|]. eexists. split; [done|]. intros Hb x Hx. apply elem_of_list_to_set in Hx.
      apply not_true_iff_false. intros Hm. apply not_true_iff_false in Hb. apply Hb. apply existsb_exists. exists x. split; [by apply elem_of_list_In|done].
    - exists ∅. split; [done|]. exists false. split; [done|]. intros _ x Hx. set_solver. }
  destruct Hch as (C'&EC'&b&Eb&Hb). rewrite Eb. cbn [rbind]. destruct (hs_sensitive s || b) eqn:Ed.
  - rewrite Hd. rewrite (set_hovered_hover D d leaf C' EC'). cbn [rbind]. eexists _, true. split; [done|]. split; [done|].
    exists C' C'; simpl; auto.
  - cbn [rbind]. apply orb_false_iff in Ed as [E1 E2]. eexists _, false. split; [done|]. split; [done|].
    exists D C'; simpl; [done|done|auto|]. right. split; [|auto]. destruct Hsame as [->|[? _]]; [auto|done].
Qed.
Lemma hovering_tracked fp d path : linked d -> acyclic d -> forall s, tracked fp d s ->
  (exists s', hovering fp s path s') /\
  forall s', hovering fp s path s' -> tracked fp d s' /\ hs_leaf s' = default (hs_leaf s) (last path).
Proof.
  intros L A. induction path as [|x path IH]; intros s T.
  - split; [exists s; constructor|]. intros s' Hh. inversion Hh; subst. done.
  - destruct (update_tracked fp d x s L A T) as (s1&b&E&Hl&T1). destruct (IH s1 T1) as [[s2 H2] IH2]. split.
    + exists s2. by econstructor.
    + intros s' Hh. inversion Hh as [|? ? s1' b' ? ? E' Hr]; subst. rewrite E in E'. simplify_eq. destruct (IH2 s' Hr) as [? Hleaf].
      split; [done|]. rewrite Hleaf, last_cons. by destruct (last path).
Qed.
Lemma tracked_start fp d : hovered d = ∅ -> tracked fp d (mk_hs d None false).
Proof.
  intros H. exists ∅ ∅; simpl; [by destruct d; simpl in *; subst|done| |by left]. intros _ x Hx. by apply elem_of_empty in Hx.
Qed.
Definition hover_safe (parts : list part) : Prop := exists s, parts = parts_of s /\ well_formed s /\ no_extra s.
Lemma scan_covered sels fp parts s : hover_fingerprints sels = fp -> fp_universal fp = false -> parts ∈ concat sels ->
  parts = parts_of s -> well_formed s -> covered fp s.
Proof.
  intros E U Hp -> Hw. apply scan_all_ok in E as [_ H]; [|done]. apply covered_of; [done|]. by apply H.
Qed.
Lemma tracked_match lower sels d s : linked d -> acyclic d -> tracked (hover_fingerprints sels) d s ->
  exists d', set_hovered (hs_leaf s) d = Ok d' /\
  forall parts x pseudo, parts ∈ concat sels -> hover_safe parts ->
    match_parts lower (hs_doc s) x parts pseudo = match_parts lower d' x parts pseudo.
Proof.
  intros L A [D C Hd Hc Hs Hsame]. exists (with_hover C d). split; [done|]. intros parts x pseudo Hp (sel&->&Hw&Hx). rewrite Hd.
  destruct Hsame as [->|[QD QC]]; [done|]. destruct (fp_universal (hover_fingerprints sels)) eqn:U.
  - assert (Hempty : forall X, sits_quiet (hover_fingerprints sels) d X -> X = ∅).
    { intros X HX. apply leibniz_equiv. intros y. split; [|set_solver]. intros Hy. apply HX in Hy. unfold hover_matches in Hy. by rewrite U in Hy. }
    by rewrite (Hempty D QD), (Hempty C QC).
  - pose proof (scan_covered sels _ _ sel eq_refl U Hp eq_refl Hw) as Hcov.
    rewrite (quiet_match lower d L A (hover_fingerprints sels) D pseudo QD sel x) by done.
    by rewrite (quiet_match lower d L A (hover_fingerprints sels) C pseudo QC sel x).
Qed.

(** * Matching when no hovered node is asked for *)
Section cold.
Context (lower : str -> str) (d : doc) (H H' : gset nat) (pseudo : option str).
Notation d1 := (with_hover H d).
Notation d2 := (with_hover H' d).
Definition not_hover (p : part) : Prop := p <> hover.
Lemma simple_cold_same x p : not_hover p -> simple lower d1 pseudo x p = simple lower d2 pseudo x p.
Proof. intros Hp. destruct p; try done. simpl. unfold pseudo_class. rewrite bool_decide_false; [done|]. intros ->. by apply Hp. Qed.
Lemma climb_cold (try try' : attempt) : (forall p n ps, Forall not_hover ps -> try p n ps = try' p n ps /\
    (forall b n' ps', try p n ps = Ok (b, n', ps') -> Forall not_hover ps')) ->
  forall k p ps, Forall not_hover ps -> climb k d1 try p ps = climb k d2 try' p ps /\
    (forall b n' ps', climb k d1 try p ps = Ok (b, n', ps') -> Forall not_hover ps').
Proof.
  intros T. induction k as [|k IH]; intros p ps Hps; [done|]. simpl. destruct (T p (Some p) ps Hps) as [<- T2].
  destruct (try p (Some p) ps) as [[[b n] ps1]| |]; simpl; [|done|done]. specialize (T2 b n ps1 eq_refl).
  destruct b; [split; [done|]; by intros ??? [= <- <- <-]|]. change (parent d1 p) with (parent d p). change (parent d2 p) with (parent d p).
  destruct (parent d p); [by apply IH|]. split; [done|]. by intros ??? [= <- <- <-].
Qed.
Lemma earlier_cold (try try' : attempt) : (forall p n ps, Forall not_hover ps -> try p n ps = try' p n ps /\
    (forall b n' ps', try p n ps = Ok (b, n', ps') -> Forall not_hover ps')) ->
  forall l cur next ps, Forall not_hover ps -> earlier try l cur next ps = earlier try' l cur next ps /\
    (forall b n' ps', earlier try l cur next ps = Ok (b, n', ps') -> Forall not_hover ps').
Proof.
  intros T. induction l as [|c l IH]; intros cur next ps Hps; simpl; [split; [done|]; by intros ??? [= <- <- <-]|].
  case_bool_decide; [split; [done|]; by intros ??? [= <- <- <-]|]. destruct (T c next ps Hps) as [<- T2].
  destruct (try c next ps) as [[[b n] ps1]| |]; simpl; [|done|done]. specialize (T2 b n ps1 eq_refl).
  destruct b; [split; [done|]; by intros ??? [= <- <- <-]|]. by apply IH.
Qed.
Lemma part_cold : forall f p, not_hover p -> forall cur next ps, Forall not_hover ps ->
  match_part lower f d1 pseudo p cur next ps = match_part lower f d2 pseudo p cur next ps /\
  (forall b n' ps', match_part lower f d1 pseudo p cur next ps = Ok (b, n', ps') -> Forall not_hover ps').
Proof.
  induction f as [|f IH]; intros p Hp cur next ps Hps.
  - destruct (is_comb p) eqn:Ec; [by destruct p|].
    rewrite !part_simple by done. rewrite simple_cold_same by done. split; [done|]. by intros ??? [= <- <- <-].
  - destruct (is_comb p) eqn:Ec.
    2:{ rewrite !part_simple by done. rewrite simple_cold_same by done. split; [done|]. by intros ??? [= <- <- <-]. }
    destruct p as [| | | | | |c|]; try done. cbn [match_part].
    change (parent d1 cur) with (parent d cur). change (parent d2 cur) with (parent d cur).
    change (children d1) with (children d). change (children d2) with (children d). change (depth d1) with (depth d). change (depth d2) with (depth d).
    destruct c.
    + destruct (parent d cur); [|split; [done|]; by intros ??? [= <- <- <-]]. destruct ps as [|l ps]; [split; [done|]; by intros ??? [= <- <- <-]|].
      inversion Hps; subst. apply climb_cold; [|done]. intros. by apply IH.
    + destruct (parent d cur); [|split; [done|]; by intros ??? [= <- <- <-]]. destruct ps as [|l ps]; [split; [done|]; by intros ??? [= <- <- <-]|].
      inversion Hps; subst. by apply IH.
    + destruct (parent d cur); [|split; [done|]; by intros ??? [= <- <- <-]].
      destruct (position _ _) as [[|n']|]; [split; [done|]; by intros ??? [= <- <- <-]| |split; [done|]; by intros ??? [= <- <- <-]].
      destruct (_ !! n'); [|split; [done|]; by intros ??? [= <- <- <-]].
      destruct ps as [|l ps]; [split; [done|]; by intros ??? [= <- <- <-]|]. inversion Hps; subst. by apply IH.
    + destruct (parent d cur); [|split; [done|]; by intros ??? [= <- <- <-]]. destruct ps as [|l ps]; [split; [done|]; by intros ??? [= <- <- <-]|].
      inversion Hps; subst. apply earlier_cold; [|done]. intros. by apply IH.
    + split; [done|]. by intros ??? [= <- <- <-].
    + split; [done|]. destruct ps as [|l ps]; [by intros ??? [= <- <- <-]|]. inversion Hps; subst. destruct l; by intros ??? [= <- <- <-].
Qed.
Lemma loop_cold : forall f next ps, Forall not_hover ps -> match_loop lower f d1 pseudo next ps = match_loop lower f d2 pseudo next ps.
Proof.
  induction f as [|f IH]; intros next ps Hps; [done|]. destruct ps as [|p ps]; [done|]. destruct next as [x|]; [|done].
  rewrite !loop_cons. change (parent d1 x) with (parent d x). change (parent d2 x) with (parent d x). destruct (parent d x); [|done]. inversion Hps as [|?? H1 H2]; subst.
  destruct (part_cold (S (length ps)) p H1 x (Some x) ps H2) as [E F]. rewrite <- E.
  destruct (match_part lower _ d1 pseudo p x (Some x) ps) as [[[b nx] ps']| |]; cbn [rbind]; [|done|done].
  destruct b; [|done]. apply IH. by eapply F.
Qed.
Lemma subject_cold s x : linked d -> acyclic d -> well_formed s -> hover_only_in_subject s -> x ∉ H -> x ∉ H' ->
  match_parts lower d1 x (parts_of s) pseudo = match_parts lower d2 x (parts_of s) pseudo.
Proof.
  intros L A Hw Hs Hx Hx'. rewrite (match_go lower d1), (match_go lower d2), rev_parts. destruct (well_subject s Hw) as [Hne Hnc].
  destruct (parent d x) as [q|] eqn:Ex.
  - rewrite (go_compound lower d1 (linked_hover d L H) (acyclic_hover d A H)), (go_compound lower d2 (linked_hover d L H') (acyclic_hover d A H'));
      [|by apply no_comb_bool|change (parent d x <> None); congruence|by apply no_comb_bool|change (parent d x <> None); congruence].
    assert (Hf : forallb (simple lower d1 pseudo x) (subject s) = forallb (simple lower d2 pseudo x) (subject s)).
    { generalize (subject s). intros c. induction c as [|p c IH]; [done|]. cbn [forallb]. rewrite IH. f_equal.
      destruct (decide (p = hover)) as [->|]; [|by apply simple_cold_same]. simpl. unfold pseudo_class. rewrite !bool_decide_true by done.
      simpl. by rewrite !bool_decide_false. }
    rewrite Hf. clear Hf. destruct (forallb (simple lower d2 pseudo x) (subject s)); [|done]. unfold go. apply loop_cold. destruct s as [|s k c]; simpl; constructor; [by intros ?|].
    apply Forall_rev. apply Forall_forall. intros p Hp ->. by apply Hs.
  - assert (rev (subject s) ++ tail_of s <> []).
    { intros E. apply app_eq_nil in E as [E _]. apply (f_equal (@rev _)) in E. by rewrite rev_involutive in E. }
    rewrite (go_orphan lower d1), (go_orphan lower d2); done.
Qed.
End cold.
Lemma chain_set d leaf : linked d -> acyclic d -> exists l, chain_of d leaf = Ok l /\ set_hovered leaf d = Ok (with_hover (list_to_set l) d).
Proof.
  intros L A. destruct leaf as [i|]; cbn [chain_of set_hovered]; [|by exists []]. destruct (chain_total d L A i) as [l E]. exists l. by rewrite E.
Qed.
Definition shows (lower : str -> str) (sels : list selector) (d : doc) (v : view) : Prop :=
  v_dirty v = false /\ tracked (hover_fingerprints sels) d (v_hover v) /\
  exists dt, set_hovered (hs_leaf (v_hover v)) d = Ok dt /\
  forall s x pseudo, parts_of s ∈ concat sels -> well_formed s -> no_extra s -> hover_only_in_subject s ->
    v_cache v x (parts_of s) pseudo = match_parts lower dt x (parts_of s) pseudo.
Lemma move_shows lower sels d leaf v : linked d -> acyclic d -> shows lower sels d v ->
  exists v1, move (hover_fingerprints sels) leaf v = Ok v1 /\ hs_leaf (v_hover v1) = leaf /\ shows lower sels d (repaint lower v1).
Proof.
  intros L A (Hd&T&dt&Edt&Hc). unfold move. case_bool_decide as El.
  { exists v. split_and!; try done. unfold repaint. rewrite Hd. split_and!; try done. eauto. }
  destruct (chain_set d (hs_leaf (v_hover v)) L A) as (l1&C1&S1). destruct (chain_set d leaf L A) as (l2&C2&S2).
  destruct (update_tracked (hover_fingerprints sels) d leaf (v_hover v) L A T) as (h&b&Eu&Hl&T').
  assert (Hn : hover_dirty_nodes (hs_doc (v_hover v)) (hs_leaf (v_hover v)) leaf = Ok (l1 ++ l2)).
  { destruct T as [D C Ed _ _ _]. unfold hover_dirty_nodes. rewrite Ed.
    assert (Hcd : forall lf, chain_of (with_hover D d) lf = chain_of d lf). { intros [i|]; [|done]. cbn [chain_of]. apply chain_hover. }
    by rewrite !Hcd, C1, C2. }
  rewrite Hn. cbn [rbind]. rewrite Eu. cbn [rbind]. rewrite Hd. simpl orb. eexists. split; [done|]. split; [done|].
  unfold repaint. cbn [v_dirty v_hover v_nodes v_cache].
  rewrite Edt in S1. apply Ok_inj in S1 as ->.
  assert (Still : forall s x pseudo, parts_of s ∈ concat sels -> well_formed s -> no_extra s -> hover_only_in_subject s -> x ∉ l1 ++ l2 ->
      match_parts lower (with_hover (list_to_set l1) d) x (parts_of s) pseudo = match_parts lower (with_hover (list_to_set l2) d) x (parts_of s) pseudo).
  { intros s x pseudo _ Hw _ Hs Hx. apply subject_cold; try done; intros Hin; apply Hx; apply elem_of_app; [left|right]; by apply elem_of_list_to_set in Hin. }
  destruct b; cbn [v_dirty].
  - split; [done|]. split; [done|]. cbn [v_hover v_cache]. rewrite Hl. exists (with_hover (list_to_set l2) d). split; [done|].
    intros s x pseudo Hin Hw Hx Hs. case_bool_decide as Hm.
    + destruct (tracked_match lower sels d h L A T') as (d'&Ed'&Hm'). rewrite Hl, S2 in Ed'. apply Ok_inj in Ed' as <-. apply Hm'; [done|]. by exists s.
    + rewrite Hc by done. by apply Still.
  - split; [done|]. split; [done|]. cbn [v_hover v_cache]. rewrite Hl. exists (with_hover (list_to_set l2) d). split; [done|].
    intros s x pseudo Hin Hw Hx Hs. rewrite Hc by done.
    destruct (tracked_match lower sels d h L A T') as (d'&Ed'&Hm'). rewrite Hl, S2 in Ed'. apply Ok_inj in Ed' as <-.
    destruct (tracked_match lower sels d (v_hover v) L A T) as (d'&Ed'&Hm2). rewrite Edt in Ed'. apply Ok_inj in Ed' as <-.
    rewrite <- Hm', <- Hm2 by (done || by exists s).
    assert (hs_doc h = hs_doc (v_hover v)) as ->; [|done]. unfold update_hover in Eu. rewrite bool_decide_false in Eu by done.
    destruct (chain_sensitive _ _ _) as [sn| |]; try done. cbn [rbind] in Eu. destruct (hs_sensitive (v_hover v) || sn).
    { by destruct (set_hovered leaf (hs_doc (v_hover v))). }
    cbn [rbind] in Eu. by apply Ok_inj in Eu as [= <-].
Qed.
Lemma watching_shows lower sels d path : linked d -> acyclic d -> forall v, shows lower sels d v ->
  (exists v', watching lower (hover_fingerprints sels) v path v') /\
  forall v', watching lower (hover_fingerprints sels) v path v' -> shows lower sels d v' /\ hs_leaf (v_hover v') = default (hs_leaf (v_hover v)) (last path).
Proof.
  intros L A. induction path as [|x path IH]; intros v T.
  - split; [exists v; constructor|]. intros v' Hh. inversion Hh; subst. done.
  - destruct (move_shows lower sels d x v L A T) as (v1&E&Hl&T1). destruct (IH _ T1) as [[v2 H2] IH2].
    assert (Hrl : hs_leaf (v_hover (repaint lower v1)) = x). { unfold repaint. by destruct (v_dirty v1). }
    split.
    + exists v2. by econstructor.
    + intros v' Hh. inversion Hh as [|? ? v1' ? ? E' Hr]; subst. rewrite E in E'. simplify_eq. destruct (IH2 v' Hr) as [? Hleaf].
      split; [done|]. rewrite Hleaf, last_cons, Hrl. by destruct (last path).
Qed.
Lemma first_shows lower sels d : hovered d = ∅ -> shows lower sels d (first_view lower d).
Proof.
  intros H. split; [done|]. split; [by apply tracked_start|]. exists d. split; [|done]. simpl. destruct d; simpl in *; by subst.
Qed.
