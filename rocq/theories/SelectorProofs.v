(** Proofs about selector matching. *)
From stdpp Require Import gmap relations.
From Verif Require Import Text SettingsModel DomModel DomSpec DomProofs DomTraverse SelectorModel SelectorSpec.

Lemma is_element_iff d i : is_element d i = true <-> is_elem d i.
Proof. unfold is_element, is_elem. destruct (get d i ≫= element_of); split; try done; [by eexists|intros [? H]; done]. Qed.
Lemma tag_elem d i t : tag_name d i = Some t -> is_elem d i.
Proof. unfold tag_name, is_elem. destruct (get d i ≫= element_of); [by eexists|done]. Qed.
Lemma elem_tag d i : is_elem d i -> exists t, tag_name d i = Some t.
Proof. unfold tag_name, is_elem. intros [e ->]. by eexists. Qed.
Lemma attr_elem d i k v : attribute d i k = Some v -> is_elem d i.
Proof. unfold attribute, is_elem. destruct (get d i ≫= element_of); [by eexists|done]. Qed.
Lemma class_elem d i c : has_class d i c = true -> is_elem d i.
Proof. unfold has_class, is_elem. destruct (get d i ≫= element_of); [by eexists|done]. Qed.

Lemma prefixb_iff p : forall s, prefixb p s = true <-> begins p s.
Proof.
  induction p as [|x p IH]; intros s; simpl.
  - split; [intros _; by exists s|done].
  - destruct s as [|y s]; [split; [done|by intros [r H]]|]. rewrite andb_true_iff, N.eqb_eq, IH. split.
    + intros [-> [r ->]]. by exists r.
    + intros [r H]. simplify_eq/=. split; [done|by exists r].
Qed.
Lemma suffixb_iff p s : suffixb p s = true <-> ends p s.
Proof.
  unfold suffixb. rewrite prefixb_iff. split; intros [r H].
  - exists (rev r). apply (f_equal (@rev N)) in H. by rewrite rev_app_distr, !rev_involutive in H.
  - exists (rev r). by rewrite H, rev_app_distr.
Qed.
Lemma infixb_iff p : forall s, infixb p s = true <-> occurs p s.
Proof.
  induction s as [|y s IH].
  - unfold infixb. rewrite orb_false_r, prefixb_iff. split.
    + intros [r H]. symmetry in H. apply app_eq_nil in H as [-> ->]. by exists [], [].
    + intros (a&b&H). symmetry in H. apply app_eq_nil in H as [-> H]. by exists b.
  - cbn [infixb]. rewrite orb_true_iff, prefixb_iff, IH. split.
    + intros [[r H]|(a&b&->)]; [by exists [], r|by exists (y :: a), b].
    + intros (a&b&H). destruct a as [|z a]; [left; by exists b|right]. simplify_eq/=. by exists a, b.
Qed.

Lemma list_split_nodup {A} (x : A) (a b a' b' : list A) : NoDup (a ++ x :: b) -> a ++ x :: b = a' ++ x :: b' -> a = a' /\ b = b'.
Proof.
  revert a'. induction a as [|y a IH]; intros [|z a'] ND E; simplify_eq/=; [done| | |].
  - inversion ND as [|? ? Hx]; subst. destruct Hx. rewrite elem_of_app, elem_of_cons. auto.
  - inversion ND as [|? ? Hx]; subst. destruct Hx. rewrite elem_of_app, elem_of_cons. auto.
  - inversion ND; subst. destruct (IH a') as [-> ->]; auto.
Qed.
Lemma position_app (b a : list nat) (x : nat) : NoDup (b ++ x :: a) -> position (b ++ x :: a) x = Some (length b).
Proof.
  intros ND. unfold position. replace (list_find (fun c => c = x) (b ++ x :: a)) with (Some (length b, x)); [done|].
  symmetry. apply list_find_Some. split; [|split; [done|]].
  - by rewrite lookup_app_r, Nat.sub_diag.
  - intros j y Hj Hlt ->. rewrite lookup_app_l in Hj by done. apply elem_of_list_lookup_2 in Hj.
    apply NoDup_app in ND as (_&H&_). apply (H x Hj). by left.
Qed.
Lemma head_filter_split {A} (P : A -> Prop) `{Dec : forall x, Decision (P x)} (b a : list A) (x : A) : NoDup (b ++ x :: a) -> P x ->
  head (filter P (b ++ x :: a)) = Some x <-> Forall (fun y => ~ P y) b.
Proof.
  intros ND Hx. rewrite filter_app, filter_cons_True by done. split.
  - intros H. apply Forall_forall. intros y Hy HP.
    assert (Hf : y ∈ filter P b) by (by apply elem_of_list_filter).
    destruct (filter P b) as [|z l] eqn:E; [by apply elem_of_nil in Hf|]. simplify_eq/=.
    assert (Hz : x ∈ b). { assert (x ∈ filter P b) as Hq by (rewrite E; by left). by apply elem_of_list_filter in Hq as [_ ?]. }
    apply NoDup_app in ND as (_&H&_). destruct (H x Hz). by left.
  - intros H. rewrite (filter_none P b); [done|]. intros y Hy. by apply (proj1 (Forall_forall _ _) H).
Qed.
Lemma last_filter_split {A} (P : A -> Prop) `{Dec : forall x, Decision (P x)} (b a : list A) (x : A) : NoDup (b ++ x :: a) -> P x ->
  last (filter P (b ++ x :: a)) = Some x <-> Forall (fun y => ~ P y) a.
Proof.
  intros ND Hx. rewrite filter_app, filter_cons_True by done. rewrite last_app_cons. split.
  - intros H. apply Forall_forall. intros y Hy HP.
    assert (Hf : y ∈ filter P a) by (by apply elem_of_list_filter).
    assert (Hl : last (filter P a) = Some x). { destruct (filter P a) as [|z l]; [by apply elem_of_nil in Hf|]. by rewrite last_cons_cons in H. }
    apply last_Some_elem_of, elem_of_list_filter in Hl as [_ Hl].
    apply NoDup_app in ND as (_&_&ND). inversion ND; subst. done.
  - intros H. rewrite (filter_none P a); [done|]. intros y Hy. by apply (proj1 (Forall_forall _ _) H).
Qed.
Lemma filter_single_split {A} (P : A -> Prop) `{Dec : forall x, Decision (P x)} (b a : list A) (x : A) : P x ->
  length (filter P (b ++ x :: a)) = 1 <-> Forall (fun y => ~ P y) (b ++ a).
Proof.
  intros Hx. rewrite filter_app, filter_cons_True by done. rewrite app_length. simpl. split.
  - intros H. apply Forall_app. split; apply Forall_forall; intros y Hy HP.
    + assert (Hf : y ∈ filter P b) by (by apply elem_of_list_filter). destruct (filter P b); [by apply elem_of_nil in Hf|simpl in H; lia].
    + assert (Hf : y ∈ filter P a) by (by apply elem_of_list_filter). destruct (filter P a); [by apply elem_of_nil in Hf|simpl in H; lia].
  - intros [Hb Ha]%Forall_app. rewrite (filter_none P b), (filter_none P a); [done| |].
    + intros y Hy. by apply (proj1 (Forall_forall _ _) Ha).
    + intros y Hy. by apply (proj1 (Forall_forall _ _) Hb).
Qed.

Definition is_comb (p : part) : bool := match p with PCombinator _ => true | _ => false end.

Ltac names :=
  repeat match goal with
  | |- context [@bool_decide (txt ?a = txt ?b) ?D] =>
      let v := eval vm_compute in (@bool_decide (txt a = txt b) D) in change (@bool_decide (txt a = txt b) D) with v
  | |- context [@bool_decide (txt ?a ∈ ?l) ?D] =>
      let v := eval vm_compute in (@bool_decide (txt a ∈ l) D) in change (@bool_decide (txt a ∈ l) D) with v
  | |- context [decide (txt ?a = txt ?b)] => destruct (decide (txt a = txt b)) as [?E|?E]; [by vm_compute in E || clear E|clear E || by destruct E]
  | |- context [decide (txt ?a = txt ?b \/ txt ?c = txt ?e)] =>
      destruct (decide (txt a = txt b \/ txt c = txt e)) as [?E|?E]; [by (destruct E as [E|E]; vm_compute in E) || clear E|clear E || by (destruct E; auto)]
  end.
Section doc.
Context (lower : str -> str) (d : doc) (L : linked d) (A : acyclic d).

(** * Matching always ends *)
Lemma chain_total i : exists l, chain (depth d) d i = Ok l.
Proof.
  destruct (chain_ok d L A (depth d) i []) as (l&El&_); [constructor| |unfold depth; simpl; lia|by exists l].
  intros a Ha. by apply elem_of_nil in Ha.
Qed.
Lemma chain_mem i l : chain (depth d) d i = Ok l -> forall x, x ∈ l <-> rtc (parent_of d) i x.
Proof.
  destruct (chain_ok d L A (depth d) i []) as (l'&El&Hl); [constructor| |unfold depth; simpl; lia|].
  { intros a Ha. by apply elem_of_nil in Ha. }
  rewrite El. intros [= ->]. done.
Qed.
Definition settles (n : nat) (try : attempt) : Prop :=
  forall q next ps, length ps < n -> exists b next' ps', try q next ps = Ok (b, next', ps') /\ length ps' <= length ps.
Lemma climb_total n try : settles n try -> forall k p l ps, chain k d p = Ok l -> length ps < n ->
  exists b next ps', climb k d try p ps = Ok (b, next, ps') /\ length ps' <= length ps.
Proof.
  intros T. induction k as [|k IH]; intros p l ps El Hps; [done|]. simpl.
  destruct (T p (Some p) ps Hps) as (b&next&ps1&->&H1). simpl. destruct b; [eauto 6|].
  simpl in El. change (get d p ≫= n_parent) with (parent d p) in El. destruct (parent d p) as [q|]; [|eauto 6].
  destruct (chain k d q) as [l'| |] eqn:Eq; simplify_eq/=.
  destruct (IH q l' ps1 Eq) as (b&next'&ps2&->&H2); [lia|]. exists b, next', ps2. split; [done|lia].
Qed.
Lemma earlier_total n try : settles n try -> forall l cur next ps, length ps < n ->
  exists b next' ps', earlier try l cur next ps = Ok (b, next', ps') /\ length ps' <= length ps.
Proof.
  intros T. induction l as [|c l IH]; intros cur next ps Hps; simpl; [eauto 6|].
  case_bool_decide; [eauto 6|]. destruct (T c next ps Hps) as (b&next1&ps1&->&H1). simpl. destruct b; [eauto 6|].
  destruct (IH cur next1 ps1) as (b&next'&ps2&->&H2); [lia|]. exists b, next', ps2. split; [done|lia].
Qed.
Lemma match_part_total pseudo : forall f p, settles f (match_part lower f d pseudo p).
Proof.
  induction f as [|f IH]; intros p q next ps Hps; [lia|].
  destruct p as [| | | | | |c|]; try (simpl; eauto 6; fail).
  destruct c; cbn [match_part].
  - destruct (parent d q) as [up|]; [|eauto 6]. destruct ps as [|last ps']; [eauto 6|].
    destruct (chain_total up) as [l El]. destruct (climb_total f _ (IH last) (depth d) up l ps' El) as (b&n'&ps2&->&H2); [simpl in Hps; lia|].
    exists b, n', ps2. simpl. split; [done|lia].
  - destruct (parent d q) as [up|]; [|eauto 6]. destruct ps as [|last ps']; [eauto 6|].
    destruct (IH last up (Some up) ps') as (b&n'&ps2&->&H2); [simpl in Hps; lia|]. exists b, n', ps2. simpl. split; [done|lia].
  - destruct (parent d q) as [up|]; [|eauto 6]. destruct (position (children d up) q) as [[|n]|]; [eauto 6| |eauto 6].
    destruct (children d up !! n) as [prev|]; [|eauto 6]. destruct ps as [|last ps']; [eauto 6|].
    destruct (IH last prev (Some prev) ps') as (b&n'&ps2&->&H2); [simpl in Hps; lia|]. exists b, n', ps2. simpl. split; [done|lia].
  - destruct (parent d q) as [up|]; [|eauto 6]. destruct ps as [|last ps']; [eauto 6|].
    destruct (earlier_total f _ (IH last) (children d up) q next ps') as (b&n'&ps2&->&H2); [simpl in Hps; lia|].
    exists b, n', ps2. simpl. split; [done|lia].
  - eauto 6.
  - destruct ps as [|x ps']; [eauto 6|]. destruct x; eexists _, _, _; (split; [done|simpl; lia]).
Qed.
Lemma match_loop_total pseudo : forall f next ps, length ps < f -> exists b, match_loop lower f d pseudo next ps = Ok b.
Proof.
  induction f as [|f IH]; intros next ps Hps; [lia|]. cbn [match_loop]. destruct ps as [|p ps']; [by eexists|].
  destruct next as [cur|]; [|by eexists]. destruct (parent d cur); [|by eexists].
  destruct (match_part_total pseudo (S (length ps')) p cur (Some cur) ps') as (b&n'&ps2&->&H2); [lia|]. cbn [rbind].
  destruct b; [|by eexists]. apply IH. simpl in Hps. lia.
Qed.
Lemma match_loop_fuel pseudo : forall f f' next ps, length ps < f -> length ps < f' ->
  match_loop lower f d pseudo next ps = match_loop lower f' d pseudo next ps.
Proof.
  induction f as [|f IH]; intros f' next ps Hf Hf'; [lia|]. destruct f' as [|f']; [lia|]. cbn [match_loop].
  destruct ps as [|p ps']; [done|]. destruct next as [cur|]; [|done]. destruct (parent d cur); [|done].
  destruct (match_part_total pseudo (S (length ps')) p cur (Some cur) ps') as (b&n'&ps2&->&H2); [lia|]. cbn [rbind].
  destruct b; [|done]. simpl in *. apply IH; lia.
Qed.
Lemma matching_ends x parts pseudo : exists b, match_parts lower d x parts pseudo = Ok b.
Proof. apply match_loop_total. rewrite rev_length. lia. Qed.

(** * One step at a time *)
Definition go (pseudo : option str) (ps : list part) (x : nat) : res bool := match_loop lower (S (length ps)) d pseudo (Some x) ps.
Lemma match_go x parts pseudo : match_parts lower d x parts pseudo = go pseudo (rev parts) x.
Proof. unfold match_parts, go. by rewrite rev_length. Qed.
Lemma go_loop pseudo ps x f : length ps < f -> match_loop lower f d pseudo (Some x) ps = go pseudo ps x.
Proof. intros H. unfold go. apply match_loop_fuel; lia. Qed.
Lemma loop_cons f pseudo x p ps :
  match_loop lower (S f) d pseudo (Some x) (p :: ps) =
  match parent d x with
  | None => Ok false
  | Some _ => let* (b, next1, ps1) := match_part lower (S (length ps)) d pseudo p x (Some x) ps in
              if (b : bool) then match_loop lower f d pseudo next1 ps1 else Ok false
  end.
Proof. done. Qed.
Lemma go_part pseudo p ps x : is_comb p = false ->
  go pseudo (p :: ps) x = match parent d x with
                          | None => Ok false
                          | Some _ => if simple lower d pseudo x p then go pseudo ps x else Ok false
                          end.
Proof.
  intros Hp. unfold go at 1. rewrite loop_cons. destruct (parent d x); [|done].
  replace (match_part lower (S (length ps)) d pseudo p x (Some x) ps) with (Ok (simple lower d pseudo x p, Some x, ps)) by (by destruct p).
  cbn [rbind]. destruct (simple lower d pseudo x p); [|done]. apply go_loop. simpl. lia.
Qed.
Lemma part_simple f pseudo p q next ps : is_comb p = false -> match_part lower f d pseudo p q next ps = Ok (simple lower d pseudo q p, next, ps).
Proof. intros. destruct f; by destruct p. Qed.
Lemma go_child pseudo l ps x : is_comb l = false ->
  go pseudo (PCombinator Child :: l :: ps) x = match parent d x with
                          | None => Ok false
                          | Some y => if simple lower d pseudo y l then go pseudo ps y else Ok false
                          end.
Proof.
  intros Hl. unfold go at 1. rewrite loop_cons. cbn [match_part]. destruct (parent d x) as [y|]; [|done].
  rewrite part_simple by done. cbn [rbind]. destruct (simple lower d pseudo y l); [|done]. apply go_loop. simpl. lia.
Qed.
Lemma climb_simple (sim : nat -> bool) (try : attempt) (ps : list part) :
  (forall q next, try q next ps = Ok (sim q, next, ps)) ->
  forall k p l, chain k d p = Ok l ->
  climb k d try p ps = match list_find (fun q => sim q = true) l with
                       | Some (_, q) => Ok (true, Some q, ps)
                       | None => Ok (false, last l, ps)
                       end.
Proof.
  intros T. induction k as [|k IH]; intros p l El; [done|]. simpl in *. rewrite T. simpl.
  change (get d p ≫= n_parent) with (parent d p) in El. destruct (parent d p) as [q|].
  - destruct (chain k d q) as [l'| |] eqn:Eq; simplify_eq/=. destruct (sim p) eqn:Sp.
    + by rewrite decide_True.
    + rewrite decide_False by done. rewrite (IH q l') by done. destruct (list_find _ l') as [[n z]|]; [done|]. simpl.
      destruct l'; [|done]. destruct k; simpl in Eq; [done|]. destruct (get d q ≫= n_parent); [|done]. by destruct (chain k d n).
  - simplify_eq/=. destruct (sim p) eqn:Sp; [by rewrite decide_True|by rewrite decide_False].
Qed.
Lemma go_desc pseudo l ps x : is_comb l = false ->
  go pseudo (PCombinator Descendant :: l :: ps) x = match parent d x with
                          | None => Ok false
                          | Some y => match chain (depth d) d y with
                                      | Ok up => match list_find (fun q => simple lower d pseudo q l = true) up with
                                                 | Some (_, q) => go pseudo ps q
                                                 | None => Ok false
                                                 end
                                      | _ => Diverge
                                      end
                          end.
Proof.
  intros Hl. unfold go at 1. rewrite loop_cons. cbn [match_part]. destruct (parent d x) as [y|]; [|done].
  destruct (chain_total y) as [up Eu]. rewrite Eu.
  rewrite (climb_simple (fun q => simple lower d pseudo q l) _ ps (fun q next => part_simple _ pseudo l q next ps Hl) (depth d) y up Eu).
  destruct (list_find _ up) as [[n q]|]; [|done]. cbn [rbind]. apply go_loop. simpl. lia.
Qed.
Lemma go_next pseudo l ps x : is_comb l = false ->
  go pseudo (PCombinator NextSibling :: l :: ps) x = match parent d x with
                          | None => Ok false
                          | Some up => match position (children d up) x with
                              | None | Some 0 => Ok false
                              | Some (S n) => match children d up !! n with
                                  | None => Ok false
                                  | Some y => if simple lower d pseudo y l then go pseudo ps y else Ok false
                                  end
                              end
                          end.
Proof.
  intros Hl. unfold go at 1. rewrite loop_cons. cbn [match_part]. destruct (parent d x) as [y|]; [|done].
  destruct (position (children d y) x) as [[|n]|]; [done| |done]. destruct (children d y !! n) as [z|]; [|done].
  rewrite part_simple by done. cbn [rbind]. destruct (simple lower d pseudo z l); [|done]. apply go_loop. simpl. lia.
Qed.
Fixpoint before (x : nat) (l : list nat) : list nat :=
  match l with [] => [] | c :: r => if bool_decide (c = x) then [] else c :: before x r end.
Lemma earlier_simple (sim : nat -> bool) (try : attempt) (ps : list part) cur next :
  (forall q next, try q next ps = Ok (sim q, next, ps)) ->
  forall l, earlier try l cur next ps = Ok (existsb sim (before cur l), next, ps).
Proof.
  intros T. induction l as [|c l IH]; simpl; [done|]. case_bool_decide; [done|]. rewrite T. simpl. by destruct (sim c).
Qed.
Lemma go_subsequent pseudo l ps x : is_comb l = false ->
  go pseudo (PCombinator SubsequentSibling :: l :: ps) x = match parent d x with
                          | None => Ok false
                          | Some up => if existsb (fun y => simple lower d pseudo y l) (before x (children d up)) then go pseudo ps x else Ok false
                          end.
Proof.
  intros Hl. unfold go at 1. rewrite loop_cons. cbn [match_part]. destruct (parent d x) as [y|]; [|done].
  rewrite (earlier_simple (fun q => simple lower d pseudo q l) _ ps x (Some x) (fun q next => part_simple _ pseudo l q next ps Hl)).
  cbn [rbind]. destruct (existsb _ _); [|done]. apply go_loop. simpl. lia.
Qed.
Lemma go_compound pseudo c ps x : Forall (fun p => is_comb p = false) c -> parent d x <> None ->
  go pseudo (rev c ++ ps) x = if forallb (simple lower d pseudo x) c then go pseudo ps x else Ok false.
Proof.
  intros Hc Hx. induction c as [|p c IH] using rev_ind; [done|]. rewrite rev_app_distr. simpl.
  apply Forall_app in Hc as [Hc Hp]. inversion Hp; subst. rewrite go_part by done. destruct (parent d x) eqn:Ep; [|done].
  rewrite IH by done. rewrite forallb_app. simpl. rewrite andb_true_r.
  destruct (simple lower d pseudo x p); [by rewrite andb_true_r|by rewrite andb_false_r].
Qed.

(** * Simple selectors *)
Lemma kids_split x p : parent d x = Some p -> exists_in d p -> exists b a, children d p = b ++ x :: a.
Proof. intros Hp He. apply (lk_listed d L) in Hp; [|done]. by apply elem_of_list_split in Hp. Qed.
Lemma siblings_iff x p b a b' a' : parent d x = Some p -> children d p = b ++ x :: a -> siblings d x b' a' <-> b' = b /\ a' = a.
Proof.
  intros Hp Hc. split.
  - intros (q&Hq&Hc'). simplify_eq. rewrite Hc in Hc'. apply list_split_nodup in Hc' as [-> ->]; [done|].
    rewrite <- Hc. apply (lk_once d L).
  - intros [-> ->]. by exists p.
Qed.
Lemma not_elem_iff y : ~ is_elem d y <-> ~ is_element d y = true.
Proof. by rewrite is_element_iff. Qed.
Lemma attr_ok a v : plain_attr a -> attr_test lower a v = true <-> attr_fits lower a v.
Proof.
  intros (Hi&Hm&He). unfold attr_test, attr_fits. rewrite Hi. unfold value_fits. destruct (a_matcher a).
  - done.
  - rewrite bool_decide_eq_true. split; congruence.
  - done.
  - rewrite orb_true_iff, bool_decide_eq_true, prefixb_iff. done.
  - rewrite prefixb_iff. split; [|tauto]. intros H. split; [|done]. intros Hv. by destruct (He Hv).
  - rewrite suffixb_iff. split; [|tauto]. intros H. split; [|done]. intros Hv. by destruct (He Hv) as (_&?&_).
  - rewrite infixb_iff. split; [|tauto]. intros H. split; [|done]. intros Hv. by destruct (He Hv) as (_&_&?).
Qed.
Lemma is_elem_dec y : is_elem d y \/ ~ is_elem d y.
Proof. rewrite <- is_element_iff. destruct (is_element d y); auto. Qed.
Lemma link_ok x t : tag_name d x = Some t ->
  (t ∈ [txt "a"; txt "area"; txt "link"] /\ has_attr d x (txt "href") = true) <->
  ((exists v, attribute d x (txt "href") = Some v) /\
    (tag_name d x = Some (txt "a") \/ tag_name d x = Some (txt "area") \/ tag_name d x = Some (txt "link"))).
Proof.
  intros Ht. unfold has_attr. rewrite bool_decide_eq_true, Ht, !elem_of_cons, elem_of_nil. unfold is_Some. split.
  - intros [[->|[->|[->|[]]]] [v Hv]]; eauto.
  - intros [[v Hv] H]. split; [|eauto]. destruct H as [H|[H|H]]; apply (inj Some) in H; auto.
Qed.
Lemma pseudo_ok x p s : is_elem d x -> parent d x = Some p -> exists_in d p ->
  s ∈ [txt "hover"; txt "link"; txt "any-link"; txt "root"; txt "only-child"; txt "first-of-type"; txt "last-of-type"; txt "only-of-type"; txt "focus"] ->
  pseudo_class d x s = true <-> pseudo_holds d x s.
Proof.
  intros Hx Hp Hep Hs. destruct (kids_split x p Hp Hep) as (b&a&Hc). destruct (elem_tag d x Hx) as [t Ht].
  pose proof (lk_once d L p) as ND. rewrite Hc in ND.
  assert (Hsib : forall P : list nat -> list nat -> Prop, (exists b' a', siblings d x b' a' /\ P b' a') <-> P b a).
  { intros P. split.
    - intros (b'&a'&H&HP). apply (siblings_iff x p b a b' a' Hp Hc) in H as [-> ->]. done.
    - intros H. exists b, a. split; [|done]. by exists p. }
  assert (Hlike : forall y, named_like d x y <-> tag_name d y = Some t). { intros y. unfold named_like. by rewrite Ht. }
  assert (Hlike' : forall l, Forall (fun y => ~ named_like d x y) l <-> Forall (fun y => ~ tag_name d y = Some t) l).
  { intros l. split; intros H; (eapply Forall_impl; [exact H|]); intros y; simpl; rewrite Hlike; done. }
  unfold pseudo_class. rewrite Hp, Ht, Hc. apply is_element_iff in Hx as Hx'. rewrite Hx'. cbn [andb].
  unfold pseudo_holds.
  repeat (apply elem_of_cons in Hs as [->|Hs]); [..|by apply elem_of_nil in Hs].
  all: names; cbv iota.
  all: rewrite decide_True by auto.
  all: rewrite ?andb_true_iff, ?bool_decide_eq_true.
  - done.
  - apply link_ok. congruence.
  - apply link_ok. congruence.
  - rewrite negb_true_iff, <- not_true_iff_false, is_element_iff. split; [intros H q Hq; by simplify_eq|auto].
  - rewrite (Hsib (fun b a => Forall (fun y => ~ is_elem d y) (b ++ a))).
    transitivity (Forall (fun y => ~ is_element d y = true) (b ++ a)).
    + rewrite <- (filter_single_split (fun j => is_element d j = true) b a x) by done. split; [by intros ->|].
      intros Hl. assert (Hin : x ∈ filter (fun j => is_element d j = true) (b ++ x :: a)).
      { apply elem_of_list_filter. split; [done|]. apply elem_of_app. right. by left. }
      destruct (filter _ _) as [|y [|z l]]; [done| |done]. apply elem_of_list_singleton in Hin. by subst.
    + split; intros H; (eapply Forall_impl; [exact H|]); intros y; simpl; by rewrite is_element_iff.
  - rewrite (Hsib (fun b a => Forall (fun y => ~ named_like d x y) b)), Hlike'.
    unfold same_tag. by apply (head_filter_split (fun j => tag_name d j = Some t)).
  - rewrite (Hsib (fun b a => Forall (fun y => ~ named_like d x y) a)), Hlike'.
    unfold same_tag. by apply (last_filter_split (fun j => tag_name d j = Some t)).
  - rewrite (Hsib (fun b a => Forall (fun y => ~ named_like d x y) (b ++ a))), Hlike'.
    unfold same_tag. by apply (filter_single_split (fun j => tag_name d j = Some t)).
  - done.
Qed.
Lemma simple_ok x p : is_elem d x -> plain p -> (exists q, parent d x = Some q /\ exists_in d q) ->
  simple lower d None x p = true <-> holds lower d x p.
Proof.
  intros Hx Hp (q&Hq&Heq). apply is_element_iff in Hx as Hx'. unfold holds. destruct p as [|a|s|s|s|s|c|s]; simpl; try rewrite Hx'; simpl.
  - tauto.
  - destruct (attribute d x (a_name a)) as [v|].
    + rewrite attr_ok by done. split; [intros H; split; [done|by exists v]|]. intros [_ (w&[= <-]&H)]. done.
    + split; [done|]. by intros [_ (w&?&_)].
  - tauto.
  - rewrite bool_decide_eq_true. tauto.
  - rewrite (pseudo_ok x q s Hx Hq Heq Hp). tauto.
  - done.
  - done.
  - rewrite bool_decide_eq_true. tauto.
Qed.
Lemma naming_elem x p : naming p -> simple lower d None x p = true -> is_elem d x.
Proof.
  destruct p as [|a|s|s|s|s|c|s]; simpl; try done; intros _.
  - rewrite andb_true_iff, is_element_iff. tauto.
  - apply class_elem.
  - rewrite andb_true_iff, is_element_iff. tauto.
  - rewrite andb_true_iff, is_element_iff. tauto.
Qed.
Lemma plain_comb p : plain p -> is_comb p = false.
Proof. by destruct p. Qed.
Lemma plain_combs c : Forall plain c -> Forall (fun p => is_comb p = false) c.
Proof. intros H. eapply Forall_impl; [exact H|]. apply plain_comb. Qed.
Lemma naming_elems x c : Exists naming c -> forallb (simple lower d None x) c = true -> is_elem d x.
Proof.
  intros H Hf. apply Exists_exists in H as (p&Hp&Hn). apply (naming_elem x p Hn).
  rewrite forallb_forall in Hf. apply Hf. by apply elem_of_list_In.
Qed.
Lemma compound_ok x c : is_elem d x -> Forall plain c -> (exists q, parent d x = Some q /\ exists_in d q) ->
  forallb (simple lower d None x) c = true <-> Forall (holds lower d x) c.
Proof.
  intros Hx Hc Hq. rewrite forallb_forall, Forall_forall. split; intros H p Hp.
  - apply simple_ok; [done| |done|]. { by apply (proj1 (Forall_forall _ _) Hc). } apply H. by apply elem_of_list_In.
  - apply elem_of_list_In in Hp. apply simple_ok; [done| |done|by apply H]. by apply (proj1 (Forall_forall _ _) Hc).
Qed.

(** * The document *)
Lemma in_document_parent x y : in_document d x -> parent d x = Some y -> in_document d y.
Proof.
  intros (r&Hr&Hn&He&Hne) Hy. inversion Hr as [|? z ? Hz Hrz]; subst; [congruence|]. exists r. unfold parent_of in Hz.
  rewrite Hy in Hz. simplify_eq. done.
Qed.
Lemma in_document_up x y : in_document d x -> rtc (parent_of d) x y -> in_document d y.
Proof. intros H Hr. induction Hr as [|x z y Hz Hr IH]; [done|]. apply IH. by eapply in_document_parent. Qed.
Lemma elem_exists x : is_elem d x -> exists_in d x.
Proof. intros [e He]. unfold exists_in. by destruct (get d x). Qed.
(** the root of the document may be missing only above the document *)
Definition grounded (x : nat) : Prop := in_document d x /\ forall y p, rtc (parent_of d) x y -> parent d y = Some p -> exists_in d p.
Lemma in_document_exists x : in_document d x -> exists_in d x.
Proof.
  intros (r&Hr&Hn&_). inversion Hr as [|? z ? Hz Hrz]; subst; [done|]. unfold parent_of, parent in Hz. unfold exists_in.
  by destruct (get d x).
Qed.
Lemma in_document_grounded x : in_document d x -> grounded x.
Proof.
  intros H. split; [done|]. intros y p Hy Hp. eapply in_document_exists, in_document_parent; [|exact Hp]. by eapply in_document_up.
Qed.
Lemma elem_parent x : in_document d x -> is_elem d x -> exists p, parent d x = Some p.
Proof.
  intros (r&Hr&Hex&Hn&He) Hx. inversion Hr as [|? z ? Hz Hrz]; subst; [done|]. by exists z.
Qed.
Lemma grounded_up x y : grounded x -> rtc (parent_of d) x y -> grounded y.
Proof.
  intros [H1 H2] Hr. split; [by eapply in_document_up|]. intros z p Hz. apply H2. by etransitivity.
Qed.
Lemma grounded_parent x : grounded x -> is_elem d x -> exists q, parent d x = Some q /\ exists_in d q.
Proof. intros [H1 H2] Hx. destruct (elem_parent x H1 Hx) as [p Hp]. exists p. split; [done|]. eapply H2; [apply rtc_refl|done]. Qed.
Lemma sibling_parent x y p b m a : parent d x = Some p -> children d p = b ++ y :: m ++ x :: a -> parent d y = Some p.
Proof. intros Hx Hc. apply (lk_parent d L). unfold child. rewrite Hc. apply elem_of_app. right. by left. Qed.
Lemma grounded_sibling x y p : grounded x -> parent d x = Some p -> parent d y = Some p -> grounded y.
Proof.
  intros [H1 H2] Hx Hy. split.
  - destruct (in_document_parent x p H1 Hx) as (r&Hr&Hn). exists r. split; [|done]. by eapply rtc_l.
  - intros z q Hz Hq. inversion Hz as [|? w ? Hw Hwz]; subst.
    + apply (H2 x); [apply rtc_refl|congruence].
    + unfold parent_of in Hw. rewrite Hy in Hw. simplify_eq. apply (H2 z); [|done]. by eapply rtc_l.
Qed.

(** * Selectors *)
Definition tail_of (s : complex) : list part := match s with One _ => [] | Then s' k _ => PCombinator k :: rev (parts_of s') end.
Lemma rev_parts s : rev (parts_of s) = rev (subject s) ++ tail_of s.
Proof.
  destruct s as [c|s k c]; simpl; [by rewrite app_nil_r|]. rewrite rev_app_distr. simpl. by rewrite <- app_assoc.
Qed.
Lemma plain_subject s : plain_sel s -> Forall plain (subject s).
Proof. destruct s; simpl; tauto. Qed.
Lemma go_nil pseudo x : go pseudo [] x = Ok true.
Proof. done. Qed.
Lemma go_orphan pseudo ps x : parent d x = None -> ps <> [] -> go pseudo ps x = Ok false.
Proof. intros Hx Hp. destruct ps as [|p ps]; [done|]. unfold go. rewrite loop_cons. by rewrite Hx. Qed.
(** a compound that names something is met on the spot *)
Lemma go_subject s y : grounded y -> plain_sel s -> Exists naming (subject s) ->
  go None (rev (parts_of s)) y = Ok true <-> is_elem d y /\ forallb (simple lower d None y) (subject s) = true /\ go None (tail_of s) y = Ok true.
Proof.
  intros G Hp Hn. rewrite rev_parts. destruct (parent d y) as [q|] eqn:Ey.
  - rewrite go_compound by (first [by apply plain_combs, plain_subject | congruence]).
    destruct (forallb _ _) eqn:Ef; [|naive_solver]. apply naming_elems in Ef; [|done]. tauto.
  - split.
    + intros H. rewrite go_orphan in H; [done|done|]. destruct (subject s); [by inversion Hn|]. simpl. by destruct (rev l).
    + intros [He _]. destruct (elem_parent y (proj1 G) He). congruence.
Qed.
Lemma go_left s y : grounded y -> plain_sel s -> Exists naming (subject s) ->
  exists l ps, rev (parts_of s) = l :: ps /\ is_comb l = false /\
    (if simple lower d None y l then go None ps y else Ok false) = go None (rev (parts_of s)) y.
Proof.
  intros G Hp Hn. destruct (rev (subject s)) as [|l c] eqn:Er.
  { apply (f_equal (@rev _)) in Er. rewrite rev_involutive in Er. rewrite Er in Hn. by inversion Hn. }
  assert (Hs : subject s = rev c ++ [l]). { by rewrite <- (rev_involutive (subject s)), Er. }
  exists l, (c ++ tail_of s). rewrite rev_parts, Er. split; [done|].
  pose proof (plain_combs _ (plain_subject s Hp)) as Hc. rewrite Hs in Hc. apply Forall_app in Hc as [_ Hc]. inversion Hc; subst.
  split; [done|]. simpl. rewrite go_part by done. destruct (parent d y) eqn:Ey; [done|].
  destruct (simple lower d None y l) eqn:Esim; [|done].
  assert (Hnot : ~ is_elem d y). { intros He. destruct (elem_parent y (proj1 G) He). congruence. }
  apply go_orphan; [done|]. intros Hnil. apply app_eq_nil in Hnil as [-> _]. rewrite Hs in Hn. simpl in Hn.
  inversion Hn as [? ? Hl|? ? Hl]; subst; [|by inversion Hl]. by apply naming_elem in Esim.
Qed.
Lemma left_parts s : plain_sel s -> Exists naming (subject s) ->
  exists l ps, rev (parts_of s) = l :: ps /\ is_comb l = false /\ (forall y, grounded y ->
    (if simple lower d None y l then go None ps y else Ok false) = go None (rev (parts_of s)) y).
Proof.
  intros Hp Hn. destruct (rev (parts_of s)) as [|l ps] eqn:Er.
  { exfalso. rewrite rev_parts in Er. apply app_eq_nil in Er as [Er _]. apply (f_equal (@rev _)) in Er.
    rewrite rev_involutive in Er. rewrite Er in Hn. by inversion Hn. }
  exists l, ps. split; [done|]. split.
  - rewrite rev_parts in Er. destruct (rev (subject s)) as [|l' c] eqn:Es.
    { apply (f_equal (@rev _)) in Es. rewrite rev_involutive in Es. rewrite Es in Hn. by inversion Hn. }
    simplify_eq/=. pose proof (plain_combs _ (plain_subject s Hp)) as Hc. rewrite <- (rev_involutive (subject s)), Es in Hc.
    simpl in Hc. apply Forall_app in Hc as [_ Hc]. by inversion Hc.
  - intros y G. destruct (go_left s y G Hp Hn) as (l'&ps'&E&_&H). rewrite Er in E, H. by simplify_eq.
Qed.
(** a child or descendant combinator only looks at the parent *)
Lemma tail_same s x y p : lone s -> plain_sel s -> parent d x = Some p -> parent d y = Some p ->
  (forall s' k c, s = Then s' k c -> Exists naming (subject s')) -> go None (tail_of s) x = go None (tail_of s) y.
Proof.
  destruct s as [c|s k c]; simpl; [done|]. intros [_ Hk] [Hp _] Hx Hy Hn. specialize (Hn s k c eq_refl).
  destruct (left_parts s Hp Hn) as (l&ps&Er&Hl&_). rewrite Er. destruct Hk as [-> | ->].
  - rewrite !go_child by done. by rewrite Hx, Hy.
  - rewrite !go_desc by done. by rewrite Hx, Hy.
Qed.
Lemma before_app x b a : x ∉ b -> before x (b ++ x :: a) = b.
Proof.
  induction b as [|c b IH]; simpl; intros H.
  - by rewrite bool_decide_true.
  - rewrite bool_decide_false by (intros ->; apply H; by left). f_equal. apply IH. intros ?. apply H. by right.
Qed.
Lemma naming_left s s' k c : s = Then s' k c -> naming_sel s -> Exists naming (subject s').
Proof. intros ->. simpl. tauto. Qed.

Lemma sound s : plain_sel s -> naming_sel s -> no_extra s ->
  forall x, grounded x -> is_elem d x -> go None (rev (parts_of s)) x = Ok true -> means lower d s x.
Proof.
  induction s as [c|s IH k c]; intros Hp Hn Hx x G Ex H.
  - rewrite rev_parts in H. simpl in *. destruct (grounded_parent x G Ex) as (q&Hq&Eq).
    rewrite go_compound in H by (first [by apply plain_combs | congruence]). destruct (forallb _ _) eqn:Ef; [|done].
    split; [done|]. apply compound_ok; eauto.
  - destruct Hp as [Hp Hpc], Hn as [Hn Hns], Hx as [Hx Hk]. specialize (IH Hp Hn Hx). destruct (grounded_parent x G Ex) as (q&Hq&Eq).
    rewrite rev_parts in H. rewrite go_compound in H by (first [by apply plain_combs | congruence]).
    cbn [subject] in H. destruct (forallb _ c) eqn:Ef; [|done]. simpl. split; [done|]. split; [apply compound_ok; eauto|].
    cbn [tail_of] in H. destruct (left_parts s Hp Hns) as (l&ps&Er&Hl&Hleft).
    assert (Conc : forall y, grounded y -> (if simple lower d None y l then go None ps y else Ok false) = Ok true -> means lower d s y).
    { intros y Gy Hy. rewrite Hleft in Hy by done. apply IH; [done| |done]. by apply go_subject in Hy as [? _]. }
    rewrite Er in H. destruct k; try done.
    + rewrite go_desc in H by done. rewrite Hq in H. destruct (chain_total q) as [up Eu]. rewrite Eu in H.
      destruct (list_find _ up) as [[n y]|] eqn:Ely; [|done]. apply list_find_Some in Ely as (Hy&Sy&_).
      apply elem_of_list_lookup_2 in Hy. apply (chain_mem q up Eu) in Hy. exists y. split; [by eapply tc_rtc_r; [by apply tc_once|]|].
      apply Conc; [|by rewrite Sy]. eapply grounded_up; [exact G|]. by eapply rtc_l.
    + rewrite go_child in H by done. rewrite Hq in H. exists q. split; [done|]. apply Conc; [|done].
      eapply grounded_up; [exact G|]. by apply rtc_once.
    + rewrite go_next in H by done. rewrite Hq in H. destruct (kids_split x q Hq Eq) as (b&a&Hc). rewrite Hc in H.
      assert (ND : NoDup (b ++ x :: a)). { rewrite <- Hc. apply (lk_once d L). }
      rewrite position_app in H by done. destruct b as [|y b _] using rev_ind; [done|]. rewrite app_length in H. simpl in H.
      replace (length b + 1) with (S (length b)) in H by lia. rewrite <- app_assoc in H. simpl in H.
      rewrite list_lookup_middle in H by done. exists y. rewrite <- app_assoc in Hc. simpl in Hc. split.
      * exists b, [], a. split; [|by constructor]. exists q. rewrite <- app_assoc. done.
      * apply Conc; [|done]. eapply grounded_sibling; [exact G|exact Hq|]. by apply (sibling_parent x y q b [] a).
    + rewrite go_subsequent in H by done. rewrite Hq in H. destruct (kids_split x q Hq Eq) as (b&a&Hc). rewrite Hc in H.
      assert (ND : NoDup (b ++ x :: a)). { rewrite <- Hc. apply (lk_once d L). }
      rewrite before_app in H. 2:{ apply NoDup_app in ND as (_&H2&_). intros Hin. apply (H2 x Hin). by left. }
      destruct (existsb _ b) eqn:Eb; [|done]. apply existsb_exists in Eb as (y&Hy&Sy). apply elem_of_list_In, elem_of_list_split in Hy as (b1&m&->).
      rewrite <- app_assoc in Hc. simpl in Hc. pose proof (sibling_parent x y q b1 m a Hq Hc) as Hyq. exists y. split.
      * exists b1, m, a. exists q. rewrite <- app_assoc. done.
      * apply Conc; [by eapply grounded_sibling|]. rewrite Sy.
        assert (ps = tail_of s) as ->.
        { rewrite rev_parts in Er. assert (Hl1 : length (subject s) = 1). { destruct s; simpl in *; tauto. }
          destruct (subject s) as [|l' [|]]; try done. simpl in Er. by simplify_eq. }
        rewrite <- (tail_same s x y q); [done|done|done|done|done|]. intros. by eapply naming_left.
Qed.
Lemma lone_one s : length (subject s) = 1 -> exists l, subject s = [l] /\ rev (parts_of s) = l :: tail_of s.
Proof. intros H. rewrite rev_parts. destruct (subject s) as [|l [|]]; try done. by exists l. Qed.
Lemma chain_order : forall k q up i j (z y : nat), chain k d q = Ok up -> up !! i = Some z -> up !! j = Some y -> i <= j -> rtc (parent_of d) z y.
Proof.
  induction k as [|k IH]; intros q up i j z y; [done|]. simpl. change (get d q ≫= n_parent) with (parent d q).
  destruct (parent d q) as [r|] eqn:Er.
  - destruct (chain k d r) as [l| |] eqn:El; simpl; try done. intros [= <-] Hi Hj Hij. destruct i as [|i], j as [|j]; simpl in *; simplify_eq.
    + apply rtc_refl.
    + eapply rtc_l; [exact Er|]. assert (l !! 0 = Some r).
      { clear -El. destruct k; simpl in El; [done|]. change (get d r ≫= n_parent) with (parent d r) in El. destruct (parent d r); [|by simplify_eq].
        destruct (chain k d n); by simplify_eq/=. }
      eapply (IH r l 0 j); [done|done|done|lia].
    + lia.
    + eapply (IH r l i j); [done|done|done|lia].
  - intros [= <-] Hi Hj Hij. destruct i as [|i], j as [|j]; simpl in *; simplify_eq; apply rtc_refl.
Qed.
Lemma means_elem s x : means lower d s x -> is_elem d x.
Proof. destruct s; simpl; tauto. Qed.
Lemma means_subject s x : means lower d s x -> Forall (holds lower d x) (subject s).
Proof. destruct s; simpl; tauto. Qed.
Lemma complete s : plain_sel s -> naming_sel s -> no_extra s -> no_miss s -> (uses NextSibling s -> elements_only d) ->
  forall x, grounded x -> means lower d s x -> go None (rev (parts_of s)) x = Ok true.
Proof.
  induction s as [c|s IH k c]; intros Hp Hn Hx Hm Hu x G M.
  - destruct M as [Ex M]. rewrite rev_parts. simpl in *. destruct (grounded_parent x G Ex) as (q&Hq&Eq).
    rewrite go_compound by (first [by apply plain_combs | congruence]).
    rewrite (proj2 (compound_ok x c Ex Hp (ex_intro _ q (conj Hq Eq))) M). done.
  - destruct Hp as [Hp Hpc], Hn as [Hn Hns], Hx as [Hx Hk], M as (Ex&Mc&y&R&My).
    assert (Hms : no_miss s). { simpl in Hm. destruct k; try done. clear -Hm. induction s; simpl in *; [done|]. destruct Hm as (_&->&?). done. }
    assert (Hus : uses NextSibling s -> elements_only d). { intros. apply Hu. by right. }
    specialize (IH Hp Hn Hx Hms Hus). destruct (grounded_parent x G Ex) as (q&Hq&Eq).
    rewrite rev_parts. rewrite go_compound by (first [by apply plain_combs | congruence]). cbn [subject].
    rewrite (proj2 (compound_ok x c Ex Hpc (ex_intro _ q (conj Hq Eq))) Mc). cbn [tail_of].
    destruct (left_parts s Hp Hns) as (l&ps&Er&Hl&Hleft).
    assert (Conc : forall y, grounded y -> means lower d s y -> (if simple lower d None y l then go None ps y else Ok false) = Ok true).
    { intros z Gz Hz. rewrite Hleft by done. by apply IH. }
    rewrite Er. simpl in Hm, Hk. destruct k; try done.
    + rewrite go_desc by done. rewrite Hq. destruct (chain_total q) as [up Eu]. rewrite Eu.
      assert (Rq : rtc (parent_of d) q y).
      { simpl in R. inversion R as [? ? R1|? z ? R1 R2]; subst; unfold parent_of in R1; rewrite Hq in R1; simplify_eq; [apply rtc_refl|by apply tc_rtc]. }
      assert (Hl1 : length (subject s) = 1). { destruct s; simpl in *; tauto. }
      destruct (lone_one s Hl1) as (l'&Hsub&Er'). rewrite Er in Er'. injection Er' as <- ->.
      assert (Gy : grounded y). { eapply grounded_up; [exact G|]. by apply tc_rtc. }
      assert (Sy : simple lower d None y l = true).
      { specialize (Conc y Gy My). by destruct (simple lower d None y l). }
      apply (chain_mem q up Eu) in Rq. apply elem_of_list_lookup in Rq as [j Hj].
      destruct (list_find (fun z => simple lower d None z l = true) up) as [[i z]|] eqn:Ez.
      2:{ apply list_find_None in Ez. rewrite Forall_forall in Ez. exfalso. apply (Ez y); [|done]. by eapply elem_of_list_lookup_2. }
      apply list_find_Some in Ez as (Hi&Sz&Hfirst).
      assert (Hij : i <= j). { destruct (decide (i <= j)); [done|]. exfalso. apply (Hfirst j y); [done|lia|done]. }
      assert (Rzy : rtc (parent_of d) z y) by (by eapply chain_order).
      assert (Gz : grounded z).
      { eapply grounded_up; [exact G|]. eapply rtc_l; [exact Hq|]. apply (chain_mem q up Eu). by eapply elem_of_list_lookup_2. }
      assert (Hnl : naming l). { rewrite Hsub in Hns. inversion Hns as [? ? H1|? ? H1]; subst; [done|by inversion H1]. }
      assert (Ez : is_elem d z) by (by eapply naming_elem).
      assert (Hz : holds lower d z l).
      { apply simple_ok; [done| |by apply grounded_parent|done]. apply plain_subject in Hp. rewrite Hsub in Hp. by inversion Hp. }
      assert (Mz : means lower d s z).
      { destruct s as [c'|s' k' c']; simpl in Hsub; subst c'; simpl; [by rewrite Forall_singleton|].
        split; [done|]. split; [by rewrite Forall_singleton|]. simpl in Hm. destruct Hm as (_&->&_). destruct My as (_&_&w&Rw&Mw).
        exists w. split; [|done]. simpl in *. by eapply tc_rtc_l. }
      specialize (Conc z Gz Mz). by rewrite Sz in Conc.
    + simpl in R. rewrite Hq in R. simplify_eq. rewrite go_child by done. rewrite Hq. apply Conc; [|done].
      eapply grounded_up; [exact G|]. by apply rtc_once.
    + destruct R as (b&m&a&(p&Hp'&Hc)&Hmm). rewrite go_next by done. rewrite Hp'.
      assert (m = []) as ->.
      { destruct m as [|z m]; [done|]. exfalso. inversion Hmm; subst. apply H1. eapply (Hu (or_introl eq_refl) p z x); [| |done].
        - unfold child. rewrite Hc. apply elem_of_app. left. apply elem_of_app. right. right. by left.
        - unfold child. rewrite Hc. apply elem_of_app. right. by left. }
      rewrite Hc. rewrite position_app by (rewrite <- Hc; apply (lk_once d L)). rewrite app_length. simpl.
      replace (length b + 1) with (S (length b)) by lia. rewrite <- app_assoc. simpl. rewrite list_lookup_middle by done.
      apply Conc; [|done]. eapply grounded_sibling; [exact G|exact Hp'|]. apply (sibling_parent x y p b [] a); [done|].
      by rewrite <- app_assoc in Hc.
    + destruct R as (b&m&a&(p&Hp'&Hc)). rewrite Hq in Hp'. simplify_eq. rewrite go_subsequent by done. rewrite Hq.
      assert (Hc' := Hc). rewrite <- app_assoc in Hc'. simpl in Hc'.
      pose proof (sibling_parent x y p b m a Hq Hc') as Hy. rewrite Hc.
      assert (ND : NoDup ((b ++ y :: m) ++ x :: a)). { rewrite <- Hc. apply (lk_once d L). }
      rewrite before_app. 2:{ apply NoDup_app in ND as (_&H2&_). intros Hin. apply (H2 x Hin). by left. }
      assert (Hl1 : length (subject s) = 1). { destruct s; simpl in *; tauto. }
      destruct (lone_one s Hl1) as (l'&Hsub&Er'). rewrite Er in Er'. injection Er' as <- ->.
      specialize (Conc y (grounded_sibling x y p G Hq Hy) My). destruct (simple lower d None y l) eqn:Sy; [|done].
      replace (existsb (fun z => simple lower d None z l) (b ++ y :: m)) with true.
      2:{ symmetry. apply existsb_exists. exists y. split; [|done]. apply elem_of_list_In, elem_of_app. right. by left. }
      rewrite (tail_same s x y p); [done|done|done|done|done|]. intros. by eapply naming_left.
Qed.
(** ** A single simple selector *)
Lemma match_one x q p : is_comb p = false -> parent d x = Some q -> match_parts lower d x [p] None = Ok (simple lower d None x p).
Proof. intros Hp Hq. rewrite match_go. change (rev [p]) with [p]. rewrite go_part by done. rewrite Hq. rewrite go_nil. by destruct (simple _ _ _ _ _). Qed.
Lemma match_class x s : in_document d x -> is_elem d x -> match_parts lower d x [PPseudoClass s] None = Ok (pseudo_class d x s).
Proof. intros Hd Hx. destruct (elem_parent x Hd Hx) as [q Hq]. by rewrite (match_one x q). Qed.
Lemma place_ok x s : in_document d x -> is_elem d x -> elements_only d -> s = txt "first-child" \/ s = txt "last-child" ->
  match_parts lower d x [PPseudoClass s] None = Ok true <-> pseudo_holds d x s.
Proof.
  intros Hd Hx Ho Hs. rewrite match_class by done. destruct (grounded_parent x (in_document_grounded x Hd) Hx) as (q&Hq&Eq).
  destruct (kids_split x q Hq Eq) as (b&a&Hc). pose proof (lk_once d L q) as ND. rewrite Hc in ND.
  assert (Hsib : forall P : list nat -> list nat -> Prop, (exists b' a', siblings d x b' a' /\ P b' a') <-> P b a).
  { intros P. split.
    - intros (b'&a'&H&HP). apply (siblings_iff x q b a b' a' Hq Hc) in H as [-> ->]. done.
    - intros H. exists b, a. split; [|done]. by exists q. }
  assert (Hel : forall y, y ∈ b ++ a -> is_elem d y).
  { intros y Hy. apply (Ho q y x); [| |done]; unfold child; rewrite Hc; [|apply elem_of_app; right; by left].
    apply elem_of_app in Hy as [Hy|Hy]; apply elem_of_app; [by left|right; by right]. }
  transitivity (pseudo_class d x s = true); [split; [by intros [= ?]|by intros ->]|].
  unfold pseudo_class. rewrite Hq, Hc. unfold pseudo_holds. destruct Hs as [-> | ->]; names; cbv iota; rewrite bool_decide_eq_true.
  - rewrite decide_True by done. rewrite (Hsib (fun b a => Forall (fun y => ~ is_elem d y) b)).
    destruct b as [|y b]; cbn; [done|]. split.
    + intros [= ->]. apply NoDup_cons in ND as [ND _]. destruct ND. apply elem_of_app. right. by left.
    + intros H. inversion H; subst. destruct H2. apply Hel. by left.
  - rewrite decide_True by done. rewrite (Hsib (fun b a => Forall (fun y => ~ is_elem d y) a)).
    destruct a as [|y a _] using rev_ind; [by rewrite last_snoc|]. rewrite app_comm_cons, app_assoc, last_snoc. split.
    + intros [= ->]. apply NoDup_app in ND as (_&_&ND). apply NoDup_cons in ND as [ND _]. destruct ND. apply elem_of_app. right. by left.
    + intros H. apply Forall_app in H as [_ H]. inversion H; subst. destruct H2. apply Hel. apply elem_of_app. right. apply elem_of_app. right. by left.
Qed.
Lemma carries_iff x k : has_attr d x (txt k) = true <-> exists v, attribute d x (txt k) = Some v.
Proof. unfold has_attr. by rewrite bool_decide_eq_true. Qed.
Lemma states_ok x : in_document d x -> is_elem d x ->
  let matched s := match_parts lower d x [PPseudoClass (txt s)] None = Ok true in
  let carries k := exists v, attribute d x (txt k) = Some v in
  (matched "checked" <-> carries "checked") /\ (matched "disabled" <-> carries "disabled") /\
  (matched "enabled" <-> ~ carries "disabled") /\ (matched "read-only" <-> carries "readonly") /\
  (matched "read-write" <-> ~ carries "readonly" /\ ~ carries "disabled") /\
  (matched "focus-visible" <-> focused d = Some x) /\ ~ matched "visited".
Proof.
  intros Hd Hx matched carries. apply is_element_iff in Hx as Hx'.
  assert (Hm : forall s, matched s <-> pseudo_class d x (txt s) = true).
  { intros s. unfold matched. rewrite match_class by done. split; [by intros [= ?]|by intros ->]. }
  rewrite !Hm. unfold pseudo_class. rewrite Hx'. names; cbv iota.
  rewrite ?andb_true_r, ?andb_true_iff, ?negb_true_iff, <- ?not_true_iff_false, !carries_iff, ?bool_decide_eq_true. unfold carries.
  repeat (split; [reflexivity|]). done.
Qed.
End doc.

(** * Specificity *)
Lemma how_many_cons f p l : how_many f (p :: l) = ((if f p then 1 else 0) + how_many f l)%N.
Proof. unfold how_many. rewrite filter_cons. destruct (f p); [rewrite decide_True by done|rewrite decide_False by done]; simpl; lia. Qed.
Lemma spec_fold l : forall a b c, fold_left (fun '(a, b, c) p =>
    match p with PId _ => (a + 1, b, c) | PClass _ => (a, b + 1, c) | PType _ => (a, b, c + 1) | _ => (a, b, c) end)%N l (a, b, c)
  = (a + how_many is_id l, b + how_many (fun p => match p with PClass _ => true | _ => false end) l,
     c + how_many (fun p => match p with PType _ => true | _ => false end) l)%N.
Proof.
  induction l as [|p l IH]; intros a b c.
  - unfold how_many. simpl. f_equal; [f_equal|]; lia.
  - rewrite !how_many_cons. destruct p; simpl fold_left; rewrite IH; simpl is_id; cbv beta iota; rewrite ?N.add_0_l, ?N.add_assoc; reflexivity.
Qed.
Lemma spec_counts l : Forall (fun p => match p with PAttribute _ | PPseudoClass _ | PPseudoElement _ => False | _ => True end) l ->
  spec_of l = specificity_of l.
Proof.
  intros H. unfold spec_of, specificity_of. rewrite spec_fold, !N.add_0_l. f_equal; [f_equal|];
    (induction H as [|p l Hp _ IH]; [done|]); rewrite !how_many_cons, ?IH; by destruct p.
Qed.
Lemma spec_cmp_lt x y : spec_cmp x y = Lt <-> less_specific x y.
Proof.
  destruct x as [[a b] c], y as [[a' b'] c']. unfold spec_cmp, less_specific. simpl.
  destruct (N.compare_spec a a'); [destruct (N.compare_spec b b')|..]; [rewrite N.compare_lt_iff|..]; naive_solver lia.
Qed.
Lemma spec_cmp_eq x y : spec_cmp x y = Eq <-> x = y.
Proof.
  destruct x as [[a b] c], y as [[a' b'] c']. unfold spec_cmp.
  destruct (N.compare_spec a a'); [destruct (N.compare_spec b b')|..]; [rewrite N.compare_eq_iff|..]; naive_solver lia.
Qed.
Lemma spec_cmp_flip x y : spec_cmp y x = CompOpp (spec_cmp x y).
Proof.
  destruct x as [[a b] c], y as [[a' b'] c']. unfold spec_cmp. rewrite (N.compare_antisym a a'), (N.compare_antisym b b'), (N.compare_antisym c c').
  by destruct (N.compare a a'), (N.compare b b'), (N.compare c c').
Qed.
Lemma less_trans x y z : less_specific x y -> less_specific y z -> less_specific x z.
Proof. unfold less_specific. lia. Qed.
Lemma less_irrefl x : ~ less_specific x x.
Proof. unfold less_specific. lia. Qed.

(** * Lists of selectors, and pseudo-elements *)
Lemma match_list lower d i s : linked d -> acyclic d ->
  exists b sp, match_selector lower d i s None = Ok (b, sp) /\
  (b = true <-> exists parts, parts ∈ s /\ match_parts lower d i parts None = Ok true) /\
  (b = true -> exists l parts r, s = l ++ parts :: r /\ match_parts lower d i parts None = Ok true /\ sp = spec_of parts /\
     Forall (fun p => match_parts lower d i p None = Ok false) l).
Proof.
  intros L A. induction s as [|parts r IH].
  - exists false, (0, 0, 0)%N. split; [done|]. split; [|done]. split; [done|]. intros (p&Hp&_). by apply elem_of_nil in Hp.
  - simpl. destruct (matching_ends lower d L A i parts None) as [b E]. rewrite E. cbn [rbind]. destruct b.
    + exists true, (spec_of parts). split; [done|]. split; [split; [|done]; intros _; exists parts; split; [left|done]|].
      intros _. exists [], parts, r. split_and!; try done.
    + destruct IH as (b&sp&E'&H1&H2). exists b, sp. split; [done|]. split.
      * rewrite H1. split; intros (p&Hp&Hm).
        -- exists p. split; [by right|done].
        -- apply elem_of_cons in Hp as [->|Hp]; [congruence|]. eauto.
      * intros Hb. destruct (H2 Hb) as (l&p&r'&->&Hm&->&Hl). exists (parts :: l), p, r'. split_and!; try done. by constructor.
Qed.
Definition not_pseudo_element (p : part) : Prop := match p with PPseudoElement _ => False | _ => True end.
Lemma climb_ext d try try' : (forall p n ps, Forall not_pseudo_element ps -> try p n ps = try' p n ps /\
    (forall b n' ps', try p n ps = Ok (b, n', ps') -> Forall not_pseudo_element ps')) ->
  forall k p ps, Forall not_pseudo_element ps -> climb k d try p ps = climb k d try' p ps /\
    (forall b n' ps', climb k d try p ps = Ok (b, n', ps') -> Forall not_pseudo_element ps').
Proof.
  intros T. induction k as [|k IH]; intros p ps Hps; [done|]. simpl. destruct (T p (Some p) ps Hps) as [<- T2].
  destruct (try p (Some p) ps) as [[[b n] ps1]| |]; simpl; [|done|done]. specialize (T2 b n ps1 eq_refl).
  destruct b; [split; [done|]; by intros ??? [= <- <- <-]|]. destruct (parent d p); [by apply IH|]. split; [done|]. by intros ??? [= <- <- <-].
Qed.
Lemma earlier_ext (try try' : attempt) : (forall p n ps, Forall not_pseudo_element ps -> try p n ps = try' p n ps /\
    (forall b n' ps', try p n ps = Ok (b, n', ps') -> Forall not_pseudo_element ps')) ->
  forall l cur next ps, Forall not_pseudo_element ps -> earlier try l cur next ps = earlier try' l cur next ps /\
    (forall b n' ps', earlier try l cur next ps = Ok (b, n', ps') -> Forall not_pseudo_element ps').
Proof.
  intros T. induction l as [|c l IH]; intros cur next ps Hps; simpl; [split; [done|]; by intros ??? [= <- <- <-]|].
  case_bool_decide; [split; [done|]; by intros ??? [= <- <- <-]|]. destruct (T c next ps Hps) as [<- T2].
  destruct (try c next ps) as [[[b n] ps1]| |]; simpl; [|done|done]. specialize (T2 b n ps1 eq_refl).
  destruct b; [split; [done|]; by intros ??? [= <- <- <-]|]. by apply IH.
Qed.
Lemma part_ext lower d t : forall f p, not_pseudo_element p -> forall cur next ps, Forall not_pseudo_element ps ->
  match_part lower f d (Some t) p cur next ps = match_part lower f d None p cur next ps /\
  (forall b n' ps', match_part lower f d (Some t) p cur next ps = Ok (b, n', ps') -> Forall not_pseudo_element ps').
Proof.
  induction f as [|f IH]; intros p Hp cur next ps Hps.
  - destruct p; simpl; (split; [done|]); intros ??? H; by simplify_eq.
  - destruct p as [| | | | | |c|]; try (simpl; (split; [done|]); intros ??? H; by simplify_eq).
    cbn [match_part]. destruct c.
    + destruct (parent d cur); [|split; [done|]; by intros ??? [= <- <- <-]]. destruct ps as [|l ps]; [split; [done|]; by intros ??? [= <- <- <-]|].
      inversion Hps; subst. apply climb_ext; [|done]. intros. by apply IH.
    + destruct (parent d cur); [|split; [done|]; by intros ??? [= <- <- <-]]. destruct ps as [|l ps]; [split; [done|]; by intros ??? [= <- <- <-]|].
      inversion Hps; subst. by apply IH.
    + destruct (parent d cur); [|split; [done|]; by intros ??? [= <- <- <-]].
      destruct (position _ _) as [[|n']|]; [split; [done|]; by intros ??? [= <- <- <-]| |split; [done|]; by intros ??? [= <- <- <-]].
      destruct (_ !! n'); [|split; [done|]; by intros ??? [= <- <- <-]].
      destruct ps as [|l ps]; [split; [done|]; by intros ??? [= <- <- <-]|]. inversion Hps; subst. by apply IH.
    + destruct (parent d cur); [|split; [done|]; by intros ??? [= <- <- <-]]. destruct ps as [|l ps]; [split; [done|]; by intros ??? [= <- <- <-]|].
      inversion Hps; subst. apply earlier_ext; [|done]. intros. by apply IH.
    + split; [done|]. by intros ??? [= <- <- <-].
    + split; [done|]. destruct ps as [|l ps]; [by intros ??? [= <- <- <-]|]. inversion Hps; subst. destruct l; by intros ??? [= <- <- <-].
Qed.
Lemma loop_ext lower d t : forall f next ps, Forall not_pseudo_element ps ->
  match_loop lower f d (Some t) next ps = match_loop lower f d None next ps.
Proof.
  induction f as [|f IH]; intros next ps Hps; [done|]. destruct ps as [|p ps]; [done|]. destruct next as [x|]; [|done].
  rewrite !loop_cons. destruct (parent d x); [|done]. inversion Hps; subst.
  destruct (part_ext lower d t (S (length ps)) p H1 x (Some x) ps H2) as [E F]. rewrite <- E.
  destruct (match_part lower _ d (Some t) p x (Some x) ps) as [[[b nx] ps']| |]; cbn [rbind]; [|done|done].
  destruct b; [|done]. apply IH. by eapply F.
Qed.
Lemma match_pseudo lower d x parts n t : parent d x <> None -> Forall not_pseudo_element parts ->
  match_parts lower d x (parts ++ [PPseudoElement n]) (Some t) =
  (if same_ignoring_case n t then match_parts lower d x parts None else Ok false).
Proof.
  intros Hx Hp. unfold match_parts. rewrite app_length, rev_app_distr. simpl length. simpl app.
  replace (length parts + 1) with (S (length parts)) by lia. rewrite loop_cons. destruct (parent d x); [|done].
  rewrite part_simple by done. cbn [rbind simple]. destruct (same_ignoring_case n t); [|done]. apply loop_ext. by apply Forall_rev.
Qed.
(** whatever the selector, its last part has to hold *)
Lemma match_last lower d x parts p : is_comb p = false ->
  match_parts lower d x (parts ++ [p]) None = Ok true -> simple lower d None x p = true.
Proof.
  intros Hp. unfold match_parts. rewrite app_length, rev_app_distr. simpl length. simpl app.
  replace (length parts + 1) with (S (length parts)) by lia. rewrite loop_cons. destruct (parent d x); [|done].
  rewrite part_simple by done. cbn [rbind]. by destruct (simple lower d None x p).
Qed.

(** * Checking a history by computation *)
Definition exists_inb (d : doc) (i : nat) : bool := match get d i with Some _ => true | None => false end.
Definition carefulb (d : doc) (o : op) : bool :=
  match o with
  | OAttach i p _ => exists_inb d i && exists_inb d p && match parent d i with Some q => negb (exists_inb d q) | None => true end
  | ORelocate i p | ORelocateUnlessThere i p => exists_inb d i && exists_inb d p
  | _ => true
  end.
Fixpoint careful_runb (d : doc) (ops : list op) : option doc :=
  match ops with
  | [] => Some d
  | o :: r => if carefulb d o then match apply o d with Ok d1 => careful_runb d1 r | _ => None end else None
  end.
Lemma exists_inb_ok d i : exists_inb d i = true -> exists_in d i.
Proof. unfold exists_inb, exists_in. by destruct (get d i). Qed.
Lemma carefulb_ok d o : carefulb d o = true -> careful d o.
Proof.
  destruct o; simpl; try done; rewrite ?andb_true_iff.
  - intros [[H1 H2] H3]. split; [by apply exists_inb_ok|]. split; [by apply exists_inb_ok|]. intros q Hq. rewrite Hq in H3.
    unfold exists_inb in H3. unfold exists_in. destruct (get d q); [done|]. tauto.
  - intros [H1 H2]. split; by apply exists_inb_ok.
  - intros [H1 H2]. split; by apply exists_inb_ok.
Qed.
Lemma careful_runb_ok ops : forall d d', careful_runb d ops = Some d' -> history careful d ops d'.
Proof.
  induction ops as [|o r IH]; intros d d'; cbn [careful_runb]; [intros [= <-]; constructor|].
  destruct (carefulb d o) eqn:C; [|done]. destruct (apply o d) as [d1| |] eqn:E; [|done|done]. intros H.
  econstructor; [by apply carefulb_ok|exact E|by apply IH].
Qed.
Lemma targets_base t base n : Forall not_pseudo_element base -> targets t (base ++ [PPseudoElement n]) = same_ignoring_case n t.
Proof.
  intros H. unfold targets. rewrite existsb_app. replace (existsb _ base) with false; [cbn; by rewrite orb_false_r|].
  induction H as [|p l Hp _ IH]; [done|]. cbn [existsb]. rewrite <- IH. by destruct p.
Qed.
Lemma pseudo_lists lower d x sel t b sp : parent d x <> None ->
  Forall (fun parts => exists base n, parts = base ++ [PPseudoElement n] /\ Forall not_pseudo_element base) sel ->
  match_selector lower d x sel (Some t) = Ok (b, sp) ->
  b = true <-> exists base n, base ++ [PPseudoElement n] ∈ sel /\ same_ignoring_case n t = true /\
    match_parts lower d x base None = Ok true.
Proof.
  intros Hx Hs. induction Hs as [|parts sel (base & n & -> & Hb) Hs IH]; intros E.
  - cbn [match_selector] in E. injection E as <- <-. split; [done|]. intros (base & n & H & _). by apply elem_of_nil in H.
  - cbn [match_selector] in E. rewrite targets_base in E by done.
    assert ((exists base' n', base' ++ [PPseudoElement n'] ∈ (base ++ [PPseudoElement n]) :: sel /\ same_ignoring_case n' t = true /\ match_parts lower d x base' None = Ok true) <->
      (same_ignoring_case n t = true /\ match_parts lower d x base None = Ok true) \/
      (exists base' n', base' ++ [PPseudoElement n'] ∈ sel /\ same_ignoring_case n' t = true /\ match_parts lower d x base' None = Ok true)) as Hiff.
    { split.
      - intros (base' & n' & H & H1 & H2). apply elem_of_cons in H as [H|H]; [|right; eauto]. apply app_inj_tail in H as [-> H]. injection H as ->. by left.
      - intros [[H1 H2]|(base' & n' & H & H')]; [exists base, n|exists base', n']; (split; [|done]); apply elem_of_cons; [by left|by right]. }
    rewrite Hiff. destruct (same_ignoring_case n t) eqn:En; cbn [negb] in E.
    + rewrite (match_pseudo lower d x base n t Hx Hb), En in E. destruct (match_parts lower d x base None) as [[|]| |] eqn:Em; cbn [rbind] in E; try done.
      * injection E as <- <-. split; [by left|done].
      * rewrite (IH E). split; [by right|]. by intros [[_ ?]|?].
    + rewrite (IH E). split; [by right|]. by intros [[? _]|?].
Qed.
