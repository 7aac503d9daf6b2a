(** What the HTML tokenizer makes of well-formed documents. *)
From stdpp Require Import gmap.
From Coq Require Import ZifyBool ZifyN.
From Verif Require Import Text SettingsModel CookieModel TokenModel TokenSpec TokenProofs TokenStep TokenStep2 TokenRun TokenRefs.
Local Open Scope N_scope.

(** ** Reading *)
Definition read_errors (x : N) : list perror :=
  if is_surrogate x then [SurrogateInInputStream] else if is_control_char x then [ControlCharacterInInputStream]
  else if is_noncharacter x then [NoncharacterInInputStream] else [].
Lemma shown_false x : shown false x = if is_surrogate x then 65533 else x.
Proof. done. Qed.
Lemma read_mk p x r s c an av at_ cu tm q ls lc e :
  read_char (mk_tk p (x :: r) s c an av at_ cu tm q ls lc e) =
  (Some (shown false x), mk_tk (x :: p) r s c an av at_ cu tm q ls (Some x) (e ++ read_errors x)).
Proof.
  unfold read_char. cbn. rewrite shown_false. unfold read_errors.
  destruct (is_surrogate x), (is_control_char x), (is_noncharacter x); cbn; try reflexivity; by rewrite app_nil_r.
Qed.
Lemma read_mk_end p s c an av at_ cu tm q ls lc e :
  read_char (mk_tk p [] s c an av at_ cu tm q ls lc e) = (None, mk_tk p [] s c an av at_ cu tm q ls None e).
Proof. done. Qed.
Lemma shown_eqb x y : y < 55296 -> (shown false x =? y) = (x =? y).
Proof. intros H. rewrite shown_false. destruct (is_surrogate x) eqn:E; [|done]. unfold is_surrogate, between in E. lia. Qed.
Lemma shown_ws x : is_ws (shown false x) = is_ws x.
Proof. rewrite shown_false. destruct (is_surrogate x) eqn:E; [|done]. unfold is_surrogate, between, is_ws in *. lia. Qed.
Lemma shown_alpha x : is_alpha (shown false x) = is_alpha x.
Proof. rewrite shown_false. destruct (is_surrogate x) eqn:E; [|done]. unfold is_surrogate, between, is_alpha, between in *. lia. Qed.
Lemma shown_upper x : is_upper (shown false x) = is_upper x.
Proof. rewrite shown_false. destruct (is_surrogate x) eqn:E; [|done]. unfold is_surrogate, between, is_upper, between in *. lia. Qed.
Lemma shown_true x : x <> 0 -> shown true x = shown false x.
Proof. intros H. unfold shown. destruct (_ && _); [done|]. cbn. by rewrite (proj2 (N.eqb_neq x 0) H). Qed.
Lemma shown_zero : shown true 0 = 65533. Proof. done. Qed.
Lemma folded_upper x : is_upper x = true -> lower_char (shown false x) = folded x.
Proof.
  intros H. rewrite shown_false. replace (is_surrogate x) with false by (unfold is_surrogate, is_upper, between in *; lia).
  unfold folded, lower_char. unfold is_upper, between in H. by rewrite H.
Qed.
Lemma folded_other x : is_upper x = false -> folded x = shown true x.
Proof. intros H. unfold folded. unfold is_upper, between in H. by rewrite H. Qed.
Lemma folded_letter x : letter x -> folded x = lower_char x.
Proof. unfold letter, folded, lower_char. intros H. destruct (_ && _); [done|]. unfold shown. cbn. destruct (_ && _) eqn:?; [lia|]. by destruct (x =? 0) eqn:?; [lia|]. Qed.

Lemma shown_some x y : y < 55296 -> bool_decide (Some (shown false x) = Some y) = (x =? y).
Proof.
  intros H. rewrite <- (shown_eqb x y H). case_bool_decide as E; [injection E as E; by rewrite E, N.eqb_refl|].
  symmetry. apply N.eqb_neq. congruence.
Qed.
Lemma ref_suffix tbl a u o s : ref tbl a u o s -> exists p, u = p ++ s.
Proof.
  destruct 1 as [s|ds s|ds s|x ds s|x ds s|s|x s|k r s|k r x s|w s].
  - by exists [].
  - by exists (35 :: ds).
  - exists (35 :: ds ++ [59]). cbn. by rewrite <- app_assoc.
  - by exists (35 :: x :: ds).
  - exists (35 :: x :: ds ++ [59]). cbn. by rewrite <- app_assoc.
  - by exists [35].
  - by exists [35; x].
  - by exists k.
  - by exists k.
  - by exists w.
Qed.

(** ** Attributes *)
(** keep a value unless the name is empty or taken *)
Definition kept (n v : list N) (m : attr_map) : attr_map :=
  if bool_decide (n <> []) && negb (bool_decide (is_Some (m !! n))) then <[n := v]> m else m.
Definition kept_all (nvs : list (list N * list N)) (m : attr_map) : attr_map := fold_left (fun m nv => kept nv.1 nv.2 m) nvs m.

Section docs.
Context (tbl : list (list N * list N)) (OK : table_ok tbl) (fg : bool).

Inductive steps : tk -> tk -> Prop :=
| steps_refl t : steps t t
| steps_step t t1 t2 : queue t = [] -> step tbl fg t = Ok (Some t1) -> steps t1 t2 -> steps t t2.
Lemma steps_trans a b c : steps a b -> steps b c -> steps a c.
Proof. induction 1; [done|]. intros H'. by eapply steps_step; eauto. Qed.
Definition config : Type := list N * tstate * list N * list N * list N * attr_map * option token * list token * list N.
Definition to1 (X Y : config) : Prop := forall t, core t = X -> exists t', step tbl fg t = Ok (Some t') /\ core t' = Y.
Definition goes (X Y : config) : Prop := forall t, core t = X -> exists t', steps t t' /\ core t' = Y.
Lemma goes_refl X : goes X X.
Proof. intros t C. exists t. split; [constructor|done]. Qed.
Lemma goes_trans X Y Z : goes X Y -> goes Y Z -> goes X Z.
Proof.
  intros H1 H2 t C. destruct (H1 t C) as (t1 & S1 & C1). destruct (H2 t1 C1) as (t2 & S2 & C2).
  exists t2. split; [by eapply steps_trans|done].
Qed.
Lemma goes_one f s c an av at_ cu ls Y : to1 (f, s, c, an, av, at_, cu, [], ls) Y -> goes (f, s, c, an, av, at_, cu, [], ls) Y.
Proof.
  intros H t C. destruct (H t C) as (t1 & E & C1). exists t1. split; [|done].
  eapply steps_step; [by injection C|done|constructor].
Qed.

(** case distinctions decided by what is known of the characters *)
Ltac blia := unfold name_end, white, alnum, letter, digit, is_ws, is_alnum, is_alpha, is_upper, is_digit, between in *; lia.
Ltac ifs := repeat match goal with
  | |- context [if ?b then _ else _] =>
      first [replace b with true by blia | replace b with false by blia]; cbv beta iota
  end.
Ltac open1 :=
  intros t C; destruct t as [p f_ s_ c_ an_ av_ at__ cu_ tm q_ ls_ lc e]; cbn in C; unfold core in C; cbn in C;
  injection C as -> -> -> -> -> -> -> -> ->; unfold step; cbn [state]; rewrite ?read_mk; cbv beta iota zeta;
  rewrite ?shown_ws, ?shown_alpha, ?shown_upper, ?shown_eqb, ?shown_some by lia.
Ltac close1 := eexists; split; [reflexivity|]; try (unfold core; cbn - [shown lower_char kept folded app]; reflexivity).
Ltac one := open1; ifs; close1.


Ltac via H := eapply goes_trans; [apply goes_one; apply H; try done|].
Ltac via1 := eapply goes_trans; [apply goes_one; one|].

(** *** Text *)
Lemma data_char x r c an av at_ cu ls : x <> 38 -> x <> 60 ->
  to1 (x :: r, Data, c, an, av, at_, cu, [], ls) (r, Data, c ++ [shown false x], an, av, at_, cu, [], ls).
Proof. intros H1 H2. open1. ifs. destruct (x =? 0); close1. Qed.
Lemma data_ref u o s rest c an av at_ cu ls : ref tbl false u o s -> stopper rest ->
  to1 (u ++ rest, CharacterReferenceInData, c, an, av, at_, cu, [], ls) (s ++ rest, Data, c ++ o, an, av, at_, cu, [], ls).
Proof.
  intros R S t C. destruct (ref_core tbl OK false u o s rest t R S) as (t1 & E & C1); [by injection C|].
  exists (goto Data t1). unfold step. replace (state t) with CharacterReferenceInData by (by injection C as _ <-).
  rewrite E. split; [done|]. unfold core, upd in *. cbn. congruence.
Qed.
Lemma data_text s o rest an av at_ cu ls : reads tbl false false s o -> 60 ∉ s -> starts (fun x => x = 60) rest -> forall c,
  goes (s ++ rest, Data, c, an, av, at_, cu, [], ls) (rest, Data, c ++ o, an, av, at_, cu, [], ls).
Proof.
  intros R. induction R as [|x s o N R IH|u o1 s o RF R IH]; intros L S c.
  - rewrite app_nil_r. apply goes_refl.
  - apply not_elem_of_cons in L as [L1 L2]. via data_char. eapply goes_trans; [by apply IH|]. rewrite <- app_assoc. apply goes_refl.
  - apply not_elem_of_cons in L as [L1 L2]. via1. via data_ref.
    { eapply starts_impl; [exact S|]. intros x ->. unfold alnum, letter, digit. lia. }
    eapply goes_trans; [apply IH; [|done]|]. { intros H. destruct (ref_suffix _ _ _ _ _ RF) as [p ->]. apply L2, elem_of_app. by right. }
    rewrite <- app_assoc. apply goes_refl.
Qed.

(** *** Tag names *)
Inductive tag_of : option token -> list N -> option token -> Prop :=
| tag_start n m : tag_of (Some (StartTag n false ∅)) m (Some (StartTag (n ++ m) false ∅))
| tag_end n m : tag_of (Some (EndTag n)) m (Some (EndTag (n ++ m))).
Lemma tag_char x r c an av at_ cu cu' ls : ~ name_end x -> tag_of cu [folded x] cu' ->
  to1 (x :: r, TagName, c, an, av, at_, cu, [], ls) (r, TagName, c, an, av, at_, cu', [], ls).
Proof.
  intros H T. open1. destruct (is_upper x) eqn:U; ifs.
  - rewrite folded_upper by done. inversion T; subst; close1.
  - rewrite folded_other in T by done. destruct (x =? 0) eqn:Z.
    + apply N.eqb_eq in Z as ->. inversion T; subst; close1.
    + apply N.eqb_neq in Z. rewrite shown_true in T by done. inversion T; subst; close1.
Qed.
Lemma tag_name n r c an av at_ ls : Forall (fun x => ~ name_end x) n -> forall cu cu', tag_of cu (map folded n) cu' ->
  goes (n ++ r, TagName, c, an, av, at_, cu, [], ls) (r, TagName, c, an, av, at_, cu', [], ls).
Proof.
  induction 1 as [|x n H _ IH]; intros cu cu' T.
  - cbn in *. replace cu' with cu; [apply goes_refl|]. inversion T; subst; by rewrite app_nil_r.
  - inversion T as [m l|m l]; subst.
    + via tag_char; [constructor|]. apply IH. cbn. replace (m ++ folded x :: map folded n) with ((m ++ [folded x]) ++ map folded n) by by rewrite <- app_assoc.
      constructor.
    + via tag_char; [constructor|]. apply IH. cbn. replace (m ++ folded x :: map folded n) with ((m ++ [folded x]) ++ map folded n) by by rewrite <- app_assoc.
      constructor.
Qed.

(** *** Attributes *)
Lemma store_mk p f s c an av at_ cu tm q ls lc e :
  store_attr (mk_tk p f s c an av at_ cu tm q ls lc e) = mk_tk p f s c [] [] (kept an av at_) cu tm q ls lc e.
Proof. unfold store_attr, kept, attr_already_exists. cbn. by destruct (_ && _). Qed.
Ltac flat := unfold err; cbn [past future state consumed attr_name attr_value attrs cur tmp queue last_start last_char errors].
Ltac ones := open1; ifs; flat; rewrite ?store_mk; close1.
Ltac via2 := eapply goes_trans; [apply goes_one; ones|].

Lemma name_char x r c an av at_ cu ls : ~ name_end x -> x <> 61 ->
  to1 (x :: r, AttributeName, c, an, av, at_, cu, [], ls) (r, AttributeName, c, an ++ [folded x], av, at_, cu, [], ls).
Proof.
  intros H N. open1. destruct (is_upper x) eqn:U; ifs.
  - rewrite folded_upper by done. close1.
  - rewrite folded_other by done. destruct (x =? 0) eqn:Z.
    + apply N.eqb_eq in Z as ->. close1.
    + apply N.eqb_neq in Z. rewrite shown_true by done. destruct (_ || _); close1.
Qed.
Lemma name_chars n r c av at_ cu ls : Forall (fun y => ~ name_end y /\ y <> 61) n -> forall an,
  goes (n ++ r, AttributeName, c, an, av, at_, cu, [], ls) (r, AttributeName, c, an ++ map folded n, av, at_, cu, [], ls).
Proof.
  induction 1 as [|x n [H N] _ IH]; intros an.
  - rewrite app_nil_r. apply goes_refl.
  - via name_char. eapply goes_trans; [apply IH|]. rewrite <- app_assoc. apply goes_refl.
Qed.
Lemma name_first x r c an av at_ cu ls : ~ name_end x ->
  goes (x :: r, BeforeAttributeName, c, an, av, at_, cu, [], ls) (r, AttributeName, c, [folded x], [], kept an av at_, cu, [], ls).
Proof.
  intros H. destruct (decide (x = 61)) as [->|N].
  - apply goes_one. ones.
  - via2. by apply goes_one, name_char.
Qed.
Lemma name_after x r c an av at_ cu ls : ~ name_end x -> x <> 61 ->
  goes (x :: r, AfterAttributeName, c, an, av, at_, cu, [], ls) (r, AttributeName, c, [folded x], [], kept an av at_, cu, [], ls).
Proof. intros H N. via2. by apply goes_one, name_char. Qed.

(** What stands before a name *)
Definition separates (x : N) : Prop := white x \/ x = 47.
Lemma solidus x r c an av at_ cu ls : x <> 62 ->
  to1 (x :: r, SelfClosingStart, c, an, av, at_, cu, [], ls) (x :: r, BeforeAttributeName, c, an, av, at_, cu, [], ls).
Proof. intros H. one. Qed.
Lemma head_sep sep x r : Forall separates sep -> ~ name_end x -> exists y l, sep ++ x :: r = y :: l /\ y <> 62.
Proof.
  intros S H. destruct S as [|y sep Hy S]; [exists x, r|exists y, (sep ++ x :: r)]; (split; [done|]); unfold separates, white, name_end in *; lia.
Qed.
Lemma sep_before sep x r c an av at_ cu ls : Forall separates sep -> ~ name_end x ->
  goes (sep ++ x :: r, BeforeAttributeName, c, an, av, at_, cu, [], ls) (r, AttributeName, c, [folded x], [], kept an av at_, cu, [], ls).
Proof.
  intros S H. induction S as [|y sep Hy S IH]; [by apply name_first|]. destruct Hy as [Hy| ->].
  - cbn [app]. via1. exact IH.
  - cbn [app]. via1. via1. destruct (head_sep sep x r S H) as (z & l & E & Hz). rewrite E in *. via solidus. exact IH.
Qed.
Lemma sep_solidus sep x r c an av at_ cu ls : Forall separates sep -> ~ name_end x ->
  goes (sep ++ x :: r, SelfClosingStart, c, an, av, at_, cu, [], ls) (r, AttributeName, c, [folded x], [], kept an av at_, cu, [], ls).
Proof.
  intros S H. pose proof (sep_before sep x r c an av at_ cu ls S H) as B.
  destruct (head_sep sep x r S H) as (z & l & E & Hz). rewrite E in *. via solidus. exact B.
Qed.
Lemma sep_after sep x r c an av at_ cu ls : Forall separates sep -> ~ name_end x -> x <> 61 \/ 47 ∈ sep ->
  goes (sep ++ x :: r, AfterAttributeName, c, an, av, at_, cu, [], ls) (r, AttributeName, c, [folded x], [], kept an av at_, cu, [], ls).
Proof.
  intros S H. induction S as [|y sep Hy S IH]; intros O.
  - apply name_after; [done|]. destruct O as [?|O]; [done|]. by apply elem_of_nil in O.
  - cbn [app]. destruct (decide (y = 47)) as [->|Ny].
    + via1. by apply sep_solidus.
    + destruct Hy as [Hy|]; [|done]. via1. apply IH. destruct O as [?|O]; [by left|right]. by apply elem_of_cons in O as [?|?].
Qed.
Lemma sep_tag sep x r c an av at_ cu ls : Forall separates sep -> ~ name_end x -> sep <> [] ->
  goes (sep ++ x :: r, TagName, c, an, av, at_, cu, [], ls) (r, AttributeName, c, [folded x], [], kept an av at_, cu, [], ls).
Proof.
  intros S H. destruct S as [|y sep Hy S]; [done|]. intros _. cbn [app]. destruct Hy as [Hy| ->].
  - via1. by apply sep_before.
  - via1. by apply sep_solidus.
Qed.
Lemma name_done y r c an av at_ cu ls : name_end y ->
  to1 (y :: r, AttributeName, c, an, av, at_, cu, [], ls) (y :: r, AfterAttributeName, c, an, av, at_, cu, [], ls).
Proof. intros H. open1. ifs. destruct (attr_already_exists _); close1. Qed.
Lemma sep_name sep x r c an av at_ cu ls : Forall separates sep -> ~ name_end x -> sep <> [] -> x <> 61 \/ 47 ∈ sep ->
  goes (sep ++ x :: r, AttributeName, c, an, av, at_, cu, [], ls) (r, AttributeName, c, [folded x], [], kept an av at_, cu, [], ls).
Proof.
  intros S H N O. pose proof (sep_after sep x r c an av at_ cu ls S H O) as B.
  destruct S as [|y sep Hy S]; [done|]. cbn [app] in *. via name_done; [|exact B].
  unfold separates, name_end in *. naive_solver.
Qed.
Lemma sep_unquoted sep x r c an av at_ cu ls : Forall separates sep -> ~ name_end x -> sep <> [] -> starts white sep ->
  goes (sep ++ x :: r, AttributeValueUnquoted, c, an, av, at_, cu, [], ls) (r, AttributeName, c, [folded x], [], kept an av at_, cu, [], ls).
Proof.
  intros S H. destruct S as [|y sep Hy S]; [done|]. intros _ W. cbn in W. cbn [app]. via1. by apply sep_before.
Qed.
Lemma sep_quoted sep x r c an av at_ cu ls : Forall separates sep -> ~ name_end x ->
  goes (sep ++ x :: r, AfterAttributeValueQuoted, c, an, av, at_, cu, [], ls) (r, AttributeName, c, [folded x], [], kept an av at_, cu, [], ls).
Proof.
  intros S H. destruct S as [|y sep Hy S]; cbn [app].
  - via1. by apply name_first.
  - destruct Hy as [Hy| ->].
    + via1. by apply sep_before.
    + via1. by apply sep_solidus.
Qed.

(** Values *)
Lemma equals w r c an av at_ cu ls : Forall white w ->
  goes (w ++ 61 :: r, AttributeName, c, an, av, at_, cu, [], ls) (r, BeforeAttributeValue, c, an, av, at_, cu, [], ls).
Proof.
  intros W. destruct W as [|y w Hy W]; cbn [app].
  - apply goes_one. open1. ifs. destruct (attr_already_exists _); close1.
  - via name_done; [by left|]. via1. induction W as [|z w Hz W IH]; cbn [app].
    + apply goes_one. one.
    + via1. exact IH.
Qed.
Lemma skip_white w r c an av at_ cu ls s : s = BeforeAttributeValue \/ s = BeforeAttributeName \/ s = AfterAttributeName -> Forall white w ->
  goes (w ++ r, s, c, an, av, at_, cu, [], ls) (r, s, c, an, av, at_, cu, [], ls).
Proof. intros Hs. induction 1 as [|z w Hz W IH]; [apply goes_refl|]. cbn [app]. destruct Hs as [->|[->| ->]]; via1; exact IH. Qed.

Definition value_state (s : tstate) : Prop := s = AttributeValueUnquoted \/ s = AttributeValueDoubleQuoted \/ s = AttributeValueSingleQuoted.
Definition value_char (s : tstate) (x : N) : Prop :=
  match s with AttributeValueUnquoted => ~ white x /\ x <> 62 | AttributeValueDoubleQuoted => x <> 34 | _ => x <> 39 end.
Lemma value_one s x r c an av at_ cu ls : value_state s -> value_char s x -> x <> 38 ->
  to1 (x :: r, s, c, an, av, at_, cu, [], ls) (r, s, c, an, av ++ [shown true x], at_, cu, [], ls).
Proof.
  intros [->|[->| ->]] H N; cbn in H; open1; ifs;
    (destruct (x =? 0) eqn:Z; [apply N.eqb_eq in Z as ->|apply N.eqb_neq in Z; rewrite (shown_true _ Z)]; ifs; try (destruct (_ || _)); close1).
Qed.
Lemma value_ref s u o s' rest c an av at_ cu ls : value_state s -> ref tbl true u o s' -> stopper rest ->
  to1 (38 :: u ++ rest, s, c, an, av, at_, cu, [], ls) (s' ++ rest, s, c, an, av ++ o, at_, cu, [], ls).
Proof.
  intros Hs R S. assert (X : forall t, core t = (u ++ rest, s, c, an, av, at_, cu, [], ls) ->
    exists t', (let* t := consume_character_reference tbl true t in Ok (Some t)) = Ok (Some t') /\ core t' = (s' ++ rest, s, c, an, av ++ o, at_, cu, [], ls)).
  { intros t C. destruct (ref_core tbl OK true u o s' rest t R S) as (t1 & E & C1); [by injection C|].
    exists t1. rewrite E. split; [done|]. rewrite C1. unfold core, upd in *. congruence. }
  destruct Hs as [->|[->| ->]]; open1; ifs; by apply X.
Qed.
Lemma value_text s v o rest : value_state s -> reads tbl true true v o -> Forall (value_char s) v -> stopper rest -> forall c an av at_ cu ls,
  goes (v ++ rest, s, c, an, av, at_, cu, [], ls) (rest, s, c, an, av ++ o, at_, cu, [], ls).
Proof.
  intros Hs R. induction R as [|x v o N R IH|u o1 v o RF R IH]; intros L S c an av at_ cu ls.
  - rewrite app_nil_r. apply goes_refl.
  - apply Forall_cons in L as [L1 L2]. via value_one. eapply goes_trans; [by apply IH|]. rewrite <- app_assoc. apply goes_refl.
  - apply Forall_cons in L as [L1 L2]. cbn [app]. via value_ref.
    eapply goes_trans; [apply IH; [|done]|]. { destruct (ref_suffix _ _ _ _ _ RF) as [p ->]. by apply Forall_app in L2 as [_ L2]. }
    rewrite <- app_assoc. apply goes_refl.
Qed.

Definition after_value (v : value_src) : tstate :=
  match v with no_value => AttributeName | unquoted _ _ _ => AttributeValueUnquoted | quoted _ _ _ _ => AfterAttributeValueQuoted end.
Lemma value_run v o rest c an at_ cu ls : value_ok v -> value_means tbl v o -> (is_unquoted v -> stopper rest) ->
  goes (value_source v ++ rest, AttributeName, c, an, [], at_, cu, [], ls) (rest, after_value v, c, an, o, at_, cu, [], ls).
Proof.
  intros V M S. destruct M as [|w1 w2 v o R|w1 w2 q v o R]; cbn [value_source value_ok after_value is_unquoted] in *.
  - apply goes_refl.
  - destruct V as (W1 & W2 & Hv & H). rewrite <- app_assoc. cbn [app]. eapply goes_trans; [by apply equals|].
    rewrite <- app_assoc. eapply goes_trans; [apply skip_white; [by left|done]|].
    destruct v as [|x v]; [done|]. apply Forall_cons in Hv as [Hx Hv]. cbn [app]. via1.
    apply (value_text AttributeValueUnquoted (x :: v) o rest ltac:(by left) R); [by constructor|by apply S].
  - destruct V as (W1 & W2 & Hq & H). rewrite <- app_assoc. cbn [app]. eapply goes_trans; [by apply equals|].
    rewrite <- app_assoc. eapply goes_trans; [apply skip_white; [by left|done]|]. cbn [app]. rewrite <- app_assoc. cbn [app].
    destruct Hq as [->| ->].
    + via1. eapply goes_trans; [apply (value_text AttributeValueDoubleQuoted v o (34 :: rest)); [by right; left|done| |]|].
      * apply Forall_forall. intros x Hx ->. done.
      * cbn. unfold alnum, letter, digit. lia.
      * apply goes_one. one.
    + via1. eapply goes_trans; [apply (value_text AttributeValueSingleQuoted v o (39 :: rest)); [by right; right|done| |]|].
      * apply Forall_forall. intros x Hx ->. done.
      * cbn. unfold alnum, letter, digit. lia.
      * apply goes_one. one.
Qed.

(** All attributes *)
Definition after_attr (before : option value_src) : tstate := match before with None => TagName | Some v => after_value v end.
Definition ends_value (rest : list N) : Prop := starts (fun x => white x \/ x = 62) rest.
Lemma ends_stopper rest : ends_value rest -> stopper rest.
Proof. intros H. eapply starts_impl; [exact H|]. intros x Hx. unfold white, alnum, letter, digit in *. lia. Qed.
Lemma attr_run before a r nv rest c an av at_ cu ls :
  attrs_ok before (a :: r) -> attr_means tbl a nv -> (is_unquoted (a_value a) -> stopper rest) ->
  goes (attr_source a ++ rest, after_attr before, c, an, av, at_, cu, [], ls)
       (rest, after_value (a_value a), c, nv.1, nv.2, kept an av at_, cu, [], ls).
Proof.
  intros ((S & N & V) & H1 & H2 & H3 & _) [E M] SR. destruct a as [sep n v]. unfold attr_source. cbn in *. rewrite E. clear E.
  destruct n as [|x n]; [done|]. destruct N as [Nx Nn]. rewrite <- app_assoc. rewrite <- app_assoc. cbn [app map].
  eapply goes_trans.
  - assert (S' : Forall separates sep) by (eapply Forall_impl; [exact S|]; intros y Hy; by destruct Hy; [left|right]).
    destruct before as [[|w1 w2 u|w1 w2 q u]|]; cbn [after_attr after_value].
    + apply sep_name; [done|done|by intros ->; apply H1|]. cbn in H3. done.
    + apply sep_unquoted; [done|done|by intros ->; apply H1|]. by apply H2.
    + by apply sep_quoted.
    + apply sep_tag; [done|done|by intros ->; apply H1].
  - eapply goes_trans; [by apply name_chars|]. cbn [app]. by apply value_run.
Qed.

Lemma attrs_run l : forall before nvs rest c an av at_ cu ls,
  attrs_ok before l -> Forall2 (attr_means tbl) l nvs ->
  (match last_value l with Some v => is_unquoted v -> ends_value rest | None => True end) ->
  exists an' av' at',
  goes (concat (map attr_source l) ++ rest, after_attr before, c, an, av, at_, cu, [], ls)
       (rest, after_attr (match last_value l with Some v => Some v | None => before end), c, an', av', at', cu, [], ls) /\
  kept an' av' at' = kept_all nvs (kept an av at_) /\ (l = [] -> an' = an /\ av' = av /\ at' = at_).
Proof.
  induction l as [|a l IH]; intros before nvs rest c an av at_ cu ls H M S.
  - inversion M; subst. exists an, av, at_. split; [apply goes_refl|done].
  - inversion M as [|? nv ? nvs' Ma Ml]; subst. pose proof H as (_ & _ & _ & _ & Hl).
    assert (Sl : match last_value l with Some v => is_unquoted v -> ends_value rest | None => True end).
    { unfold last_value in *. destruct l; [done|exact S]. }
    destruct (IH (Some (a_value a)) nvs' rest c nv.1 nv.2 (kept an av at_) cu ls Hl Ml Sl) as (an' & av' & at' & G & K & _).
    exists an', av', at'. split; [|by split].
    cbn [map concat]. rewrite <- app_assoc. eapply goes_trans; [eapply attr_run; [exact H|exact Ma|]|].
    + intros U. destruct l as [|b l].
      * cbn. apply ends_stopper. by apply S.
      * cbn [map concat attr_source]. destruct Hl as (_ & Hl1 & Hl2 & _). specialize (Hl2 U).
        destruct (a_sep b) as [|y sep] eqn:Eb; [by destruct (a_value a); specialize (Hl1 eq_refl)|].
        unfold attr_source. rewrite Eb. cbn. cbn in Hl2. unfold white, alnum, letter, digit in *. lia.
    + replace (after_attr match last_value (a :: l) with Some v => Some v | None => before end)
        with (after_attr match last_value l with Some v => Some v | None => Some (a_value a) end); [exact G|].
      unfold last_value. rewrite last_cons. by destruct (last l).
Qed.

(** *** The end of a tag *)
Lemma finish_start p f s c an av at_ tm ls lc e n sc :
  core (goto Data (finish_tag (mk_tk p f s c an av at_ (Some (StartTag n sc ∅)) tm [] ls lc e))) =
  (f, Data, [], [], [], ∅, None, text_tokens c ++ [StartTag n sc (kept an av at_)], n).
Proof.
  unfold finish_tag. rewrite store_mk. unfold add_stored_attrs. cbn [attrs cur]. case_bool_decide as E.
  - rewrite E. by destruct c.
  - unfold core. destruct c; cbn; by rewrite (right_id_L ∅ (∪)).
Qed.
Lemma finish_end p f s c an av at_ tm ls lc e n : kept an av at_ = ∅ ->
  core (goto Data (finish_tag (mk_tk p f s c an av at_ (Some (EndTag n)) tm [] ls lc e))) =
  (f, Data, [], [], [], ∅, None, text_tokens c ++ [EndTag n], ls).
Proof.
  intros E. unfold finish_tag. rewrite store_mk, E. unfold add_stored_attrs. cbn [attrs cur]. rewrite bool_decide_eq_true_2 by done. by destruct c.
Qed.
Inductive closing (ls : list N) : option token -> attr_map -> token -> list N -> Prop :=
| closing_start n m : closing ls (Some (StartTag n false ∅)) m (StartTag n false m) n
| closing_end n : closing ls (Some (EndTag n)) ∅ (EndTag n) ls.
Lemma finish_core p f s c an av at_ cu tm ls lc e k ls' : closing ls cu (kept an av at_) k ls' ->
  core (goto Data (finish_tag (mk_tk p f s c an av at_ cu tm [] ls lc e))) = (f, Data, [], [], [], ∅, None, text_tokens c ++ [k], ls').
Proof. intros H. inversion H; subst; [apply finish_start|by apply finish_end]. Qed.

Ltac fin := open1; ifs; flat; eexists; split; [reflexivity|]; by apply finish_core.
Lemma fin_state s rest c an av at_ cu ls k ls' : s = AfterAttributeName \/ s = AttributeValueUnquoted \/ s = AfterAttributeValueQuoted ->
  closing ls cu (kept an av at_) k ls' ->
  to1 (62 :: rest, s, c, an, av, at_, cu, [], ls) (rest, Data, [], [], [], ∅, None, text_tokens c ++ [k], ls').
Proof. intros Hs H. destruct Hs as [->|[->| ->]]; fin. Qed.
Lemma fin_before w rest c an av at_ cu ls k ls' : Forall white w -> closing ls cu (kept an av at_) k ls' ->
  goes (w ++ 62 :: rest, BeforeAttributeName, c, an, av, at_, cu, [], ls) (rest, Data, [], [], [], ∅, None, text_tokens c ++ [k], ls').
Proof.
  intros W H. eapply goes_trans; [apply skip_white; [by right; left|done]|]. via1. apply goes_one, fin_state; [by left|done].
Qed.
Lemma close_tag b w rest c an av at_ cu ls k ls' :
  Forall white w -> closing ls cu (kept an av at_) k ls' -> (b = None -> an = [] /\ av = [] /\ at_ = ∅) ->
  goes (w ++ 62 :: rest, after_attr b, c, an, av, at_, cu, [], ls) (rest, Data, [], [], [], ∅, None, text_tokens c ++ [k], ls').
Proof.
  intros W H B. destruct b as [[|w1 w2 u|w1 w2 q u]|]; cbn [after_attr after_value].
  - assert (goes (w ++ 62 :: rest, AfterAttributeName, c, an, av, at_, cu, [], ls) (rest, Data, [], [], [], ∅, None, text_tokens c ++ [k], ls')) as G.
    { eapply goes_trans; [apply skip_white; [by right; right|done]|]. apply goes_one, fin_state; [by left|done]. }
    destruct W as [|y w Hy W]; cbn [app] in *; (via name_done; [|exact G]); unfold name_end; naive_solver.
  - destruct W as [|y w Hy W]; cbn [app].
    + apply goes_one, fin_state; [by right; left|done].
    + via1. by apply fin_before.
  - destruct W as [|y w Hy W]; cbn [app].
    + apply goes_one, fin_state; [by right; right|done].
    + via1. by apply fin_before.
  - destruct (B eq_refl) as (-> & -> & ->). destruct W as [|y w Hy W]; cbn [app].
    + apply goes_one. inversion H; subst; open1; ifs; (eexists; split; [reflexivity|]); by destruct c.
    + via1. by apply fin_before.
Qed.
Lemma to_solidus b w r c an av at_ cu ls : Forall white w -> (match b with Some v => is_unquoted v -> w <> [] | None => True end) ->
  goes (w ++ 47 :: r, after_attr b, c, an, av, at_, cu, [], ls) (r, SelfClosingStart, c, an, av, at_, cu, [], ls).
Proof.
  intros W B.
  assert (A : forall w, Forall white w -> goes (w ++ 47 :: r, AfterAttributeName, c, an, av, at_, cu, [], ls) (r, SelfClosingStart, c, an, av, at_, cu, [], ls)).
  { intros w' W'. eapply goes_trans; [apply skip_white; [by right; right|done]|]. apply goes_one. one. }
  assert (F : forall w, Forall white w -> goes (w ++ 47 :: r, BeforeAttributeName, c, an, av, at_, cu, [], ls) (r, SelfClosingStart, c, an, av, at_, cu, [], ls)).
  { intros w' W'. eapply goes_trans; [apply skip_white; [by right; left|done]|]. via1. apply (A []). constructor. }
  destruct b as [[|w1 w2 u|w1 w2 q u]|]; cbn [after_attr after_value] in *.
  - specialize (A w W). destruct W as [|y w Hy W]; cbn [app] in *; (via name_done; [|exact A]); unfold name_end; naive_solver.
  - destruct W as [|y w Hy W]; cbn [app]; [by destruct (B I)|]. via1. by apply F.
  - destruct W as [|y w Hy W]; cbn [app]; [apply goes_one; one|]. via1. by apply F.
  - destruct W as [|y w Hy W]; cbn [app]; [apply goes_one; one|]. via1. by apply F.
Qed.
Lemma close_self b w rest c an av at_ n ls :
  Forall white w -> (match b with Some v => is_unquoted v -> w <> [] | None => True end) ->
  goes (w ++ 47 :: 62 :: rest, after_attr b, c, an, av, at_, Some (StartTag n false ∅), [], ls)
       (rest, Data, [], [], [], ∅, None, text_tokens c ++ [StartTag n true (kept an av at_)], n).
Proof.
  intros W B. eapply goes_trans; [by apply to_solidus|]. apply goes_one. open1. ifs. cbn [set_is_closing cur]. eexists. split; [reflexivity|].
  change (set_cur _ _) with (mk_tk (62 :: p) rest SelfClosingStart c an av at_ (Some (StartTag n true ∅)) tm [] ls (Some 62) (e ++ read_errors 62)).
  change (goto Data _) with (mk_tk (62 :: p) rest Data c an av at_ (Some (StartTag n true ∅)) tm [] ls (Some 62) (e ++ read_errors 62)).
  unfold finish_tag. rewrite store_mk. unfold add_stored_attrs. cbn [attrs cur]. case_bool_decide as E.
  - rewrite E. by destruct c.
  - unfold core. destruct c; cbn; by rewrite (right_id_L ∅ (∪)).
Qed.

(** *** Comments *)
Fixpoint no_dashes (b : list N) : Prop :=
  match b with [] => True | x :: r => (x = 45 -> match r with [] => False | y :: _ => y <> 45 end) /\ no_dashes r end.
Lemma no_dashes_spec b : (forall a c, b <> a ++ 45 :: 45 :: c) -> (forall a, b <> a ++ [45]) -> no_dashes b.
Proof.
  induction b as [|x b IH]; intros H1 H2; [done|]. split.
  - intros ->. destruct b as [|y b]; [by apply (H2 [])|]. intros ->. by apply (H1 [] b).
  - apply IH.
    + intros a c ->. by apply (H1 (x :: a) c).
    + intros a ->. by apply (H2 (x :: a)).
Qed.
Section comments.
Context (c an av : list N) (at_ : attr_map) (ls rest : list N).
Notation cm f s v := (f, s, c, an, av, at_, Some (Comment v), [], ls) (only parsing).
Notation fin v := (rest, Data, [], an, av, at_, None, text_tokens c ++ [Comment v], ls) (only parsing).
Notation tail b := (b ++ 45 :: 45 :: 62 :: rest) (only parsing).
Lemma comment_end v : goes (cm (62 :: rest) CommentEnd v) (fin v).
Proof. apply goes_one. open1. ifs. eexists. split; [reflexivity|]. by destruct c. Qed.
Lemma comment_run b : no_dashes b ->
  (forall v, goes (cm (tail b) CommentState v) (fin (v ++ map (shown true) b))) /\
  (forall v, goes (cm (tail b) CommentLessThanSign v) (fin (v ++ map (shown true) b))) /\
  (forall v, goes (cm (tail b) CommentLessThanSignBang v) (fin (v ++ map (shown true) b))) /\
  (forall v, b <> [] -> starts (fun x => x <> 45) b -> goes (cm (tail b) CommentLessThanSignBangDash v) (fin (v ++ 45 :: map (shown true) b))) /\
  (forall v, b <> [] -> starts (fun x => x <> 45) b -> goes (cm (tail b) CommentEndDash v) (fin (v ++ 45 :: map (shown true) b))).
Proof.
  induction b as [|x b IH]; intros D.
  - assert (G : forall v, goes (cm (tail []) CommentState v) (fin (v ++ map (shown true) []))).
    { intros v. rewrite app_nil_r. cbn [app]. via1. via1. apply comment_end. }
    split; [done|]. split; [|split; [|done]].
    + intros v. specialize (G v). cbn [app] in *. via1. exact G.
    + intros v. rewrite app_nil_r. cbn [app] in *. via1. via1. via1. apply comment_end.
  - destruct D as [D Db]. destruct (IH Db) as (G1 & G2 & G3 & G4 & G5). clear IH.
    assert (AS : forall v, (v ++ [shown true x]) ++ map (shown true) b = v ++ map (shown true) (x :: b)) by (intros v; by rewrite <- app_assoc).
    assert (G : forall v, goes (cm (tail (x :: b)) CommentState v) (fin (v ++ map (shown true) (x :: b)))).
    { intros v. cbn [app]. destruct (decide (x = 60)) as [->|N1].
      - via1. rewrite <- AS. apply G2.
      - destruct (decide (x = 45)) as [->|N2].
        + specialize (D eq_refl). destruct b as [|y b]; [done|]. via1. by apply G5.
        + rewrite <- AS. eapply goes_trans; [apply goes_one|apply G1].
          open1. ifs. destruct (x =? 0) eqn:Z; [apply N.eqb_eq in Z as ->|apply N.eqb_neq in Z; rewrite shown_true by done]; close1. }
    assert (E : forall v, x :: b <> [] -> starts (fun x => x <> 45) (x :: b) ->
      goes (cm (tail (x :: b)) CommentEndDash v) (fin (v ++ 45 :: map (shown true) (x :: b)))).
    { intros v _ H. cbn in H. replace (v ++ 45 :: map (shown true) (x :: b)) with ((v ++ [45]) ++ map (shown true) (x :: b)) by by rewrite <- app_assoc.
      eapply goes_trans; [apply goes_one|apply G]. cbn [app]. one. }
    split; [done|]. split; [|split; [|split]].
    + intros v. destruct (decide (x = 33)) as [->|N1]; [|destruct (decide (x = 60)) as [->|N2]].
      * rewrite <- AS. cbn [app]. via1. apply G3.
      * rewrite <- AS. cbn [app]. via1. apply G2.
      * eapply goes_trans; [apply goes_one|apply G]. cbn [app]. one.
    + intros v. destruct (decide (x = 45)) as [->|N1].
      * specialize (D eq_refl). destruct b as [|y b]; [done|]. cbn [app]. via1. by apply G4.
      * eapply goes_trans; [apply goes_one|apply G]. cbn [app]. one.
    + intros v H1 H2. eapply goes_trans; [apply goes_one|by apply E]. cbn in H2. cbn [app]. one.
    + done.
Qed.
Lemma comment_all b : markup_ok (comment b) -> goes (cm (tail b) CommentStart []) (fin (map (shown true) b)).
Proof.
  intros (H1 & H2 & H3 & H4). pose proof (no_dashes_spec b H1 H2) as D. destruct b as [|x b].
  - cbn [app]. via1. via1. apply comment_end.
  - destruct (comment_run (x :: b) D) as (G & _). destruct (decide (x = 45)) as [->|N].
    + destruct D as [D Db]. specialize (D eq_refl). destruct b as [|y b]; [done|]. destruct (comment_run (y :: b) Db) as (G' & _).
      cbn [app]. via1. eapply goes_trans; [apply goes_one|apply (G' [45])]. assert (y <> 62) by (intros ->; by apply (H4 b)). cbn [app]. one.
    + eapply goes_trans; [apply goes_one|apply (G [])]. assert (x <> 62) by (intros ->; by apply (H3 b)). cbn [app]. one.
Qed.
End comments.

(** *** Markup *)
Lemma kept_all_lookup nvs m n : Forall (fun nv => nv.1 <> []) nvs ->
  kept_all nvs m !! n = match m !! n with Some v => Some v | None => first_value nvs n end.
Proof.
  intros H. revert m. induction H as [|[n' v] nvs H _ IH]; intros m; cbn; [by destruct (m !! n)|].
  cbn in H. change (kept_all nvs (kept n' v m) !! n = match m !! n with Some v => Some v | None => if decide (n = n') then Some v else first_value nvs n end).
  rewrite IH. clear IH. unfold kept. rewrite (bool_decide_eq_true_2 (n' <> [])) by done. cbn [andb].
  case_bool_decide as E; cbn [negb].
  - destruct (m !! n) eqn:En; [done|]. destruct (decide (n = n')) as [->|]; [|done]. destruct E as [? E]. congruence.
  - apply eq_None_not_Some in E. destruct (decide (n = n')) as [->|N].
    + by rewrite lookup_insert, E.
    + by rewrite lookup_insert_ne by done.
Qed.
Lemma first_wins_kept nvs m : Forall (fun nv => nv.1 <> []) nvs -> first_wins nvs m -> m = kept_all nvs ∅.
Proof. intros H F. apply map_eq. intros n. rewrite kept_all_lookup, lookup_empty by done. apply F. Qed.
Lemma means_names l before nvs : attrs_ok before l -> Forall2 (attr_means tbl) l nvs -> Forall (fun nv => nv.1 <> []) nvs.
Proof.
  intros H M. revert before H. induction M as [|a nv l nvs [E _] M IH]; intros before H; [constructor|].
  destruct H as ((_ & N & _) & _ & _ & _ & H). constructor; [|by eapply IH]. rewrite E. by destruct (a_name a).
Qed.
Lemma letters_no_end x n : letter x -> Forall (fun y => ~ name_end y) n -> Forall (fun y => ~ name_end y) (x :: n).
Proof. intros H N. constructor; [|done]. unfold letter, name_end, white in *. lia. Qed.

Definition name_after_token (k : token) (ls : list N) : list N := match k with StartTag n _ _ => n | _ => ls end.
Lemma markup_run m k rest c cu ls : markup_ok m -> markup_means tbl m k ->
  goes (markup_source m ++ rest, Data, c, [], [], ∅, cu, [], ls) (rest, Data, [], [], [], ∅, None, text_tokens c ++ [k], name_after_token k ls).
Proof.
  intros H M. destruct M as [n l w sc nvs m M F|n w|b].
  - destruct H as (N & A & W & S). destruct n as [|x n]; [done|]. destruct N as [Nx Nn]. cbn [name_after_token].
    rewrite (first_wins_kept nvs m (means_names _ _ _ A M) F).
    cbn [markup_source app]. via1. rewrite <- app_assoc. via1.
    eapply goes_trans; [apply (tag_name (x :: n)); [by apply letters_no_end|apply tag_start]|]. cbn [app].
    rewrite <- !app_assoc.
    set (e := w ++ (if sc then [47; 62] else [62]) ++ rest).
    destruct (attrs_run l None nvs e c [] [] ∅ (Some (StartTag (map folded (x :: n)) false ∅)) ls A M) as (an & av & at_ & G & K & E).
    { destruct (last_value l) as [v|] eqn:L; [|done]. intros U. subst e. destruct W as [|y w Hy W].
      - destruct sc; [by destruct (S eq_refl U)|]. cbn. by right.
      - cbn. by left. }
    change (kept [] [] ∅) with (∅ : attr_map) in K. rewrite <- K.
    eapply goes_trans; [exact G|]. clear G.
    replace (match last_value l with Some v => Some v | None => None end) with (last_value l) by by destruct (last_value l).
    subst e. destruct sc; cbn [app].
    + apply close_self; [done|]. destruct (last_value l); [|done]. by apply S.
    + apply close_tag; [done|constructor|]. intros L. apply E. unfold last_value in L. destruct l; [done|].
      apply fmap_None in L. by apply last_None in L.
  - destruct H as (N & W). destruct n as [|x n]; [done|]. destruct N as [Nx Nn]. cbn [name_after_token].
    cbn [markup_source app]. via1. via1. rewrite <- app_assoc. via1.
    eapply goes_trans; [apply (tag_name (x :: n)); [by apply letters_no_end|apply tag_end]|]. cbn [app].
    rewrite <- app_assoc. apply (close_tag None); [done| |done]. change (kept [] [] ∅) with (∅ : attr_map). constructor.
  - cbn [markup_source txt app name_after_token]. change (txt "<!--") with [60; 33; 45; 45]. change (txt "-->") with [45; 45; 62]. cbn [app].
    via1. via1. rewrite <- app_assoc. cbn [app]. eapply goes_trans; [apply goes_one|by apply comment_all].
    intros t C. destruct t as [p f_ s_ c_ an_ av_ at__ cu_ tm q_ ls_ lc e]; unfold core in C; cbn in C.
    injection C as -> -> -> -> -> -> -> -> ->. unfold step. cbn [state]. rewrite bool_decide_eq_true_2 by done. close1.
Qed.

(** *** From steps to pulls *)
Lemma steps_consume t t' : steps t t' -> queue t' <> [] -> exists fuel, consume_stream tbl fuel fg t = Ok (Some t').
Proof.
  induction 1 as [t|t t1 t2 Q E S IH]; intros N.
  - exists 0%nat. cbn. by destruct (queue t).
  - destruct (IH N) as [fuel F]. exists (Datatypes.S fuel). cbn. rewrite Q, E. exact F.
Qed.
End docs.

Lemma pops tbl fuel ps : Forall (fun p => p_switch p = None) ps -> forall t, length ps = length (queue t) ->
  pulls tbl fuel ps t = Some (queue t, set_queue [] t).
Proof.
  induction 1 as [|p ps H _ IH]; intros t L.
  - destruct t as [? ? ? ? ? ? ? ? ? q ? ? ?]. cbn in *. by destruct q.
  - destruct (queue t) as [|k q] eqn:Q; [done|]. cbn. unfold switched. rewrite H. unfold next_token.
    assert (E : consume_stream tbl fuel (p_foreign p) t = Ok (Some t)) by (destruct fuel; cbn; by rewrite Q).
    rewrite E. cbn. rewrite Q. rewrite (IH (set_queue q t)); [done|]. cbn in *. by injection L.
Qed.
Lemma emits tbl p ps X f s c an av at_ cu q ls t :
  Forall (fun p => p_switch p = None) (p :: ps) -> length (p :: ps) = length q ->
  goes tbl (p_foreign p) X (f, s, c, an, av, at_, cu, q, ls) -> core t = X ->
  exists fuel t', pulls tbl fuel (p :: ps) t = Some (q, t') /\ core t' = (f, s, c, an, av, at_, cu, [], ls).
Proof.
  intros P L G C. destruct (G t C) as (t1 & S & C1). assert (Q : queue t1 = q) by by injection C1.
  destruct (steps_consume _ _ _ _ S) as [fuel F]; [rewrite Q; by destruct q|]. exists fuel, (set_queue [] t1).
  split; [|by injection C1 as <- <- <- <- <- <- <- _ <-].
  pose proof (pops tbl fuel (p :: ps) P t1 ltac:(by rewrite Q)) as E. rewrite Q in E. rewrite <- E.
  apply Forall_cons in P as [Hp _]. cbn. unfold switched. rewrite Hp. unfold next_token. rewrite F.
  assert (E1 : consume_stream tbl fuel (p_foreign p) t1 = Ok (Some t1)) by (destruct q; [done|]; destruct fuel; cbn; by rewrite Q).
  by rewrite E1.
Qed.
Lemma pulls_app tbl fuel ps ps' t l t1 l' t2 : pulls tbl fuel ps t = Some (l, t1) -> pulls tbl fuel ps' t1 = Some (l', t2) ->
  pulls tbl fuel (ps ++ ps') t = Some (l ++ l', t2).
Proof.
  revert t l. induction ps as [|p ps IH]; intros t l H1 H2.
  - cbn in *. by injection H1 as <- <-.
  - cbn in *. destruct (next_token _ _ _ _) as [[[k t']|]| |]; try done.
    destruct (pulls tbl fuel ps t') as [[l0 t0]|] eqn:E; [|done]. injection H1 as <- <-. by rewrite (IH _ _ E H2).
Qed.

Section whole.
Context (tbl : list (list N * list N)) (OK : table_ok tbl).
Lemma doc_run d ts : doc_means tbl d ts -> doc_ok d -> forall ps t cu ls,
  Forall (fun p => p_switch p = None) ps -> length ps = length ts ->
  core t = (doc_source d, Data, [], [], [], ∅, cu, [], ls) -> exists fuel t', pulls tbl fuel ps t = Some (ts, t').
Proof.
  induction 1 as [s o R|s o m k r l ts R M D IH]; intros H ps t cu ls P L C.
  - destruct H as [_ H]. unfold doc_source in C. cbn in C. destruct ps as [|p ps]; [by destruct o|].
    enough (G : goes tbl (p_foreign p) (s, Data, [], [], [], ∅, cu, [], ls) ([], Data, [], [], [], ∅, cu, text_tokens o ++ [Eof], ls)).
    { destruct (emits _ _ _ _ _ _ _ _ _ _ _ _ _ t P L G C) as (fuel & t' & E & _). by exists fuel, t'. }
    eapply goes_trans; [rewrite <- (app_nil_r s); by apply data_text|]. apply goes_one.
    intros t0 C0. destruct t0 as [p_ f_ s_ c_ an_ av_ at__ cu_ tm q_ ls_ lc e]; unfold core in C0; cbn in C0.
    injection C0 as -> -> -> -> -> -> -> -> ->. unfold step. cbn [state]. rewrite read_mk_end. eexists. split; [reflexivity|]. by destruct o.
  - destruct H as [H HL]. apply Forall_cons in H as [[Ht Hm] H]. cbn in Ht, Hm.
    set (q := text_tokens o ++ [k]).
    assert (TS : text_tokens o ++ k :: ts = q ++ ts) by (subst q; by rewrite <- app_assoc).
    rewrite TS in *. rewrite app_length in L.
    rewrite <- (take_drop (length q) ps) in P |- *. apply Forall_app in P as [P1 P2].
    assert (L1 : length (take (length q) ps) = length q) by (rewrite take_length; lia).
    assert (L2 : length (drop (length q) ps) = length ts) by (rewrite drop_length; lia).
    destruct (take (length q) ps) as [|p ps1]; [by destruct o|].
    pose proof (markup_run tbl OK (p_foreign p) m k (doc_source (mk_doc r l)) o cu ls Hm M) as G. set (ls' := name_after_token k ls) in *.
    assert (G1 : goes tbl (p_foreign p) (doc_source (mk_doc ((s, m) :: r) l), Data, [], [], [], ∅, cu, [], ls)
                   (doc_source (mk_doc r l), Data, [], [], [], ∅, None, q, ls')).
    { unfold doc_source in *. cbn in *. rewrite <- !app_assoc. eapply goes_trans; [|exact G].
      apply (data_text tbl OK _ s o _ [] [] ∅ cu ls R Ht) with (c := []). by destruct M. }
    destruct (emits _ _ _ _ _ _ _ _ _ _ _ _ _ t P1 L1 G1 C) as (fuel & t1 & E & C1).
    destruct (IH ltac:(done) _ t1 None ls' P2 L2 C1) as (fuel2 & t2 & E2).
    exists (max fuel fuel2), t2. eapply pulls_app; [eapply pulls_mono; [exact E|lia]|eapply pulls_mono; [exact E2|lia]].
Qed.
End whole.
