(** C73-C74: values are checked against the grammar of their property. *)
From stdpp Require Import gmap.
From Verif Require Import Base Text SelectorModel SyntaxModel SyntaxSpec SyntaxProofs SyntaxEnds.

(** *** Grammars for the demonstrations *)
(** <length> takes what has a unit and 0, <percentage> what ends in %, <number> a number and 0 *)
Definition demo_fits (t rg : str) (v : value) : bool :=
  match v with
  | VZero => true
  | VUnit _ _ => bool_decide (t = txt "length")
  | VPercentage _ => bool_decide (t = txt "percentage")
  | VNumber _ => bool_decide (t = txt "number")
  | _ => false
  end.
Definition kw (s : str) : component := CKeyword s [Once].
(** <'margin-top'>, as it is resolved: <length-percentage> | auto, and a reference is a sequence of one *)
Definition length_percentage : component :=
  CGroup Juxtaposition [CGroup ExactlyOne [CBuiltin (txt "length") [] [Once]; CBuiltin (txt "percentage") [] [Once]] [Once]] [Once].
Definition margin_side : component :=
  CGroup ExactlyOne [length_percentage; kw (txt "auto"); CFunction (txt "anchor-size") (Some (CGroup AtLeastOneAnyOrder [kw (txt "width"); kw (txt "height")] [Optional])) [Once]] [Once].
Definition margin_grammar : component := set_multipliers [Between 1 4] margin_side.
Definition px (n : N) : value := VUnit n (txt "px").
Definition word (s : str) : value := VString s.

(** ** C73 *)
(** Whatever the grammar, the declared values and the shorthand being filled in: if the engine takes the values as a valid
    declaration, then they are among those every property takes, or the grammar generates them.
    Partial: for grammars without [!] and with [#] only around a whole grammar or a whole argument list. *)
Theorem C73_only_grammar_partial : forall fits c input r s s',
  tidy true c -> tree_matches fits [c] input r s = Ok (true, s') -> waved_through input \/ language fits c input.
Proof.
  intros fits c input r s s' Ht E. unfold tree_matches in E.
  destruct (_ || _) eqn:Hw in E; [left; by apply waved|right]. destruct (match_component fits c input r s) as [[m s1]| |] eqn:Em; cbn [rbind] in E; try discriminate E.
  apply Ok_pair in E as [E _]. apply andb_true_iff in E as [Hok Hr]. apply bool_decide_eq_true, nil_length_inv in Hr. by eapply (proj2 (tidy_sound fits c)).
Qed.
Example C73_only_grammar_demo : exists s', tidy true margin_grammar /\
  tree_matches demo_fits [margin_grammar] [px 1; word (txt "AUTO"); VZero] None no_fix = Ok (true, s').
Proof. eexists. split; [|by vm_compute]. simpl. unfold list_ms, plain_ms, plain_ms. split_and!; auto. Qed.

(** Every grammar: what is taken is among those every property takes, or the grammar generates it with the liberties listed at
    [loosely]: an order of the multipliers, no [!], and a comma at the end of a list. *)
Theorem C73_at_most : forall fits c input r s s',
  tree_matches fits [c] input r s = Ok (true, s') -> waved_through input \/ loose_language fits c input.
Proof.
  intros fits c input r s s' E. unfold tree_matches in E.
  destruct (_ || _) eqn:Hw in E; [left; by apply waved|right]. destruct (match_component fits c input r s) as [[m s1]| |] eqn:Em; cbn [rbind] in E; try discriminate E.
  apply Ok_pair in E as [E _]. apply andb_true_iff in E as [Hok Hr]. apply bool_decide_eq_true, nil_length_inv in Hr.
  destruct (loose_sound fits c _ _ _ _ _ Em Hok) as (w & Hw' & HL). rewrite Hr, app_nil_r in Hw'. by subst w.
Qed.
Example C73_at_most_demo : exists s', tree_matches demo_fits
  [CGroup Juxtaposition [set_multipliers [CommaRepeat 1 9] margin_side; CLiteral comma [Once]; kw (txt "end")] [AtLeastOneValue]]
  [px 1; VComma; px 2; VComma; word (txt "end")] None no_fix = Ok (false, s') /\ tree_matches demo_fits
  [CGroup Juxtaposition [set_multipliers [CommaRepeat 1 9] margin_side; kw (txt "end")] [AtLeastOneValue]]
  [px 1; VComma; px 2; VComma; word (txt "end")] None no_fix = Ok (true, s') /\ tree_matches demo_fits
  [CGroup Juxtaposition [set_multipliers [CommaRepeat 1 9] margin_side; kw (txt "end")] [AtLeastOneValue]]
  [px 1; VComma; px 2; word (txt "end")] None no_fix = Ok (true, s').
Proof. eexists. split_and!; by vm_compute. Qed.

(** For a choice between single values, possibly repeated, possibly a comma-separated list: exactly the values the grammar
    generates, and those every property takes. *)
Theorem C73_exact_partial : forall fits c ms input r s b s',
  choice fits c -> list_ms ms -> sensible (primary ms) -> (comma_bounds ms <> None -> enough (fulfilled (primary ms) 0) = false) ->
  argless c \/ Forall no_function input ->
  tree_matches fits [set_multipliers ms c] input r s = Ok (b, s') ->
  b = true <-> waved_through input \/ language fits (set_multipliers ms c) input.
Proof.
  intros fits c ms input r s b s' Hc Hms Hs Hb Hfn E. pose proof (waved input) as Hw. unfold tree_matches in E.
  destruct (_ || _) eqn:Hx in E.
  - apply Ok_pair in E as [<- _]. split; [|done]. intros _. left. by apply Hw.
  - destruct (match_component fits (set_multipliers ms c) input r s) as [[m s1]| |] eqn:Em; cbn [rbind] in E; try discriminate E.
    apply Ok_pair in E as [<- _]. rewrite (choice_exact fits c ms input r s m s1 Hc Hms Hs Hb Hfn Em). split; [by right|].
    intros [H|H]; [|done]. apply Hw in H. congruence.
Qed.
Example C73_exact_demo :
  choice demo_fits margin_side /\ list_ms [Between 1 4] /\ sensible (primary [Between 1 4]) /\ comma_bounds [Between 1 4] = None /\
  Forall no_function [px 1; word (txt "auto"); px 2; px 3; px 4] /\
  tree_matches demo_fits [margin_grammar] [px 1; word (txt "auto"); px 2; px 3] None no_fix = Ok (true, no_fix) /\
  tree_matches demo_fits [margin_grammar] [px 1; word (txt "auto"); px 2; px 3; px 4] None no_fix = Ok (false, no_fix) /\
  tree_matches demo_fits [margin_grammar] [] None no_fix = Ok (false, no_fix) /\
  tree_matches demo_fits [set_multipliers [CommaRepeat 1 3] margin_side] [px 1; VComma; word (txt "auto")] None no_fix = Ok (true, no_fix) /\
  tree_matches demo_fits [set_multipliers [CommaRepeat 1 3] margin_side] [px 1; VComma] None no_fix = Ok (false, no_fix) /\
  tree_matches demo_fits [margin_grammar] [VFunction (txt "VAR") []] None no_fix = Ok (true, no_fix).
Proof.
  split; [simpl; unfold single_ms, list_ms, plain_ms; intuition|].
  split; [by left|]. split; [simpl; lia|]. split; [done|]. split; [repeat constructor|]. by vm_compute.
Qed.
(** The css-wide keywords, values with var() or env() in them and keywords with a vendor's prefix are taken by every property,
    without a look at the grammar, and fill in no longhand. *)
Theorem C73_every_property : forall fits c more input r s, waved_through input -> tree_matches fits (c :: more) input r s = Ok (true, s).
Proof. intros fits c more input r s Hw. unfold tree_matches. apply waved in Hw. by rewrite Hw. Qed.
Example C73_every_property_demo : waved_through [word (txt "Revert")] /\ waved_through [VZero; VFunction (txt "calc") [VFunction (txt "var") []]] /\
  waved_through [word (txt "-Moz-box")].
Proof. by split_and!; apply waved; vm_compute. Qed.

(** Outside these grammars the engine is not exact: each of these takes what its grammar does not generate, or the other way
    round. *)
Definition wa : value := word (txt "a").
Definition wb : value := word (txt "b").
Definition ka (ms : list multiplier) : component := CKeyword (txt "a") ms.
Definition kb (ms : list multiplier) : component := CKeyword (txt "b") ms.
Definition seq (cs : list component) : component := CGroup Juxtaposition cs [Once].
Lemma keyword_word fits s u : language fits (CKeyword s [Once]) u -> exists v, u = [v] /\ v <> VComma.
Proof. intros (v & -> & [(t & -> & _)|[-> _]]); by eexists. Qed.
(** a list inside a grammar swallows the comma that follows it: "a# b" takes [a , b] *)
Theorem C73_list_inside_refuted : exists c input s', tree_matches demo_fits [c] input None no_fix = Ok (true, s') /\
  ~ waved_through input /\ ~ language demo_fits c input.
Proof.
  exists (seq [ka [CommaRepeat 1 9]; kb [Once]]), [wa; VComma; wb], no_fix. split; [by vm_compute|]. split; [rewrite <-waved; by vm_compute|].
  intros [(u & v & Huv & Hu & Hv)|[(? & _)|(? & _)]]; try done. destruct Hv as [(u' & v' & -> & Hu' & ->)|[(? & _)|(? & _)]]; try done.
  apply keyword_word in Hu' as (x & -> & _). rewrite app_nil_r in Huv. change [wa; VComma; wb] with ([wa; VComma] ++ [wb]) in Huv.
  apply app_inj_tail in Huv as [<- _]. destruct Hu as [[? _]|(k & _ & _ & Hk)]; [done|].
  destruct k as [|k]; [by apply (keyword_word demo_fits) in Hk as (? & ? & _)|]. destruct Hk as (a & b & Hab & Ha & Hb).
  apply (keyword_word demo_fits) in Ha as (y & -> & _). injection Hab as _ <-. destruct k as [|k]; [by apply (keyword_word demo_fits) in Hb as (? & ? & _)|].
  destruct Hb as (a & b & Hab & _). by destruct a.
Qed.
(** the multipliers [#] and [?] together are taken in the wrong order: "a#?" takes [a , , a] *)
Theorem C73_optional_list_refuted : exists c input s', tree_matches demo_fits [c] input None no_fix = Ok (true, s') /\
  ~ waved_through input /\ ~ language demo_fits c input.
Proof.
  exists (ka [CommaRepeat 1 9; Optional]), [wa; VComma; VComma; wa], no_fix. split; [by vm_compute|]. split; [rewrite <-waved; by vm_compute|].
  intros [?|[[? _]|(k & _ & _ & Hk)]]; try done. destruct k as [|k]; [by apply (keyword_word demo_fits) in Hk as (? & ? & _)|].
  destruct Hk as (a & b & Hab & Ha & Hb). apply (keyword_word demo_fits) in Ha as (y & -> & _). injection Hab as _ <-.
  destruct k as [|k]; [by apply (keyword_word demo_fits) in Hb as (? & ? & _)|]. destruct Hb as (a & b & Hab & Ha & _).
  apply (keyword_word demo_fits) in Ha as (z & -> & Hz). discriminate Hab.
Qed.
(** the multiplier [!] is not enforced: "[a? b?]! a" takes [a] *)
Theorem C73_something_refuted : exists c input s', tree_matches demo_fits [c] input None no_fix = Ok (true, s') /\
  ~ waved_through input /\ ~ language demo_fits c input.
Proof.
  exists (seq [CGroup Juxtaposition [kb [Optional]; CKeyword (txt "c") [Optional]] [AtLeastOneValue]; ka [Once]]), [wa], no_fix.
  split; [by vm_compute|]. split; [rewrite <-waved; by vm_compute|].
  intros [(u & v & Huv & [Hu _] & Hv)|[(? & _)|(? & _)]]; try done. destruct Hv as [(u' & v' & -> & Hu' & ->)|[(? & _)|(? & _)]]; try done.
  apply keyword_word in Hu' as (x & -> & _). destruct u as [|y [|]]; done.
Qed.
(** each operand takes all it can and gives nothing back: "a? a" does not take [a] *)
Theorem C73_greedy_refuted : exists c input s', tree_matches demo_fits [c] input None no_fix = Ok (false, s') /\ language demo_fits c input.
Proof.
  exists (seq [ka [Optional]; ka [Once]]), [wa], no_fix. split; [by vm_compute|]. left. exists [], [wa]. split_and!; [done|by left|].
  left. exists [wa], []. split_and!; [done| |done]. exists wa. split; [done|]. left. by exists (txt "a").
Qed.
(** A reference to another property's grammar loses that grammar's own multiplier: <'border-image-width'> in the grammar of
    border-image takes one value, where the property border-image-width takes up to four. *)
Theorem C73_reference_refuted : exists c input s',
  tree_matches demo_fits [c] input None no_fix = Ok (true, s') /\
  tree_matches demo_fits [refer [Once] [c]] input None no_fix = Ok (false, s') /\ language demo_fits c input.
Proof.
  exists (CGroup ExactlyOne [length_percentage; CBuiltin (txt "number") [] [Once]; kw (txt "auto")] [Between 1 4]), [px 1; px 2], no_fix.
  split; [by vm_compute|]. split; [by vm_compute|].
  assert (forall n, language demo_fits (CGroup ExactlyOne [length_percentage; CBuiltin (txt "number") [] [Once]; kw (txt "auto")] [Once]) [px n]) as Hone.
  { intros n. constructor 1. left. exists [px n], []. split_and!; [done| |done]. constructor 1. by exists (px n). }
  exists 2. split; [lia|]. exists [px 1], [px 2]. split_and!; [done|apply (Hone 1%N)|]. exists [px 2], []. split_and!; [done|apply (Hone 2%N)|done].
Qed.

(** ** C74 *)
(** Checking a declaration ends, without a crash, whatever the values and whatever the grammar, as long as what is repeated
    takes at least one value each time. *)
Theorem C74_checking_ends : forall fits c input r s, productive c -> exists b s', tree_matches fits [c] input r s = Ok (b, s').
Proof.
  intros fits c input r s Hp. unfold tree_matches. destruct (_ || _); [eauto|].
  destruct (component_total fits c Hp input r s) as (m & s' & ->). cbn [rbind]. eauto.
Qed.
Example C74_checking_ends_demo : productive margin_grammar /\ productive (seq [ka [ZeroOrMore]; CGroup AllAnyOrder [ka [Optional]; kb [OneOrMore]] [OneOrMore; CommaRepeat 1 9]]).
Proof. split; simpl; intuition. Qed.
(** Without that it need not: however long one waits, "[a?]*" on [b] is still being checked. *)
Theorem C74_needs_progress : forall fits, exists c, ~ productive c /\ forall n,
  repeated n (match_component fits (set_multipliers [Once] c)) (fulfilled (primary (multipliers c))) [wb] [wb] 0 [] None no_fix = Diverge.
Proof.
  intros fits. exists (CGroup Juxtaposition [ka [Optional]] [ZeroOrMore]). split; [intros [H _]; by specialize (H eq_refl)|].
  intros n. generalize 0 at 1. induction n as [|n IH]; intros cnt; [done|]. apply IH.
Qed.

Print Assumptions C73_only_grammar_partial.
Print Assumptions C73_at_most.
Print Assumptions C73_exact_partial.
Print Assumptions C73_every_property.
Print Assumptions C73_list_inside_refuted.
Print Assumptions C73_optional_list_refuted.
Print Assumptions C73_something_refuted.
Print Assumptions C73_greedy_refuted.
Print Assumptions C73_reference_refuted.
Print Assumptions C74_checking_ends.
Print Assumptions C74_needs_progress.
