(** Steps of the HTML tokenizer in the states left out in [TokenStep.step_plain_some]. *)
From stdpp Require Import gmap.
From Coq Require Import ZifyBool ZifyN.
From Verif Require Import Text SettingsModel CookieModel TokenModel TokenSpec TokenProofs TokenStep.

Lemma special_seen x r : special (x :: r) = is_ws (seen x) || (seen x =? 47)%N || (seen x =? 62)%N || (seen x =? 61)%N.
Proof. cbn [special]. by rewrite seen_ws, !seen_eq by lia. Qed.
Lemma rank_attr f : rank AttributeName f <= 3 /\ rank AfterAttributeName f <= 3.
Proof. cbn [rank]. destruct (special f); lia. Qed.

Lemma read_some_good t x r : good t -> future t = x :: r ->
  exists t', read_char t = (Some (seen x), t') /\ io t' = (x :: past t, r, Some x) /\ state t' = state t /\ queue t' = queue t /\ good t'.
Proof.
  intros G F. destruct (read_some t x r F) as (t1 & R & E & S1 & Q1). exists t1. split_and!; try done.
  apply (good_cur t); [|done]. assert (snd (read_char t) = t1) as <- by by rewrite R.
  unfold read_char, stream_read_and_next. rewrite F. by destruct (is_surrogate x), (is_control_char x), (is_noncharacter x).
Qed.

(** *** The states between attributes *)
Lemma step_attr ent foreign t :
  good t -> state t ∈ [BeforeAttributeName; AttributeName; AfterAttributeName] ->
  exists t', step ent foreign t = Ok (Some t') /\ outcome t t'.
Proof.
  intros G N. unfold step. destruct (future t) as [|x r] eqn:F.
  - destruct (read_end t F) as (t1 & R & E1).
    assert (E : io t1 = (past t, [], None)) by by subst.
    assert (S1 : state t1 = state t) by by subst. assert (Q1 : queue t1 = queue t) by by subst.
    assert (G1 : good t1) by by subst.
    apply elem_of_cons in N as [S|N]; [|apply elem_of_cons in N as [S|S%elem_of_list_singleton]];
      rewrite S, R; cbv beta iota zeta; (eexists; split; [reflexivity|]); unfold outcome.
    all: try destruct (attr_already_exists t1).
    all: o_tac E S F.
  - destruct (read_some_good t x r G F) as (t1 & R & E & S1 & Q1 & G1).
    pose proof (special_seen x r) as P.
    apply elem_of_cons in N as [S|N]; [|apply elem_of_cons in N as [S|S%elem_of_list_singleton]];
      rewrite S, R; cbv beta iota zeta; (eexists; split; [reflexivity|]); unfold outcome.
    all: try destruct (attr_already_exists t1).
    all: repeat match goal with
      | |- context [if ?b then _ else _] => destruct b eqn:?
      end.
    all: rewrite S in S1.
    all: split; [o_state|split; [o_good|left; split; [|o_grow]]].
    all: unfold measure; rewrite S, F; rewrite future_io;
      repeat first
        [ progress autorewrite with io st
        | erewrite io_finish_tag by (autorewrite with io; first [eassumption | apply io_set_is_closing; eassumption]) ];
      rewrite ?E, ?S1; cbn [io_prev io_next fst snd length].
    all: destruct (rank_attr r), (rank_attr (x :: r)).
    all: cbn [rank] in *; try lia.
    all: rewrite P.
    all: repeat match goal with H : (_ || _) = false |- _ => apply orb_false_iff in H as [? ?] end.
    all: repeat match goal with H : ?b = _ |- context [?b] => rewrite H end; cbn [orb]; try lia.
    all: destruct (is_ws (seen x)), (seen x =? 47)%N, (seen x =? 62)%N, (seen x =? 61)%N; cbn in *; try discriminate; lia.
Qed.

(** *** Character references *)
Lemma good_numeric_end b code t : good t -> good (numeric_end b code t).
Proof. intros G. unfold numeric_end. cbv zeta. repeat (case_match; simplify_eq); auto 10 with good. Qed.
Definition good_res (r : res tk) : Prop := match r with Ok t => good t | _ => True end.
Lemma good_srn t : good t -> good (stream_read_and_next t).2.
Proof. unfold stream_read_and_next. by destruct (future t). Qed.
Lemma srn_eta t : stream_read_and_next t = ((stream_read_and_next t).1, (stream_read_and_next t).2).
Proof. by destruct (stream_read_and_next t). Qed.
Lemma good_digits fuel a h code t : good t -> good_res (numeric_digits fuel a h code t).
Proof.
  revert code t. induction fuel as [|fuel IH]; intros code t G; [done|]. cbn [numeric_digits].
  rewrite srn_eta. pose proof (good_srn t G) as G1. destruct (stream_read_and_next t) as [[x|] t1]; cbn in *.
  - destruct (h && is_hex x); [by apply IH|]. destruct (negb h && is_digit x); [by apply IH|].
    destruct (x =? 59)%N; cbn; auto using good_numeric_end, good_stream_prev, good_err.
  - auto using good_numeric_end, good_stream_prev, good_err.
Qed.
Lemma good_numeric_start a h t : good t -> good_res (numeric_start a h t).
Proof.
  intros G. unfold numeric_start. rewrite srn_eta. pose proof (good_srn t G) as G1.
  destruct (stream_read_and_next t) as [[x|] t1]; cbn [fst snd] in *.
  - destruct (if h then _ else _); [apply good_digits; auto with good|]; cbn; auto with good.
  - cbn; auto with good.
Qed.
Lemma good_ambiguous fuel a t : good t -> good_res (ambiguous_ampersand fuel a t).
Proof.
  revert t. induction fuel as [|fuel IH]; intros t G; [done|]. cbn [ambiguous_ampersand].
  rewrite srn_eta. pose proof (good_srn t G) as G1. destruct (stream_read_and_next t) as [[x|] t1]; cbn in *; [|done].
  destruct (is_alnum x); [apply IH; auto with good|]. destruct (x =? 59)%N; cbn; auto with good.
Qed.
Lemma good_ccr ent a t : good t -> good_res (consume_character_reference ent a t).
Proof.
  intros G. unfold consume_character_reference. cbv zeta. rewrite srn_eta.
  assert (G0 : good (set_tmp [38%N] t)) by auto with good. pose proof (good_srn _ G0) as G1.
  destruct (stream_read_and_next (set_tmp [38%N] t)) as [[x|] t1]; cbn [fst snd] in *; [|cbn; auto with good].
  destruct (is_alnum x); [|destruct (x =? 35)%N; [|cbn; auto with good]].
  - unfold named_reference. destruct (find_entity _ _).
    + cbv zeta. destruct (a && _ && _); cbn; [auto 10 with good|]. case_bool_decide; auto 10 with good.
    + apply good_ambiguous. auto with good.
  - unfold numeric_reference. rewrite srn_eta.
    assert (G2 : good (push_tmp x t1)) by auto with good. pose proof (good_srn _ G2) as G3.
    destruct (stream_read_and_next (push_tmp x t1)) as [[y|] t2]; cbn [fst snd] in *; [|by apply good_numeric_start].
    destruct (_ || _); apply good_numeric_start; auto with good.
Qed.

Lemma step_references ent foreign t :
  good t -> state t ∈ [CharacterReferenceInData; CharacterReferenceInRcData] ->
  exists t', step ent foreign t = Ok (Some t') /\ outcome t t'.
Proof.
  intros G N. unfold step. destruct (ccr_kept ent false t) as (t1 & R & S1 & Q & L).
  pose proof (good_ccr ent false t G) as G1. rewrite R in G1.
  apply elem_of_cons in N as [S|S%elem_of_list_singleton]; rewrite S, R; cbn [rbind].
  all: eexists; split; [reflexivity|]. all: unfold outcome, measure.
  all: split; [done|split; [auto with good|left; split; [|by apply grows_eq]]].
  all: cbn [goto state future]; rewrite S; cbn [rank]; lia.
Qed.

Lemma step_values ent foreign t :
  good t -> state t ∈ [AttributeValueDoubleQuoted; AttributeValueSingleQuoted; AttributeValueUnquoted] ->
  exists t', step ent foreign t = Ok (Some t') /\ outcome t t'.
Proof.
  intros G N. unfold step. destruct (future t) as [|x r] eqn:F.
  - destruct (read_end t F) as (t1 & R & E1).
    assert (E : io t1 = (past t, [], None)) by by subst.
    assert (S1 : state t1 = state t) by by subst. assert (Q1 : queue t1 = queue t) by by subst.
    assert (G1 : good t1) by by subst.
    apply elem_of_cons in N as [S|N]; [|apply elem_of_cons in N as [S|S%elem_of_list_singleton]];
      rewrite S, R; cbv beta iota zeta; (eexists; split; [reflexivity|]); unfold outcome.
    all: o_tac E S F.
  - destruct (read_some_good t x r G F) as (t1 & R & E & S1 & Q1 & G1).
    destruct (ccr_kept ent true t1) as (t2 & R2 & S2 & Q2 & L).
    pose proof (good_ccr ent true t1 G1) as G2. rewrite R2 in G2. cbn in G2.
    assert (L1 : length (future t1) = length r) by by rewrite future_io, E. rewrite L1 in L.
    assert (K : outcome t t2 <-> state t <> CharacterReferenceInAttributeValue /\ 8 * length (future t2) + rank (state t) (future t2) < measure t
                \/ outcome t t2).
    { split; [by right|]. intros [[A B]|?]; [|done]. split; [by rewrite S2, S1|]. split; [done|]. left.
      split; [unfold measure at 1; by rewrite S2, S1|apply grows_eq; congruence]. }
    apply elem_of_cons in N as [S|N]; [|apply elem_of_cons in N as [S|S%elem_of_list_singleton]];
      rewrite S, R, R2; cbv beta iota zeta; rewrite S in S1;
      repeat match goal with
      | |- context [if ?b then _ else _] => destruct b eqn:?
      end; cbn [rbind]; (eexists; split; [reflexivity|]).
    all: try (apply K; left; rewrite S; split; [done|]; unfold measure; rewrite S, F; cbn [rank length]; lia).
    all: unfold outcome; o_tac E S F.
    all: rewrite S1; cbn [rank]; lia.
Qed.

(** *** Declarations *)
Lemma step_markup ent foreign t :
  good t -> state t = MarkupDeclarationOpen -> exists t', step ent foreign t = Ok (Some t') /\ outcome t t'.
Proof.
  intros G S. unfold step. rewrite S. eexists. split; [reflexivity|].
  assert (E : io t = (past t, future t, last_char t)) by done.
  destruct (future t) as [|x r] eqn:F.
  - unfold get_slice. rewrite F.
    rewrite !bool_decide_eq_false_2 by (by vm_compute). assert (Q1 : queue t = queue t) by done.
    unfold outcome. o_tac E S F.
  - assert (Q1 : queue t = queue t) by done.
    assert (L : forall n, length (io_next (Datatypes.S n) (past t, x :: r, last_char t)).1.2 <= length r)
      by (intros n; cbn [io_next]; apply io_next_length).
    repeat case_bool_decide; try destruct foreign; unfold outcome.
    all: split; [o_state|split; [o_good|left; split; [|o_grow]]].
    all: unfold measure; rewrite S, F, future_io; autorewrite with io st; rewrite E.
    all: cbn [rank length fst snd]; pose proof (L 1); pose proof (L 6); pose proof (L 5);
      pose proof (io_next_length 1 (io_next 6 (past t, x :: r, last_char t))); lia.
Qed.

Lemma step_after_doctype ent foreign t :
  good t -> state t = AfterDOCTYPEName -> exists t', step ent foreign t = Ok (Some t') /\ outcome t t'.
Proof.
  intros G S. unfold step. rewrite S. destruct (future t) as [|x r] eqn:F.
  - destruct (read_end t F) as (t1 & R & E1).
    assert (E : io t1 = (past t, [], None)) by by subst.
    assert (S1 : state t1 = state t) by by subst. assert (Q1 : queue t1 = queue t) by by subst.
    assert (G1 : good t1) by by subst.
    rewrite R. eexists; split; [reflexivity|]. unfold outcome. o_tac E S F.
  - destruct (read_some_good t x r G F) as (t1 & R & E & S1 & Q1 & G1). rewrite R. cbv beta iota zeta.
    rewrite S in S1. eexists. split; [reflexivity|].
    assert (L : forall n, length (io_next n (past t, x :: r, Some x)).1.2 <= Datatypes.S (length r)) by (intros n; apply io_next_length).
    destruct (is_ws (seen x)); [|destruct (seen x =? 62)%N; [|repeat case_bool_decide]]; unfold outcome.
    all: split; [o_state|split; [o_good|left; split; [|o_grow]]].
    all: unfold measure; rewrite S, F, future_io; autorewrite with io st; rewrite E, ?S1; cbn [rank io_prev].
    + cbn [length fst snd]. lia.
    + cbn [length fst snd]. lia.
    + pose proof (L 6). cbn [length] in *. lia.
    + pose proof (L 6). cbn [length] in *. lia.
    + cbn [io_next]. cbn [io_prev]. destruct (past t); cbn [io_prev length fst snd]; lia.
Qed.

(** *** All states *)
Lemma step_ok ent foreign t :
  good t -> state t <> CharacterReferenceInAttributeValue -> exists t', step ent foreign t = Ok (Some t') /\ outcome t t'.
Proof.
  intros G N. destruct (plain (state t)) eqn:P.
  { destruct (future t) eqn:F; [by apply step_plain_end|by eapply step_plain_some]. }
  destruct (state t) eqn:S; try discriminate P; try done.
  all: first [ by apply step_after_doctype | by apply step_markup
             | apply step_references; [done|rewrite S; set_solver] | apply step_attr; [done|rewrite S; set_solver]
             | apply step_values; [done|rewrite S; set_solver] ].
Qed.
