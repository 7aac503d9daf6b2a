(** Every step of the HTML tokenizer makes progress. *)
From stdpp Require Import gmap.
From Coq Require Import ZifyBool ZifyN.
From Verif Require Import Text SettingsModel CookieModel TokenModel TokenSpec TokenProofs.

Lemma seen_ws x : is_ws (seen x) = is_ws x.
Proof. unfold seen. destruct (is_surrogate x) eqn:E; [|done]. unfold is_surrogate, between, is_ws in *. lia. Qed.
Lemma seen_eq x c : (c < 55296)%N -> (seen x =? c)%N = (x =? c)%N.
Proof. intros H. unfold seen. destruct (is_surrogate x) eqn:E; [|done]. unfold is_surrogate, between in *. lia. Qed.

(** Outcomes of a step *)
Definition outcome (t : tk) (t' : tk) : Prop :=
  state t' <> CharacterReferenceInAttributeValue /\ good t' /\
  ((measure t' < measure t /\ grows t t') \/
   (content (state t) /\ future t = [] /\ t' = emit_token Eof (set_io (past t) [] None t))).

Ltac o_state := first [by autorewrite with st | autorewrite with st; congruence].
Ltac o_good := eauto 20 with good.
Ltac o_meas E S F :=
  unfold measure; rewrite S, F; rewrite future_io;
  repeat first
    [ progress autorewrite with io st
    | erewrite io_finish_tag by (autorewrite with io; first [eassumption | apply io_set_is_closing; eassumption]) ];
  rewrite ?E; cbn [io_prev io_next fst snd length rank special]; try lia.
Ltac o_grow :=
  repeat first [apply grows_goto | apply grows_last_start];
  first
    [ apply grows_eq; autorewrite with qu; assumption
    | apply grows_emit; [autorewrite with qu; assumption | reflexivity | discriminate]
    | apply grows_emit_cur; [autorewrite with qu; assumption | o_good]
    | apply grows_finish; [autorewrite with qu; assumption | o_good] ].
Ltac o_tac E S F :=
  split; [o_state|split; [o_good|left; split; [o_meas E S F|o_grow]]].

Definition plain (s : tstate) : bool :=
  match s with
  | CharacterReferenceInAttributeValue | CharacterReferenceInData | CharacterReferenceInRcData | AttributeName
  | AfterAttributeName | BeforeAttributeName | MarkupDeclarationOpen | AfterDOCTYPEName | AttributeValueDoubleQuoted
  | AttributeValueSingleQuoted | AttributeValueUnquoted => false
  | _ => true
  end.
Lemma step_plain_end ent foreign t :
  good t -> plain (state t) = true -> future t = [] ->
  exists t', step ent foreign t = Ok (Some t') /\ outcome t t'.
Proof.
  intros G N F. unfold step.
    destruct (read_end t F) as (t1 & R & E1).
    assert (E : io t1 = (past t, [], None)) by by subst.
    assert (S1 : state t1 = state t) by by subst. assert (Q1 : queue t1 = queue t) by by subst.
    assert (G1 : good t1) by by subst.
    destruct (state t) eqn:S; try discriminate N; clear N;
      unfold end_tag_open, end_tag_name; rewrite R; cbv beta iota zeta;
      (eexists; split; [reflexivity|]);
      repeat (rewrite bool_decide_eq_false_2 by done).
    all: lazymatch type of S with
      | _ = Data => idtac | _ = RCDATA => idtac | _ = RAWTEXT => idtac | _ = ScriptData => idtac | _ = PLAINTEXT => idtac
      | _ => unfold outcome; o_tac E S F end.
    all: (split; [autorewrite with st; congruence|]; split; [o_good|]; right; split; [unfold content; rewrite S; set_solver|]; by subst).
Qed.

Lemma step_plain_some ent foreign t x r :
  good t -> plain (state t) = true -> future t = x :: r ->
  exists t', step ent foreign t = Ok (Some t') /\ outcome t t'.
Proof.
  intros G N F. unfold step.
    destruct (read_some t x r F) as (t1 & R & E & S1 & Q1).
    assert (G1 : good t1).
    { apply (good_cur t); [|done]. assert (snd (read_char t) = t1) as <- by by rewrite R.
      unfold read_char, stream_read_and_next. rewrite F. by destruct (is_surrogate x), (is_control_char x), (is_noncharacter x). }
    destruct (state t) eqn:S; try discriminate N; clear N;
      unfold end_tag_open, end_tag_name; rewrite R; cbv beta iota zeta;
      (eexists; split; [reflexivity|]); unfold outcome.
    all: repeat match goal with
      | |- context [if ?b then _ else _] => destruct b eqn:?
      end.
    all: o_tac E S F.
    all: rewrite S1; cbn [rank]; lia.
Qed.
