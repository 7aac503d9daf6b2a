(** Proofs about the HTML tokenizer. *)
From stdpp Require Import gmap.
From Coq Require Import ZifyBool ZifyN.
From Verif Require Import Text SettingsModel CookieModel TokenModel TokenSpec.

(** ** Projections of the helpers *)
Definition io (t : tk) : list N * list N * option N := (past t, future t, last_char t).
Definition io_prev (i : list N * list N * option N) : list N * list N * option N :=
  match i with
  | (p, f, None) => (p, f, None)
  | (p, f, Some l) => match p with x :: p => (p, x :: f, Some l) | [] => ([], f, Some l) end
  end.
Ltac tproj := intros; unfold numeric_end, consume_temp_buffer, flush, add_to_token_value, start_public_identifier, add_public_identifier,
  start_system_identifier, add_system_identifier, add_to_token_name, set_quirks, store_attr; cbn zeta;
  repeat match goal with |- context[match ?x with _ => _ end] => destruct x end; done.

Lemma io_err (e : perror) t : io (err e t) = io t. Proof. tproj. Qed.
Lemma st_err (e : perror) t : state (err e t) = state t. Proof. tproj. Qed.
Lemma q_err (e : perror) t : queue (err e t) = queue t. Proof. tproj. Qed.
Lemma io_set_cur (c : option token) t : io (set_cur c t) = io t. Proof. tproj. Qed.
Lemma st_set_cur (c : option token) t : state (set_cur c t) = state t. Proof. tproj. Qed.
Lemma q_set_cur (c : option token) t : queue (set_cur c t) = queue t. Proof. tproj. Qed.
Lemma io_set_tmp (s : list N) t : io (set_tmp s t) = io t. Proof. tproj. Qed.
Lemma st_set_tmp (s : list N) t : state (set_tmp s t) = state t. Proof. tproj. Qed.
Lemma q_set_tmp (s : list N) t : queue (set_tmp s t) = queue t. Proof. tproj. Qed.
Lemma io_set_last_start (s : list N) t : io (set_last_start s t) = io t. Proof. tproj. Qed.
Lemma st_set_last_start (s : list N) t : state (set_last_start s t) = state t. Proof. tproj. Qed.
Lemma q_set_last_start (s : list N) t : queue (set_last_start s t) = queue t. Proof. tproj. Qed.
Lemma io_set_attrs (a : attr_map) t : io (set_attrs a t) = io t. Proof. tproj. Qed.
Lemma st_set_attrs (a : attr_map) t : state (set_attrs a t) = state t. Proof. tproj. Qed.
Lemma q_set_attrs (a : attr_map) t : queue (set_attrs a t) = queue t. Proof. tproj. Qed.
Lemma io_set_attr (n v : list N) t : io (set_attr n v t) = io t. Proof. tproj. Qed.
Lemma st_set_attr (n v : list N) t : state (set_attr n v t) = state t. Proof. tproj. Qed.
Lemma q_set_attr (n v : list N) t : queue (set_attr n v t) = queue t. Proof. tproj. Qed.
Lemma io_consume (x : N) t : io (consume x t) = io t. Proof. tproj. Qed.
Lemma st_consume (x : N) t : state (consume x t) = state t. Proof. tproj. Qed.
Lemma q_consume (x : N) t : queue (consume x t) = queue t. Proof. tproj. Qed.
Lemma io_consume_str (s : list N) t : io (consume_str s t) = io t. Proof. tproj. Qed.
Lemma st_consume_str (s : list N) t : state (consume_str s t) = state t. Proof. tproj. Qed.
Lemma q_consume_str (s : list N) t : queue (consume_str s t) = queue t. Proof. tproj. Qed.
Lemma io_push_name (x : N) t : io (push_name x t) = io t. Proof. tproj. Qed.
Lemma st_push_name (x : N) t : state (push_name x t) = state t. Proof. tproj. Qed.
Lemma q_push_name (x : N) t : queue (push_name x t) = queue t. Proof. tproj. Qed.
Lemma io_push_value (x : N) t : io (push_value x t) = io t. Proof. tproj. Qed.
Lemma st_push_value (x : N) t : state (push_value x t) = state t. Proof. tproj. Qed.
Lemma q_push_value (x : N) t : queue (push_value x t) = queue t. Proof. tproj. Qed.
Lemma io_push_tmp (x : N) t : io (push_tmp x t) = io t. Proof. tproj. Qed.
Lemma st_push_tmp (x : N) t : state (push_tmp x t) = state t. Proof. tproj. Qed.
Lemma q_push_tmp (x : N) t : queue (push_tmp x t) = queue t. Proof. tproj. Qed.
Lemma io_add_to_token_value (x : N) t : io (add_to_token_value x t) = io t. Proof. tproj. Qed.
Lemma st_add_to_token_value (x : N) t : state (add_to_token_value x t) = state t. Proof. tproj. Qed.
Lemma q_add_to_token_value (x : N) t : queue (add_to_token_value x t) = queue t. Proof. tproj. Qed.
Lemma io_start_public_identifier  t : io (start_public_identifier t) = io t. Proof. tproj. Qed.
Lemma st_start_public_identifier  t : state (start_public_identifier t) = state t. Proof. tproj. Qed.
Lemma q_start_public_identifier  t : queue (start_public_identifier t) = queue t. Proof. tproj. Qed.
Lemma io_add_public_identifier (x : N) t : io (add_public_identifier x t) = io t. Proof. tproj. Qed.
Lemma st_add_public_identifier (x : N) t : state (add_public_identifier x t) = state t. Proof. tproj. Qed.
Lemma q_add_public_identifier (x : N) t : queue (add_public_identifier x t) = queue t. Proof. tproj. Qed.
Lemma io_start_system_identifier  t : io (start_system_identifier t) = io t. Proof. tproj. Qed.
Lemma st_start_system_identifier  t : state (start_system_identifier t) = state t. Proof. tproj. Qed.
Lemma q_start_system_identifier  t : queue (start_system_identifier t) = queue t. Proof. tproj. Qed.
Lemma io_add_system_identifier (x : N) t : io (add_system_identifier x t) = io t. Proof. tproj. Qed.
Lemma st_add_system_identifier (x : N) t : state (add_system_identifier x t) = state t. Proof. tproj. Qed.
Lemma q_add_system_identifier (x : N) t : queue (add_system_identifier x t) = queue t. Proof. tproj. Qed.
Lemma io_add_to_token_name (x : N) t : io (add_to_token_name x t) = io t. Proof. tproj. Qed.
Lemma st_add_to_token_name (x : N) t : state (add_to_token_name x t) = state t. Proof. tproj. Qed.
Lemma q_add_to_token_name (x : N) t : queue (add_to_token_name x t) = queue t. Proof. tproj. Qed.
Lemma io_set_quirks  t : io (set_quirks t) = io t. Proof. tproj. Qed.
Lemma st_set_quirks  t : state (set_quirks t) = state t. Proof. tproj. Qed.
Lemma q_set_quirks  t : queue (set_quirks t) = queue t. Proof. tproj. Qed.
Lemma io_store_attr  t : io (store_attr t) = io t. Proof. tproj. Qed.
Lemma st_store_attr  t : state (store_attr t) = state t. Proof. tproj. Qed.
Lemma q_store_attr  t : queue (store_attr t) = queue t. Proof. tproj. Qed.
Lemma io_flush (b : bool) (s : list N) t : io (flush b s t) = io t. Proof. tproj. Qed.
Lemma st_flush (b : bool) (s : list N) t : state (flush b s t) = state t. Proof. tproj. Qed.
Lemma q_flush (b : bool) (s : list N) t : queue (flush b s t) = queue t. Proof. tproj. Qed.
Lemma io_consume_temp_buffer (b : bool) t : io (consume_temp_buffer b t) = io t. Proof. tproj. Qed.
Lemma st_consume_temp_buffer (b : bool) t : state (consume_temp_buffer b t) = state t. Proof. tproj. Qed.
Lemma q_consume_temp_buffer (b : bool) t : queue (consume_temp_buffer b t) = queue t. Proof. tproj. Qed.
Lemma io_numeric_end (b : bool) (code : option N) t : io (numeric_end b code t) = io t.
Proof. unfold numeric_end. cbn zeta. repeat (case_match; simplify_eq); by rewrite io_consume_temp_buffer. Qed.
Lemma st_numeric_end (b : bool) (code : option N) t : state (numeric_end b code t) = state t.
Proof. unfold numeric_end. cbn zeta. repeat (case_match; simplify_eq); by rewrite st_consume_temp_buffer. Qed.
Lemma q_numeric_end (b : bool) (code : option N) t : queue (numeric_end b code t) = queue t.
Proof. unfold numeric_end. cbn zeta. repeat (case_match; simplify_eq); by rewrite q_consume_temp_buffer. Qed.

Lemma io_goto s t : io (goto s t) = io t. Proof. done. Qed.
Lemma st_goto s t : state (goto s t) = s. Proof. done. Qed.
Lemma q_goto s t : queue (goto s t) = queue t. Proof. done. Qed.
Lemma io_transition_to s t : io (transition_to s t) = io t. Proof. done. Qed.
Lemma st_transition_to s t : state (transition_to s t) = s. Proof. done. Qed.
Lemma q_transition_to s t : queue (transition_to s t) = queue t. Proof. done. Qed.
Lemma io_emit_token k t : io (emit_token k t) = io t.
Proof. unfold emit_token. destruct k; cbn; by destruct (consumed t). Qed.
Lemma st_emit_token k t : state (emit_token k t) = state t.
Proof. unfold emit_token. destruct k; cbn; by destruct (consumed t). Qed.
Lemma io_emit_current_token t : io (emit_current_token t) = io t.
Proof. unfold emit_current_token. destruct (cur t); [|done]. by rewrite io_emit_token. Qed.
Lemma st_emit_current_token t : state (emit_current_token t) = state t.
Proof. unfold emit_current_token. destruct (cur t); [|done]. by rewrite st_emit_token. Qed.
Lemma io_stream_prev t : io (stream_prev t) = io_prev (io t).
Proof. destruct t as [p f s c an av a cu tm q ls lc e]. by destruct lc, p. Qed.
Lemma st_stream_prev t : state (stream_prev t) = state t.
Proof. unfold stream_prev. by destruct (last_char t), (past t). Qed.
Lemma q_stream_prev t : queue (stream_prev t) = queue t.
Proof. unfold stream_prev. by destruct (last_char t), (past t). Qed.
Fixpoint io_next (n : nat) (i : list N * list N * option N) : list N * list N * option N :=
  match n with
  | O => i
  | S k => io_next k (match i with (p, x :: f, _) => (x :: p, f, Some x) | (p, [], _) => (p, [], None) end)
  end.
Lemma io_stream_next_n n t : io (stream_next_n n t) = io_next n (io t).
Proof.
  revert t. induction n as [|n IH]; intros t; [done|]. cbn [stream_next_n io_next]. rewrite IH. f_equal.
  unfold stream_read_and_next, io. by destruct (future t).
Qed.
Lemma st_stream_next_n n t : state (stream_next_n n t) = state t.
Proof. revert t. induction n as [|n IH]; intros t; [done|]. cbn. rewrite IH. unfold stream_read_and_next. by destruct (future t). Qed.
Lemma q_stream_next_n n t : queue (stream_next_n n t) = queue t.
Proof. revert t. induction n as [|n IH]; intros t; [done|]. cbn. rewrite IH. unfold stream_read_and_next. by destruct (future t). Qed.
Lemma st_set_is_closing t : state (set_is_closing t) = state t.
Proof. unfold set_is_closing. destruct (cur t) as [[]|]; try done. by rewrite st_stream_next_n, st_err, st_stream_prev. Qed.
Lemma q_set_is_closing t : queue (set_is_closing t) = queue t.
Proof. unfold set_is_closing. destruct (cur t) as [[]|]; try done. by rewrite q_stream_next_n, q_err, q_stream_prev. Qed.
Lemma st_add_stored_attrs t : state (add_stored_attrs t) = state t.
Proof. unfold add_stored_attrs. case_bool_decide; [done|]. destruct (cur t) as [[]|]; try done. by rewrite st_stream_next_n, st_err, st_stream_prev. Qed.
Lemma q_add_stored_attrs t : queue (add_stored_attrs t) = queue t.
Proof. unfold add_stored_attrs. case_bool_decide; [done|]. destruct (cur t) as [[]|]; try done. by rewrite q_stream_next_n, q_err, q_stream_prev. Qed.
(** Stepping back and forth after a character was read *)
Lemma io_set_is_closing t x p f : io t = (x :: p, f, Some x) -> io (set_is_closing t) = (x :: p, f, Some x).
Proof.
  intros H. unfold set_is_closing. destruct (cur t) as [[]|]; try done.
  by rewrite io_stream_next_n, io_err, io_stream_prev, H.
Qed.
Lemma io_add_stored_attrs t x p f : io t = (x :: p, f, Some x) -> io (add_stored_attrs t) = (x :: p, f, Some x).
Proof.
  intros H. unfold add_stored_attrs. case_bool_decide; [done|]. destruct (cur t) as [[]|]; try done.
  by rewrite io_stream_next_n, io_err, io_stream_prev, H.
Qed.
Lemma io_finish_tag t x p f : io t = (x :: p, f, Some x) -> io (finish_tag t) = (x :: p, f, Some x).
Proof. intros H. unfold finish_tag. rewrite io_emit_current_token. apply io_add_stored_attrs. by rewrite io_store_attr. Qed.
Lemma st_finish_tag t : state (finish_tag t) = state t.
Proof. unfold finish_tag. by rewrite st_emit_current_token, st_add_stored_attrs, st_store_attr. Qed.

Global Hint Rewrite io_goto io_transition_to io_emit_token io_emit_current_token io_stream_prev io_stream_next_n
  io_err io_set_cur io_set_tmp io_set_last_start io_set_attrs io_set_attr io_consume io_consume_str io_push_name io_push_value io_push_tmp io_add_to_token_value io_start_public_identifier io_add_public_identifier io_start_system_identifier io_add_system_identifier io_add_to_token_name io_set_quirks io_store_attr io_flush io_consume_temp_buffer io_numeric_end : io.
Global Hint Rewrite st_goto st_transition_to st_emit_token st_emit_current_token st_stream_prev st_stream_next_n
  st_set_is_closing st_add_stored_attrs st_finish_tag
  st_err st_set_cur st_set_tmp st_set_last_start st_set_attrs st_set_attr st_consume st_consume_str st_push_name st_push_value st_push_tmp st_add_to_token_value st_start_public_identifier st_add_public_identifier st_start_system_identifier st_add_system_identifier st_add_to_token_name st_set_quirks st_store_attr st_flush st_consume_temp_buffer st_numeric_end : st.
Global Hint Rewrite q_goto q_transition_to q_stream_prev q_stream_next_n q_set_is_closing q_add_stored_attrs
  q_err q_set_cur q_set_tmp q_set_last_start q_set_attrs q_set_attr q_consume q_consume_str q_push_name q_push_value q_push_tmp q_add_to_token_value q_start_public_identifier q_add_public_identifier q_start_system_identifier q_add_system_identifier q_add_to_token_name q_set_quirks q_store_attr q_flush q_consume_temp_buffer q_numeric_end : qu.

(** ** Reading *)
Lemma read_end t : future t = [] ->
  exists t', read_char t = (None, t') /\ t' = set_io (past t) [] None t.
Proof. intros H. unfold read_char, stream_read_and_next. rewrite H. by eexists. Qed.
(** the character a state sees *)
Definition seen (x : N) : N := if is_surrogate x then 65533%N else x.
Lemma read_some t x r : future t = x :: r ->
  exists t', read_char t = (Some (seen x), t') /\ io t' = (x :: past t, r, Some x) /\ state t' = state t /\ queue t' = queue t.
Proof.
  intros H. unfold read_char, stream_read_and_next, seen. rewrite H.
  destruct (is_surrogate x); [by eexists|]. destruct (is_control_char x); [by eexists|].
  by destruct (is_noncharacter x); eexists.
Qed.

(** ** Progress *)
(** How far a state is from reading on, given what comes next *)
Definition special (f : list N) : bool :=
  match f with x :: _ => is_ws x || (x =? 47)%N || (x =? 62)%N || (x =? 61)%N | [] => true end.
Definition rank (s : tstate) (f : list N) : nat :=
  match s with
  | Data | RCDATA | RAWTEXT | ScriptData | PLAINTEXT => 0
  | AttributeName => if special f then 3 else 1
  | AfterAttributeName => if special f then 1 else 3
  | RCDATAEndTagOpen | RAWTEXTEndTagOpen | TagOpen | EndTagOpen => 2
  | ScriptDataEscapedLessThanSign | ScriptDataEscapedEndTagOpen => 3
  | ScriptDataDoubleEscapeStart | ScriptDataEscapedEndTagName | ScriptDataDoubleEscapedLessThanSign
  | ScriptDataDoubleEscapeEnd => 2
  | BeforeAttributeName => 4
  | AfterAttributeValueQuoted | SelfClosingStart => 5
  | BeforeAttributeValue => 2
  | CommentState => 1
  | CommentLessThanSignBangDash | CommentLessThanSignBangDashDash => 3
  | CommentStart | CommentStartDash | CommentLessThanSign | CommentLessThanSignBang | CommentEndDash | CommentEnd
  | CommentEndBang => 2
  | DOCTYPE => 2
  | DOCTYPEName => 3
  | AfterDOCTYPEName => 10
  | AfterDOCTYPEPublicKeyword | BeforeDOCTYPEPublicIdentifier | AfterDOCTYPEPublicIdentifier
  | BetweenDOCTYPEPublicAndSystemIdentifiers | AfterDOCTYPESystemKeyword | BeforeDOCTYPESystemIdentifier
  | AfterDOCTYPESystemIdentifier => 2
  | CDATASectionBracket | CDATASectionEnd | MarkupDeclarationOpen => 2
  | _ => 1
  end.
Definition measure (t : tk) : nat := 8 * length (future t) + rank (state t) (future t).

Lemma srn_end t : future t = [] -> stream_read_and_next t = (None, set_io (past t) [] None t).
Proof. intros H. unfold stream_read_and_next. by rewrite H. Qed.
Lemma srn_some t x r : future t = x :: r -> stream_read_and_next t = (Some x, set_io (x :: past t) r (Some x) t).
Proof. intros H. unfold stream_read_and_next. by rewrite H. Qed.
Lemma future_io t : future t = (io t).1.2. Proof. done. Qed.

(** the outcome of a sub-machine: the same state and queue, and no less was read *)
Definition kept (t : tk) (r : res tk) : Prop :=
  exists t', r = Ok t' /\ state t' = state t /\ queue t' = queue t /\ length (future t') <= length (future t).
Ltac kept_tac :=
  eexists; split; [reflexivity|]; autorewrite with st qu;
  (split; [done|]); (split; [done|]); rewrite future_io; autorewrite with io; cbn; lia.

Lemma digits_kept fuel a h code t : length (future t) < fuel -> kept t (numeric_digits fuel a h code t).
Proof.
  revert code t. induction fuel as [|fuel IH]; intros code t Hf; [lia|]. cbn [numeric_digits].
  destruct (future t) as [|x r] eqn:F.
  - rewrite (srn_end _ F). kept_tac.
  - rewrite (srn_some _ _ _ F). cbn [length] in Hf.
    assert (K : forall code', kept t (numeric_digits fuel a h code' (set_io (x :: past t) r (Some x) t))).
    { intros code'. destruct (IH code' (set_io (x :: past t) r (Some x) t)) as (t' & E & A & B & C); [cbn; lia|].
      exists t'. rewrite F. cbn in *. repeat split; try done. lia. }
    destruct (h && is_hex x); [apply K|]. destruct (negb h && is_digit x); [apply K|].
    unfold kept. rewrite F. destruct (x =? 59)%N; kept_tac.
Qed.

Lemma start_kept a h t : kept t (numeric_start a h t).
Proof.
  unfold numeric_start. destruct (future t) as [|x r] eqn:F.
  - rewrite (srn_end _ F). unfold kept. rewrite F. kept_tac.
  - rewrite (srn_some _ _ _ F). destruct (if h then _ else _).
    + cbv zeta. set (t1 := stream_prev _).
      assert (F1 : future t1 = future t) by (unfold t1; rewrite future_io, io_stream_prev, F; done).
      destruct (digits_kept (S (length (future t1))) a h (Some 0%N) t1) as (t' & E & A & B & C); [lia|].
      exists t'. split; [done|]. rewrite A, B. rewrite F1 in C. unfold t1. autorewrite with st qu. done.
    + unfold kept. rewrite F. kept_tac.
Qed.

Lemma kept_trans t t1 r : state t1 = state t -> queue t1 = queue t -> length (future t1) <= length (future t) -> kept t1 r -> kept t r.
Proof. intros A B C (t' & E & A' & B' & C'). exists t'. rewrite A', B'. repeat split; try done. lia. Qed.

Lemma ambiguous_kept fuel a t : length (future t) < fuel -> kept t (ambiguous_ampersand fuel a t).
Proof.
  revert t. induction fuel as [|fuel IH]; intros t Hf; [lia|]. cbn [ambiguous_ampersand].
  destruct (future t) as [|x r] eqn:F.
  - rewrite (srn_end _ F). unfold kept. rewrite F. kept_tac.
  - rewrite (srn_some _ _ _ F). cbn [length] in Hf. destruct (is_alnum x).
    + apply (kept_trans _ (flush a [x] (set_io (x :: past t) r (Some x) t))).
      1,2: by autorewrite with st qu.
      1: rewrite F, future_io; autorewrite with io; cbn; lia.
      apply IH. rewrite future_io. autorewrite with io. cbn. lia.
    + unfold kept. rewrite F. destruct (x =? 59)%N; kept_tac.
Qed.

Lemma io_next_length n i : length (io_next n i).1.2 <= length i.1.2.
Proof.
  revert i. induction n as [|n IH]; intros [[p f] l]; [done|]. cbn [io_next].
  destruct f as [|x f]; etransitivity; [apply IH|done|apply IH|cbn; lia].
Qed.

Lemma named_kept ent a t : kept t (named_reference ent a t).
Proof.
  unfold named_reference. destruct (find_entity ent t) as [e|].
  - cbv zeta. destruct (a && _ && _).
    all: eexists; (split; [reflexivity|]).
    + autorewrite with st qu. split_and!; try done. rewrite future_io. autorewrite with io. apply io_next_length.
    + case_bool_decide; autorewrite with st qu; split_and!; try done; rewrite future_io; autorewrite with io; apply io_next_length.
  - cbv zeta. eapply kept_trans; [| | |apply ambiguous_kept; lia]; autorewrite with st qu; try done.
    rewrite future_io. by autorewrite with io.
Qed.

Lemma ccr_kept ent a t : kept t (consume_character_reference ent a t).
Proof.
  unfold consume_character_reference. cbv zeta. destruct (future t) as [|x r] eqn:F.
  - rewrite (srn_end (set_tmp _ t) F). unfold kept. rewrite F. kept_tac.
  - rewrite (srn_some (set_tmp _ t) x r F). destruct (is_alnum x); [|destruct (x =? 35)%N].
    + eapply kept_trans; [| | |apply named_kept]; autorewrite with st qu; try done.
      rewrite F, future_io. autorewrite with io. done.
    + set (t1 := push_tmp x _). assert (F1 : io t1 = (x :: past t, r, Some x)) by done.
      apply (kept_trans _ t1); [done|done|rewrite F, future_io, F1; cbn; lia|].
      unfold numeric_reference. assert (F2 : future t1 = r) by done. destruct r as [|y r].
      * rewrite (srn_end _ F2). eapply kept_trans; [| | |apply start_kept]; try done.
      * rewrite (srn_some _ _ _ F2). destruct ((y =? 88) || (y =? 120))%N.
        -- eapply kept_trans; [| | |apply start_kept]; try done. cbn. lia.
        -- eapply kept_trans; [| | |apply start_kept]; autorewrite with st qu; try done.
    + unfold kept. rewrite F. kept_tac.
Qed.

(** ** One step *)
(** what one emission adds to the queue: pending text, if any, and then the token *)
Definition is_text (k : token) : bool := match k with Text _ => true | _ => false end.
Definition chunk (k : token) (l : list token) : Prop := l = [k] \/ exists s, s <> [] /\ l = [Text s; k].
Lemma emit_grows k t : exists l, queue (emit_token k t) = queue t ++ l /\ chunk k l.
Proof.
  unfold emit_token. destruct (consumed (match k with StartTag n _ _ => set_last_start n t | _ => t end)) eqn:E.
  - exists [k]. split; [by destruct k|by left].
  - exists [Text (n :: l); k]. split; [destruct k; cbn in *; by rewrite <- app_assoc|]. right. by exists (n :: l).
Qed.
(** the token in the making is neither text nor the end of the file *)
Definition good (t : tk) : Prop := match cur t with Some (Text _) | Some Eof => False | _ => True end.
Lemma good_cur t t' : cur t' = cur t -> good t -> good t'. Proof. unfold good. by intros ->. Qed.
Ltac gtac := intros G; try exact G;
  match goal with t : tk |- _ => let cu := fresh in destruct t as [? ? ? ? ? ? ? cu]; destruct cu as [[[] ? [] []| | | | |]|] end;
  unfold good, consume_temp_buffer, flush, add_to_token_value, start_public_identifier, add_public_identifier,
    start_system_identifier, add_system_identifier, add_to_token_name, set_quirks, store_attr in *;
  cbn in *; repeat (case_match; cbn); done.
Lemma good_err (e : perror) t : good t -> good (err e t). Proof. gtac. Qed.
Lemma good_set_tmp (s : list N) t : good t -> good (set_tmp s t). Proof. gtac. Qed.
Lemma good_set_last_start (s : list N) t : good t -> good (set_last_start s t). Proof. gtac. Qed.
Lemma good_set_attrs (a : attr_map) t : good t -> good (set_attrs a t). Proof. gtac. Qed.
Lemma good_set_attr (n v : list N) t : good t -> good (set_attr n v t). Proof. gtac. Qed.
Lemma good_consume (x : N) t : good t -> good (consume x t). Proof. gtac. Qed.
Lemma good_consume_str (s : list N) t : good t -> good (consume_str s t). Proof. gtac. Qed.
Lemma good_push_name (x : N) t : good t -> good (push_name x t). Proof. gtac. Qed.
Lemma good_push_value (x : N) t : good t -> good (push_value x t). Proof. gtac. Qed.
Lemma good_push_tmp (x : N) t : good t -> good (push_tmp x t). Proof. gtac. Qed.
Lemma good_add_to_token_value (x : N) t : good t -> good (add_to_token_value x t). Proof. gtac. Qed.
Lemma good_start_public_identifier  t : good t -> good (start_public_identifier t). Proof. gtac. Qed.
Lemma good_add_public_identifier (x : N) t : good t -> good (add_public_identifier x t). Proof. gtac. Qed.
Lemma good_start_system_identifier  t : good t -> good (start_system_identifier t). Proof. gtac. Qed.
Lemma good_add_system_identifier (x : N) t : good t -> good (add_system_identifier x t). Proof. gtac. Qed.
Lemma good_add_to_token_name (x : N) t : good t -> good (add_to_token_name x t). Proof. gtac. Qed.
Lemma good_set_quirks  t : good t -> good (set_quirks t). Proof. gtac. Qed.
Lemma good_store_attr  t : good t -> good (store_attr t). Proof. gtac. Qed.
Lemma good_flush (b : bool) (s : list N) t : good t -> good (flush b s t). Proof. gtac. Qed.
Lemma good_consume_temp_buffer (b : bool) t : good t -> good (consume_temp_buffer b t). Proof. gtac. Qed.
Lemma good_goto (s : tstate) t : good t -> good (goto s t). Proof. gtac. Qed.
Lemma good_transition_to (s : tstate) t : good t -> good (transition_to s t). Proof. gtac. Qed.
Lemma good_set_cur_start t : good (set_cur new_start_tag t). Proof. done. Qed.
Lemma good_set_cur_end t : good (set_cur new_end_tag t). Proof. done. Qed.
Lemma good_set_cur_endn n t : good (set_cur (Some (EndTag n)) t). Proof. done. Qed.
Lemma good_set_cur_comment t : good (set_cur new_comment t). Proof. done. Qed.
Lemma good_set_cur_commentn n t : good (set_cur (Some (Comment n)) t). Proof. done. Qed.
Lemma good_set_cur_doctype t : good (set_cur new_doctype t). Proof. done. Qed.
Lemma good_stream_prev t : good t -> good (stream_prev t).
Proof. unfold stream_prev. by destruct (last_char t), (past t). Qed.
Lemma good_stream_next_n n t : good t -> good (stream_next_n n t).
Proof.
  revert t. induction n as [|n IH]; intros t H; [done|]. cbn. apply IH. revert H. unfold stream_read_and_next.
  by destruct (future t).
Qed.
Lemma good_set_is_closing t : good t -> good (set_is_closing t).
Proof.
  intros H. unfold set_is_closing. destruct (cur t) as [[]|] eqn:E; try done.
  by apply good_stream_next_n, good_err, good_stream_prev.
Qed.
Lemma good_add_stored_attrs t : good t -> good (add_stored_attrs t).
Proof.
  intros H. unfold add_stored_attrs. case_bool_decide; [done|]. destruct (cur t) as [[]|] eqn:E; try done.
  by apply good_stream_next_n, good_err, good_stream_prev.
Qed.
Lemma cur_emit_token k t : cur (emit_token k t) = cur t.
Proof. unfold emit_token. destruct k; cbn; by destruct (consumed t). Qed.
Lemma good_emit_token k t : good t -> good (emit_token k t). Proof. unfold good. by rewrite cur_emit_token. Qed.
Lemma good_emit_current_token t : good t -> good (emit_current_token t).
Proof. intros H. unfold emit_current_token. destruct (cur t) eqn:E; [|done]. by apply good_emit_token. Qed.
Lemma good_finish_tag t : good t -> good (finish_tag t).
Proof. intros H. by apply good_emit_current_token, good_add_stored_attrs, good_store_attr. Qed.
Create HintDb good.
Global Hint Resolve good_err good_set_tmp good_set_last_start good_set_attrs good_set_attr good_consume good_consume_str good_push_name good_push_value good_push_tmp good_add_to_token_value good_start_public_identifier good_add_public_identifier good_start_system_identifier good_add_system_identifier good_add_to_token_name good_set_quirks good_store_attr good_flush good_consume_temp_buffer good_goto good_transition_to good_set_cur_start good_set_cur_end
  good_set_cur_endn good_set_cur_comment good_set_cur_commentn good_set_cur_doctype good_stream_prev good_stream_next_n
  good_set_is_closing good_add_stored_attrs good_emit_token good_emit_current_token good_finish_tag : good.

(** nothing was emitted, or a token other than text and the end of the file *)
Definition grows (t t' : tk) : Prop :=
  queue t' = queue t \/ exists k l, queue t' = queue t ++ l /\ chunk k l /\ is_text k = false /\ k <> Eof.
Lemma grows_eq t t' : queue t' = queue t -> grows t t'.
Proof. by left. Qed.
Lemma grows_emit t t0 k : queue t0 = queue t -> is_text k = false -> k <> Eof -> grows t (emit_token k t0).
Proof. intros E H1 H2. right. destruct (emit_grows k t0) as (l & A & B). exists k, l. by rewrite A, E. Qed.
Lemma grows_emit_cur t t0 : queue t0 = queue t -> good t0 -> grows t (emit_current_token t0).
Proof.
  intros E H. unfold good in H. unfold emit_current_token. destruct (cur t0) as [k|] eqn:C; [|by apply grows_eq].
  apply grows_emit; [done|by destruct k|by intros ->].
Qed.
Lemma grows_goto t t0 s : grows t t0 -> grows t (goto s t0). Proof. done. Qed.
Lemma grows_last_start t t0 s : grows t t0 -> grows t (set_last_start s t0). Proof. done. Qed.
Lemma grows_finish t t0 : queue t0 = queue t -> good t0 -> grows t (finish_tag t0).
Proof.
  intros E H. apply grows_emit_cur; [|by apply good_add_stored_attrs, good_store_attr].
  by rewrite q_add_stored_attrs, q_store_attr.
Qed.
