(** C97-C99: the tokens of a style sheet. *)
From Coq Require Import ZifyBool.
From Verif Require Import Base Text CssTokenModel CssTokenSpec CssTokenProofs CssTokenRead CssTokenCursor.
Local Open Scope N_scope.

(** C97: reading any text ends, without a crash, in finitely many tokens: at most one
    for each character, followed by the end, which comes once. *)
Theorem C97_ends beyond s :
  exists ts, tokenize beyond s = Ok (ts ++ [TEof]) /\ TEof ∉ ts /\ (length ts <= length s)%nat.
Proof. apply tokens_from_total. lia. Qed.
Print Assumptions C97_ends.

(** A text that reaches most recoveries: an open string, a bad url, an escape at the
    end, an open comment. *)
Example C97_example :
  tokenize (fun _ => false) (txt "a'b" ++ [10] ++ txt "url(x'y)\")
  = Ok [TIdent (txt "a"); TBadString (txt "b"); TWhitespace 10; TBadUrl (txt "x"); TRParen;
        TIdent [0xFFFD]; TEof].
Proof. vm_compute. reflexivity. Qed.
Example C97_open : tokenize (fun _ => false) (txt "a/*b") = Ok [TIdent (txt "a"); TEof].
Proof. vm_compute. reflexivity. Qed.

(** C98: a text written as a sequence of CSS pieces is read as their tokens, comments
    dropped, with or without a byte order mark. *)
Theorem C98_reads_partial beyond s ts : written beyond s ts ->
  (~ begins (fun c => c = 0xFEFF) s -> tokenize beyond s = Ok (ts ++ [TEof]))
  /\ tokenize beyond (0xFEFF :: s) = Ok (ts ++ [TEof]).
Proof. intros H. split; [by apply tokenize_written|by apply tokenize_marked]. Qed.
Print Assumptions C98_reads_partial.

Ltac chars :=
  try lazymatch goal with
  | |- ~ ?f ?c => let c' := eval vm_compute in c in change (~ f c')
  | |- ?f ?c => let c' := eval vm_compute in c in change (f c')
  end;
  cbv beta delta [name_char name_start foreign letter digit hex newline css_white any_white
  css_name css_start string_char url_char numeral] in *; lia.
Ltac no_begin := let c := fresh in let E := fresh in intros (c & ? & E & ?); vm_compute in E;
  first [discriminate E | injection E as E _; subst c; chars].
Example C98_example beyond :
  written beyond (txt "#a\26 b{c:-.5px 'q\'r'}/*x*/d")
    [THash (txt "a&b"); TLCurly; TIdent (txt "c"); TColon; TDimension (txt "-.5") (txt "px"); TWhitespace 32;
     TString (txt "q'r"); TRCurly; TIdent (txt "d")].
Proof.
  assert (Hp : forall c t v, name_char beyond c -> name_text beyond t v -> name_text beyond (c :: t) (c :: v))
    by (intros; by apply body_plain).
  assert (Hq : forall c t v, string_char 39 c -> string_text 39 t v -> string_text 39 (c :: t) (c :: v))
    by (intros; by apply body_plain).
  change (written beyond (txt "#a\26 b" ++ txt "{" ++ txt "c" ++ txt ":" ++ txt "-.5px" ++ txt " " ++ txt "'q\'r'"
      ++ txt "}" ++ txt "/*x*/" ++ txt "d" ++ [])
    ([THash (txt "a&b")] ++ [TLCurly] ++ [TIdent (txt "c")] ++ [TColon] ++ [TDimension (txt "-.5") (txt "px")]
      ++ [TWhitespace 32] ++ [TString (txt "q'r")] ++ [TRCurly] ++ [] ++ [TIdent (txt "d")] ++ [])).
  repeat apply written_piece; [..|constructor].
  - apply (p_hash beyond (txt "a\26 b")); [|done|unfold name_ends; no_begin].
    apply Hp; [chars|]. apply (body_code _ _ _ _ (txt "26") [32] 38); [|unfold closer; auto|].
    + exists 38. change (length (txt "26")) with 2%nat. split; [|unfold scalar; lia].
      apply (hex_dec [50] 2 54); [|chars]. apply (hex_dec [] 0 50); [constructor|chars].
    + apply Hp; [chars|constructor].
  - apply p_lcurly.
  - apply p_ident; [|unfold name_ends; no_begin|no_begin|..].
    + split; [apply Hp; [chars|constructor]|]. left. exists 99, []. split; [done|]. left. chars.
    + intros [? _]. done.
    + intros [[?|?] _]; done.
  - apply p_colon.
  - apply (p_dimension beyond (txt "-.5") (txt "px")); [| | |unfold name_ends; no_begin].
    + exists [45], [], [46; 53], []. split; [done|]. split; [unfold sign; auto|]. split; [done|].
      split; [right; exists [53]; repeat constructor; [done|chars..]|]. split; [by right|by left].
    + split; [repeat (apply Hp; [chars|]); constructor|]. left. exists 112, [120]. split; [done|]. left. chars.
    + intros (x & sg & d & r & E & Hx & _). cbn in E. injection E as <- _. lia.
  - apply p_white; [chars|constructor|no_begin].
  - apply (p_string beyond 39 (txt "q\'r") (txt "q'r")); [by right|].
    apply Hq; [chars|]. apply body_simple; [done|chars|chars|]. apply Hq; [chars|]. constructor.
  - apply p_rcurly.
  - apply (p_comment beyond (txt "x")). intros x y E. destruct x as [|? [|? [|? x]]]; done.
  - apply p_ident; [|unfold name_ends; no_begin|no_begin|..].
    + split; [apply Hp; [chars|constructor]|]. left. exists 100, []. split; [done|]. left. chars.
    + intros [? _]. done.
    + intros [[?|?] _]; done.
Qed.

(** C98: every name and every string can be written: the tokenizer returns it for some
    text. *)
Theorem C98_names beyond v : Forall scalar v -> v <> [] -> exists t, tokenize beyond t = Ok [TIdent v; TEof].
Proof. apply name_exists. Qed.
Print Assumptions C98_names.
Theorem C98_strings beyond v : Forall scalar v -> exists t, tokenize beyond t = Ok [TString v; TEof].
Proof. apply string_exists. Qed.
Print Assumptions C98_strings.
Example C98_scalars : Forall scalar (txt "1 \'" ++ [10; 0xA0; 0x1F600]).
Proof.
  change (Forall scalar [49; 32; 92; 39; 10; 0xA0; 0x1F600]).
  repeat (apply Forall_cons; split; [unfold scalar; lia|]). by apply Forall_nil.
Qed.

(** Where CSS says otherwise. A no-break space begins a name; here it is white space. *)
Theorem C98_nbsp_refuted beyond : tokenize beyond [0xA0; 97] = Ok [TWhitespace 0xA0; TIdent (txt "a"); TEof].
Proof. vm_compute. reflexivity. Qed.
Print Assumptions C98_nbsp_refuted.
(** A numeral beyond ASCII begins a name; here it begins a number. *)
Theorem C98_numeral_refuted beyond : beyond 0xB2 = true ->
  tokenize beyond [0xB2; 97] = Ok [TDimension [0xB2] (txt "a"); TEof].
Proof.
  intros H. unfold tokenize. cbn [length tokens_from]. unfold consume_token. cbn [length skip_comments andb is_char at_char N.eqb Pos.eqb rbind].
  cbn [token_here]. change (is_white 0xB2) with false. cbn [N.eqb Pos.eqb orb].
  unfold is_numeric at 1. cbn [N.ltb N.compare Pos.compare Pos.compare_cont]. rewrite H.
  unfold consume_numeric, consume_number, take_sign. cbn [at_char N.eqb Pos.eqb orb consume_digits].
  unfold is_numeric at 1. cbn [N.ltb N.compare Pos.compare Pos.compare_cont]. rewrite H. vm_compute. reflexivity.
Qed.
Print Assumptions C98_numeral_refuted.
(** The last code point may be escaped; here it is replaced. *)
Theorem C98_last_refuted beyond : tokenize beyond (txt "\10FFFF") = Ok [TIdent [0xFFFD]; TEof].
Proof. vm_compute. reflexivity. Qed.
Print Assumptions C98_last_refuted.
(** Function names are case-insensitive; here [URL(x)] is not a url. *)
Theorem C98_url_case_refuted beyond :
  tokenize beyond (txt "URL(x)") = Ok [TFunction (txt "URL"); TIdent (txt "x"); TRParen; TEof].
Proof. vm_compute. reflexivity. Qed.
Print Assumptions C98_url_case_refuted.
(** An escaped bracket belongs to the url; here it ends it. *)
Theorem C98_url_escape_refuted beyond :
  tokenize beyond (txt "url(a\)b)") = Ok [TUrl [97; 0xFFFD]; TIdent (txt "b"); TRParen; TEof].
Proof. vm_compute. reflexivity. Qed.
Print Assumptions C98_url_escape_refuted.
(** White space inside a url makes it bad; here it is dropped. *)
Theorem C98_url_space_refuted beyond : tokenize beyond (txt "url(a b)") = Ok [TUrl (txt "ab"); TEof].
Proof. vm_compute. reflexivity. Qed.
Print Assumptions C98_url_space_refuted.
(** A bad url ends after its closing bracket; here the bracket is a token of its own. *)
Theorem C98_bad_url_refuted beyond :
  tokenize beyond (txt "url(a'b)c") = Ok [TBadUrl (txt "a"); TRParen; TIdent (txt "c"); TEof].
Proof. vm_compute. reflexivity. Qed.
Print Assumptions C98_bad_url_refuted.
(** A backslash before a line end is not an escape; here it is, inside a name. *)
Theorem C98_name_line_refuted beyond :
  tokenize beyond (txt "a\" ++ [10] ++ txt "b") = Ok [TIdent (txt "a" ++ [10] ++ txt "b"); TEof].
Proof. vm_compute. reflexivity. Qed.
Print Assumptions C98_name_line_refuted.
(** A string continues on the next line whatever the line end; here CR LF is kept. *)
Theorem C98_string_line_refuted beyond :
  tokenize beyond (txt "'\" ++ [13; 10] ++ txt "'") = Ok [TString [10]; TEof].
Proof. vm_compute. reflexivity. Qed.
Print Assumptions C98_string_line_refuted.
(** A form feed or a lone CR is a line end; here neither breaks a string. *)
Theorem C98_string_feed_refuted beyond :
  tokenize beyond (txt "'a" ++ [12] ++ txt "'") = Ok [TString (txt "a" ++ [12]); TEof]
  /\ tokenize beyond (txt "'a" ++ [13] ++ txt "'") = Ok [TString (txt "a" ++ [13]); TEof].
Proof. split; vm_compute; reflexivity. Qed.
Print Assumptions C98_string_feed_refuted.
(** NUL is read as U+FFFD, part of a name; here it is a delimiter. *)
Theorem C98_nul_refuted beyond : tokenize beyond [97; 0; 98] = Ok [TIdent [97]; TDelim 0; TIdent [98]; TEof].
Proof. vm_compute. reflexivity. Qed.
Print Assumptions C98_nul_refuted.

(** C99: whatever sequence of consuming, looking ahead and going back the parser makes,
    each answer is the token of one fixed list at the position counted from those calls;
    no call crashes, and looking ahead never changes what is read next. *)
Theorem C99_cursor beyond s :
  exists ts, tokenize beyond s = Ok ts
    /\ forall os, cursor_calls beyond (new_cursor s) os = Ok (list_calls ts 0 os).
Proof.
  destruct (tokens_from_total beyond (S (length s)) true s) as (ts & H & _); [lia|].
  exists (ts ++ [TEof]). split; [done|]. intros os. by apply calls_reads, reads_new.
Qed.
Print Assumptions C99_cursor.

Example C99_example :
  cursor_calls (fun _ => false) (new_cursor (txt "a b"))
    [Lookahead 2; Consume; Consume; Reconsume; Lookahead 5; Consume; Consume; Consume; Reconsume; Reconsume; Consume]
  = Ok [Some (TIdent (txt "b")); Some (TIdent (txt "a")); Some (TWhitespace 32); None; Some TEof;
        Some (TWhitespace 32); Some (TIdent (txt "b")); Some TEof; None; None; Some (TIdent (txt "b"))].
Proof. vm_compute. reflexivity. Qed.
