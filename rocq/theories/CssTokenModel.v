(** Model of the CSS tokenizer: crates/gosub_css3/src/tokenizer.rs.

    The stream is what is left of the decoded text (gosub_shared/src/byte_stream.rs,
    modelled in [ByteStreamModel]); it comes from [ByteStream::from_str] with the
    default configuration, so it is closed and has no surrogates, and a CR followed by
    LF is read as one LF. Locations are left out. Whether a code point beyond ASCII is
    numeric ([char::is_numeric]) is an argument. *)
From Verif Require Import Base Text.
Local Open Scope N_scope.

(** tokenizer.rs:12-72, without comments, which are never produced. A number is
    kept as its text: its value is [text.parse().unwrap_or(0.0)]. *)
Inductive token :=
| TAt (v : str) | TIdent (v : str) | TFunction (v : str) | TRange (v : str)
| TUrl (v : str) | TBadUrl (v : str)
| TDimension (n unit : str) | TPercentage (n : str) | TNumber (n : str)
| TString (v : str) | TBadString (v : str) | TWhitespace (c : N) | THash (v : str)
| TDelim (c : N)
| TLCurly | TRCurly | TLParen | TRParen | TLBracket | TRBracket
| TComma | TColon | TSemicolon | TCdo | TCdc | TEof.

Global Instance token_eq_dec : EqDecision token.
Proof. solve_decision. Defined.

(** byte_stream.rs:193-208: read a character and advance; at the end, NUL after the
    conversion to [char] (byte_stream.rs:53-60). *)
Definition next (s : str) : N * str :=
  match s with
  | [] => (0, [])
  | 13 :: 10 :: r => (10, r)
  | c :: r => (c, r)
  end.
Definition skip (s : str) : str := snd (next s).

(** [char::is_whitespace]: the code points of the property White_Space. *)
Definition is_white (c : N) : bool :=
  ((9 <=? c) && (c <=? 13)) || (c =? 32) || (c =? 0x85) || (c =? 0xA0) || (c =? 0x1680)
  || ((0x2000 <=? c) && (c <=? 0x200A)) || (c =? 0x2028) || (c =? 0x2029) || (c =? 0x202F)
  || (c =? 0x205F) || (c =? 0x3000).

(** [char::is_ascii_hexdigit]. *)
Definition is_hex (c : N) : bool :=
  ((48 <=? c) && (c <=? 57)) || ((65 <=? c) && (c <=? 70)) || ((97 <=? c) && (c <=? 102)).

(** tokenizer.rs:886-888; beyond ASCII the second disjunct holds. *)
Definition is_ident_start (c : N) : bool :=
  ((65 <=? c) && (c <=? 90)) || ((97 <=? c) && (c <=? 122)) || (128 <=? c) || (c =? 95).

(** Is the first character of the stream in a set? *)
Definition at_char (P : N -> bool) (s : str) : bool := match s with c :: _ => P c | [] => false end.
Definition is_char (c : N) (s : str) : bool := at_char (N.eqb c) s.

(** tokenizer.rs:909-914. *)
Definition is_start_of_escape (s : str) : bool :=
  is_char 92 s && negb (is_char 10 (drop 1 s)).

(** tokenizer.rs:917-930. *)
Definition starts_ident (s : str) : bool :=
  if is_char 45 s then
    at_char is_ident_start (drop 1 s) || is_char 45 (drop 1 s) || is_start_of_escape (drop 1 s)
  else if is_char 92 s then is_start_of_escape s
  else at_char is_ident_start s.

(** tokenizer.rs:879-883. *)
Fixpoint consume_whitespace (s : str) : str :=
  match s with
  | c :: r =>
      if is_white c then
        match c, r with
        | 13, 10 :: r' => consume_whitespace r'
        | _, _ => consume_whitespace r
        end
      else s
  | [] => []
  end.

(** tokenizer.rs:787-789: at most [n] hexadecimal digits. *)
Fixpoint take_hex (n : nat) (s : str) : str * str :=
  match n, s with
  | S n, c :: r => if is_hex c then let (h, t) := take_hex n r in (c :: h, t) else ([], s)
  | _, _ => ([], s)
  end.

(** [u32::from_str_radix(_, 16)] on hexadecimal digits. *)
Definition hex_digit (c : N) : N :=
  if c <=? 57 then c - 48 else if c <=? 70 then c - 55 else c - 87.
Definition hex_value (v : str) : N := fold_left (fun n c => 16 * n + hex_digit c) v 0.

(** tokenizer.rs:795-813, [char::from_u32] included. *)
Definition escaped_char (v : str) : N :=
  match v with
  | [] => 0xFFFD
  | _ =>
      let n := hex_value v in
      if (n =? 0) || (0x10FFFF <=? n) || ((0xD800 <=? n) && (n <=? 0xDFFF)) then 0xFFFD else n
  end.

(** tokenizer.rs:775-814. *)
Definition consume_escaped (s : str) : N * str :=
  let s := skip s in
  match s with
  | [] => (0xFFFD, [])
  | _ =>
      let (v, s) := take_hex 6 s in
      (escaped_char v, if at_char is_white s then skip s else s)
  end.

(** tokenizer.rs:830-841 and 624-636: a backslash before something that is neither
    a hexadecimal digit nor the end. *)
Definition plain_escape (s : str) : bool :=
  match s with 92 :: c :: _ => negb (is_hex c) | _ => false end.

Section numeric.
Context (beyond : N -> bool).

(** [char::is_numeric]. *)
Definition is_numeric (c : N) : bool :=
  if c <? 128 then (48 <=? c) && (c <=? 57) else beyond c.

(** tokenizer.rs:891-893. *)
Definition is_ident_char (c : N) : bool := is_ident_start c || is_numeric c || (c =? 45).

(** tokenizer.rs:932-939. *)
Definition is_signed_decimal (s : str) : bool :=
  at_char (fun c => (c =? 43) || (c =? 45)) s
  && ((is_char 46 (drop 1 s) && at_char is_numeric (drop 2 s)) || at_char is_numeric (drop 1 s)).

(** tokenizer.rs:822-856. *)
Fixpoint consume_ident (fuel : nat) (s : str) : res (str * str) :=
  match fuel with
  | O => Diverge
  | S fuel =>
      if plain_escape s then
        let (c, r) := next (skip s) in
        let* (v, r) := consume_ident fuel r in Ok (c :: v, r)
      else if is_start_of_escape s then
        let (c, r) := consume_escaped s in
        let* (v, r) := consume_ident fuel r in Ok (c :: v, r)
      else
        match s with
        | c :: _ =>
            if is_ident_char c then
              let* (v, r) := consume_ident fuel (skip s) in Ok (c :: v, r)
            else Ok ([], s)
        | [] => Ok ([], [])
        end
  end.

(** tokenizer.rs:858-866. *)
Fixpoint consume_digits (s : str) : str * str :=
  match s with
  | c :: r => if is_numeric c then let (v, t) := consume_digits r in (c :: v, t) else ([], s)
  | [] => ([], [])
  end.

(** tokenizer.rs:650-682: the text of the number, in four parts. *)
Definition take_sign (s : str) : str * str :=
  if at_char (fun c => (c =? 43) || (c =? 45)) s then let (c, r) := next s in ([c], r) else ([], s).
Definition take_two_digits (s : str) : str * str :=
  let (a, r) := next s in
  let (b, r) := next r in
  let (v, r) := consume_digits r in (a :: b :: v, r).
Definition take_fraction (s : str) : str * str :=
  if is_char 46 s && at_char is_numeric (drop 1 s) then take_two_digits s else ([], s).
Definition take_exponent (s : str) : str * str :=
  if at_char (fun c => (c =? 69) || (c =? 101)) s
     && ((at_char (fun c => (c =? 45) || (c =? 43)) (drop 1 s) && at_char is_numeric (drop 2 s))
         || at_char is_numeric (drop 1 s))
  then take_two_digits s
  else ([], s).
Definition consume_number (s : str) : str * str :=
  let (sign, s) := take_sign s in
  let (whole, s) := consume_digits s in
  let (fraction, s) := take_fraction s in
  let (exponent, s) := take_exponent s in
  (sign ++ whole ++ fraction ++ exponent, s).

(** tokenizer.rs:519-535. *)
Definition consume_numeric (fuel : nat) (s : str) : res (token * str) :=
  let (n, s) := consume_number s in
  if starts_ident s then
    let* (unit, s) := consume_ident fuel s in Ok (TDimension n unit, s)
  else if is_char 37 s then Ok (TPercentage n, skip s)
  else Ok (TNumber n, s).

(** tokenizer.rs:540-543. *)
Definition starts_range (s : str) : bool :=
  is_char 43 (drop 1 s) && at_char (fun c => is_hex c || (c =? 63)) (drop 2 s).

(** tokenizer.rs:571-575: at most [n] question marks. *)
Fixpoint take_marks (n : nat) (s : str) : str * str :=
  match n, s with
  | S n, 63 :: r => let (v, t) := take_marks n r in (63 :: v, t)
  | _, _ => ([], s)
  end.

(** tokenizer.rs:549-591. *)
Definition consume_range (s : str) : token * str :=
  let (a, s) := next s in
  let (b, s) := next s in
  let (h, s) := take_hex 6 s in
  let (q, s) := take_marks (6 - length h) s in
  let (e, s) :=
    if is_char 45 s && at_char is_hex (drop 1 s) then
      let (d, r) := next s in
      let (v, r) := take_hex 6 r in (d :: v, r)
    else ([], s) in
  (TRange (a :: b :: h ++ q ++ e), s).

(** tokenizer.rs:596-645 after the opening quote: was it bad, the value, the rest. *)
Fixpoint string_body (fuel : nat) (ending : N) (s : str) : res (bool * str * str) :=
  match fuel with
  | O => Diverge
  | S fuel =>
      if is_char ending s || (match s with [] => true | _ => false end) then Ok (false, [], skip s)
      else if is_char 10 s then Ok (true, [], s)
      else if is_char 92 s && is_char 10 (drop 1 s) then
        string_body fuel ending (skip (skip s))
      else
        let (c, r) :=
          if plain_escape s then next (skip s)
          else if is_start_of_escape s then consume_escaped s
          else next s in
        let* (bad, v, r) := string_body fuel ending r in Ok (bad, c :: v, r)
  end.

Definition consume_string (fuel : nat) (s : str) : res (token * str) :=
  let (ending, s) := next s in
  let* (bad, v, s) := string_body fuel ending s in
  Ok (if (bad : bool) then TBadString v else TString v, s).

(** tokenizer.rs:896-906; the constant named Tab is U+000B (unicode.rs). *)
Definition is_non_printable (c : N) : bool :=
  (c <=? 8) || ((14 <=? c) && (c <=? 31)) || (c =? 11) || (c =? 127).

(** tokenizer.rs:758-772. *)
Fixpoint bad_url_rest (fuel : nat) (s : str) : res str :=
  match fuel with
  | O => Diverge
  | S fuel =>
      if is_char 41 s || (match s with [] => true | _ => false end) then Ok s
      else
        let s := if is_start_of_escape s then snd (consume_escaped s) else s in
        bad_url_rest fuel (skip s)
  end.

(** tokenizer.rs:714-753. *)
Fixpoint url_body (fuel : nat) (s : str) : res (bool * str * str) :=
  match fuel with
  | O => Diverge
  | S fuel =>
      if is_char 41 s then Ok (false, [], skip s)
      else if match s with [] => true | _ => false end then Ok (false, [], s)
      else if at_char is_white s then url_body fuel (consume_whitespace s)
      else if at_char (fun c => (c =? 34) || (c =? 39) || (c =? 40)) s || at_char is_non_printable s then
        let* r := bad_url_rest (S (length s)) s in Ok (true, [], r)
      else
        let (c, r) := if is_start_of_escape s then consume_escaped s else next s in
        let* (bad, v, r) := url_body fuel r in Ok (bad, c :: v, r)
  end.

Definition consume_url (fuel : nat) (s : str) : res (token * str) :=
  let* (bad, v, s) := url_body fuel (consume_whitespace s) in
  Ok (if (bad : bool) then TBadUrl v else TUrl v, s).

(** tokenizer.rs:687-709. *)
Definition consume_ident_like (fuel : nat) (s : str) : res (token * str) :=
  let* (v, s) := consume_ident fuel s in
  if bool_decide (v = txt "url") && is_char 40 s then
    let s := consume_whitespace (skip s) in
    if at_char (fun c => (c =? 34) || (c =? 39)) s then Ok (TFunction v, s)
    else consume_url fuel s
  else if is_char 40 s then Ok (TFunction v, skip s)
  else Ok (TIdent v, s).

(** tokenizer.rs:500-515 after the opening; what the comment says is dropped, so
    whether CR LF counts as one does not matter. *)
Fixpoint comment_rest (s : str) : str :=
  match s with
  | [] => []
  | 42 :: 47 :: r => r
  | _ :: r => comment_rest r
  end.

(** tokenizer.rs:350-352. *)
Fixpoint skip_comments (fuel : nat) (s : str) : res str :=
  match fuel with
  | O => Diverge
  | S fuel =>
      match s with
      | 47 :: 42 :: r => skip_comments fuel (comment_rest r)
      | _ => Ok s
      end
  end.

(** tokenizer.rs:984-995, [look_ahead_slice(n) == text]. *)
Definition looking_at (text s : str) : bool := bool_decide (take (length text) s = text).

(** tokenizer.rs:354-497, a token after the comments. *)
Definition token_here (fuel : nat) (s : str) : res (token * str) :=
  match s with
  | [] => Ok (TEof, [])
  | c :: _ =>
      if is_white c then Ok (TWhitespace c, consume_whitespace s)
      else if (c =? 34) || (c =? 39) then consume_string fuel s
      else if c =? 35 then
        let r := skip s in
        if at_char is_ident_char r || is_start_of_escape r then
          let* (v, r) := consume_ident fuel r in Ok (THash v, r)
        else Ok (TDelim c, r)
      else if c =? 41 then Ok (TRParen, skip s)
      else if c =? 40 then Ok (TLParen, skip s)
      else if c =? 91 then Ok (TLBracket, skip s)
      else if c =? 93 then Ok (TRBracket, skip s)
      else if c =? 123 then Ok (TLCurly, skip s)
      else if c =? 125 then Ok (TRCurly, skip s)
      else if c =? 44 then Ok (TComma, skip s)
      else if c =? 58 then Ok (TColon, skip s)
      else if c =? 59 then Ok (TSemicolon, skip s)
      else if c =? 43 then
        if is_signed_decimal s then consume_numeric fuel s else Ok (TDelim c, skip s)
      else if c =? 46 then
        if at_char is_numeric (drop 1 s) then consume_numeric fuel s else Ok (TDelim c, skip s)
      else if c =? 45 then
        if is_signed_decimal s then consume_numeric fuel s
        else if looking_at (txt "-->") s then Ok (TCdc, skip (skip (skip s)))
        else if starts_ident s then consume_ident_like fuel s
        else Ok (TDelim c, skip s)
      else if c =? 60 then
        if looking_at (txt "<!--") s then Ok (TCdo, skip (skip (skip (skip s))))
        else Ok (TDelim c, skip s)
      else if c =? 64 then
        let r := skip s in
        if starts_ident r then let* (v, r) := consume_ident fuel r in Ok (TAt v, r)
        else Ok (TDelim c, r)
      else if c =? 92 then
        if is_start_of_escape s then consume_ident_like fuel s else Ok (TDelim c, skip s)
      else if is_numeric c then consume_numeric fuel s
      else if ((c =? 117) || (c =? 85)) && starts_range s then Ok (consume_range s)
      else if is_ident_start c then consume_ident_like fuel s
      else Ok (TDelim c, skip s)
  end.

(** tokenizer.rs:342-497; [first] says that no token was produced before. *)
Definition consume_token (first : bool) (s : str) : res (token * str) :=
  let s := if first && is_char 0xFEFF s then skip s else s in
  let fuel := S (length s) in
  let* s := skip_comments fuel s in
  token_here fuel s.

(** The tokens of a text up to the first [TEof]: what [consume] returns call by
    call (see the cursor below). *)
Fixpoint tokens_from (fuel : nat) (first : bool) (s : str) : res (list token) :=
  match fuel with
  | O => Diverge
  | S fuel =>
      let* (t, s) := consume_token first s in
      match t with
      | TEof => Ok [TEof]
      | _ => let* ts := tokens_from fuel false s in Ok (t :: ts)
      end
  end.
Definition tokenize (s : str) : res (list token) := tokens_from (S (length s)) true s.

(** * The cursor *)

(** tokenizer.rs:225-231. *)
Record cursor := mk_cursor { cu_stream : str; cu_position : nat; cu_tokens : list token }.

(** tokenizer.rs:236-243. *)
Definition new_cursor (s : str) : cursor := mk_cursor s 0 [].

(** [let token = self.consume_token(); self.tokens.push(token)]. *)
Definition fetch (c : cursor) : res cursor :=
  let* (t, s) := consume_token (match cu_tokens c with [] => true | _ => false end) (cu_stream c) in
  Ok (mk_cursor s (cu_position c) (cu_tokens c ++ [t])).

(** tokenizer.rs:310-322. *)
Definition consume (c : cursor) : res (token * cursor) :=
  let* c :=
    if (match cu_tokens c with [] => true | _ => false end) || (length (cu_tokens c) =? cu_position c)%nat
    then fetch c else Ok c in
  let* t := of_opt (cu_tokens c !! cu_position c) in
  Ok (t, mk_cursor (cu_stream c) (S (cu_position c)) (cu_tokens c)).

(** tokenizer.rs:295-298. *)
Fixpoint fetch_to (fuel n : nat) (c : cursor) : res cursor :=
  if (length (cu_tokens c) <? n)%nat then
    match fuel with
    | O => Diverge
    | S fuel => let* c := fetch c in fetch_to fuel n c
    end
  else Ok c.

(** tokenizer.rs:294-309. *)
Definition lookahead (offset : nat) (c : cursor) : res (token * cursor) :=
  let n := (cu_position c + offset + 1)%nat in
  let* c := fetch_to n n c in
  Ok (default TEof (cu_tokens c !! (cu_position c + offset)%nat), c).

(** tokenizer.rs:325-329. *)
Definition reconsume (c : cursor) : cursor :=
  mk_cursor (cu_stream c) (pred (cu_position c)) (cu_tokens c).

(** tokenizer.rs:277-289. *)
Fixpoint lookahead_sc (fuel offset : nat) (c : cursor) : res (token * cursor) :=
  match fuel with
  | O => Diverge
  | S fuel =>
      let* (t, c) := lookahead offset c in
      match t with
      | TWhitespace _ => lookahead_sc fuel (S offset) c
      | _ => Ok (t, c)
      end
  end.

(** tokenizer.rs:257-259. *)
Definition at_eof (c : cursor) : bool :=
  (match cu_stream c with [] => true | _ => false end) && (length (cu_tokens c) <=? cu_position c)%nat.
End numeric.
