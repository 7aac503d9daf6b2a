(** How CSS is written (CSS Syntax level 3, sections 4.2 and 4.3, and CSSOM for the
    way names and strings are serialized), independently of how it is read. *)
From Verif Require Import Base Text CssTokenModel.
Local Open Scope N_scope.

(** * Characters *)
Definition letter (c : N) : Prop := 65 <= c <= 90 \/ 97 <= c <= 122.
Definition digit (c : N) : Prop := 48 <= c <= 57.
Definition hex (c : N) : Prop := digit c \/ 65 <= c <= 70 \/ 97 <= c <= 102.
Definition newline (c : N) : Prop := c = 10 \/ c = 12 \/ c = 13.
Definition css_white (c : N) : Prop := newline c \/ c = 9 \/ c = 32.

(** White space in Unicode's sense. *)
Definition any_white (c : N) : Prop :=
  9 <= c <= 13 \/ c = 32 \/ c = 0x85 \/ c = 0xA0 \/ c = 0x1680 \/ 0x2000 <= c <= 0x200A
  \/ c = 0x2028 \/ c = 0x2029 \/ c = 0x202F \/ c = 0x205F \/ c = 0x3000.

Definition sign (s : str) : Prop := s = [] \/ s = [43] \/ s = [45].

(** The first character, and the first two characters, of a text. *)
Definition begins (P : N -> Prop) (s : str) : Prop := exists c r, s = c :: r /\ P c.
Definition begins2 (P Q : N -> Prop) (s : str) : Prop := exists c d r, s = c :: d :: r /\ P c /\ Q d.

(** A character CSS allows in a name, and at its start. *)
Definition css_start (c : N) : Prop := letter c \/ c = 95 \/ 128 <= c.
Definition css_name (c : N) : Prop := css_start c \/ digit c \/ c = 45.

(** * Escapes *)
Inductive hex_code : str -> N -> Prop :=
| hex_nil : hex_code [] 0
| hex_dec h n c : hex_code h n -> digit c -> hex_code (h ++ [c]) (16 * n + (c - 48))
| hex_upper h n c : hex_code h n -> 65 <= c <= 70 -> hex_code (h ++ [c]) (16 * n + (c - 55))
| hex_lower h n c : hex_code h n -> 97 <= c <= 102 -> hex_code (h ++ [c]) (16 * n + (c - 87)).

(** A code point a text may hold, NUL excepted; the last one, U+10FFFF, is left out
    ([C98_last_refuted]). *)
Definition scalar (n : N) : Prop := 0 < n < 0x10FFFF /\ ~ 0xD800 <= n <= 0xDFFF.

(** One to six hexadecimal digits, and the character they stand for. *)
Definition code_text (h : str) (c : N) : Prop :=
  exists n, hex_code h n /\ (1 <= length h <= 6)%nat /\ n <> 0x10FFFF
    /\ ((scalar n /\ c = n) \/ (~ scalar n /\ c = 0xFFFD)).

(** The white space that closes such an escape. *)
Definition closer (w : str) : Prop := w = [9] \/ w = [10] \/ w = [12] \/ w = [32] \/ w = [13; 10].

(** The body of a name, string or url: [plain] characters and escapes. [line] allows a
    backslash before a line feed, which stands for nothing; [simple] allows a backslash
    before a character that is not hexadecimal; [stop] is what follows the body, for an
    escape that is not closed by white space. *)
Inductive body_text (plain : N -> Prop) (line simple : Prop) (stop : str) : str -> str -> Prop :=
| body_nil : body_text plain line simple stop [] []
| body_plain c t v :
    plain c -> body_text plain line simple stop t v ->
    body_text plain line simple stop (c :: t) (c :: v)
| body_simple c t v :
    simple -> ~ hex c -> ~ newline c -> body_text plain line simple stop t v ->
    body_text plain line simple stop (92 :: c :: t) (c :: v)
| body_line t v :
    line -> body_text plain line simple stop t v ->
    body_text plain line simple stop (92 :: 10 :: t) v
| body_code h w c t v :
    code_text h c -> closer w -> body_text plain line simple stop t v ->
    body_text plain line simple stop (92 :: h ++ w ++ t) (c :: v)
| body_open h c t v :
    code_text h c -> begins (fun _ => True) (t ++ stop) -> ~ begins any_white (t ++ stop) ->
    (length h = 6%nat \/ ~ begins hex (t ++ stop)) -> body_text plain line simple stop t v ->
    body_text plain line simple stop (92 :: h ++ t) (c :: v).

Section spec.
(** The code points beyond ASCII that Unicode calls numeric. *)
Context (beyond : N -> bool).

(** Name characters; beyond ASCII those that are neither white space nor numeric
    ([C98_nbsp_refuted], [C98_numeral_refuted]). *)
Definition foreign (c : N) : Prop := 128 <= c /\ ~ any_white c /\ beyond c = false.
Definition name_start (c : N) : Prop := letter c \/ c = 95 \/ foreign c.
Definition name_char (c : N) : Prop := name_start c \/ digit c \/ c = 45.
Definition numeral (c : N) : Prop := digit c \/ (128 <= c /\ beyond c = true).

(** A name, and a name that may be an identifier. *)
Definition name_text (t v : str) : Prop := body_text name_char False True [] t v.
Definition ident_text (t v : str) : Prop :=
  name_text t v
  /\ (begins (fun c => name_start c \/ c = 92) t
      \/ begins2 (fun c => c = 45) (fun c => name_start c \/ c = 45 \/ c = 92) t).

(** What may not follow a name. *)
Definition name_ends (rest : str) : Prop := ~ begins (fun c => css_name c \/ c = 92) rest.

(** "Would start an identifier". *)
Definition escape_starts (s : str) : Prop := begins (fun c => c = 92) s /\ ~ begins2 (fun c => c = 92) (fun c => c = 10) s.
Definition ident_starts (s : str) : Prop :=
  begins css_start s \/ begins2 (fun c => c = 45) (fun c => css_start c \/ c = 45) s
  \/ escape_starts s \/ (begins (fun c => c = 45) s /\ escape_starts (drop 1 s)).

(** Numbers. *)
Definition digits1 (d : str) : Prop := d <> [] /\ Forall digit d.
Definition number_text (t : str) : Prop :=
  exists sg a f e, t = sg ++ a ++ f ++ e /\ sign sg /\ Forall digit a
    /\ (f = [] \/ exists d, f = 46 :: d /\ digits1 d) /\ (a <> [] \/ f <> [])
    /\ (e = [] \/ exists x sg' d, e = x :: sg' ++ d /\ (x = 69 \/ x = 101) /\ sign sg' /\ digits1 d).
Definition exponent_starts (s : str) : Prop :=
  exists x sg d r, s = x :: sg ++ d :: r /\ (x = 69 \/ x = 101) /\ sign sg /\ numeral d.
Definition number_ends (rest : str) : Prop :=
  ~ begins numeral rest /\ ~ begins2 (fun c => c = 46) numeral rest /\ ~ exponent_starts rest.

(** Unicode ranges. *)
Definition range_text (t : str) : Prop :=
  exists u h q e, t = u :: 43 :: h ++ q ++ e /\ (u = 117 \/ u = 85) /\ Forall hex h
    /\ Forall (fun c => c = 63) q /\ (1 <= length h + length q <= 6)%nat
    /\ (e = [] \/ exists d, e = 45 :: d /\ Forall hex d /\ (1 <= length d <= 6)%nat).

(** Quoted strings and urls. *)
Definition string_char (q c : N) : Prop := c <> q /\ c <> 92 /\ ~ newline c.
Definition string_text (q : N) (t v : str) : Prop := body_text (string_char q) True True [q] t v.
Definition url_char (c : N) : Prop :=
  32 < c /\ c <> 127 /\ c <> 34 /\ c <> 39 /\ c <> 40 /\ c <> 41 /\ c <> 92 /\ ~ any_white c.

(** Characters that stand for themselves whatever follows, and those that only do
    before certain texts. *)
Definition free_delim (c : N) : Prop :=
  c < 128 /\ ~ css_name c /\ ~ any_white c
  /\ c ∉ [34; 35; 39; 40; 41; 43; 44; 46; 47; 58; 59; 60; 64; 91; 92; 93; 123; 125].

(** [piece t ts rest]: before [rest], the text [t] is the tokens [ts]: one, or none for
    a comment. *)
Inductive piece : str -> list token -> str -> Prop :=
| p_comment b rest :
    (forall x y, b ++ [42] <> x ++ [42; 47] ++ y) -> piece (txt "/*" ++ b ++ txt "*/") [] rest
| p_white c w rest :
    css_white c -> Forall css_white w -> ~ begins any_white rest -> piece (c :: w) [TWhitespace c] rest
| p_ident t v rest :
    ident_text t v -> name_ends rest -> ~ begins (fun c => c = 40) rest ->
    ~ (t = [45; 45] /\ begins (fun c => c = 62) rest) ->
    ~ ((t = [117] \/ t = [85]) /\ begins2 (fun c => c = 43) (fun c => hex c \/ c = 63) rest) ->
    piece t [TIdent v] rest
| p_function t v rest :
    ident_text t v -> v <> txt "url" -> piece (t ++ [40]) [TFunction v] rest
| p_url_function t w rest :
    ident_text t (txt "url") -> Forall css_white w -> begins (fun c => c = 34 \/ c = 39) rest ->
    piece (t ++ [40] ++ w) [TFunction (txt "url")] rest
| p_url t w u v w' rest :
    ident_text t (txt "url") -> Forall css_white w -> Forall css_white w' ->
    body_text url_char False False (w' ++ [41]) u v ->
    piece (t ++ [40] ++ w ++ u ++ w' ++ [41]) [TUrl v] rest
| p_at t v rest :
    ident_text t v -> name_ends rest -> piece (64 :: t) [TAt v] rest
| p_hash t v rest :
    name_text t v -> v <> [] -> name_ends rest -> piece (35 :: t) [THash v] rest
| p_number n rest :
    number_text n -> number_ends rest -> ~ ident_starts rest -> ~ begins (fun c => c = 37) rest ->
    piece n [TNumber n] rest
| p_percentage n rest :
    number_text n -> piece (n ++ [37]) [TPercentage n] rest
| p_dimension n t v rest :
    number_text n -> ident_text t v -> ~ exponent_starts (t ++ rest) -> name_ends rest ->
    piece (n ++ t) [TDimension n v] rest
| p_range t rest :
    range_text t -> ~ begins (fun c => hex c \/ c = 63 \/ c = 45) rest -> piece t [TRange t] rest
| p_string q t v rest :
    (q = 34 \/ q = 39) -> string_text q t v -> piece (q :: t ++ [q]) [TString v] rest
| p_bad_string q t v rest :
    (q = 34 \/ q = 39) -> body_text (string_char q) True True [10] t v ->
    begins (fun c => c = 10) rest -> piece (q :: t) [TBadString v] rest
| p_free c rest : free_delim c -> piece [c] [TDelim c] rest
| p_slash rest : ~ begins (fun c => c = 42) rest -> piece [47] [TDelim 47] rest
| p_hash_sign rest : name_ends rest -> piece [35] [TDelim 35] rest
| p_at_sign rest : ~ ident_starts rest -> piece [64] [TDelim 64] rest
| p_plus rest :
    ~ begins numeral rest -> ~ begins2 (fun c => c = 46) numeral rest -> piece [43] [TDelim 43] rest
| p_minus rest :
    ~ begins numeral rest -> ~ begins2 (fun c => c = 46) numeral rest -> ~ ident_starts (45 :: rest) ->
    piece [45] [TDelim 45] rest
| p_dot rest : ~ begins numeral rest -> piece [46] [TDelim 46] rest
| p_less rest : ~ (exists r, rest = txt "!--" ++ r) -> piece [60] [TDelim 60] rest
| p_backslash rest : begins (fun c => c = 10) rest -> piece [92] [TDelim 92] rest
| p_cdo rest : piece (txt "<!--") [TCdo] rest
| p_cdc rest : piece (txt "-->") [TCdc] rest
| p_lparen rest : piece [40] [TLParen] rest
| p_rparen rest : piece [41] [TRParen] rest
| p_lbracket rest : piece [91] [TLBracket] rest
| p_rbracket rest : piece [93] [TRBracket] rest
| p_lcurly rest : piece [123] [TLCurly] rest
| p_rcurly rest : piece [125] [TRCurly] rest
| p_comma rest : piece [44] [TComma] rest
| p_colon rest : piece [58] [TColon] rest
| p_semicolon rest : piece [59] [TSemicolon] rest.

(** A text written as a sequence of pieces. *)
Inductive written : str -> list token -> Prop :=
| written_nil : written [] []
| written_piece t o rest ts : piece t o rest -> written rest ts -> written (t ++ rest) (o ++ ts).
End spec.

(** * The cursor over a fixed list of tokens *)

(** A call of the tokenizer's reading interface, and what it answers. *)
Inductive call := Consume | Lookahead (offset : nat) | Reconsume.

(** Token number [k]: the last one, the end, is repeated for ever. *)
Definition token_at (ts : list token) (k : nat) : token := default TEof (ts !! k).

(** Reading the list at a position: the answer, and the new position. *)
Definition list_call (ts : list token) (k : nat) (o : call) : option token * nat :=
  match o with
  | Consume => (Some (token_at ts k), S k)
  | Lookahead i => (Some (token_at ts (k + i)%nat), k)
  | Reconsume => (None, pred k)
  end.
Fixpoint list_calls (ts : list token) (k : nat) (os : list call) : list (option token) :=
  match os with
  | [] => []
  | o :: os => (list_call ts k o).1 :: list_calls ts (list_call ts k o).2 os
  end.

(** The same calls on the engine's cursor. *)
Definition cursor_call (beyond : N -> bool) (c : cursor) (o : call) : res (option token * cursor) :=
  match o with
  | Consume => let* (t, c) := consume beyond c in Ok (Some t, c)
  | Lookahead i => let* (t, c) := lookahead beyond i c in Ok (Some t, c)
  | Reconsume => Ok (None, reconsume c)
  end.
Fixpoint cursor_calls (beyond : N -> bool) (c : cursor) (os : list call) : res (list (option token)) :=
  match os with
  | [] => Ok []
  | o :: os =>
      let* (a, c) := cursor_call beyond c o in
      let* l := cursor_calls beyond c os in Ok (a :: l)
  end.
