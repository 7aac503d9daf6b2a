(** How a style sheet is written, as tokens, and the rules it stands for. [CssTokenSpec]
    says how the tokens are written as text. *)
From Verif Require Import Base Text CssTokenModel SelectorModel CssParseModel.
Local Open Scope N_scope.

Definition blank (t : token) : Prop := exists c, t = TWhitespace c.
Definition blanks (l : list token) : Prop := Forall blank l.

(** * Selectors *)

(** The comparison inside an attribute selector. *)
Inductive attr_operator : list token -> matcher -> Prop :=
| ao_equals : attr_operator [TDelim 61] MEquals
| ao_includes : attr_operator [TDelim 126; TDelim 61] MIncludes
| ao_dash : attr_operator [TDelim 124; TDelim 61] MDash
| ao_prefix : attr_operator [TDelim 94; TDelim 61] MPrefix
| ao_suffix : attr_operator [TDelim 36; TDelim 61] MSuffix
| ao_substring : attr_operator [TDelim 42; TDelim 61] MSubstring.
(** A letter that says whether case matters: [i] or nothing. *)
Inductive attr_flag : list token -> bool -> Prop :=
| af_none : attr_flag [] false
| af_i w : blanks w -> attr_flag (TIdent (txt "i") :: w) true
| af_I w : blanks w -> attr_flag (TIdent (txt "I") :: w) true.
Inductive attr_text : str -> token -> Prop :=
| at_string v : attr_text v (TString v)
| at_ident v : attr_text v (TIdent v).

(** A simple selector; the flag tells an attribute selector. *)
Inductive simple : bool -> list token -> part -> Prop :=
| s_type v : simple false [TIdent v] (PType v)
| s_universal : simple false [TDelim 42] PUniversal
| s_class v : simple false [TDelim 46; TIdent v] (PClass v)
| s_id v : simple false [THash v] (PId v)
| s_pseudo_class v : simple false [TColon; TIdent v] (PPseudoClass v)
| s_pseudo_element v : simple false [TColon; TColon; TIdent v] (PPseudoElement v)
| s_has_attr n w1 w2 : blanks w1 -> blanks w2 ->
    simple true ([TLBracket] ++ w1 ++ [TIdent n] ++ w2 ++ [TRBracket]) (PAttribute (mk_attr n MNone [] false))
| s_attr n w1 w2 o m w3 v t w4 f ci :
    blanks w1 -> blanks w2 -> attr_operator o m -> blanks w3 -> attr_text v t -> blanks w4 -> attr_flag f ci ->
    simple true ([TLBracket] ++ w1 ++ [TIdent n] ++ w2 ++ o ++ w3 ++ [t] ++ w4 ++ f ++ [TRBracket])
      (PAttribute (mk_attr n m v ci)).
(** Simple selectors one after the other; the flag is that of the last. *)
Inductive compound : bool -> list token -> list part -> Prop :=
| cp_one b w p : simple b w p -> compound b w [p]
| cp_more b b' w p w' ps : simple b w p -> compound b' w' ps -> compound b' (w ++ w') (p :: ps).
Inductive symbol : N -> combinator -> Prop :=
| sy_child : symbol 62 Child
| sy_next : symbol 43 NextSibling
| sy_later : symbol 126 SubsequentSibling.
(** Compounds joined by combinators. A descendant of a compound that ends in an attribute
    selector is left out, as it is not read right. *)
Inductive complex : list token -> list part -> Prop :=
| cx_one b w ps : compound b w ps -> complex w ps
| cx_descendant w ps sp w' ps' :
    compound false w ps -> blanks sp -> sp <> [] -> complex w' ps' ->
    complex (w ++ sp ++ w') (ps ++ PCombinator Descendant :: ps')
| cx_symbol b w ps s1 c k s2 w' ps' :
    compound b w ps -> blanks s1 -> symbol c k -> blanks s2 -> complex w' ps' ->
    complex (w ++ s1 ++ [TDelim c] ++ s2 ++ w') (ps ++ PCombinator k :: ps').
(** Selectors separated by commas. A blank before the comma is left out, as it is not read
    right. *)
Inductive selectors : list token -> list (list part) -> Prop :=
| sl_one w ps : complex w ps -> selectors w [ps]
| sl_more w ps sp w' g : complex w ps -> blanks sp -> selectors w' g -> selectors (w ++ [TComma] ++ sp ++ w') (ps :: g).

(** * Declarations *)
Section values.
Context (is_zero : str -> bool) (colour : str -> list cval -> option N).

(** Names and functions with a meaning of their own. *)
Definition plain_ident (v : str) : Prop :=
  same_ignoring_case v (txt "progid") = false /\ same_ignoring_case v (txt "u+") = false.
Definition plain_function (n : str) : Prop :=
  same_ignoring_case n (txt "calc") = false /\ same_ignoring_case n (txt "url") = false /\ n <> txt "alpha".
(** At most one blank. *)
Definition gap (l : list token) : Prop := l = [] \/ exists c, l = [TWhitespace c].

(** A value whose functions nest at most [d] deep, and values with gaps in between. *)
Inductive value : nat -> list token -> cval -> Prop :=
| v_ident d v : plain_ident v -> value d [TIdent v] (VString v)
| v_string d v : value d [TString v] (VString v)
| v_zero d n : is_zero n = true -> value d [TNumber n] VZero
| v_number d n : is_zero n = false -> value d [TNumber n] (VNumber n)
| v_percentage d n : value d [TPercentage n] (VPercentage n)
| v_unit d n u : value d [TDimension n u] (VUnit n u)
| v_hash d v : value d [THash v] (VHash v)
| v_comma d : value d [TComma] VComma
| v_operator d c : c ∈ [43; 45; 42; 47] -> value d [TDelim c] (VString [c])
| v_url d u : value d [TUrl u] (VFunction (txt "url") [VString u])
| v_range d v : value d [TRange v] (VString v)
| v_function d n w vs sp :
    plain_function n -> values d w vs -> gap sp ->
    value (S d) (TFunction n :: w ++ sp ++ [TRParen])
      (match colour n vs with Some c => VColor c | None => VFunction n vs end)
with values : nat -> list token -> list cval -> Prop :=
| vs_nil d : values d [] []
| vs_more d sp w v l vs : gap sp -> value d w v -> values d l vs -> values d (sp ++ w ++ l) (v :: vs).

Definition whole (vs : list cval) : cval := match vs with [v] => v | _ => VList vs end.
Inductive importance : list token -> bool -> Prop :=
| im_none : importance [] false
| im_some : importance [TDelim 33; TIdent (txt "important")] true.
(** A declaration; custom properties are left out. Before [!] at most one blank. *)
Inductive declaration (d : nat) : list token -> css_declaration -> Prop :=
| d_written p w1 w2 w v l vs sp im i :
    prefixb [45; 45] p = false -> blanks w1 -> blanks w2 -> value d w v -> values d l vs -> gap sp -> importance im i ->
    declaration d ([TIdent p] ++ w1 ++ [TColon] ++ w2 ++ w ++ l ++ (if i then sp else []) ++ im)
      (mk_decl p (whole (v :: vs)) i).

(** * Errors *)

(** A token without a part in the structure of a sheet. *)
Definition dull (t : token) : Prop :=
  match t with
  | TLParen | TRParen | TLBracket | TRBracket | TFunction _ | TLCurly | TRCurly | TSemicolon | TAt _ | TEof => False
  | _ => True
  end.
(** What is not a declaration: a token that is no name first, a name followed by something
    else than a colon, or no value. A name alone is left out: it costs what follows it. *)
Inductive bad_declaration : list token -> Prop :=
| bd_start t l : dull t -> ~ blank t -> (forall v, t <> TIdent v) -> t <> TDelim 46 -> Forall dull l ->
    bad_declaration (t :: l)
| bd_no_colon p w t l : blanks w -> dull t -> ~ blank t -> t <> TColon -> Forall dull l ->
    bad_declaration ([TIdent p] ++ w ++ t :: l)
| bd_no_value p w1 w2 : prefixb [45; 45] p = false -> blanks w1 -> blanks w2 ->
    bad_declaration ([TIdent p] ++ w1 ++ [TColon] ++ w2).

(** The content of a block: declarations, each ended by a semicolon, the last one perhaps
    not; with errors ignored ([lax]) invalid declarations in between. *)
Inductive body (lax : bool) (d : nat) : list token -> list css_declaration -> Prop :=
| b_nil : body lax d [] []
| b_blank t l ds : blank t -> body lax d l ds -> body lax d (t :: l) ds
| b_semicolon l ds : body lax d l ds -> body lax d (TSemicolon :: l) ds
| b_last w x sp : declaration d w x -> blanks sp -> body lax d (w ++ sp) [x]
| b_declaration w x sp l ds :
    declaration d w x -> blanks sp -> body lax d l ds -> body lax d (w ++ sp ++ TSemicolon :: l) (x :: ds)
| b_bad_last w : lax = true -> bad_declaration w -> body lax d w []
| b_bad w l ds : lax = true -> bad_declaration w -> body lax d l ds -> body lax d (w ++ TSemicolon :: l) ds.

(** The content of a block that is dropped: brackets of all kinds match. *)
Inductive balanced : list token -> Prop :=
| bl_nil : balanced []
| bl_dull t l : dull t \/ t = TSemicolon \/ (exists v, t = TAt v) -> balanced l -> balanced (t :: l)
| bl_paren t a c l : t = TLParen \/ t = TLBracket \/ (exists v, t = TFunction v) -> balanced a ->
    c = TRParen \/ c = TRBracket -> balanced l -> balanced (t :: a ++ c :: l)
| bl_curly a l : balanced a -> balanced l -> balanced (TLCurly :: a ++ TRCurly :: l).
(** A token that no selector contains. *)
Definition no_selector (t : token) : Prop :=
  match t with
  | TString _ | TUrl _ | TRange _ => True
  | TDelim c => c ∉ [43; 62; 126; 47; 46; 124; 42; 35; 38]
  | _ => False
  end.
(** What may stand before it: nothing, or selectors. *)
Inductive bad_prelude : list token -> Prop :=
| bp_start t l : no_selector t -> Forall dull l -> bad_prelude (t :: l)
| bp_after w g sp t l : selectors w g -> blanks sp -> no_selector t -> Forall dull l -> bad_prelude (w ++ sp ++ t :: l).

(** * Sheets *)
Inductive sheet_of (lax : bool) (d : nat) : list token -> list css_rule -> Prop :=
| sh_nil : sheet_of lax d [] []
| sh_blank t l rs : blank t -> sheet_of lax d l rs -> sheet_of lax d (t :: l) rs
| sh_rule w g sp b ds l rs :
    selectors w g -> blanks sp -> body lax d b ds -> sheet_of lax d l rs ->
    sheet_of lax d (w ++ sp ++ [TLCurly] ++ b ++ [TRCurly] ++ l) (mk_rule g ds :: rs)
| sh_bad w b l rs :
    lax = true -> bad_prelude w -> balanced b -> sheet_of lax d l rs ->
    sheet_of lax d (w ++ [TLCurly] ++ b ++ [TRCurly] ++ l) rs.
End values.
