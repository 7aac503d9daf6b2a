(** Model of the HTML tokenizer: crates/gosub_html5/src/tokenizer.rs, tokenizer/character_reference.rs,
    tokenizer/token.rs and tokenizer/state.rs.

    Simplifications, for the whole file:
    - Source locations are left out (C08 is about them), so tokens carry none and the error log is the
      list of error kinds in the order they were reported, before the logger removes repetitions.
    - The input is a list of characters with a position in it. Carriage returns are already joined with
      line feeds as [ByteStream::read_and_next] does; [C69_list_is_faithful] relates this to the model
      of the byte stream. A lone surrogate ([Character::Surrogate], which only UTF-16 input
      gives) is its code unit; no [char] has such a code.
    - [HashMap<String, String>] is a finite map.
    - The table of named references is a parameter; [Entities.named_chars] is the one in the source. *)
From stdpp Require Import gmap.
From Verif Require Import Text SettingsModel CookieModel.

Local Open Scope N_scope.

(** ** Characters *)
Notation c_tab := 9 (only parsing). Notation c_lf := 10 (only parsing). Notation c_ff := 12 (only parsing).
Notation c_space := 32 (only parsing). Notation c_nul := 0 (only parsing).
Notation c_bang := 33 (only parsing). Notation c_dquote := 34 (only parsing). Notation c_hash := 35 (only parsing).
Notation c_amp := 38 (only parsing). Notation c_quote := 39 (only parsing). Notation c_dash := 45 (only parsing).
Notation c_slash := 47 (only parsing). Notation c_semi := 59 (only parsing). Notation c_lt := 60 (only parsing).
Notation c_eq := 61 (only parsing). Notation c_gt := 62 (only parsing). Notation c_quest := 63 (only parsing).
Notation c_rbr := 93 (only parsing). Notation c_tick := 96 (only parsing).
(** tokenizer.rs:30 *)
Notation c_repl := 65533 (only parsing).

Definition between (a b x : N) : bool := (a <=? x) && (x <=? b).
(** the pattern [CHAR_TAB | CHAR_LF | CHAR_FF | CHAR_SPACE] *)
Definition is_ws (x : N) : bool := (x =? c_tab) || (x =? c_lf) || (x =? c_ff) || (x =? c_space).
(** [char::is_ascii_alphabetic], [is_ascii_alphanumeric], the pattern ['A'..='Z'] *)
Definition is_upper (x : N) : bool := between 65 90 x.
Definition is_alpha (x : N) : bool := between 65 90 x || between 97 122 x.
Definition is_digit (x : N) : bool := between 48 57 x.
Definition is_alnum (x : N) : bool := is_alpha x || is_digit x.
Definition is_hex (x : N) : bool := is_digit x || between 65 70 x || between 97 102 x.

(** character_reference.rs:296-298 *)
Definition is_surrogate (x : N) : bool := between 55296 57343 x.
(** character_reference.rs:300-309: U+FDD0..FDEF and the last two code points of every plane *)
Definition is_noncharacter (x : N) : bool :=
  between 64976 65007 x ||
  existsb (N.eqb x)
    [65534; 65535; 131070; 131071; 196606; 196607; 262142; 262143; 327678; 327679; 393214; 393215; 458750; 458751;
     524286; 524287; 589822; 589823; 655358; 655359; 720894; 720895; 786430; 786431; 851966; 851967; 917502; 917503;
     983038; 983039; 1048574; 1048575; 1114110; 1114111].
(** character_reference.rs:311-318 *)
Definition is_control_char (x : N) : bool :=
  if existsb (N.eqb x) [9; 10; 12; 13; 32] then false else between 1 31 x || between 127 159 x.
(** replacement_tables.rs:6-75 [TOKEN_REPLACEMENTS] *)
Definition replacements : list (N * N) :=
  [(0, 65533); (13, 13); (128, 8364); (129, 129); (130, 8218); (131, 402); (132, 8222); (133, 8230); (134, 8224);
   (135, 8225); (136, 710); (137, 8240); (138, 352); (139, 8249); (140, 338); (141, 141); (142, 381); (143, 143);
   (144, 144); (145, 8216); (146, 8217); (147, 8220); (148, 8221); (149, 8226); (150, 8211); (151, 8212); (152, 732);
   (153, 8482); (154, 353); (155, 8250); (156, 339); (157, 157); (158, 382); (159, 376)].
(** [phf::Map::get] on a table of pairs *)
Fixpoint assoc {K V} `{EqDecision K} (k : K) (l : list (K * V)) : option V :=
  match l with [] => None | (k', v) :: r => if decide (k = k') then Some v else assoc k r end.

(** ** Types *)
(** parser/errors.rs:5-60, the kinds the tokenizer reports *)
Inductive perror :=
| AbruptDoctypePublicIdentifier | AbruptDoctypeSystemIdentifier | AbruptClosingOfEmptyComment
| AbsenceOfDigitsInNumericCharacterReference | CdataInHtmlContent | CharacterReferenceOutsideUnicodeRange
| ControlCharacterInInputStream | ControlCharacterReference | EndTagWithAttributes | DuplicateAttribute
| EndTagWithTrailingSolidus | EofBeforeTagName | EofInCdata | EofInComment | EofInDoctype
| EofInScriptHtmlCommentLikeText | EofInTag | IncorrectlyClosedComment | IncorrectlyOpenedComment
| InvalidCharacterSequenceAfterDoctypeName | InvalidFirstCharacterOfTagName | MissingAttributeValue
| MissingDoctypeName | MissingDoctypePublicIdentifier | MissingDoctypeSystemIdentifier | MissingEndTagName
| MissingQuoteBeforeDoctypePublicIdentifier | MissingQuoteBeforeDoctypeSystemIdentifier
| MissingSemicolonAfterCharacterReference | MissingWhitespaceAfterDoctypePublicKeyword
| MissingWhitespaceAfterDoctypeSystemKeyword | MissingWhitespaceBeforeDoctypeName
| MissingWhitespaceBetweenAttributes | MissingWhitespaceBetweenDoctypePublicAndSystemIdentifiers | NestedComment
| NoncharacterCharacterReference | NoncharacterInInputStream | NullCharacterReference | SurrogateCharacterReference
| SurrogateInInputStream | UnexpectedCharacterAfterDoctypeSystemIdentifier | UnexpectedCharacterInAttributeName
| UnexpectedCharacterInUnquotedAttributeValue | UnexpectedEqualsSignBeforeAttributeName | UnexpectedNullCharacter
| UnexpectedQuestionMarkInsteadOfTagName | UnexpectedSolidusInTag | UnknownNamedCharacterReference.

(** state.rs:3-214 *)
Inductive tstate :=
| Data | CharacterReferenceInData | RCDATA | CharacterReferenceInRcData | RAWTEXT | ScriptData | PLAINTEXT
| TagOpen | EndTagOpen | TagName
| RCDATALessThanSign | RCDATAEndTagOpen | RCDATAEndTagName
| RAWTEXTLessThanSign | RAWTEXTEndTagOpen | RAWTEXTEndTagName
| ScriptDataLessThenSign | ScriptDataEndTagOpen | ScriptDataEndTagName | ScriptDataEscapeStart
| ScriptDataEscapeStartDash | ScriptDataEscaped | ScriptDataEscapedDash | ScriptDataEscapedDashDash
| ScriptDataEscapedLessThanSign | ScriptDataEscapedEndTagOpen | ScriptDataEscapedEndTagName
| ScriptDataDoubleEscapeStart | ScriptDataDoubleEscaped | ScriptDataDoubleEscapedDash
| ScriptDataDoubleEscapedDashDash | ScriptDataDoubleEscapedLessThanSign | ScriptDataDoubleEscapeEnd
| BeforeAttributeName | AttributeName | AfterAttributeName | BeforeAttributeValue | AttributeValueDoubleQuoted
| AttributeValueSingleQuoted | AttributeValueUnquoted | CharacterReferenceInAttributeValue
| AfterAttributeValueQuoted | SelfClosingStart | BogusComment | MarkupDeclarationOpen
| CommentStart | CommentStartDash | CommentState | CommentLessThanSign | CommentLessThanSignBang
| CommentLessThanSignBangDash | CommentLessThanSignBangDashDash | CommentEndDash | CommentEnd | CommentEndBang
| DOCTYPE | BeforeDOCTYPEName | DOCTYPEName | AfterDOCTYPEName | AfterDOCTYPEPublicKeyword
| BeforeDOCTYPEPublicIdentifier | DOCTYPEPublicIdentifierDoubleQuoted | DOCTYPEPublicIdentifierSingleQuoted
| AfterDOCTYPEPublicIdentifier | BetweenDOCTYPEPublicAndSystemIdentifiers | AfterDOCTYPESystemKeyword
| BeforeDOCTYPESystemIdentifier | DOCTYPESystemIdentifierDoubleQuoted | DOCTYPESystemIdentifierSingleQuoted
| AfterDOCTYPESystemIdentifier | BogusDOCTYPE | CDATASection | CDATASectionBracket | CDATASectionEnd.
Global Instance tstate_eq_dec : EqDecision tstate.
Proof. solve_decision. Defined.

Notation attr_map := (gmap (list N) (list N)).

(** token.rs:12-42 [Token]. [EndTag.is_self_closing] is left out: it is never set. *)
Inductive token :=
| DocType (name : option (list N)) (force_quirks : bool) (pub_identifier sys_identifier : option (list N))
| StartTag (name : list N) (is_self_closing : bool) (attributes : attr_map)
| EndTag (name : list N)
| Comment (comment : list N)
| Text (text : list N)
| Eof.
Global Instance token_eq_dec : EqDecision token.
Proof. solve_decision. Defined.

(** tokenizer.rs:33-60 [Tokenizer]. [past] is what was read, last character first; [future] is what is
    left. [last_char] is [None] for [StreamEnd]. *)
Record tk := mk_tk {
  past : list N; future : list N; state : tstate; consumed : list N; attr_name : list N; attr_value : list N;
  attrs : attr_map; cur : option token; tmp : list N; queue : list token; last_start : list N;
  last_char : option N; errors : list perror }.

(** tokenizer.rs:107-134 [Tokenizer::new] on a stream at its start *)
Definition new (input : list N) (initial : tstate) (last_start_tag : list N) : tk :=
  mk_tk [] input initial [] [] [] ∅ None [] [] last_start_tag None [].

(** Field updates *)
Definition set_io (p f : list N) (l : option N) (t : tk) : tk :=
  mk_tk p f (state t) (consumed t) (attr_name t) (attr_value t) (attrs t) (cur t) (tmp t) (queue t) (last_start t) l (errors t).
Definition goto (s : tstate) (t : tk) : tk :=
  mk_tk (past t) (future t) s (consumed t) (attr_name t) (attr_value t) (attrs t) (cur t) (tmp t) (queue t) (last_start t) (last_char t) (errors t).
Definition set_consumed (c : list N) (t : tk) : tk :=
  mk_tk (past t) (future t) (state t) c (attr_name t) (attr_value t) (attrs t) (cur t) (tmp t) (queue t) (last_start t) (last_char t) (errors t).
Definition set_attr (n v : list N) (t : tk) : tk :=
  mk_tk (past t) (future t) (state t) (consumed t) n v (attrs t) (cur t) (tmp t) (queue t) (last_start t) (last_char t) (errors t).
Definition set_attrs (a : attr_map) (t : tk) : tk :=
  mk_tk (past t) (future t) (state t) (consumed t) (attr_name t) (attr_value t) a (cur t) (tmp t) (queue t) (last_start t) (last_char t) (errors t).
Definition set_cur (c : option token) (t : tk) : tk :=
  mk_tk (past t) (future t) (state t) (consumed t) (attr_name t) (attr_value t) (attrs t) c (tmp t) (queue t) (last_start t) (last_char t) (errors t).
Definition set_tmp (b : list N) (t : tk) : tk :=
  mk_tk (past t) (future t) (state t) (consumed t) (attr_name t) (attr_value t) (attrs t) (cur t) b (queue t) (last_start t) (last_char t) (errors t).
Definition set_queue (q : list token) (t : tk) : tk :=
  mk_tk (past t) (future t) (state t) (consumed t) (attr_name t) (attr_value t) (attrs t) (cur t) (tmp t) q (last_start t) (last_char t) (errors t).
Definition set_last_start (s : list N) (t : tk) : tk :=
  mk_tk (past t) (future t) (state t) (consumed t) (attr_name t) (attr_value t) (attrs t) (cur t) (tmp t) (queue t) s (last_char t) (errors t).
(** tokenizer.rs:2185-2187 [parse_error] *)
Definition err (e : perror) (t : tk) : tk :=
  mk_tk (past t) (future t) (state t) (consumed t) (attr_name t) (attr_value t) (attrs t) (cur t) (tmp t) (queue t) (last_start t) (last_char t) (errors t ++ [e]).

(** statements in sequence *)
Notation "t ▷ f" := (f t) (at level 45, left associativity, only parsing).

(** ** The stream *)
(** tokenizer.rs:2283-2287 [stream_read_and_next] *)
Definition stream_read_and_next (t : tk) : option N * tk :=
  match future t with
  | x :: r => (Some x, set_io (x :: past t) r (Some x) t)
  | [] => (None, set_io (past t) [] None t)
  end.
(** tokenizer.rs:2289-2295 [stream_prev] *)
Definition stream_prev (t : tk) : tk :=
  match last_char t, past t with
  | Some _, x :: p => set_io p (x :: future t) (last_char t) t
  | _, _ => t
  end.
(** tokenizer.rs:2297-2301 [stream_next_n] *)
Fixpoint stream_next_n (n : nat) (t : tk) : tk :=
  match n with O => t | S k => stream_next_n k (snd (stream_read_and_next t)) end.
(** byte_stream.rs:258-266 [get_slice]: [n] characters, padded with [StreamEnd] *)
Fixpoint slice (n : nat) (l : list N) : list (option N) :=
  match n with O => [] | S k => head l :: slice k (tail l) end.
Definition get_slice (n : nat) (t : tk) : list (option N) := slice n (future t).
(** byte_stream.rs:50-68, 84-89: [slice_to_string]. Lone surrogates and the end give U+0000. *)
Definition slice_to_string (l : list (option N)) : list N :=
  map (fun o => match o with Some x => if is_surrogate x then 0 else x | None => 0 end) l.
(** [str::to_uppercase], as far as its result can be equal to an ASCII word of the same length:
    besides the ASCII letters only U+0131 and U+017F turn into single ASCII letters. *)
Definition upper_char (x : N) : N :=
  if between 97 122 x then x - 32 else if x =? 305 then 73 else if x =? 383 then 83 else x.
Definition upper (s : list N) : list N := map upper_char s.

(** tokenizer.rs:2037-2060 [read_char]. Gives [None] at the end. *)
Definition read_char (t : tk) : option N * tk :=
  let (c, t) := stream_read_and_next t in
  match c with
  | None => (None, t)
  | Some x =>
      if is_surrogate x then (Some c_repl, t ▷ err SurrogateInInputStream)
      else if is_control_char x then (c, t ▷ err ControlCharacterInInputStream)
      else if is_noncharacter x then (c, t ▷ err NoncharacterInInputStream)
      else (c, t)
  end.

(** ** Helpers *)
(** tokenizer.rs:2147-2151 [consume], 2162-2166 [consume_str] *)
Definition consume (x : N) (t : tk) : tk := set_consumed (consumed t ++ [x]) t.
Definition consume_str (s : list N) (t : tk) : tk := set_consumed (consumed t ++ s) t.
Definition push_name (x : N) (t : tk) : tk := set_attr (attr_name t ++ [x]) (attr_value t) t.
Definition push_value (x : N) (t : tk) : tk := set_attr (attr_name t) (attr_value t ++ [x]) t.
Definition push_tmp (x : N) (t : tk) : tk := set_tmp (tmp t ++ [x]) t.

(** tokenizer.rs:2063-2067 [add_to_token_value] *)
Definition add_to_token_value (x : N) (t : tk) : tk :=
  match cur t with Some (Comment s) => set_cur (Some (Comment (s ++ [x]))) t | _ => t end.
(** tokenizer.rs:2070-2074 [set_public_identifier] with an empty text *)
Definition start_public_identifier (t : tk) : tk :=
  match cur t with Some (DocType n q _ s) => set_cur (Some (DocType n q (Some []) s)) t | _ => t end.
(** tokenizer.rs:2077-2085 [add_public_identifier] *)
Definition add_public_identifier (x : N) (t : tk) : tk :=
  match cur t with Some (DocType n q (Some p) s) => set_cur (Some (DocType n q (Some (p ++ [x])) s)) t | _ => t end.
(** tokenizer.rs:2088-2092 [set_system_identifier] with an empty text *)
Definition start_system_identifier (t : tk) : tk :=
  match cur t with Some (DocType n q p _) => set_cur (Some (DocType n q p (Some []))) t | _ => t end.
(** tokenizer.rs:2095-2103 [add_system_identifier] *)
Definition add_system_identifier (x : N) (t : tk) : tk :=
  match cur t with Some (DocType n q p (Some s)) => set_cur (Some (DocType n q p (Some (s ++ [x])))) t | _ => t end.
(** tokenizer.rs:2106-2120 [add_to_token_name] *)
Definition add_to_token_name (x : N) (t : tk) : tk :=
  match cur t with
  | Some (StartTag n c a) => set_cur (Some (StartTag (n ++ [x]) c a)) t
  | Some (EndTag n) => set_cur (Some (EndTag (n ++ [x]))) t
  | Some (DocType (Some n) q p s) => set_cur (Some (DocType (Some (n ++ [x])) q p s)) t
  | Some (DocType None q p s) => set_cur (Some (DocType (Some [x]) q p s)) t
  | _ => t
  end.
(** tokenizer.rs:2130-2146 [emit_token] *)
Definition emit_token (tok : token) (t : tk) : tk :=
  let t := match tok with StartTag n _ _ => set_last_start n t | _ => t end in
  let t := match consumed t with
           | [] => t
           | s => set_consumed [] (set_queue (queue t ++ [Text s]) t)
           end in
  set_queue (queue t ++ [tok]) t.
(** tokenizer.rs:2123-2127 [emit_current_token] *)
Definition emit_current_token (t : tk) : tk :=
  match cur t with Some tok => emit_token tok (set_cur None t) | None => t end.
(** tokenizer.rs:2154-2160 [transition_to] *)
Definition transition_to (s : tstate) (t : tk) : tk :=
  t ▷ consume_str [60; 47] ▷ consume_str (tmp t) ▷ set_tmp [] ▷ goto s.
(** tokenizer.rs:2169-2172 [is_appropriate_end_token], with the name of the current end tag *)
Definition appropriate (t : tk) : bool :=
  bool_decide (last_start t = match cur t with Some (EndTag n) => n | _ => [] end).
(** tokenizer.rs:2190-2206 [set_is_closing_in_current_token(true)] *)
Definition set_is_closing (t : tk) : tk :=
  match cur t with
  | Some (EndTag _) => t ▷ stream_prev ▷ err EndTagWithTrailingSolidus ▷ stream_next_n 1
  | Some (StartTag n _ a) => set_cur (Some (StartTag n true a)) t
  | _ => t
  end.
(** tokenizer.rs:2209-2213 [set_quirks_mode(true)] *)
Definition set_quirks (t : tk) : tk :=
  match cur t with Some (DocType n _ p s) => set_cur (Some (DocType n true p s)) t | _ => t end.
(** tokenizer.rs:2241-2243 [attr_already_exists] *)
Definition attr_already_exists (t : tk) : bool := bool_decide (is_Some (attrs t !! attr_name t)).
(** tokenizer.rs:2246-2256 [store_and_clear_current_attribute] *)
Definition store_attr (t : tk) : tk :=
  if bool_decide (attr_name t <> []) && negb (attr_already_exists t)
  then t ▷ set_attrs (<[attr_name t := attr_value t]> (attrs t)) ▷ set_attr [] []
  else t ▷ set_attr [] [].
(** tokenizer.rs:2259-2281 [add_stored_attributes_to_current_token]: [extend] overwrites *)
Definition add_stored_attrs (t : tk) : tk :=
  if bool_decide (attrs t = ∅) then t
  else match cur t with
       | Some (EndTag _) => t ▷ stream_prev ▷ err EndTagWithAttributes ▷ stream_next_n 1
       | Some (StartTag n c a) => t ▷ set_cur (Some (StartTag n c (attrs t ∪ a))) ▷ set_attrs ∅
       | _ => t
       end.

Definition new_start_tag : option token := Some (StartTag [] false ∅).
Definition new_end_tag : option token := Some (EndTag []).
Definition new_comment : option token := Some (Comment []).
Definition new_doctype : option token := Some (DocType None false None None).
Definition quirky_doctype : token := DocType None true None None.

(** ** Character references *)
Section references.
Variable entities : list (list N * list N).

(** character_reference.rs:346-351 [LONGEST_ENTITY_LENGTH]; the names are ASCII *)
Definition longest_entity : nat := list_max (map (fun e => length e.1) entities).
(** byte_stream.rs:70-78, [Display for Character]: upper-case hexadecimal for lone surrogates *)
Definition hex_digit (x : N) : N := if x <? 10 then 48 + x else 55 + x.
Definition display (o : option N) : list N :=
  match o with
  | None => txt "StreamEnd"
  | Some x =>
      if is_surrogate x
      then txt "U+" ++ map hex_digit [x / 4096; x / 256 mod 16; x / 16 mod 16; x mod 16]
      else [x]
  end.
(** character_reference.rs:322-335, the loop over [i] from [n] down *)
Fixpoint find_from (n : nat) (l : list (option N)) : option (list N) :=
  let name := mjoin (map display (take n l)) in
  if bool_decide (is_Some (assoc name entities)) then Some name
  else match n with O => None | S k => find_from k l end.
(** character_reference.rs:320-336 [find_entity] *)
Definition find_entity (t : tk) : option (list N) := find_from longest_entity (get_slice longest_entity t).

(** character_reference.rs:287-294 [consume_temp_buffer] *)
Definition flush (as_attr : bool) (s : list N) (t : tk) : tk :=
  if as_attr then set_attr (attr_name t) (attr_value t ++ s) t else consume_str s t.
Definition consume_temp_buffer (as_attr : bool) (t : tk) : tk := t ▷ flush as_attr (tmp t) ▷ set_tmp [].

(** [u32::checked_mul(base).and_then(|m| m.checked_add(i))] *)
Definition accumulate (base i : N) (code : option N) : option N :=
  match code with
  | Some v => if 4294967295 <? v * base then None else if 4294967295 <? v * base + i then None else Some (v * base + i)
  | None => None
  end.
(** character_reference.rs:196-213, the value of a hexadecimal digit *)
Definition hex_value (x : N) : N := if is_digit x then x - 48 else if between 65 70 x then x - 55 else x - 87.

(** character_reference.rs:241-283 [NumericalCharacterReferenceEnd] *)
Definition numeric_end (as_attr : bool) (code : option N) (t : tk) : tk :=
  let overflow := match code with None => true | Some _ => false end in
  let c := default 0 code in
  let '(c, t) := if (c =? 0) && negb overflow then (c_repl, t ▷ err NullCharacterReference) else (c, t) in
  let '(c, t) := if (1114111 <? c) || overflow then (c_repl, t ▷ err CharacterReferenceOutsideUnicodeRange) else (c, t) in
  let '(c, t) := if is_surrogate c then (c_repl, t ▷ err SurrogateCharacterReference) else (c, t) in
  let t := if is_noncharacter c then t ▷ err NoncharacterCharacterReference else t in
  let '(c, t) := if is_control_char c || (c =? 13)
                 then (default c (assoc c replacements), t ▷ err ControlCharacterReference) else (c, t) in
  let c := if (1114111 <? c) || is_surrogate c then c_repl else c in
  t ▷ set_tmp [c] ▷ consume_temp_buffer as_attr.

(** character_reference.rs:185-240, the digit loops *)
Fixpoint numeric_digits (fuel : nat) (as_attr hex : bool) (code : option N) (t : tk) : res tk :=
  match fuel with
  | O => Diverge
  | S f =>
      let (c, t) := stream_read_and_next t in
      match c with
      | None => Ok (t ▷ err MissingSemicolonAfterCharacterReference ▷ numeric_end as_attr code)
      | Some x =>
          if hex && is_hex x then numeric_digits f as_attr hex (accumulate 16 (hex_value x) code) t
          else if negb hex && is_digit x then numeric_digits f as_attr hex (accumulate 10 (x - 48) code) t
          else if x =? c_semi then Ok (t ▷ numeric_end as_attr code)
          else Ok (t ▷ err MissingSemicolonAfterCharacterReference ▷ stream_prev ▷ numeric_end as_attr code)
      end
  end.

(** character_reference.rs:143-184, [HexadecimalCharacterReferenceStart] and [DecimalCharacterReferenceStart] *)
Definition numeric_start (as_attr hex : bool) (t : tk) : res tk :=
  let (c, t) := stream_read_and_next t in
  match c with
  | None => Ok (t ▷ err AbsenceOfDigitsInNumericCharacterReference ▷ consume_temp_buffer as_attr)
  | Some x =>
      if (if hex then is_hex x else is_digit x)
      then let t := stream_prev t in numeric_digits (S (length (future t))) as_attr hex (Some 0) t
      else Ok (t ▷ err AbsenceOfDigitsInNumericCharacterReference ▷ consume_temp_buffer as_attr ▷ stream_prev)
  end.

(** character_reference.rs:125-142 [NumericCharacterReference] *)
Definition numeric_reference (as_attr : bool) (t : tk) : res tk :=
  let (c, t) := stream_read_and_next t in
  match c with
  | None => numeric_start as_attr false t
  | Some x =>
      if (x =? 88) || (x =? 120) then t ▷ push_tmp x ▷ numeric_start as_attr true
      else t ▷ stream_prev ▷ numeric_start as_attr false
  end.

(** character_reference.rs:100-124 [AmbiguousAmpersand] *)
Fixpoint ambiguous_ampersand (fuel : nat) (as_attr : bool) (t : tk) : res tk :=
  match fuel with
  | O => Diverge
  | S f =>
      let (c, t) := stream_read_and_next t in
      match c with
      | None => Ok t
      | Some x =>
          if is_alnum x then t ▷ flush as_attr [x] ▷ ambiguous_ampersand f as_attr
          else if x =? c_semi then Ok (t ▷ stream_prev ▷ err UnknownNamedCharacterReference)
          else Ok (t ▷ stream_prev)
      end
  end.

(** character_reference.rs:58-99 [NamedCharacterReference] *)
Definition named_reference (as_attr : bool) (t : tk) : res tk :=
  match find_entity t with
  | Some entity =>
      let t := stream_next_n (length entity) t in
      let semi := bool_decide (last entity = Some 59) in
      if as_attr && negb semi &&
         match head (future t) with Some x => (x =? c_eq) || is_alnum x | None => false end
      then Ok (t ▷ set_tmp (tmp t ++ entity) ▷ consume_temp_buffer as_attr)
      else
        let t := t ▷ flush as_attr (default [] (assoc entity entities)) ▷ set_tmp [] in
        Ok (if semi then t else t ▷ err MissingSemicolonAfterCharacterReference)
  | None =>
      let t := consume_temp_buffer as_attr t in
      ambiguous_ampersand (S (length (future t))) as_attr t
  end.

(** character_reference.rs:25-57 [consume_character_reference], [CharacterReference] *)
Definition consume_character_reference (as_attr : bool) (t : tk) : res tk :=
  let t := set_tmp [c_amp] t in
  let (c, t) := stream_read_and_next t in
  match c with
  | None => Ok (consume_temp_buffer as_attr t)
  | Some x =>
      if is_alnum x then t ▷ stream_prev ▷ named_reference as_attr
      else if x =? c_hash then t ▷ push_tmp x ▷ numeric_reference as_attr
      else Ok (t ▷ consume_temp_buffer as_attr ▷ stream_prev)
  end.

(** ** The states *)
(** tokenizer.rs:392-447, 479-534, 576-631, 773-828: the four end-tag-name states *)
Definition end_tag_name (back : tstate) (t : tk) : tk :=
  let (c, t) := read_char t in
  let anything_else := fun t => t ▷ stream_prev ▷ transition_to back in
  match c with
  | Some x =>
      if is_ws x then if appropriate t then t ▷ goto BeforeAttributeName else anything_else t
      else if x =? c_slash then if appropriate t then t ▷ goto SelfClosingStart else anything_else t
      else if x =? c_gt then
        if appropriate t then t ▷ emit_current_token ▷ set_last_start [] ▷ goto Data else anything_else t
      else if is_alpha x then t ▷ add_to_token_name (lower_char x) ▷ push_tmp x
      else anything_else t
  | None => anything_else t
  end.
(** tokenizer.rs:372-391, 459-478, 752-772: the end-tag-open states *)
Definition end_tag_open (back name : tstate) (t : tk) : tk :=
  let (c, t) := read_char t in
  match c with
  | Some x =>
      if is_alpha x then t ▷ set_cur new_end_tag ▷ stream_prev ▷ goto name
      else t ▷ consume c_lt ▷ consume c_slash ▷ stream_prev ▷ goto back
  | None => t ▷ consume c_lt ▷ consume c_slash ▷ stream_prev ▷ goto back
  end.
(** the statements that end a start or end tag *)
Definition finish_tag (t : tk) : tk := t ▷ store_attr ▷ add_stored_attrs ▷ emit_current_token.

(** One round of the loop of tokenizer.rs:166-2033 [consume_stream]; the line of each state is given.
    [foreign]: [parser_data.adjusted_node_namespace != HTML_NAMESPACE]. [Ok None] is the error return. *)
Definition step (foreign : bool) (t : tk) : res (option tk) :=
  let rd (k : option N -> tk -> tk) : res (option tk) := let (c, t) := read_char t in Ok (Some (k c t)) in
  match state t with
  | Data (* 175 *) => rd (fun c t =>
      match c with
      | Some x =>
          if x =? c_amp then t ▷ goto CharacterReferenceInData
          else if x =? c_lt then t ▷ goto TagOpen
          else if x =? c_nul then t ▷ consume x ▷ err UnexpectedNullCharacter
          else t ▷ consume x
      | None => t ▷ emit_token Eof
      end)
  | CharacterReferenceInData (* 196 *) =>
      let* t := consume_character_reference false t in Ok (Some (goto Data t))
  | RCDATA (* 200 *) => rd (fun c t =>
      match c with
      | Some x =>
          if x =? c_amp then t ▷ goto CharacterReferenceInRcData
          else if x =? c_lt then t ▷ goto RCDATALessThanSign
          else if x =? c_nul then t ▷ consume c_repl ▷ err UnexpectedNullCharacter
          else t ▷ consume x
      | None => t ▷ emit_token Eof
      end)
  | CharacterReferenceInRcData (* 216 *) =>
      let* t := consume_character_reference false t in Ok (Some (goto RCDATA t))
  | RAWTEXT (* 221 *) => rd (fun c t =>
      match c with
      | Some x =>
          if x =? c_lt then t ▷ goto RAWTEXTLessThanSign
          else if x =? c_nul then t ▷ consume c_repl ▷ err UnexpectedNullCharacter
          else t ▷ consume x
      | None => t ▷ emit_token Eof
      end)
  | ScriptData (* 236 *) => rd (fun c t =>
      match c with
      | Some x =>
          if x =? c_lt then t ▷ goto ScriptDataLessThenSign
          else if x =? c_nul then t ▷ err UnexpectedNullCharacter ▷ consume c_repl
          else t ▷ consume x
      | None => t ▷ emit_token Eof
      end)
  | PLAINTEXT (* 251 *) => rd (fun c t =>
      match c with
      | Some x => if x =? c_nul then t ▷ err UnexpectedNullCharacter ▷ consume c_repl else t ▷ consume x
      | None => t ▷ emit_token Eof
      end)
  | TagOpen (* 265 *) => rd (fun c t =>
      match c with
      | Some x =>
          if x =? c_bang then t ▷ goto MarkupDeclarationOpen
          else if x =? c_slash then t ▷ goto EndTagOpen
          else if is_alpha x then t ▷ set_cur new_start_tag ▷ stream_prev ▷ goto TagName
          else if x =? c_quest then
            t ▷ set_cur new_comment ▷ err UnexpectedQuestionMarkInsteadOfTagName ▷ stream_prev ▷ goto BogusComment
          else t ▷ err InvalidFirstCharacterOfTagName ▷ consume c_lt ▷ stream_prev ▷ goto Data
      | None => t ▷ err EofBeforeTagName ▷ consume c_lt ▷ goto Data
      end)
  | EndTagOpen (* 303 *) => rd (fun c t =>
      match c with
      | Some x =>
          if is_alpha x then t ▷ set_cur new_end_tag ▷ stream_prev ▷ goto TagName
          else if x =? c_gt then t ▷ err MissingEndTagName ▷ goto Data
          else t ▷ err InvalidFirstCharacterOfTagName ▷ set_cur new_comment ▷ stream_prev ▷ goto BogusComment
      | None => t ▷ err EofBeforeTagName ▷ consume c_lt ▷ consume c_slash ▷ goto Data
      end)
  | TagName (* 337 *) => rd (fun c t =>
      match c with
      | Some x =>
          if is_ws x then t ▷ goto BeforeAttributeName
          else if x =? c_slash then t ▷ goto SelfClosingStart
          else if x =? c_gt then t ▷ emit_current_token ▷ goto Data
          else if is_upper x then t ▷ add_to_token_name (lower_char x)
          else if x =? c_nul then t ▷ err UnexpectedNullCharacter ▷ add_to_token_name c_repl
          else t ▷ add_to_token_name x
      | None => t ▷ err EofInTag ▷ goto Data
      end)
  | RCDATALessThanSign (* 361 *) => rd (fun c t =>
      if bool_decide (c = Some 47) then t ▷ set_tmp [] ▷ goto RCDATAEndTagOpen
      else t ▷ consume c_lt ▷ stream_prev ▷ goto RCDATA)
  | RCDATAEndTagOpen (* 372 *) => Ok (Some (end_tag_open RCDATA RCDATAEndTagName t))
  | RCDATAEndTagName (* 392 *) => Ok (Some (end_tag_name RCDATA t))
  | RAWTEXTLessThanSign (* 448 *) => rd (fun c t =>
      if bool_decide (c = Some 47) then t ▷ set_tmp [] ▷ goto RAWTEXTEndTagOpen
      else t ▷ consume c_lt ▷ stream_prev ▷ goto RAWTEXT)
  | RAWTEXTEndTagOpen (* 459 *) => Ok (Some (end_tag_open RAWTEXT RAWTEXTEndTagName t))
  | RAWTEXTEndTagName (* 479 *) => Ok (Some (end_tag_name RAWTEXT t))
  | ScriptDataLessThenSign (* 535 *) => rd (fun c t =>
      if bool_decide (c = Some 47) then t ▷ set_tmp [] ▷ goto ScriptDataEndTagOpen
      else if bool_decide (c = Some 33) then t ▷ consume c_lt ▷ consume c_bang ▷ goto ScriptDataEscapeStart
      else t ▷ consume c_lt ▷ stream_prev ▷ goto ScriptData)
  | ScriptDataEndTagOpen (* 554 *) => rd (fun c t =>
      match c with
      | Some x =>
          if is_alpha x then t ▷ set_cur (Some (EndTag [lower_char x])) ▷ push_tmp x ▷ goto ScriptDataEndTagName
          else t ▷ consume c_lt ▷ consume c_slash ▷ stream_prev ▷ goto ScriptData
      | None => t ▷ consume c_lt ▷ consume c_slash ▷ stream_prev ▷ goto ScriptData
      end)
  | ScriptDataEndTagName (* 576 *) => Ok (Some (end_tag_name ScriptData t))
  | ScriptDataEscapeStart (* 632 *) => rd (fun c t =>
      if bool_decide (c = Some 45) then t ▷ consume c_dash ▷ goto ScriptDataEscapeStartDash
      else t ▷ stream_prev ▷ goto ScriptData)
  | ScriptDataEscapeStartDash (* 642 *) => rd (fun c t =>
      if bool_decide (c = Some 45) then t ▷ consume c_dash ▷ goto ScriptDataEscapedDashDash
      else t ▷ stream_prev ▷ goto ScriptData)
  | ScriptDataEscaped (* 652 *) => rd (fun c t =>
      match c with
      | Some x =>
          if x =? c_dash then t ▷ consume c_dash ▷ goto ScriptDataEscapedDash
          else if x =? c_lt then t ▷ goto ScriptDataEscapedLessThanSign
          else if x =? c_nul then t ▷ err UnexpectedNullCharacter ▷ consume c_repl
          else t ▷ consume x
      | None => t ▷ err EofInScriptHtmlCommentLikeText ▷ goto Data
      end)
  | ScriptDataEscapedDash (* 676 *) => rd (fun c t =>
      match c with
      | Some x =>
          if x =? c_dash then t ▷ consume c_dash ▷ goto ScriptDataEscapedDashDash
          else if x =? c_lt then t ▷ goto ScriptDataEscapedLessThanSign
          else if x =? c_nul then t ▷ err UnexpectedNullCharacter ▷ consume c_repl ▷ goto ScriptDataEscaped
          else t ▷ consume x ▷ goto ScriptDataEscaped
      | None => t ▷ err EofInScriptHtmlCommentLikeText ▷ goto Data
      end)
  | ScriptDataEscapedDashDash (* 702 *) => rd (fun c t =>
      match c with
      | Some x =>
          if x =? c_dash then t ▷ consume c_dash
          else if x =? c_lt then t ▷ goto ScriptDataEscapedLessThanSign
          else if x =? c_gt then t ▷ consume c_gt ▷ goto ScriptData
          else if x =? c_nul then t ▷ err UnexpectedNullCharacter ▷ consume c_repl ▷ goto ScriptDataEscaped
          else t ▷ consume x ▷ goto ScriptDataEscaped
      | None => t ▷ err EofInScriptHtmlCommentLikeText ▷ goto Data
      end)
  | ScriptDataEscapedLessThanSign (* 731 *) => rd (fun c t =>
      match c with
      | Some x =>
          if x =? c_slash then t ▷ set_tmp [] ▷ goto ScriptDataEscapedEndTagOpen
          else if is_alpha x then t ▷ set_tmp [] ▷ consume c_lt ▷ stream_prev ▷ goto ScriptDataDoubleEscapeStart
          else t ▷ consume c_lt ▷ stream_prev ▷ goto ScriptDataEscaped
      | None => t ▷ consume c_lt ▷ stream_prev ▷ goto ScriptDataEscaped
      end)
  | ScriptDataEscapedEndTagOpen (* 752 *) => Ok (Some (end_tag_open ScriptDataEscaped ScriptDataEscapedEndTagName t))
  | ScriptDataEscapedEndTagName (* 773 *) => Ok (Some (end_tag_name ScriptDataEscaped t))
  | ScriptDataDoubleEscapeStart (* 829 *) => rd (fun c t =>
      match c with
      | Some x =>
          if is_ws x || (x =? c_slash) || (x =? c_gt) then
            t ▷ goto (if bool_decide (tmp t = txt "script") then ScriptDataDoubleEscaped else ScriptDataEscaped) ▷ consume x
          else if is_alpha x then t ▷ push_tmp (lower_char x) ▷ consume x
          else t ▷ stream_prev ▷ goto ScriptDataEscaped
      | None => t ▷ stream_prev ▷ goto ScriptDataEscaped
      end)
  | ScriptDataDoubleEscaped (* 850 *) => rd (fun c t =>
      match c with
      | Some x =>
          if x =? c_dash then t ▷ consume c_dash ▷ goto ScriptDataDoubleEscapedDash
          else if x =? c_lt then t ▷ consume c_lt ▷ goto ScriptDataDoubleEscapedLessThanSign
          else if x =? c_nul then t ▷ err UnexpectedNullCharacter ▷ consume c_repl
          else t ▷ consume x
      | None => t ▷ err EofInScriptHtmlCommentLikeText ▷ goto Data
      end)
  | ScriptDataDoubleEscapedDash (* 873 *) => rd (fun c t =>
      match c with
      | Some x =>
          if x =? c_dash then t ▷ goto ScriptDataDoubleEscapedDashDash ▷ consume c_dash
          else if x =? c_lt then t ▷ goto ScriptDataDoubleEscapedLessThanSign ▷ consume c_lt
          else if x =? c_nul then t ▷ err UnexpectedNullCharacter ▷ consume c_repl ▷ goto ScriptDataDoubleEscaped
          else t ▷ consume x ▷ goto ScriptDataDoubleEscaped
      | None => t ▷ err EofInScriptHtmlCommentLikeText ▷ goto Data
      end)
  | ScriptDataDoubleEscapedDashDash (* 900 *) => rd (fun c t =>
      match c with
      | Some x =>
          if x =? c_dash then t ▷ consume c_dash
          else if x =? c_lt then t ▷ consume c_lt ▷ goto ScriptDataDoubleEscapedLessThanSign
          else if x =? c_gt then t ▷ consume c_gt ▷ goto ScriptData
          else if x =? c_nul then t ▷ err UnexpectedNullCharacter ▷ consume c_repl ▷ goto ScriptDataDoubleEscaped
          else t ▷ consume x ▷ goto ScriptDataDoubleEscaped
      | None => t ▷ err EofInScriptHtmlCommentLikeText ▷ goto Data
      end)
  | ScriptDataDoubleEscapedLessThanSign (* 928 *) => rd (fun c t =>
      if bool_decide (c = Some 47) then t ▷ set_tmp [] ▷ consume c_slash ▷ goto ScriptDataDoubleEscapeEnd
      else t ▷ stream_prev ▷ goto ScriptDataDoubleEscaped)
  | ScriptDataDoubleEscapeEnd (* 939 *) => rd (fun c t =>
      match c with
      | Some x =>
          if is_ws x || (x =? c_slash) || (x =? c_gt) then
            t ▷ goto (if bool_decide (tmp t = txt "script") then ScriptDataEscaped else ScriptDataDoubleEscaped) ▷ consume x
          else if is_alpha x then t ▷ push_tmp (lower_char x) ▷ consume x
          else t ▷ stream_prev ▷ goto ScriptDataDoubleEscaped
      | None => t ▷ stream_prev ▷ goto ScriptDataDoubleEscaped
      end)
  | BeforeAttributeName (* 960 *) => rd (fun c t =>
      match c with
      | Some x =>
          if is_ws x then t
          else if (x =? c_slash) || (x =? c_gt) then t ▷ stream_prev ▷ goto AfterAttributeName
          else if x =? c_eq then
            t ▷ err UnexpectedEqualsSignBeforeAttributeName ▷ store_attr ▷ push_name x ▷ goto AttributeName
          else t ▷ store_attr ▷ stream_prev ▷ goto AttributeName
      | None => t ▷ stream_prev ▷ goto AfterAttributeName
      end)
  | AttributeName (* 988 *) => rd (fun c t =>
      let dup := fun t => if attr_already_exists t then t ▷ err DuplicateAttribute else t in
      match c with
      | Some x =>
          if is_ws x || (x =? c_slash) || (x =? c_gt) then t ▷ dup ▷ stream_prev ▷ goto AfterAttributeName
          else if x =? c_eq then t ▷ dup ▷ goto BeforeAttributeValue
          else if is_upper x then t ▷ push_name (lower_char x)
          else if x =? c_nul then t ▷ err UnexpectedNullCharacter ▷ push_name c_repl
          else if (x =? c_dquote) || (x =? c_quote) || (x =? c_lt) then
            t ▷ err UnexpectedCharacterInAttributeName ▷ push_name x
          else t ▷ push_name x
      | None => t ▷ dup ▷ goto AfterAttributeName
      end)
  | AfterAttributeName (* 1026 *) => rd (fun c t =>
      match c with
      | Some x =>
          if is_ws x then t
          else if x =? c_slash then t ▷ goto SelfClosingStart
          else if x =? c_eq then t ▷ goto BeforeAttributeValue
          else if x =? c_gt then t ▷ finish_tag ▷ goto Data
          else t ▷ store_attr ▷ stream_prev ▷ goto AttributeName
      | None => t ▷ err EofInTag ▷ goto Data
      end)
  | BeforeAttributeValue (* 1052 *) => rd (fun c t =>
      match c with
      | Some x =>
          if is_ws x then t
          else if x =? c_dquote then t ▷ goto AttributeValueDoubleQuoted
          else if x =? c_quote then t ▷ goto AttributeValueSingleQuoted
          else if x =? c_gt then t ▷ err MissingAttributeValue ▷ finish_tag ▷ goto Data
          else t ▷ stream_prev ▷ goto AttributeValueUnquoted
      | None => t ▷ err EofInTag ▷ goto Data
      end)
  | AttributeValueDoubleQuoted (* 1081 *) =>
      let (c, t) := read_char t in
      match c with
      | Some x =>
          if x =? c_dquote then Ok (Some (t ▷ goto AfterAttributeValueQuoted))
          else if x =? c_amp then let* t := consume_character_reference true t in Ok (Some t)
          else if x =? c_nul then Ok (Some (t ▷ err UnexpectedNullCharacter ▷ push_value c_repl))
          else Ok (Some (t ▷ push_value x))
      | None => Ok (Some (t ▷ err EofInTag ▷ goto Data))
      end
  | AttributeValueSingleQuoted (* 1102 *) =>
      let (c, t) := read_char t in
      match c with
      | Some x =>
          if x =? c_quote then Ok (Some (t ▷ goto AfterAttributeValueQuoted))
          else if x =? c_amp then let* t := consume_character_reference true t in Ok (Some t)
          else if x =? c_nul then Ok (Some (t ▷ err UnexpectedNullCharacter ▷ push_value c_repl))
          else Ok (Some (t ▷ push_value x))
      | None => Ok (Some (t ▷ err EofInTag ▷ goto Data))
      end
  | AttributeValueUnquoted (* 1123 *) =>
      let (c, t) := read_char t in
      match c with
      | Some x =>
          if is_ws x then Ok (Some (t ▷ goto BeforeAttributeName))
          else if x =? c_amp then let* t := consume_character_reference true t in Ok (Some t)
          else if x =? c_gt then Ok (Some (t ▷ finish_tag ▷ goto Data))
          else if x =? c_nul then Ok (Some (t ▷ err UnexpectedNullCharacter ▷ push_value c_repl))
          else if (x =? c_dquote) || (x =? c_quote) || (x =? c_lt) || (x =? c_eq) || (x =? c_tick) then
            Ok (Some (t ▷ err UnexpectedCharacterInUnquotedAttributeValue ▷ push_value x))
          else Ok (Some (t ▷ push_value x))
      | None => Ok (Some (t ▷ err EofInTag ▷ goto Data))
      end
  | AfterAttributeValueQuoted (* 1157 *) => rd (fun c t =>
      match c with
      | Some x =>
          if is_ws x then t ▷ goto BeforeAttributeName
          else if x =? c_slash then t ▷ goto SelfClosingStart
          else if x =? c_gt then t ▷ finish_tag ▷ goto Data
          else t ▷ err MissingWhitespaceBetweenAttributes ▷ stream_prev ▷ goto BeforeAttributeName
      | None => t ▷ err EofInTag ▷ goto Data
      end)
  | SelfClosingStart (* 1182 *) => rd (fun c t =>
      match c with
      | Some x =>
          if x =? c_gt then t ▷ set_is_closing ▷ goto Data ▷ finish_tag
          else t ▷ stream_prev ▷ err UnexpectedSolidusInTag ▷ goto BeforeAttributeName
      | None => t ▷ err EofInTag ▷ goto Data
      end)
  | BogusComment (* 1206 *) => rd (fun c t =>
      match c with
      | Some x =>
          if x =? c_gt then t ▷ emit_current_token ▷ goto Data
          else if x =? c_nul then t ▷ err UnexpectedNullCharacter ▷ add_to_token_value c_repl
          else t ▷ add_to_token_value x
      | None => t ▷ emit_current_token ▷ goto Data
      end)
  | MarkupDeclarationOpen (* 1223 *) =>
      Ok (Some (
        if bool_decide (slice_to_string (get_slice 2 t) = txt "--") then
          t ▷ set_cur new_comment ▷ stream_next_n 2 ▷ goto CommentStart
        else if bool_decide (upper (slice_to_string (get_slice 7 t)) = txt "DOCTYPE") then
          t ▷ stream_next_n 7 ▷ goto DOCTYPE
        else if bool_decide (slice_to_string (get_slice 7 t) = txt "[CDATA[") then
          let t := t ▷ stream_next_n 6 ▷ stream_next_n 1 in
          if foreign then t ▷ goto CDATASection
          else t ▷ err CdataInHtmlContent ▷ set_cur (Some (Comment (txt "[CDATA["))) ▷ goto BogusComment
        else t ▷ err IncorrectlyOpenedComment ▷ set_cur new_comment ▷ goto BogusComment))
  | CommentStart (* 1271 *) => rd (fun c t =>
      match c with
      | Some x =>
          if x =? c_dash then t ▷ goto CommentStartDash
          else if x =? c_gt then t ▷ err AbruptClosingOfEmptyComment ▷ emit_current_token ▷ goto Data
          else t ▷ stream_prev ▷ goto CommentState
      | None => t ▷ stream_prev ▷ goto CommentState
      end)
  | CommentStartDash (* 1289 *) => rd (fun c t =>
      match c with
      | Some x =>
          if x =? c_dash then t ▷ goto CommentEnd
          else if x =? c_gt then t ▷ err AbruptClosingOfEmptyComment ▷ emit_current_token ▷ goto Data
          else t ▷ add_to_token_value c_dash ▷ stream_prev ▷ goto CommentState
      | None => t ▷ err EofInComment ▷ emit_current_token ▷ goto Data
      end)
  | CommentState (* 1313 *) => rd (fun c t =>
      match c with
      | Some x =>
          if x =? c_lt then t ▷ add_to_token_value x ▷ goto CommentLessThanSign
          else if x =? c_dash then t ▷ goto CommentEndDash
          else if x =? c_nul then t ▷ err UnexpectedNullCharacter ▷ add_to_token_value c_repl
          else t ▷ add_to_token_value x
      | None => t ▷ err EofInComment ▷ emit_current_token ▷ goto Data
      end)
  | CommentLessThanSign (* 1336 *) => rd (fun c t =>
      if bool_decide (c = Some 33) then t ▷ add_to_token_value c_bang ▷ goto CommentLessThanSignBang
      else if bool_decide (c = Some 60) then t ▷ add_to_token_value c_lt
      else t ▷ stream_prev ▷ goto CommentState)
  | CommentLessThanSignBang (* 1352 *) => rd (fun c t =>
      if bool_decide (c = Some 45) then t ▷ goto CommentLessThanSignBangDash
      else t ▷ stream_prev ▷ goto CommentState)
  | CommentLessThanSignBangDash (* 1361 *) => rd (fun c t =>
      if bool_decide (c = Some 45) then t ▷ goto CommentLessThanSignBangDashDash
      else t ▷ stream_prev ▷ goto CommentEndDash)
  | CommentLessThanSignBangDashDash (* 1370 *) => rd (fun c t =>
      match c with
      | Some x =>
          if x =? c_gt then t ▷ stream_prev ▷ goto CommentEnd
          else t ▷ err NestedComment ▷ stream_prev ▷ goto CommentEnd
      | None => t ▷ goto CommentEnd
      end)
  | CommentEndDash (* 1388 *) => rd (fun c t =>
      match c with
      | Some x =>
          if x =? c_dash then t ▷ goto CommentEnd
          else t ▷ add_to_token_value c_dash ▷ stream_prev ▷ goto CommentState
      | None => t ▷ err EofInComment ▷ emit_current_token ▷ goto Data
      end)
  | CommentEnd (* 1407 *) => rd (fun c t =>
      match c with
      | Some x =>
          if x =? c_gt then t ▷ emit_current_token ▷ goto Data
          else if x =? c_bang then t ▷ goto CommentEndBang
          else if x =? c_dash then t ▷ add_to_token_value c_dash
          else t ▷ add_to_token_value c_dash ▷ add_to_token_value c_dash ▷ stream_prev ▷ goto CommentState
      | None => t ▷ err EofInComment ▷ emit_current_token ▷ goto Data
      end)
  | CommentEndBang (* 1430 *) => rd (fun c t =>
      match c with
      | Some x =>
          if x =? c_dash then
            t ▷ add_to_token_value c_dash ▷ add_to_token_value c_dash ▷ add_to_token_value c_bang ▷ goto CommentEndDash
          else if x =? c_gt then t ▷ err IncorrectlyClosedComment ▷ emit_current_token ▷ goto Data
          else t ▷ add_to_token_value c_dash ▷ add_to_token_value c_dash ▷ add_to_token_value c_bang
                 ▷ stream_prev ▷ goto CommentState
      | None => t ▷ err EofInComment ▷ emit_current_token ▷ goto Data
      end)
  | DOCTYPE (* 1460 *) => rd (fun c t =>
      match c with
      | Some x =>
          if is_ws x then t ▷ goto BeforeDOCTYPEName
          else if x =? c_gt then t ▷ stream_prev ▷ goto BeforeDOCTYPEName
          else t ▷ err MissingWhitespaceBeforeDoctypeName ▷ stream_prev ▷ goto BeforeDOCTYPEName
      | None => t ▷ err EofInDoctype ▷ emit_token quirky_doctype ▷ goto Data
      end)
  | BeforeDOCTYPEName (* 1491 *) => rd (fun c t =>
      match c with
      | Some x =>
          if is_ws x then t
          else if is_upper x then t ▷ set_cur new_doctype ▷ add_to_token_name (lower_char x) ▷ goto DOCTYPEName
          else if x =? c_nul then
            t ▷ err UnexpectedNullCharacter ▷ set_cur new_doctype ▷ add_to_token_name c_repl ▷ goto DOCTYPEName
          else if x =? c_gt then t ▷ err MissingDoctypeName ▷ emit_token quirky_doctype ▷ goto Data
          else t ▷ set_cur new_doctype ▷ add_to_token_name x ▷ goto DOCTYPEName
      | None => t ▷ err EofInDoctype ▷ emit_token quirky_doctype ▷ goto Data
      end)
  | DOCTYPEName (* 1563 *) => rd (fun c t =>
      match c with
      | Some x =>
          if is_ws x then t ▷ goto AfterDOCTYPEName
          else if x =? c_gt then t ▷ emit_current_token ▷ goto Data
          else if is_upper x then t ▷ add_to_token_name (lower_char x)
          else if x =? c_nul then t ▷ err UnexpectedNullCharacter ▷ add_to_token_name c_repl
          else t ▷ add_to_token_name x
      | None => t ▷ err EofInDoctype ▷ set_quirks ▷ emit_current_token ▷ goto Data
      end)
  | AfterDOCTYPEName (* 1588 *) => rd (fun c t =>
      match c with
      | Some x =>
          if is_ws x then t
          else if x =? c_gt then t ▷ emit_current_token ▷ goto Data
          else
            let t := stream_prev t in
            if bool_decide (upper (slice_to_string (get_slice 6 t)) = txt "PUBLIC") then
              t ▷ stream_next_n 6 ▷ goto AfterDOCTYPEPublicKeyword
            else if bool_decide (upper (slice_to_string (get_slice 6 t)) = txt "SYSTEM") then
              t ▷ stream_next_n 6 ▷ goto AfterDOCTYPESystemKeyword
            else t ▷ stream_next_n 1 ▷ err InvalidCharacterSequenceAfterDoctypeName ▷ stream_prev ▷ set_quirks
                   ▷ stream_prev ▷ goto BogusDOCTYPE
      | None => t ▷ err EofInDoctype ▷ set_quirks ▷ emit_current_token ▷ goto Data
      end)
  | AfterDOCTYPEPublicKeyword (* 1629 *) => rd (fun c t =>
      match c with
      | Some x =>
          if is_ws x then t ▷ goto BeforeDOCTYPEPublicIdentifier
          else if x =? c_dquote then
            t ▷ err MissingWhitespaceAfterDoctypePublicKeyword ▷ start_public_identifier ▷ goto DOCTYPEPublicIdentifierDoubleQuoted
          else if x =? c_quote then
            t ▷ err MissingWhitespaceAfterDoctypePublicKeyword ▷ start_public_identifier ▷ goto DOCTYPEPublicIdentifierSingleQuoted
          else if x =? c_gt then t ▷ err MissingDoctypePublicIdentifier ▷ set_quirks ▷ emit_current_token ▷ goto Data
          else t ▷ err MissingQuoteBeforeDoctypePublicIdentifier ▷ stream_prev ▷ set_quirks ▷ goto BogusDOCTYPE
      | None => t ▷ err EofInDoctype ▷ set_quirks ▷ emit_current_token ▷ goto Data
      end)
  | BeforeDOCTYPEPublicIdentifier (* 1666 *) => rd (fun c t =>
      match c with
      | Some x =>
          if is_ws x then t
          else if x =? c_dquote then t ▷ start_public_identifier ▷ goto DOCTYPEPublicIdentifierDoubleQuoted
          else if x =? c_quote then t ▷ start_public_identifier ▷ goto DOCTYPEPublicIdentifierSingleQuoted
          else if x =? c_gt then t ▷ err MissingDoctypePublicIdentifier ▷ set_quirks ▷ emit_current_token ▷ goto Data
          else t ▷ stream_prev ▷ err MissingQuoteBeforeDoctypePublicIdentifier ▷ set_quirks ▷ goto BogusDOCTYPE
      | None => t ▷ err EofInDoctype ▷ set_quirks ▷ emit_current_token ▷ goto Data
      end)
  | DOCTYPEPublicIdentifierDoubleQuoted (* 1701 *) => rd (fun c t =>
      match c with
      | Some x =>
          if x =? c_dquote then t ▷ goto AfterDOCTYPEPublicIdentifier
          else if x =? c_nul then t ▷ err UnexpectedNullCharacter ▷ add_public_identifier c_repl
          else if x =? c_gt then t ▷ err AbruptDoctypePublicIdentifier ▷ set_quirks ▷ emit_current_token ▷ goto Data
          else t ▷ add_public_identifier x
      | None => t ▷ err EofInDoctype ▷ set_quirks ▷ emit_current_token ▷ goto Data
      end)
  | DOCTYPEPublicIdentifierSingleQuoted (* 1725 *) => rd (fun c t =>
      match c with
      | Some x =>
          if x =? c_quote then t ▷ goto AfterDOCTYPEPublicIdentifier
          else if x =? c_nul then t ▷ err UnexpectedNullCharacter ▷ add_public_identifier c_repl
          else if x =? c_gt then t ▷ err AbruptDoctypePublicIdentifier ▷ set_quirks ▷ emit_current_token ▷ goto Data
          else t ▷ add_public_identifier x
      | None => t ▷ err EofInDoctype ▷ set_quirks ▷ emit_current_token ▷ goto Data
      end)
  | AfterDOCTYPEPublicIdentifier (* 1749 *) => rd (fun c t =>
      match c with
      | Some x =>
          if is_ws x then t ▷ goto BetweenDOCTYPEPublicAndSystemIdentifiers
          else if x =? c_gt then t ▷ emit_current_token ▷ goto Data
          else if x =? c_dquote then
            t ▷ err MissingWhitespaceBetweenDoctypePublicAndSystemIdentifiers ▷ start_system_identifier
              ▷ goto DOCTYPESystemIdentifierDoubleQuoted
          else if x =? c_quote then
            t ▷ err MissingWhitespaceBetweenDoctypePublicAndSystemIdentifiers ▷ start_system_identifier
              ▷ goto DOCTYPESystemIdentifierSingleQuoted
          else t ▷ err MissingQuoteBeforeDoctypeSystemIdentifier ▷ stream_prev ▷ set_quirks ▷ goto BogusDOCTYPE
      | None => t ▷ err EofInDoctype ▷ set_quirks ▷ emit_current_token ▷ goto Data
      end)
  | BetweenDOCTYPEPublicAndSystemIdentifiers (* 1790 *) => rd (fun c t =>
      match c with
      | Some x =>
          if is_ws x then t
          else if x =? c_gt then t ▷ emit_current_token ▷ goto Data
          else if x =? c_dquote then t ▷ start_system_identifier ▷ goto DOCTYPESystemIdentifierDoubleQuoted
          else if x =? c_quote then t ▷ start_system_identifier ▷ goto DOCTYPESystemIdentifierSingleQuoted
          else t ▷ err MissingQuoteBeforeDoctypeSystemIdentifier ▷ stream_prev ▷ set_quirks ▷ goto BogusDOCTYPE
      | None => t ▷ err EofInDoctype ▷ set_quirks ▷ emit_current_token ▷ goto Data
      end)
  | AfterDOCTYPESystemKeyword (* 1823 *) => rd (fun c t =>
      match c with
      | Some x =>
          if is_ws x then t ▷ goto BeforeDOCTYPESystemIdentifier
          else if x =? c_dquote then
            t ▷ err MissingWhitespaceAfterDoctypeSystemKeyword ▷ start_system_identifier ▷ goto DOCTYPESystemIdentifierDoubleQuoted
          else if x =? c_quote then
            t ▷ err MissingWhitespaceAfterDoctypeSystemKeyword ▷ start_system_identifier ▷ goto DOCTYPESystemIdentifierSingleQuoted
          else if x =? c_gt then t ▷ err MissingDoctypeSystemIdentifier ▷ set_quirks ▷ emit_current_token ▷ goto Data
          else t ▷ err MissingQuoteBeforeDoctypeSystemIdentifier ▷ stream_prev ▷ set_quirks ▷ goto BogusDOCTYPE
      | None => t ▷ err EofInDoctype ▷ set_quirks ▷ emit_current_token ▷ goto Data
      end)
  | BeforeDOCTYPESystemIdentifier (* 1860 *) => rd (fun c t =>
      match c with
      | Some x =>
          if is_ws x then t
          else if x =? c_dquote then t ▷ start_system_identifier ▷ goto DOCTYPESystemIdentifierDoubleQuoted
          else if x =? c_quote then t ▷ start_system_identifier ▷ goto DOCTYPESystemIdentifierSingleQuoted
          else if x =? c_gt then t ▷ err MissingDoctypeSystemIdentifier ▷ set_quirks ▷ emit_current_token ▷ goto Data
          else t ▷ err MissingQuoteBeforeDoctypeSystemIdentifier ▷ stream_prev ▷ set_quirks ▷ goto BogusDOCTYPE
      | None => t ▷ err EofInDoctype ▷ set_quirks ▷ emit_current_token ▷ goto Data
      end)
  | DOCTYPESystemIdentifierDoubleQuoted (* 1895 *) => rd (fun c t =>
      match c with
      | Some x =>
          if x =? c_dquote then t ▷ goto AfterDOCTYPESystemIdentifier
          else if x =? c_nul then t ▷ err UnexpectedNullCharacter ▷ add_system_identifier c_repl
          else if x =? c_gt then t ▷ err AbruptDoctypeSystemIdentifier ▷ set_quirks ▷ emit_current_token ▷ goto Data
          else t ▷ add_system_identifier x
      | None => t ▷ err EofInDoctype ▷ set_quirks ▷ emit_current_token ▷ goto Data
      end)
  | DOCTYPESystemIdentifierSingleQuoted (* 1919 *) => rd (fun c t =>
      match c with
      | Some x =>
          if x =? c_quote then t ▷ goto AfterDOCTYPESystemIdentifier
          else if x =? c_nul then t ▷ err UnexpectedNullCharacter ▷ add_system_identifier c_repl
          else if x =? c_gt then t ▷ err AbruptDoctypeSystemIdentifier ▷ set_quirks ▷ emit_current_token ▷ goto Data
          else t ▷ add_system_identifier x
      | None => t ▷ err EofInDoctype ▷ set_quirks ▷ emit_current_token ▷ goto Data
      end)
  | AfterDOCTYPESystemIdentifier (* 1943 *) => rd (fun c t =>
      match c with
      | Some x =>
          if is_ws x then t
          else if x =? c_gt then t ▷ emit_current_token ▷ goto Data
          else t ▷ err UnexpectedCharacterAfterDoctypeSystemIdentifier ▷ stream_prev ▷ goto BogusDOCTYPE
      | None => t ▷ err EofInDoctype ▷ set_quirks ▷ emit_current_token ▷ goto Data
      end)
  | BogusDOCTYPE (* 1967 *) => rd (fun c t =>
      match c with
      | Some x =>
          if x =? c_gt then t ▷ emit_current_token ▷ goto Data
          else if x =? c_nul then t ▷ err UnexpectedNullCharacter
          else t
      | None => t ▷ emit_current_token ▷ goto Data
      end)
  | CDATASection (* 1981 *) => rd (fun c t =>
      match c with
      | Some x => if x =? c_rbr then t ▷ goto CDATASectionBracket else t ▷ consume x
      | None => t ▷ err EofInCdata ▷ goto Data
      end)
  | CDATASectionBracket (* 1995 *) => rd (fun c t =>
      if bool_decide (c = Some 93) then t ▷ goto CDATASectionEnd
      else t ▷ consume c_rbr ▷ stream_prev ▷ goto CDATASection)
  | CDATASectionEnd (* 2005 *) => rd (fun c t =>
      match c with
      | Some x =>
          if x =? c_gt then t ▷ goto Data
          else if x =? c_rbr then t ▷ consume c_rbr
          else t ▷ consume c_rbr ▷ consume c_rbr ▷ consume x ▷ goto CDATASection
      | None => t ▷ consume c_rbr ▷ consume c_rbr ▷ goto CDATASection
      end)
  | CharacterReferenceInAttributeValue (* 2023 *) => Ok None
  end.

(** tokenizer.rs:166-2033 [consume_stream] *)
Fixpoint consume_stream (fuel : nat) (foreign : bool) (t : tk) : res (option tk) :=
  match queue t with
  | _ :: _ => Ok (Some t)
  | [] =>
      match fuel with
      | O => Diverge
      | S f =>
          let* r := step foreign t in
          match r with Some t => consume_stream f foreign t | None => Ok None end
      end
  end.

(** tokenizer.rs:143-155 [next_token]; [Ok None] is the error return *)
Definition next_token (fuel : nat) (foreign : bool) (t : tk) : res (option (token * tk)) :=
  let* r := consume_stream fuel foreign t in
  Ok (match r with
      | Some t => match queue t with tok :: q => Some (tok, set_queue q t) | [] => Some (Eof, t) end
      | None => None
      end).
End references.
