(** Model of crates/gosub_css3/src/matcher/syntax.rs lines 272-890 (reading a value definition grammar) and of
    crates/gosub_css3/src/matcher/property_definitions.rs lines 12-692 (loading the definitions the engine is
    compiled with and following the references between them) and of the data types that are not defined by a grammar,
    crates/gosub_css3/src/matcher/syntax_matcher.rs lines 17-20, 335-443 and 1030-1073.
    Texts are the bytes of their UTF-8 form; the parsers only look for ASCII characters and for the symbol of infinity.
    A numeric range is kept as its text without blanks. Log output is left out. *)
From Coq Require Import FMapPositive.
From Verif Require Import Base Text SelectorModel SyntaxModel GrammarData.

(** ** Parsers (the crate nom): what was read and the rest of the text; [None] is an error *)
Definition parser (A : Type) : Type := str -> option (A * str).
Definition is_blank (c : N) : bool := ((c =? 32) || (c =? 9) || (c =? 10) || (c =? 13))%N.
Definition is_space (c : N) : bool := (c =? 32)%N || (c =? 9)%N.
Definition is_num (c : N) : bool := ((48 <=? c) && (c <=? 57))%N.
Definition is_letter (c : N) : bool := (((65 <=? c) && (c <=? 90)) || ((97 <=? c) && (c <=? 122)))%N.
(** [take_while], [digit0], [multispace0], [space0] *)
Fixpoint span (f : N -> bool) (t : str) : str * str :=
  match t with
  | c :: r => if f c then let (a, b) := span f r in (c :: a, b) else ([], t)
  | [] => ([], [])
  end.
Definition skip (f : N -> bool) (t : str) : str := snd (span f t).
(** [alpha1], [digit1] *)
Definition span1 (f : N -> bool) : parser str := fun t => match span f t with ([], _) => None | p => Some p end.
(** [tag] *)
Fixpoint tag (w : str) (t : str) : option str :=
  match w, t with
  | [], _ => Some t
  | a :: w, b :: t => if (a =? b)%N then tag w t else None
  | _, [] => None
  end.
(** syntax.rs:339-346 *)
Definition ws {A} (p : parser A) : parser A := fun t =>
  match p (skip is_blank t) with Some (a, r) => Some (a, skip is_blank r) | None => None end.
Definition ws_tag (w : str) (t : str) : option str :=
  match tag w (skip is_blank t) with Some r => Some (skip is_blank r) | None => None end.
Definition alt {A} (p q : parser A) : parser A := fun t => match p t with Some x => Some x | None => q t end.
(** [separated_list1], nom 8 multi/mod.rs: when no element follows a separator, the list ends before it *)
Fixpoint more {A} (fuel : nat) (sep : str -> option str) (p : parser A) (t : str) : list A * str :=
  match fuel with
  | 0 => ([], t)
  | S fuel =>
      match sep t with
      | None => ([], t)
      | Some t1 => match p t1 with Some (a, t2) => let (l, r) := more fuel sep p t2 in (a :: l, r) | None => ([], t) end
      end
  end.
Definition separated {A} (sep : str -> option str) (p : parser A) : parser (list A) := fun t =>
  match p t with Some (a, t1) => let (l, r) := more (length t1) sep p t1 in Some (a :: l, r) | None => None end.

(** syntax.rs:349-352 *)
Definition p_keyword : parser str := span1 (fun c => is_num c || is_letter c || (c =? 45)%N).
(** syntax.rs:355-357 [integer] *)
Definition digits_value (ds : str) : N := fold_left (fun n c => 10 * n + (c - 48))%N ds 0%N.
Definition p_integer : parser N := fun t =>
  match span is_num t with
  | ([], _) => None
  | (ds, r) => if (digits_value ds <? 4294967296)%N then Some (digits_value ds, r) else None
  end.
Definition p_pair : parser (N * N) := fun t =>
  match ws p_integer t with
  | Some (a, t1) =>
      match ws_tag [44%N] t1 with
      | Some t2 => match ws p_integer t2 with Some (b, t3) => Some ((a, b), t3) | None => None end
      | None => None
      end
  | None => None
  end.
Definition p_one : parser (N * N) := fun t => match ws p_integer t with Some (a, r) => Some ((a, a), r) | None => None end.
Definition u32_max : N := 4294967295.
Definition p_open_pair : parser (N * N) := fun t =>
  match ws p_integer t with
  | Some (a, t1) => match ws_tag [44%N] t1 with Some t2 => Some ((a, u32_max), t2) | None => None end
  | None => None
  end.
(** syntax.rs:359-370 [parse_curly_braces_multiplier] *)
Definition p_curly : parser multiplier := fun t =>
  match tag [123%N] t with
  | Some t1 =>
      match alt p_pair p_one t1 with
      | Some ((a, b), t2) => match tag [125%N] t2 with Some t3 => Some (Between (N.to_nat a) (N.to_nat b), t3) | None => None end
      | None => None
      end
  | None => None
  end.
(** syntax.rs:372-391 [parse_comma_separated_multiplier] *)
Definition p_list_bounds : parser (N * N) := fun t =>
  match ws_tag [35%N; 123%N] t with
  | Some t1 =>
      match alt p_pair (alt p_open_pair p_one) t1 with
      | Some (b, t2) => match ws_tag [125%N] t2 with Some t3 => Some (b, t3) | None => None end
      | None => None
      end
  | None => None
  end.
Definition p_hash : parser multiplier := fun t =>
  match p_list_bounds t with
  | Some ((a, b), r) => Some (CommaRepeat (N.to_nat a) b, r)
  | None => match ws_tag [35%N] t with Some r => Some (CommaRepeat 1 u32_max, r) | None => None end
  end.
(** syntax.rs:394-413 [parse_multipliers]; an empty list stands for no suffix *)
Definition p_multiplier : parser multiplier := fun t =>
  match t with
  | 42%N :: r => Some (ZeroOrMore, r)
  | 43%N :: r => Some (OneOrMore, r)
  | 63%N :: r => Some (Optional, r)
  | 33%N :: r => Some (AtLeastOneValue, r)
  | _ => alt p_hash p_curly t
  end.
Fixpoint p_multipliers (fuel : nat) (t : str) : list multiplier * str :=
  match fuel with
  | 0 => ([], t)
  | S fuel => match p_multiplier t with Some (m, r) => let (ms, r') := p_multipliers fuel r in (m :: ms, r') | None => ([], t) end
  end.

(** ** One component *)
(** the text read between two points *)
Definition read (t rest : str) : str := take (length t - length rest) t.
(** nom number/complete.rs [recognize_float]; the textual forms of infinity are rejected right after, syntax.rs:303-309.
    Simplified: an exponent letter without digits is an ordinary error instead of a fatal one, and the number always fits. *)
Definition p_mantissa (t : str) : option (str * str) :=
  match span is_num t with
  | ([], _) => match t with 46%N :: t1 => match span1 is_num t1 with Some (ds, r) => Some (ds, r) | None => None end | _ => None end
  | (ds, 46%N :: r) => let (fs, r') := span is_num r in Some (ds ++ fs, r')
  | (ds, r) => Some (ds, r)
  end.
Definition skip_sign (t : str) : str := match t with 43%N :: r | 45%N :: r => r | _ => t end.
Definition p_float : parser bool := fun t =>
  match p_mantissa (skip_sign t) with
  | Some (ds, r) =>
      let zero := forallb (fun c => (c =? 48)%N) ds in
      match r with
      | 101%N :: r' | 69%N :: r' => match span1 is_num (skip_sign r') with Some (_, r2) => Some (zero, r2) | None => None end
      | _ => Some (zero, r)
      end
  | None => None
  end.
(** syntax.rs:298-336 [parse_unit]: the text of the value *)
Definition p_unit : parser str := fun t =>
  match p_float t with
  | Some (zero, r) =>
      match span1 is_letter r with
      | Some (_, r') => Some (read t r', r')
      | None => if zero then Some ([48%N], r) else None
      end
  | None => None
  end.
(** syntax.rs:571-619 [parse_unit_inner], [parse_unit_function]: the text of the component *)
Definition opt_integer (t : str) : str := match p_integer t with Some (_, r) => r | None => t end.
Definition unit_range (t : str) : str :=
  match tag [46%N; 46%N] (opt_integer t) with Some r => opt_integer r | None => opt_integer t end.
Definition p_unit_function : parser str := fun t =>
  match tag (txt "unit(") t with
  | Some t1 =>
      let t2 := skip is_blank (unit_range t1) in
      let t3 := match separated (ws_tag [124%N]) (span1 is_letter) t2 with Some (_, r) => r | None => t2 end in
      match tag [41%N] t3 with Some r => Some (read t r, r) | None => None end
  | None => None
  end.
(** syntax.rs:703-760 [parse_infinity], [parse_signed_integer], [parse_unit_range], [datatype_range]: the text without blanks,
    nothing when neither bound is given *)
Definition tag_no_case (w : str) (t : str) : option str :=
  if same_ignoring_case w (take (length w) t) then Some (drop (length w) t) else None.
Definition infinity : str := [226; 136; 158]%N.
Definition p_infinity (t : str) : option str :=
  match tag_no_case (txt "inf") t with Some r => Some r | None =>
  match tag_no_case infinity t with Some r => Some r | None =>
  match tag_no_case (txt "-inf") t with Some r => Some r | None => tag_no_case (45%N :: infinity) t end end end.
Definition p_signed (t : str) : option str :=
  match span1 is_num (match t with 45%N :: r => r | _ => t end) with Some (_, r) => Some r | None => None end.
Definition p_bound (t : str) : str :=
  let t1 := skip is_blank t in
  match p_infinity t1 with Some r => skip is_blank r | None =>
  match p_unit t1 with Some (_, r) => skip is_blank r | None =>
  match p_signed t1 with Some r => skip is_blank r | None => t end end end.
Definition p_range : parser str := fun t =>
  match ws_tag [91%N] t with
  | Some t1 =>
      match tag [44%N] (p_bound t1) with
      | Some t2 =>
          let t3 := p_bound t2 in
          let text := List.filter (fun c => negb (is_blank c)) (read t1 t3) in
          match ws_tag [93%N] t3 with Some r => Some (if bool_decide (text = [44%N]) then [] else text, r) | None => None end
      | None => None
      end
  | None => None
  end.
(** syntax.rs:762-764 [keyword_or_function] *)
Definition p_type_name : parser str := fun t =>
  match p_keyword t with
  | Some (k, r) => match tag [40%N; 41%N] r with Some r' => Some (k ++ [40%N; 41%N], r') | None => Some (k, r) end
  | None => None
  end.
(** syntax.rs:766-802 [parse_datatype] *)
Definition opt_range (t : str) : str * str := match p_range t with Some x => x | None => ([], t) end.
Definition p_plain_type : parser (str * bool * str) := fun t =>
  match p_type_name t with Some (n, r) => let (rg, r') := opt_range r in Some ((n, false, rg), r') | None => None end.
Definition p_quoted_type : parser (str * bool * str) := fun t =>
  match ws_tag [39%N] t with
  | Some t1 =>
      match p_type_name t1 with
      | Some (n, t2) => match ws_tag [39%N] t2 with Some t3 => let (rg, r) := opt_range t3 in Some ((n, true, rg), r) | None => None end
      | None => None
      end
  | None => None
  end.
Definition p_datatype : parser component := fun t =>
  match ws_tag [60%N] t with
  | Some t1 =>
      match alt p_plain_type p_quoted_type t1 with
      | Some ((n, q, rg), t2) => match ws_tag [62%N] t2 with Some r => Some (CDefinition n q rg [Once], r) | None => None end
      | None => None
      end
  | None => None
  end.
(** syntax.rs:653-668 [parse_property] *)
Definition p_property : parser component := fun t =>
  match tag [39%N] t with
  | Some t1 =>
      match p_keyword t1 with
      | Some (k, t2) => match tag [39%N] t2 with Some r => Some (CProperty k [Once], r) | None => None end
      | None => None
      end
  | None => None
  end.
(** syntax.rs:670-686 *)
Definition p_generic : parser component := fun t =>
  match t with
  | 37%N :: r => Some (CKeyword [37%N] [Once], r)
  | _ => match p_keyword t with Some (k, r) => Some (CKeyword k [Once], r) | None => None end
  end.
(** syntax.rs:690-702 *)
Definition p_at_keyword : parser component := fun t =>
  match t with
  | 64%N :: t1 => match p_keyword t1 with Some (k, r) => Some (CKeyword (64%N :: k) [Once], r) | None => None end
  | _ => None
  end.
(** syntax.rs:804-819 *)
Definition p_specific : parser component := fun t =>
  match tag (txt "inherit") t with Some r => Some (CInherit [Once], r) | None =>
  match tag (txt "initial") t with Some r => Some (CInitial [Once], r) | None =>
  match tag (txt "unset") t with Some r => Some (CUnset [Once], r) | None => None end end end.
(** syntax.rs:821-852 *)
Definition p_literal : parser component := fun t =>
  match skip is_blank t with
  | (47 | 44 | 58 | 59)%N as c :: r => Some (CLiteral [c] [Once], skip is_blank r)
  | _ =>
      match t with
      | 39%N :: t1 =>
          let (s, t2) := span (fun c => negb (c =? 39)%N) t1 in
          match t2 with 39%N :: r => Some (CLiteral s [Once], r) | _ => None end
      | _ => None
      end
  end.

(** ** Lists of components *)
(** syntax.rs:435-453, 455-473, 475-493, 553-567: a list of one is its element *)
Definition grouped (k : group) (l : list component) : component := match l with [c] => c | _ => CGroup k l [Once] end.
Definition p_list (k : group) (sep : str) (p : parser component) : parser component := fun t =>
  match separated (ws_tag sep) p t with Some (l, r) => Some (grouped k l, r) | None => None end.
(** syntax.rs:506-526 [juxtaseparator]: does the list end here *)
Definition ends_list (t : str) : bool :=
  match t with [] => true | (93 | 41 | 124 | 38)%N :: _ => true | _ => false end.
(** syntax.rs:532-567; an element that cannot be read makes the whole list fail *)
Fixpoint p_juxta (fuel : nat) (p : parser component) (t : str) : option (list component * str) :=
  match fuel with
  | 0 => None
  | S fuel =>
      match p (skip is_space t) with
      | Some (c, t1) =>
          let t2 := skip is_space t1 in
          if ends_list t2 then Some ([c], t2)
          else match p_juxta fuel p t2 with Some (l, r) => Some (c :: l, r) | None => None end
      | None => None
      end
  end.
Definition p_juxtaposition (p : parser component) : parser component := fun t =>
  match p_juxta (S (length t)) p t with Some (l, r) => Some (grouped Juxtaposition l, r) | None => None end.
(** syntax.rs:435-567: |, then ||, then &&, then juxtaposition *)
Definition p_alternatives (p : parser component) : parser component :=
  p_list ExactlyOne [124%N] (p_list AtLeastOneAnyOrder [124%N; 124%N] (p_list AllAnyOrder [38%N; 38%N] (p_juxtaposition p))).
(** syntax.rs:415-433 [parse_group], [parse_paren_group] *)
Definition p_enclosed (l r : N) (p : parser component) : parser component := fun t =>
  match ws_tag [l] t with
  | Some t1 => match p t1 with Some (c, t2) => match ws_tag [r] t2 with Some t3 => Some (c, t3) | None => None end | None => None end
  | None => None
  end.
(** syntax.rs:621-651 [parse_function]; [p] reads the argument list *)
Definition p_empty_args (t : str) : option str :=
  match tag [40%N] (skip is_space t) with
  | Some t1 => match tag [41%N] (skip is_space t1) with Some r => Some (skip is_space r) | None => None end
  | None => None
  end.
Definition p_function (p : parser component) : parser component := fun t =>
  match p_keyword t with
  | Some (n, t1) =>
      match p_empty_args t1 with
      | Some r => Some (CFunction n None [Once], r)
      | None => match p_enclosed 40 41 (ws p) t1 with Some (a, r) => Some (CFunction n (Some a) [Once], r) | None => None end
      end
  | None => None
  end.
Definition as_value (p : parser str) : parser component := fun t =>
  match p t with Some (v, r) => Some (CBuiltin v [] [Once], r) | None => None end.
(** syntax.rs:854-890 [parse_component]. The fuel bounds how deep brackets nest; each level has read a bracket, so the
    length of the text is enough. *)
Fixpoint p_component (fuel : nat) : parser component :=
  match fuel with
  | 0 => fun _ => None
  | S fuel => fun t =>
      let nested := p_alternatives (p_component fuel) in
      match
        alt (as_value p_unit_function) (alt p_at_keyword (alt (p_function nested) (alt p_property (alt p_specific
          (alt p_literal (alt (p_enclosed 91 93 nested) (alt (p_enclosed 40 41 nested) (alt (as_value p_unit) (alt p_datatype p_generic))))))))) t
      with
      | Some (c, r) =>
          match p_multipliers (length r) r with
          | ([], _) => Some (c, r)
          | (ms, r') => Some (set_multipliers ms c, r')
          end
      | None => None
      end
  end.
(** syntax.rs:286-306 [CssSyntax::compile] *)
Definition compile (t : str) : option (list component) :=
  match t with
  | [] => Some []
  | _ =>
      match p_alternatives (p_component (S (length t))) (skip is_blank t) with
      | Some (c, r) => match skip is_blank r with [] => Some [c] | _ => None end
      | None => None
      end
  end.

(** ** The tables *)
(** a hash map keyed by texts: the key of a text is its bytes after a leading one *)
Definition key (t : str) : positive :=
  fold_left (fun p c => match (N.pos p * 256 + c)%N with N0 => 1%positive | N.pos q => q end) t 1%positive.
Notation table := PositiveMap.t.
Definition find {A} (t : str) (m : table A) : option A := PositiveMap.find (key t) m.
Definition put {A} (t : str) (a : A) (m : table A) : table A := PositiveMap.add (key t) a m.
Fixpoint text_eqb (a b : str) : bool :=
  match a, b with
  | [], [] => true
  | x :: a, y :: b => (x =? y)%N && text_eqb a b
  | _, _ => false
  end.
(** property_definitions.rs:20-62 *)
Definition builtin_types : list str := Eval vm_compute in map txt
  ["age"; "angle"; "custom-ident"; "dashed-ident"; "decibel"; "flex"; "frequency"; "gender"; "hex-color"; "id"; "ident"; "image-1D"; "integer";
   "length"; "number"; "named-color"; "semitones"; "system-color"; "percentage"; "string"; "target-name"; "time"; "uri"; "url-set"; "url-token";
   "x"; "y"; "declaration-value"; "number-token"; "autospace"; "dimension"; "resolution"; "url"; "alpha()"; "attr-name"; "attr-unit";
   "dynamic-range-limit"; "hash-token"; "intrinsic-size-keyword"; "syntax"; "zero"]%string.
Definition is_builtin (t : str) : bool := existsb (text_eqb t) builtin_types.

(** property_definitions.rs:148-158; whether the name was written in angle brackets stands for the type *)
Record syntax_def := mk_syntax { s_components : list component; s_resolved : bool; s_bracketed : bool }.
(** property_definitions.rs:79-97. The shorthand resolver is in CascadeModel; the initial value is left out: the loader
    looks for the entry "initial_value" (lines 663-675), which no property of the file has, so it is always absent. *)
Record property := mk_property { p_name : str; p_computed : list str; p_syntax : list component; p_inherited : bool }.
(** property_definitions.rs:160-175 *)
Record defs := mk_defs { d_resolved : table property; d_properties : table property; d_syntax : table syntax_def; d_resolving : list str }.

(** property_definitions.rs:561-640 [parse_syntax_file]. No name in the file has a quotation mark, so those cases are left out. *)
Definition bare_name (t : str) : bool * str :=
  let (b, t) := match t with 60%N :: r => (true, r) | _ => (false, t) end in
  (b, match rev t with 62%N :: r => rev r | _ => t end).
Definition load_value (m : table syntax_def) (e : string * string) : table syntax_def :=
  match txt (snd e) with
  | [] => m
  | text =>
      match compile text with
      | None => m
      | Some cs =>
          let (bracketed, name) := bare_name (txt (fst e)) in
          if is_builtin name then m
          else if negb bracketed && match find name m with Some d => s_bracketed d | None => false end then m
          else put name (mk_syntax cs false bracketed) m
      end
  end.
(** property_definitions.rs:642-692 [parse_property_file]: a grammar that cannot be read is a panic *)
Fixpoint load_properties (l : list (string * string * list string * bool)) (m : table property) : res (table property) :=
  match l with
  | [] => Ok m
  | (n, s, computed, inherited) :: l =>
      match compile (txt s) with
      | Some cs => load_properties l (put (txt n) (mk_property (txt n) (map txt computed) cs inherited) m)
      | None => Panic
      end
  end.

(** ** References *)
(** property_definitions.rs:64-77 [apply_range] *)
Fixpoint apply_range (rg : str) (c : component) : component :=
  match c with
  | CBuiltin t [] ms => CBuiltin t rg ms
  | CGroup k cs ms => CGroup k (map (apply_range rg) cs) ms
  | _ => c
  end.
(** a loop over components that threads the definitions *)
Fixpoint each {A B S} (f : A -> S -> res (B * S)) (l : list A) (s : S) : res (list B * S) :=
  match l with
  | [] => Ok ([], s)
  | a :: l => let* (b, s1) := f a s in let* (bs, s2) := each f l s1 in Ok (b :: bs, s2)
  end.
Definition keep_property (name : str) (p : property) (d : defs) : defs :=
  mk_defs (put name p (d_resolved d)) (d_properties d) (d_syntax d) (d_resolving d).
Definition keep_syntax (name : str) (x : syntax_def) (d : defs) : defs :=
  mk_defs (d_resolved d) (d_properties d) (put name x (d_syntax d)) (d_resolving d).
Definition start_resolving (name : str) (d : defs) : defs :=
  mk_defs (d_resolved d) (d_properties d) (d_syntax d) (name :: d_resolving d).
Definition stop_resolving (name : str) (d : defs) : defs :=
  mk_defs (d_resolved d) (d_properties d) (d_syntax d) (List.filter (fun x => negb (text_eqb name x)) (d_resolving d)).
(** property_definitions.rs:255-275 [resolve_property], given how a component is resolved *)
Definition resolve_property_with (rc : str -> component -> defs -> res (component * defs)) (name : str) (d : defs) : res defs :=
  match find name (d_resolved d) with
  | Some _ => Ok d
  | None =>
      match find name (d_properties d) with
      | None => Ok d
      | Some p =>
          let* (cs, d) := each (rc name) (p_syntax p) d in
          Ok (keep_property name (mk_property (p_name p) (p_computed p) cs (p_inherited p)) d)
      end
  end.
(** property_definitions.rs:280-307 [resolve_property_reference] *)
Definition reference_with (rc : str -> component -> defs -> res (component * defs)) (name : str) (ms : list multiplier) (d : defs)
    : res (option component * defs) :=
  let* d := match find name (d_resolved d), find name (d_properties d) with
            | None, Some p => resolve_property_with rc (p_name p) d
            | _, _ => Ok d
            end in
  Ok (match find name (d_resolved d) with Some p => Some (refer ms (p_syntax p)) | None => None end, d).
(** property_definitions.rs:309-446 [resolve_component], [resolve_syntax]; the fuel stands for the stack *)
Fixpoint resolve_component (fuel : nat) (prop : str) (c : component) (d : defs) : res (component * defs) :=
  match fuel with
  | 0 => Diverge
  | S fuel =>
      let rc := resolve_component fuel in
      match c with
      | CDefinition name quoted rg ms =>
          let as_syntax (d : defs) : res (component * defs) :=
            match find name (d_syntax d) with
            | Some x =>
                if existsb (text_eqb name) (d_resolving d) then Ok (c, d)
                else
                  let* (x, d) :=
                    if s_resolved x then Ok (x, d)
                    else
                      let* (cs, d) := each (rc prop) (s_components x) (start_resolving name d) in
                      let x := mk_syntax cs true (s_bracketed x) in
                      Ok (x, keep_syntax name x (stop_resolving name d)) in
                  Ok (CGroup Juxtaposition (match rg with [] => s_components x | _ => map (apply_range rg) (s_components x) end) ms, d)
            | None =>
                if is_builtin name then Ok (CBuiltin name rg ms, d)
                else if text_eqb name prop then Panic
                else
                  let* (o, d) := reference_with rc name ms d in
                  match o with Some c => Ok (c, d) | None => Panic end
            end in
          if quoted && negb (text_eqb name prop) then
            let* (o, d) := reference_with rc name ms d in
            match o with Some c => Ok (c, d) | None => as_syntax d end
          else as_syntax d
      | CGroup k cs ms => let* (cs, d) := each (rc prop) cs d in Ok (CGroup k cs ms, d)
      | CFunction n (Some a) ms => let* (a, d) := rc prop a d in Ok (CFunction n (Some a) ms, d)
      | _ => Ok (c, d)
      end
  end.
(** property_definitions.rs:244-252 [resolve] *)
Fixpoint text_leb (a b : str) : bool :=
  match a, b with
  | [], _ => true
  | _, [] => false
  | x :: a, y :: b => if (x =? y)%N then text_leb a b else (x <? y)%N
  end.
Fixpoint insert_name (x : str) (l : list str) : list str :=
  match l with [] => [x] | y :: r => if text_leb x y then x :: l else y :: insert_name x r end.
Definition sort_names (l : list str) : list str := foldr insert_name [] l.
Fixpoint resolve_all (fuel : nat) (names : list str) (d : defs) : res defs :=
  match names with
  | [] => Ok d
  | n :: names => let* d := resolve_property_with (resolve_component fuel) n d in resolve_all fuel names d
  end.
(** property_definitions.rs:486-507 [parse_definition_files]; a stack of a thousand calls is enough for the definitions shipped,
    see [GrammarProofs.shipped] *)
Definition load_definitions (values : list (string * string)) (props : list (string * string * list string * bool)) : res defs :=
  let syntax := fold_left load_value values (PositiveMap.empty _) in
  let* properties := load_properties props (PositiveMap.empty _) in
  resolve_all 1000 (sort_names (map (fun e => txt (fst (fst (fst e)))) props)) (mk_defs (PositiveMap.empty _) properties syntax []).
(** property_definitions.rs:222-225 *)
Definition find_property (name : str) (d : defs) : option property := find name (d_resolved d).
Definition shipped_definitions : res defs := load_definitions value_texts property_texts.

(** ** The data types that have no grammar *)
Section types.
(** is the number (a bit pattern) in the range, is it whole, is the word the name of a colour or of a system colour, is the value
    the one that the grammar spells out *)
Context (in_range : str -> N -> bool) (whole : N -> bool) (named_color system_color : str -> bool) (spelled_out : str -> value -> bool).

(** syntax_matcher.rs:17-20 *)
Definition length_units : list str := Eval vm_compute in map txt
  ["cap"; "ch"; "em"; "ex"; "ic"; "lh"; "rcap"; "rch"; "rem"; "rex"; "ric"; "rlh"; "vh"; "vw"; "vmax"; "vmin"; "vb";
   "vi"; "cqw"; "cqh"; "cqi"; "cqb"; "cqmin"; "cqmax"; "px"; "cm"; "mm"; "Q"; "in"; "pc"; "pt"]%string.
(** syntax_matcher.rs:1030-1043 *)
Definition numeric_types : list str := Eval vm_compute in map txt
  ["length"; "percentage"; "number"; "integer"; "time"; "angle"; "flex"; "frequency"; "resolution"]%string.
(** syntax_matcher.rs:1045-1073 *)
Definition math_functions : list str := Eval vm_compute in map txt
  ["calc"; "calc-size"; "min"; "max"; "clamp"; "round"; "mod"; "rem"; "abs"; "sign"; "pow"; "sqrt"; "hypot"; "log"; "exp"; "sin"; "cos";
   "tan"; "asin"; "acos"; "atan"; "atan2"]%string.
(** syntax_matcher.rs:92-113 [strip_vendor_prefix] *)
Definition strip_vendor (n : str) : str :=
  match List.find (fun p => (length p <? length n) && same_ignoring_case (take (length p) n) p) vendor_prefixes with
  | Some p => drop (length p) n
  | None => n
  end.
Definition is_math_function (n : str) : bool := existsb (same_ignoring_case (strip_vendor n)) math_functions.
Definition zero_bits : N := 0.
(** syntax_matcher.rs:338-443, and 445-500 for the values a grammar spells out *)
Definition type_fits (t rg : str) (v : value) : bool :=
  let unit_in (us : list str) : bool :=
    match v with
    | VZero => in_range rg zero_bits
    | VUnit n u => existsb (same_ignoring_case u) us && in_range rg n
    | _ => false
    end in
  let word (f : str -> bool) : bool := match v with VString s => f s | _ => false end in
  if negb (is_builtin t) then spelled_out t v
  else if match v with VFunction n _ => is_math_function n && existsb (text_eqb t) numeric_types | _ => false end then true
  else if text_eqb t (txt "percentage") then match v with VPercentage n => in_range rg n | _ => false end
  else if text_eqb t (txt "angle") then unit_in [txt "deg"; txt "grad"; txt "rad"; txt "turn"]
  else if text_eqb t (txt "length") then
    match v with VZero => in_range rg zero_bits | VUnit n u => existsb (text_eqb u) length_units && in_range rg n | _ => false end
  else if text_eqb t (txt "time") then unit_in [txt "s"; txt "ms"]
  else if text_eqb t (txt "flex") then unit_in [txt "fr"]
  else if text_eqb t (txt "number") then match v with VZero => in_range rg zero_bits | VNumber n => in_range rg n | _ => false end
  else if text_eqb t (txt "integer") then
    match v with VZero => in_range rg zero_bits | VNumber n => whole n && in_range rg n | _ => false end
  else if text_eqb t (txt "system-color") then word system_color
  else if text_eqb t (txt "named-color") then word named_color
  else if text_eqb t (txt "hex-color") then match v with VColor _ => true | VString (35%N :: _) => true | _ => false end
  else if text_eqb t (txt "alpha()") then match v with VFunction n _ => same_ignoring_case n (txt "alpha") | _ => false end
  else if text_eqb t (txt "custom-ident") || text_eqb t (txt "ident") then word (fun s => negb (text_eqb s [47%N]))
  else if text_eqb t (txt "dashed-ident") then match v with VString (45%N :: 45%N :: _) => true | _ => false end
  else match v with VComma => false | VString s => negb (text_eqb s [47%N]) | _ => true end.
End types.
