(** Model of crates/gosub_css3/src/system.rs lines 20-290 and 344-506 (the declarations that apply to an element, its custom
    properties and the functions in values), of the computed value in crates/gosub_css3/src/matcher/styling.rs lines 429-533,
    and of the expansion of shorthands in crates/gosub_css3/src/matcher/shorthands.rs lines 9-61, 340-352, 399-440 and 456-660.
    Numbers stay the bit patterns of SyntaxModel. Log output is left out, and so is the copy of each sheet's address. *)
From stdpp Require Import gmap.
From Verif Require Import Base Text SettingsModel DomModel SelectorModel SyntaxModel.

(** ** Style sheets, stylesheet.rs:97-170, the parts the cascade looks at *)
(** [CssDeclaration]: name, value, important *)
Definition declaration : Type := str * value * bool.
Record rule := mk_rule { rl_selectors : list selector; rl_declarations : list declaration }.
Record sheet := mk_sheet { sh_origin : origin; sh_url : str; sh_rules : list rule }.
(** property_definitions.rs:89-106 [PropertyDefinition]: the grammar, how a shorthand is spread, and the names it stands for *)
Record definition := mk_definition { df_grammar : list component; df_shorthand : option resolver; df_longhands : list str }.
(** property_definitions.rs:158-160 *)
Definition is_shorthand (df : definition) : bool := 1 <? length (df_longhands df).
(** styling.rs:680-683 [CssProperties] with the declared values of each entry *)
Definition pmap : Type := gmap str (list decl).
(** system.rs:355-378 [add_property_to_map], also the two arms of shorthands.rs:431-446 *)
Definition declared (m : pmap) (name : str) : list decl := default [] (m !! name).
Definition push (name : str) (d : decl) (m : pmap) : pmap := <[name := declared m name ++ [d]]> m.
(** [Iterator::max]: the last of several equal ones *)
Definition max_decl (l : list decl) : option decl :=
  match l with [] => None | d :: l => Some (foldl (fun b x => match decl_cmp x b with Lt => b | _ => x end) d l) end.

(** system.rs:22-38 *)
Definition value_prefixes : list str := [txt "-webkit-"; txt "-moz-"; txt "-ms-"; txt "-o-"].
Fixpoint strip_first (ps : list str) (s : str) : str :=
  match ps with [] => s | p :: ps => if prefixb p s then drop (length p) s else strip_first ps s end.
Fixpoint normalize (v : value) : value :=
  match v with
  | VString s => VString (strip_first value_prefixes s)
  | VList l => VList (map normalize l)
  | _ => v
  end.
(** system.rs:192-202, 226-236: a list of one is that one *)
Definition unlist (v : value) : value := match v with VList [x] => x | _ => v end.

(** system.rs:427-458: the first part of a value that [f] accepts *)
Definition find_map {A B} (f : A -> option B) : list A -> option B :=
  fix go (l : list A) := match l with [] => None | a :: l => match f a with Some b => Some b | None => go l end end.
Fixpoint find_value (f : value -> bool) (v : value) : option value :=
  match v with
  | VList l => find_map (find_value f) l
  | _ => if f v then Some v else None
  end.
Definition is_url (v : value) : bool := match v with VFunction n _ => same_ignoring_case n (txt "url") | _ => false end.
Definition is_gradient (v : value) : bool := match v with VFunction n _ => suffixb (txt "gradient") (map ascii_low n) | _ => false end.
Definition is_colour (v : value) : bool :=
  match v with VColor _ => true | VString s => same_ignoring_case s (txt "currentcolor") | _ => false end.

(** a loop that threads a state *)
Fixpoint loop {A S} (f : A -> S -> res S) (l : list A) (s : S) : res S :=
  match l with [] => Ok s | a :: l => let* s := f a s in loop f l s end.
(** the three nested loops over sheets, rules and selectors *)
Definition selectors_of (sheets : list sheet) : list (sheet * rule * selector) :=
  s ← sheets; r ← sh_rules s; x ← rl_selectors r; [(s, r, x)].
Definition is_custom (name : str) : bool := prefixb (txt "--") name.

Section cascade.
(** Unicode lower case; what a data type accepts; the text of a value (stylesheet.rs:419-461); the value an attribute's text
    stands for (stylesheet.rs:601-650); clamp(), min() and max() (functions/math.rs); [f32::round]; and white space *)
Context (lower : str -> str) (fits : str -> str -> value -> bool) (show : value -> str) (parse : str -> value)
  (math : str -> list value -> option value) (round : N -> N) (white : N -> bool).
Context (definitions : str -> option definition).

(** ** Custom properties, system.rs:390-425 *)
Definition customs : Type := gmap str value.
Definition note_custom (x : declaration) (m : customs) : customs :=
  let '(name, v, _) := x in if is_custom name then <[name := v]> m else m.
Definition customs_of_node (d : doc) (sheets : list sheet) (i : nat) (m : customs) : res customs :=
  loop (fun '(s, r, x) m =>
    let* (b, _) := match_selector lower d i x None in
    Ok (if (b : bool) then foldl (fun m x => note_custom x m) m (rl_declarations r) else m)) (selectors_of sheets) m.
Definition collect_customs (d : doc) (i : nat) (sheets : list sheet) : res customs :=
  let* l := chain (depth d) d i in
  loop (customs_of_node d sheets) (rev l) ∅.

(** ** Functions in values *)
(** functions/var.rs:4-19 *)
Definition resolve_var (args : list value) (m : customs) : list value :=
  match args with
  | [] => []
  | a :: r => match m !! show a with
              | Some v => [v]
              | None => match r with f :: _ => [f] | [] => [] end
              end
  end.
(** functions/attr.rs:6-25; [parse_str] never fails *)
Definition resolve_attr (args : list value) (d : doc) (i : nat) : list value :=
  match args with
  | [] => []
  | a :: r => match attribute d i (show a) with
              | Some t => [parse t]
              | None => match r with ty :: _ => [ty] | [] => [] end
              end
  end.
(** system.rs:460-506 *)
Definition resolve_one (d : doc) (i : nat) (m : customs) (v : value) : value :=
  match v with
  | VFunction f args =>
      VList (if bool_decide (f = txt "attr") then resolve_attr args d i
             else if bool_decide (f = txt "var") then resolve_var args m
             else if bool_decide (f = txt "clamp") || bool_decide (f = txt "min") || bool_decide (f = txt "max") then
               [default v (math f args)]
             else [v])
  | _ => v
  end.
Definition resolve_functions (v : value) (d : doc) (i : nat) (m : customs) : value :=
  match v with
  | VList l => VList (concat (map (fun x => match resolve_one d i m x with VList inner => inner | other => [other] end) l))
  | _ => resolve_one d i m v
  end.

(** ** One declaration, system.rs:122-253 *)
(** shorthands.rs:348-352 [reset_multiplier], 340-342 [set_info] *)
Definition fresh (i : info) (name : str) (f : fixlist) : fixlist :=
  mk_fix (f_list f) (filter (fun e => e.1 <> name) (f_counts f)) (Some i).
(** property_definitions.rs:147-155 [matches_and_shorthands] *)
Definition expand (df : definition) (vs : list value) (f : fixlist) : res (bool * fixlist) :=
  match df_shorthand df with
  | Some r => tree_matches fits (df_grammar df) vs (Some r) f
  | None => let* (b, _) := tree_matches fits (df_grammar df) vs None f in Ok (b, f)
  end.
Definition state : Type := pmap * fixlist.
Definition declare (d : doc) (i : nat) (m : customs) (s : sheet) (sp : specificity) (x : declaration) (st : state) : res state :=
  let '(name, v, imp) := x in
  let '(pm, f) := st in
  if is_custom name then Ok st
  else
    let v := normalize (resolve_functions v d i m) in
    let add n v pm := push n (mk_decl v (sh_origin s) imp (sh_url s) sp) pm in
    if bool_decide (name = txt "content") then Ok (add name v pm, f)
    else
      match definitions name with
      | None => Ok (add name (unlist v) pm, f)
      | Some df =>
          let* (ok, f) := expand df (to_slice v) (fresh (mk_info (sh_origin s) imp (sh_url s) sp) name f) in
          if (ok : bool) then Ok (add name (unlist v) pm, f)
          else if bool_decide (name = txt "background") then
            let pm := match (match find_value is_url v with Some x => Some x | None => find_value is_gradient v end) with
                      | Some x => add (txt "background-image") x pm
                      | None => pm
                      end in
            let pm := match find_value is_colour v with Some x => add (txt "background-color") x pm | None => pm end in
            Ok (pm, f)
          else Ok (pm, f)
      end.

(** ** The longhands of shorthands *)
(** shorthands.rs:399-427 [resolve_nested], [append]; the fuel stands for the stack *)
Fixpoint resolve_nested (fuel : nat) (f : fixlist) : res fixlist :=
  match fuel with
  | 0 => Diverge
  | S fuel =>
      let nested := List.filter (fun e => match definitions e.1 with Some df => is_shorthand df | None => false end) (f_list f) in
      let* g := loop (fun '(name, dc) g =>
                  match definitions name with
                  | Some df => let* (_, g) := expand df (to_slice (dc_value dc)) g in Ok g
                  | None => Ok g
                  end) nested no_fix in
      let* g := match nested with [] => Ok g | _ => resolve_nested fuel g end in
      Ok (mk_fix (f_list f ++ f_list g) (f_counts f) (f_info f))
  end.
(** shorthands.rs:429-452 [apply] *)
Definition apply_fixes (f : fixlist) (m : pmap) : pmap := foldl (fun m '(name, d) => push name d m) m (f_list f).

(** ** An element, system.rs:92-253 *)
(** system.rs:380-388 *)
Definition unrendered_tags : list str := [txt "head"; txt "script"; txt "style"; txt "svg"; txt "noscript"; txt "title"].
Definition unrenderable (d : doc) (i : nat) : bool :=
  match get d i with
  | Some n => match n_data n with
              | DElement e => bool_decide (e_name e ∈ unrendered_tags)
              | DText t => forallb white t
              | _ => false
              end
  | None => false
  end.
(** how deep shorthands may stand for shorthands before the model gives up *)
Definition nesting : nat := 16.
Definition visit (d : doc) (i : nat) (m : customs) (pseudo : option str) (x : sheet * rule * selector) (st : state) : res state :=
  let '(s, r, x) := x in
  let* (b, sp) := match_selector lower d i x pseudo in
  if (b : bool) then loop (declare d i m s sp) (rl_declarations r) st else Ok st.
Definition compute_properties (d : doc) (i : nat) (sheets : list sheet) (pseudo : option str) : res (option pmap) :=
  if match pseudo with None => unrenderable d i | Some _ => false end then Ok None
  else
    let* m := collect_customs d i sheets in
    let* (pm, f) := loop (visit d i m pseudo) (selectors_of sheets) (∅, no_fix) in
    let* f := resolve_nested nesting f in
    Ok (Some (apply_fixes f pm)).
(** system.rs:62-76 [pseudo_properties_from_node] *)
Definition pseudo_properties (d : doc) (i : nat) (sheets : list sheet) (pseudo : str) : res (option pmap) :=
  if bool_decide (pseudo = txt "before") || bool_decide (pseudo = txt "after") then
    let* o := compute_properties d i sheets (Some pseudo) in
    Ok (match o with Some m => match m !! txt "content" with Some _ => Some m | None => None end | None => None end)
  else Ok None.

(** ** The value in the end, styling.rs:474-533. No property has an initial value (see GrammarModel), so [VNone] stays. *)
Definition absolute_units : list str := [txt "px"; txt "pt"; txt "in"; txt "cm"; txt "mm"; txt "pc"; txt "q"].
Definition snap (v : value) : value :=
  match v with VUnit n u => if bool_decide (u ∈ absolute_units) then VUnit (round n) u else v | _ => v end.
Definition compute_value (l : list decl) : value :=
  match max_decl l with Some d => snap (dc_value d) | None => VNone end.
(** what the renderer reads: [None] when the property has no entry *)
Definition value_of (m : pmap) (name : str) : option value := compute_value <$> m !! name.
End cascade.

(** * Which shorthands stand for what, shorthands.rs:9-61, 456-660 *)
(** shorthands.rs:26-45 [has_property_syntax] *)
Fixpoint place_of (prop : str) (c : component) : option (list nat) :=
  match c with
  | CProperty s _ => if bool_decide (s = prop) then Some [] else None
  | CDefinition s true _ _ => if bool_decide (s = prop) then Some [] else None
  | CGroup _ cs _ =>
      (fix go (l : list component) (i : nat) : option (list nat) :=
         match l with [] => None | c :: l => match place_of prop c with Some p => Some (i :: p) | None => go l (S i) end end) cs 0
  | _ => None
  end.
Definition spread_of (n : nat) : spread := match n with 2 => DuoMulti | 4 => QuadMulti | _ => NextProp end.
Definition repeats (n : nat) (m : multiplier) : bool :=
  match m with Between _ hi => hi =? n | CommaRepeat _ hi => (hi =? N.of_nat n)%N | _ => false end.
Definition quad (m : multiplier) : bool := match m with Between 1 4 => true | _ => false end.
(** The grammars of the properties and of the data types before references are followed. The fuel stands for the stack. *)
Fixpoint resolve_shorthands (fuel : nat) (syntax_of property_of : str -> option (list component))
    (computed : list str) (syntax : list component) (name : str) : option resolver :=
  match fuel with
  | 0 => None
  | S fuel =>
      match syntax with
      | [] => None
      | c :: more =>
          if length computed <=? 1 then None
          else if existsb (repeats (length computed)) (multipliers c) then
            Some (mk_resolver name (spread_of (length computed)) (map (fun n => (n, [])) computed))
          else
            let corners :=
              match c, computed with
              | CGroup _ (first :: _) _, [a; b; c; d] =>
                  if existsb quad (multipliers first) then Some (mk_resolver name QuadMulti [(c, [0; 0]); (d, [0; 0]); (b, [0; 0]); (a, [0; 0])])
                  else None
              | _, _ => None
              end in
            match corners with
            | Some r => Some r
            | None =>
                let found := omap (fun n => (fun p => (n, p)) <$> place_of n c) computed in
                if length found =? length computed then Some (mk_resolver name SNone found)
                else
                  match c with
                  | CGroup _ cs _ =>
                      if length cs =? length computed then Some (mk_resolver name SNone (imap (fun i n => (n, [i])) computed)) else None
                  | CDefinition t _ _ _ =>
                      match more with
                      | _ :: _ => None
                      | [] =>
                          let follow (o : option (list component)) :=
                            match o with
                            | Some cs => (fun r => mk_resolver (r_name r) SNone (r_parts r)) <$> resolve_shorthands fuel syntax_of property_of computed cs name
                            | None => None
                            end in
                          match follow (syntax_of t) with Some r => Some r | None => follow (property_of t) end
                      end
                  | CProperty t _ =>
                      match more, property_of t with
                      | [], Some cs => (fun r => mk_resolver (r_name r) SNone (r_parts r)) <$> resolve_shorthands fuel syntax_of property_of computed cs name
                      | _, _ => None
                      end
                  | _ => None
                  end
            end
      end
  end.
