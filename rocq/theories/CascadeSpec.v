(** What CSS says about the declarations that apply to an element: which one wins (CSS Cascading and Inheritance Level 4, section 6). *)
From stdpp Require Import gmap.
From Verif Require Import Base Text SettingsModel DomModel SelectorModel SelectorSpec SyntaxModel SyntaxSpec CascadeModel.

(** ** Precedence, §6.1 *)
(** from the weakest to the strongest *)
Definition precedence : list (origin * bool) :=
  [(UserAgent, false); (User, false); (Author, false); (Author, true); (User, true); (UserAgent, true)].
Definition stands_at (k : nat) (d : decl) : Prop := precedence !! k = Some (dc_origin d, dc_important d).
(** by origin and importance first, by specificity second *)
Definition outranks (a b : decl) : Prop :=
  exists j k, stands_at j a /\ stands_at k b /\ (k < j \/ (j = k /\ less_specific (dc_spec b) (dc_spec a))).
(** of those no other outranks, the one that appears last *)
Definition wins (c : decl) (l : list decl) : Prop :=
  exists before after, l = before ++ c :: after /\ Forall (fun x => ~ outranks x c) before /\ Forall (outranks c) after.

Section cascade.
Context (lower : str -> str) (fits : str -> str -> value -> bool) (show : value -> str) (parse : str -> value)
  (math : str -> list value -> option value) (round : N -> N) (white : N -> bool).
Context (definitions : str -> option definition).

(** ** The declarations that apply, in order of appearance, each with its sheet and the specificity of its selector *)
Definition applied (d : doc) (i : nat) (sheets : list sheet) (pseudo : option str) : list (sheet * specificity * declaration) :=
  s ← sheets; r ← sh_rules s; x ← rl_selectors r;
  match match_selector lower d i x pseudo with
  | Ok (true, sp) => map (fun y => (s, sp, y)) (rl_declarations r)
  | _ => []
  end.
(** a value offered by a declaration *)
Definition offer (x : sheet * specificity * declaration) (v : value) : decl :=
  mk_decl v (sh_origin x.1.1) x.2.2 (sh_url x.1.1) x.1.2.
(** the value with its functions replaced and vendor prefixes removed *)
Definition final (d : doc) (i : nat) (m : customs) (x : sheet * specificity * declaration) : value :=
  normalize (resolve_functions show parse math x.2.1.2 d i m).
(** does the value fit the property's grammar *)
Definition fits_grammar (df : definition) (v : value) : bool :=
  match tree_matches fits (df_grammar df) (to_slice v) (df_shorthand df) no_fix with Ok (b, _) => b | _ => false end.
(** what a shorthand spreads over its longhands, looked at on its own *)
Definition expansion (df : definition) (v : value) : list (str * value) :=
  match df_shorthand df with
  | Some r => match tree_matches fits (df_grammar df) (to_slice v) (Some r) no_fix with
              | Ok (_, f) => map (fun e => (e.1, dc_value e.2)) (f_list f)
              | _ => []
              end
  | None => []
  end.
(** What a declaration says about properties by name. [background] is the exception: when its value does not fit, an image and a
    colour in it still count. *)
Definition says_directly (d : doc) (i : nat) (m : customs) (x : sheet * specificity * declaration) : list (str * value) :=
  let name := x.2.1.1 in
  let v := final d i m x in
  if is_custom name then []
  else if decide (name = txt "content") then [(name, v)]
  else
    match definitions name with
    | None => [(name, unlist v)]
    | Some df =>
        if fits_grammar df v then [(name, unlist v)]
        else if decide (name = txt "background") then
          option_list ((fun u => (txt "background-image", u)) <$> (match find_value is_url v with Some u => Some u | None => find_value is_gradient v end)) ++
          option_list ((fun u => (txt "background-color", u)) <$> find_value is_colour v)
        else []
    end.
(** what it says about the longhands of a shorthand *)
Definition says_as_shorthand (d : doc) (i : nat) (m : customs) (x : sheet * specificity * declaration) : list (str * value) :=
  let name := x.2.1.1 in
  if is_custom name then []
  else if decide (name = txt "content") then []
  else match definitions name with Some df => expansion df (final d i m x) | None => [] end.
(** the offers for the property [p] *)
Definition offers (say : sheet * specificity * declaration -> list (str * value)) (p : str) (l : list (sheet * specificity * declaration)) : list decl :=
  x ← l; e ← say x; if decide (e.1 = p) then [offer x e.2] else [].

(** ** Custom properties *)
(** the values the sheets give the custom property [n] at a node, in order of appearance *)
Definition custom_values (d : doc) (sheets : list sheet) (n : str) (i : nat) : list value :=
  x ← applied d i sheets None; if decide (x.2.1.1 = n) then [x.2.1.2] else [].
(** it is inherited: the nearest of the node and its ancestors where it is declared decides *)
Inductive custom_value (d : doc) (sheets : list sheet) (n : str) : nat -> option value -> Prop :=
| cv_here i v : last (custom_values d sheets n i) = Some v -> custom_value d sheets n i (Some v)
| cv_up i p o : custom_values d sheets n i = [] -> parent d i = Some p -> custom_value d sheets n p o -> custom_value d sheets n i o
| cv_top i : custom_values d sheets n i = [] -> parent d i = None -> custom_value d sheets n i None.

(** ** Declarations that are not valid *)
(** [x] is a declaration of a property known to the engine, not a shorthand, and its value does not fit the grammar *)
Definition not_valid (d : doc) (i : nat) (m : customs) (x : declaration) : Prop :=
  is_custom x.1.1 = false /\ x.1.1 <> txt "content" /\ x.1.1 <> txt "background" /\
  exists df f, definitions x.1.1 = Some df /\ df_shorthand df = None /\
    tree_matches fits (df_grammar df) (to_slice (normalize (resolve_functions show parse math x.1.2 d i m))) None no_fix = Ok (false, f).
(** the second list of sheets is the first without one occurrence of [x] *)
Definition without (x : declaration) (sheets sheets' : list sheet) : Prop :=
  exists s1 s2 o u r1 r2 sels d1 d2,
    sheets = s1 ++ mk_sheet o u (r1 ++ mk_rule sels (d1 ++ x :: d2) :: r2) :: s2 /\
    sheets' = s1 ++ mk_sheet o u (r1 ++ mk_rule sels (d1 ++ d2) :: r2) :: s2.

(** ... because the grammar does not generate it, not even with liberties, and it is not among what every property takes *)
Definition ungenerated (d : doc) (i : nat) (m : customs) (x : declaration) : Prop :=
  is_custom x.1.1 = false /\ x.1.1 <> txt "content" /\ x.1.1 <> txt "background" /\
  exists df c, definitions x.1.1 = Some df /\ df_shorthand df = None /\ df_grammar df = [c] /\ productive c /\
    let vs := to_slice (normalize (resolve_functions show parse math x.1.2 d i m)) in ~ waved_through vs /\ ~ loose_language fits c vs.
(** the second list of sheets has [y] in the place of [x] *)
Definition instead (x y : declaration) (sheets sheets' : list sheet) : Prop :=
  exists s1 s2 o u r1 r2 sels d1 d2,
    sheets = s1 ++ mk_sheet o u (r1 ++ mk_rule sels (d1 ++ x :: d2) :: r2) :: s2 /\
    sheets' = s1 ++ mk_sheet o u (r1 ++ mk_rule sels (d1 ++ y :: d2) :: r2) :: s2.
(** neither a function nor a list *)
Definition single_token (v : value) : Prop := match v with VFunction _ _ | VList _ => False | _ => True end.
(** the offers of the declarations of [p] itself: those whose value fits the grammar, if the engine has one *)
Definition valid_offers (d : doc) (i : nat) (m : customs) (p : str) (l : list (sheet * specificity * declaration)) : list decl :=
  x ← l;
  if decide (x.2.1.1 = p) then
    let v := final d i m x in
    match definitions p with
    | Some df => if fits_grammar df v then [offer x (unlist v)] else []
    | None => [offer x (unlist v)]
    end
  else [].
(** none of them is of a shorthand *)
Definition longhands_only (l : list (sheet * specificity * declaration)) : Prop :=
  forall x, x ∈ l -> x.2.1.1 <> txt "background" /\ forall df, definitions x.2.1.1 = Some df -> df_shorthand df = None.

(** ** Assumptions about the definitions *)
(** the counter a shorthand uses is its own *)
Definition well_named : Prop := forall n df r, definitions n = Some df -> df_shorthand df = Some r -> r_name r = n.
(** none of the longhands set by these declarations is a shorthand itself *)
Definition unnested (say : sheet * specificity * declaration -> list (str * value)) (l : list (sheet * specificity * declaration)) : Prop :=
  forall x e df, x ∈ l -> e ∈ say x -> definitions e.1 = Some df -> is_shorthand df = false.
(** The definitions of the properties [ok] can be worked with: what is repeated in a grammar takes at least one value, and the
    shorthands a shorthand stands for are of lower rank, of which there are fewer than [nesting]. *)
Definition workable (ok : str -> Prop) (rank : str -> nat) : Prop := forall n df, ok n -> definitions n = Some df ->
  (exists c, df_grammar df = [c] /\ productive c) /\ rank n < nesting /\
  forall r p df', df_shorthand df = Some r -> p ∈ r_parts r -> definitions p.1 = Some df' -> is_shorthand df' = true ->
    ok p.1 /\ rank p.1 < rank n.
(** every property declared in the sheets is one of these *)
Definition declares_only (ok : str -> Prop) (sheets : list sheet) : Prop :=
  forall s r x, s ∈ sheets -> r ∈ sh_rules s -> x ∈ rl_declarations r -> ok x.1.1.
End cascade.

(** ** Shorthands for the sides of a box (CSS Box Model §3, CSS Backgrounds §4): one to four values in the order top, right, bottom,
    left; what is missing is taken from the opposite side, or else from the top *)
Definition box (vs : list value) : option (value * value * value * value) :=
  match vs with
  | [t] => Some (t, t, t, t)
  | [t; r] => Some (t, r, t, r)
  | [t; r; b] => Some (t, r, b, r)
  | [t; r; b; l] => Some (t, r, b, l)
  | _ => None
  end.
(** for a start and an end: one or two values *)
Definition both_ends (vs : list value) : option (value * value) :=
  match vs with [s] => Some (s, s) | [s; e] => Some (s, e) | _ => None end.
(** the value is generated by exactly one of the grammar's alternatives *)
Definition by_one_alternative (fits : str -> str -> value -> bool) (c : component) (v : value) : Prop :=
  match c with
  | CGroup ExactlyOne cs _ => exists l x r, cs = l ++ x :: r /\ language fits x [v] /\ Forall (fun y => ~ language fits y [v]) (l ++ r)
  | CGroup Juxtaposition [x] _ => language fits x [v]
  | _ => False
  end.
(** shorthands of these two kinds: the longhands for bottom, left, right and top; for the start and the end *)
Definition boxes : list (str * list str) := Eval vm_compute in
  map (fun n => (txt n, map (fun s => txt n ++ txt s) ["-bottom"; "-left"; "-right"; "-top"]%string)) ["margin"; "padding"; "scroll-padding"]%string.
Definition pairs : list (str * list str) := Eval vm_compute in
  map (fun n => (txt n, map (fun s => txt n ++ txt s) ["-start"; "-end"]%string))
    ["inset-block"; "inset-inline"; "interest-delay"; "margin-block"; "margin-inline"; "padding-block"; "padding-inline"; "scroll-padding-block"; "scroll-padding-inline"]%string ++
  map (fun n => (txt n, map (fun s => txt n ++ txt s) ["-x"; "-y"]%string)) ["overflow"; "overscroll-behavior"]%string ++
  map (fun e => (txt e.1.1, [txt e.1.2; txt e.2]))
    [("border-block-style", "border-block-start-style", "border-block-end-style"); ("border-block-width", "border-block-start-width", "border-block-end-width");
     ("border-inline-style", "border-inline-start-style", "border-inline-end-style"); ("border-inline-width", "border-inline-start-width", "border-inline-end-width");
     ("corner-block-end-shape", "corner-end-start-shape", "corner-end-end-shape"); ("corner-block-start-shape", "corner-start-start-shape", "corner-start-end-shape");
     ("corner-bottom-shape", "corner-bottom-left-shape", "corner-bottom-right-shape"); ("corner-inline-end-shape", "corner-start-end-shape", "corner-end-end-shape");
     ("corner-left-shape", "corner-top-left-shape", "corner-bottom-left-shape"); ("corner-right-shape", "corner-top-right-shape", "corner-bottom-right-shape");
     ("corner-top-shape", "corner-top-left-shape", "corner-top-right-shape")]%string.
