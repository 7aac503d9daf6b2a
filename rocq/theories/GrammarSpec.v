(** The checks of [SyntaxSpec] as functions, to run them over the definitions the engine is compiled with. *)
From Coq Require Import FMapPositive.
From stdpp Require Import gmap.
From Verif Require Import Base Text SelectorModel SyntaxModel SyntaxSpec GrammarData GrammarModel.

Fixpoint productiveb (c : component) : bool :=
  (if endless (primary (multipliers c)) then negb (may_be_empty (set_multipliers [] c)) else true) &&
  match c with
  | CProperty _ _ => false
  | CFunction _ (Some a) _ => productiveb a
  | CGroup _ cs _ => forallb productiveb cs
  | _ => true
  end.
Definition plain_msb (ms : list multiplier) : bool := match ms with [] => true | [m] => is_primary m | _ => false end.
Definition list_msb (ms : list multiplier) : bool :=
  plain_msb ms || match rev ms with CommaRepeat _ _ :: r => plain_msb (rev r) | _ => false end.
Fixpoint tidyb (whole : bool) (c : component) : bool :=
  (if whole then list_msb (multipliers c) else plain_msb (multipliers c)) &&
  match c with
  | CFunction _ (Some a) _ => tidyb true a
  | CGroup _ cs _ => forallb (tidyb false) cs
  | _ => true
  end.
Definition single_msb (ms : list multiplier) : bool := match ms with [] | [Once] => true | _ => false end.
Fixpoint choiceb (c : component) : bool :=
  single_msb (multipliers c) &&
  match c with
  | CFunction _ (Some a) _ => tidyb true a && productiveb a
  | CGroup k cs _ =>
      match k, cs with ExactlyOne, _ => true | Juxtaposition, [_] => true | _, _ => false end && forallb choiceb cs
  | CLiteral s _ => negb (text_eqb s comma)
  | CProperty _ _ => false
  | _ => true
  end.
(** a choice between single values, possibly repeated, possibly a list *)
Definition plain_grammarb (c : component) : bool :=
  choiceb (set_multipliers [] c) && list_msb (multipliers c) &&
  match primary (multipliers c) with Between _ 0 => false | _ => true end &&
  match comma_bounds (multipliers c) with None => true | Some _ => negb (enough (fulfilled (primary (multipliers c)) 0)) end.

(** ** The definitions the engine is compiled with *)
Fixpoint distinct (seen : table ()) (l : list str) : bool :=
  match l with [] => true | x :: l => match find x seen with Some _ => false | None => distinct (put x () seen) l end end.
Definition shipped_names : list str := map (fun e => txt (fst (fst (fst e)))) property_texts.
(** the properties whose grammar lets calc-size() stand for a size *)
Definition sizes : list str := Eval vm_compute in map txt
  ["width"; "max-width"; "min-width"; "height"; "max-height"; "min-height"; "inline-size"; "max-inline-size"; "min-inline-size";
   "block-size"; "max-block-size"; "min-block-size"; "flex-basis"; "flex"]%string.
(** is there a grammar for each name, all of them one component *)
Definition component_of (d : defs) (n : str) : option component :=
  match find_property n d with Some p => match p_syntax p with [c] => Some c | _ => None end | None => None end.
Definition check_of (f : component -> bool) (d : defs) (n : str) : bool := match component_of d n with Some c => f c | None => false end.
