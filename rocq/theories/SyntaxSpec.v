(** What the value definition syntax of CSS means (CSS Values and Units Level 4, section 2): the set of
    value sequences a grammar describes. *)
From stdpp Require Import gmap relations.
From Verif Require Import Base Text SelectorModel SyntaxModel.

Definition words : Type := list value -> Prop.

(** ** Multipliers, §2.3 *)
(** [k] words one after the other *)
Fixpoint times (P : words) (k : nat) (w : list value) : Prop :=
  match k with 0 => w = [] | S k => exists u v, w = u ++ v /\ P u /\ times P k v end.
(** [k + 1] words with commas in between *)
Fixpoint comma_separated (P : words) (k : nat) (w : list value) : Prop :=
  match k with 0 => P w | S k => exists u v, w = u ++ VComma :: v /\ P u /\ comma_separated P k v end.
Definition multiplied (m : multiplier) (P : words) : words :=
  match m with
  | Once => P
  | ZeroOrMore => fun w => exists k, times P k w
  | OneOrMore => fun w => exists k, 1 <= k /\ times P k w
  | Optional => fun w => w = [] \/ P w
  | Between lo hi => fun w => exists k, lo <= k <= hi /\ times P k w
  | AtLeastOneValue => fun w => w <> [] /\ P w
  | CommaRepeat lo hi => fun w => (lo = 0 /\ w = []) \/ exists k, lo <= S k /\ (N.of_nat (S k) <= hi)%N /\ comma_separated P k w
  end.

(** ** Combinators, §2.2 *)
(** all of them in the order given; a comma may be left out when what stands before it is left out, or when everything
    after it is *)
Fixpoint in_order (before_left_out : Prop) (l : list (bool * words)) (w : list value) : Prop :=
  match l with
  | [] => w = []
  | (is_comma, P) :: l =>
      (exists u v, w = u ++ v /\ P u /\ in_order (u = []) l v) \/
      (is_comma = true /\ before_left_out /\ in_order True l w) \/
      (is_comma = true /\ w = [] /\ l <> [] /\ Forall (fun x => x.2 []) l)
  end.
(** one word of each, in the order of the list *)
Fixpoint one_each (l : list words) (w : list value) : Prop :=
  match l with [] => w = [] | P :: l => exists u v, w = u ++ v /\ P u /\ one_each l v end.
Definition combined (k : group) (l : list (bool * words)) : words :=
  match k with
  | Juxtaposition => in_order False l
  | AllAnyOrder => fun w => exists o, o ≡ₚ l.*2 /\ one_each o w
  | AtLeastOneAnyOrder => fun w => exists o, o ⊆+ l.*2 /\ o <> [] /\ one_each o w
  | ExactlyOne => fun w => Exists (fun P => P w) l.*2
  end.

Section fits.
Context (fits : str -> str -> value -> bool).

(** text compared without regard to ASCII case *)
Definition text_is (s : str) (v : value) : Prop := exists t, v = VString t /\ map ascii_low t = map ascii_low s.
(** ** Grammars, given what multipliers mean *)
Fixpoint language_of (mult : list multiplier -> words -> words) (c : component) : words :=
  let base : words :=
    match c with
    | CKeyword s _ => fun w => exists v, w = [v] /\ (text_is s v \/ (v = VNone /\ map ascii_low s = txt "none"))
    | CProperty _ _ | CDefinition _ _ _ _ => fun w => False
    | CFunction name args _ => fun w => exists n vs, w = [VFunction n vs] /\ map ascii_low n = map ascii_low name /\
        match args with None => True | Some a => language_of mult a vs end
    | CInherit _ => fun w => exists v, w = [v] /\ (v = VInherit \/ text_is (txt "inherit") v)
    | CInitial _ => fun w => exists v, w = [v] /\ (v = VInitial \/ text_is (txt "initial") v)
    | CUnset _ => fun w => exists v, w = [v] /\ text_is (txt "unset") v
    | CLiteral s _ => fun w => exists v, w = [v] /\ (text_is s v \/ (v = VComma /\ s = comma))
    | CBuiltin t rg _ => fun w => exists v, w = [v] /\ fits t rg v = true
    | CGroup k cs _ => combined k (map (fun c => (is_comma c, language_of mult c)) cs)
    end in
  mult (multipliers c) base.
(** one multiplier after the other, from the left *)
Definition as_written (ms : list multiplier) (P : words) : words := foldl (fun P m => multiplied m P) P ms.
Definition language (c : component) : words := language_of as_written c.
(** Three liberties with that. The first multiplier that is neither [#] nor [!] goes first, whatever the order; [!] means nothing;
    and a list may end in a comma. *)
Definition loosely (ms : list multiplier) (P : words) : words := fun w =>
  let item := multiplied (primary ms) P in
  match comma_bounds ms with
  | None => item w
  | Some (lo, hi) =>
      item [] /\ w = [] \/ lo = 0 /\ w = [] \/
      exists k, lo <= S k /\ (N.of_nat (S k) <= hi)%N /\ (comma_separated item k w \/ exists u, w = u ++ [VComma] /\ comma_separated item k u)
  end.
Definition loose_language (c : component) : words := language_of loosely c.

(** ** Values that every property takes *)
(** CSS Cascade §7: the css-wide keywords, alone *)
Definition css_wide (l : list value) : Prop :=
  l = [VInherit] \/ l = [VInitial] \/
  exists k v, l = [v] /\ text_is k v /\ k ∈ [txt "inherit"; txt "initial"; txt "unset"; txt "revert"; txt "revert-layer"].
(** a value with var() or env() somewhere in it is not checked *)
Inductive has_substitution : value -> Prop :=
| sub_here n args : map ascii_low n = txt "var" \/ map ascii_low n = txt "env" -> has_substitution (VFunction n args)
| sub_arg n args v : v ∈ args -> has_substitution v -> has_substitution (VFunction n args)
| sub_item l v : v ∈ l -> has_substitution v -> has_substitution (VList l).
(** a lone keyword with a vendor's prefix *)
Definition vendor_keyword (l : list value) : Prop :=
  exists p q r, l = [VString (q ++ r)] /\ map ascii_low q = p /\ r <> [] /\
    p ∈ [txt "-webkit-"; txt "-moz-"; txt "-ms-"; txt "-o-"; txt "-khtml-"; txt "-apple-"].
Definition waved_through (l : list value) : Prop :=
  css_wide l \/ Exists has_substitution l \/ vendor_keyword l.

(** ** Restrictions *)
(** at most one multiplier, and that neither [#] nor [!] *)
Definition plain_ms (ms : list multiplier) : Prop :=
  match ms with [] => True | [m] => is_primary m = true | _ => False end.
(** possibly one such multiplier, then possibly [#] *)
Definition list_ms (ms : list multiplier) : Prop :=
  plain_ms ms \/ exists ms' lo hi, ms = ms' ++ [CommaRepeat lo hi] /\ plain_ms ms'.
(** comma-separated lists only as the whole grammar or as the whole of a function's arguments, and no [!] *)
Fixpoint tidy (whole : bool) (c : component) : Prop :=
  (if whole then list_ms (multipliers c) else plain_ms (multipliers c)) /\
  match c with
  | CFunction _ (Some a) _ => tidy true a
  | CGroup _ cs _ => foldr (fun c P => tidy false c /\ P) True cs
  | _ => True
  end.
(** {0} is no use *)
Definition sensible (m : multiplier) : Prop := match m with Between _ hi => 1 <= hi | _ => True end.

(** ** Grammars whose repetitions make progress *)
(** may match without taking a value *)
Fixpoint may_be_empty (c : component) : bool :=
  omissible c || (match comma_bounds (multipliers c) with Some (0, _) => true | _ => false end) ||
  match c with
  | CGroup Juxtaposition cs _ => forallb (fun c => is_comma c || may_be_empty c) cs
  | CGroup AllAnyOrder cs _ => forallb may_be_empty cs
  | CGroup _ cs _ => existsb may_be_empty cs
  | _ => false
  end.
Definition endless (m : multiplier) : bool := match m with ZeroOrMore | OneOrMore => true | _ => false end.
(** what is repeated by [*] or [+] takes at least one value each time, and no reference is left unresolved *)
Fixpoint productive (c : component) : Prop :=
  (endless (primary (multipliers c)) = true -> may_be_empty (set_multipliers [] c) = false) /\
  match c with
  | CProperty _ _ => False
  | CFunction _ (Some a) _ => productive a
  | CGroup _ cs _ => foldr (fun c P => productive c /\ P) True cs
  | _ => True
  end.
(** ** Choices *)
(** a choice between single values, none of them a comma. A reference to a data type counts as what it stands for; a function
    may have arguments of its own. *)
Definition single_ms (ms : list multiplier) : Prop := ms = [] \/ ms = [Once].
Fixpoint choice (c : component) : Prop :=
  single_ms (multipliers c) /\
  match c with
  | CFunction _ (Some a) _ => tidy true a /\ productive a
  | CGroup k cs _ => (k = ExactlyOne \/ (k = Juxtaposition /\ length cs = 1)) /\ foldr (fun c P => choice c /\ P) True cs
  | CBuiltin t rg _ => fits t rg VComma = false
  | CLiteral s _ => s <> comma
  | CProperty _ _ => False
  | _ => True
  end.
(** no function has arguments to be checked *)
Fixpoint argless (c : component) : Prop :=
  match c with
  | CFunction _ (Some _) _ => False
  | CGroup _ cs _ => foldr (fun c P => argless c /\ P) True cs
  | _ => True
  end.
Definition no_function (v : value) : Prop := match v with VFunction _ _ => False | _ => True end.
End fits.
