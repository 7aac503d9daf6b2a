(** The notation of value grammars (CSS Values and Units, 2.1-2.4), written down from grammars: the text of each
    component, its multipliers behind it, juxtaposition by a blank, then [&&], [||] and [|], each binding weaker than the
    one before, and brackets where a weaker one stands inside a stronger one or is multiplied. *)
From Verif Require Import Base Text SelectorModel SyntaxModel GrammarData GrammarModel.

(** decimal numbers *)
Fixpoint digits (fuel : nat) (n : N) : str :=
  match fuel with
  | 0 => []
  | S fuel => if (n <? 10)%N then [48 + n]%N else digits fuel (n / 10) ++ [48 + n mod 10]%N
  end.
Definition number (n : N) : str := digits (S (N.to_nat (N.log2 n))) n.
Definition bounds (a b : N) : str := if (a =? b)%N then number a else number a ++ txt "," ++ number b.
(** the multipliers: [*], [+], [?], [!], [{a}], [{a,b}], [#], [#{a}], [#{a,}] and [#{a,b}]; [Once] has no sign *)
Definition show_multiplier (m : multiplier) : str :=
  match m with
  | Once => []
  | ZeroOrMore => txt "*"
  | OneOrMore => txt "+"
  | Optional => txt "?"
  | AtLeastOneValue => txt "!"
  | Between a b => txt "{" ++ bounds (N.of_nat a) (N.of_nat b) ++ txt "}"
  | CommaRepeat a b =>
      if (b =? u32_max)%N then if a =? 1 then txt "#" else txt "#{" ++ number (N.of_nat a) ++ txt ",}"
      else txt "#{" ++ bounds (N.of_nat a) b ++ txt "}"
  end.
Definition show_multipliers (ms : list multiplier) : str := concat (map show_multiplier ms).
(** how weakly the combinators bind *)
Definition level (k : group) : nat :=
  match k with ExactlyOne => 0 | AtLeastOneAnyOrder => 1 | AllAnyOrder => 2 | Juxtaposition => 3 end.
Definition sign (k : group) : str :=
  match k with ExactlyOne => txt " | " | AtLeastOneAnyOrder => txt " || " | AllAnyOrder => txt " && " | Juxtaposition => txt " " end.
Fixpoint join (sep : str) (l : list str) : str :=
  match l with [] => [] | [x] => x | x :: l => x ++ sep ++ join sep l end.
(** the signs that stand for themselves; other texts are quoted *)
Definition bare (s : str) : bool := match s with [c] => ((c =? 47) || (c =? 44) || (c =? 58) || (c =? 59))%N | _ => false end.
Definition once (ms : list multiplier) : bool := match ms with [Once] => true | _ => false end.
(** the text of a grammar where combinators from level [n] on need no brackets *)
Fixpoint show (n : nat) (c : component) {struct c} : str :=
  match c with
  | CKeyword s ms => s ++ show_multipliers ms
  | CProperty s ms => txt "'" ++ s ++ txt "'" ++ show_multipliers ms
  | CFunction f None ms => f ++ txt "()" ++ show_multipliers ms
  | CFunction f (Some a) ms => f ++ txt "(" ++ show 0 a ++ txt ")" ++ show_multipliers ms
  | CDefinition s false [] ms => txt "<" ++ s ++ txt ">" ++ show_multipliers ms
  | CDefinition s false rg ms => txt "<" ++ s ++ txt " [" ++ rg ++ txt "]>" ++ show_multipliers ms
  | CDefinition s true _ ms => txt "<'" ++ s ++ txt "'>" ++ show_multipliers ms
  | CInherit ms => txt "inherit" ++ show_multipliers ms
  | CInitial ms => txt "initial" ++ show_multipliers ms
  | CUnset ms => txt "unset" ++ show_multipliers ms
  | CLiteral s ms => (if bare s then s else txt "'" ++ s ++ txt "'") ++ show_multipliers ms
  | CBuiltin v _ ms => v ++ show_multipliers ms
  | CGroup k cs ms =>
      let body := join (sign k) (map (show (S (level k))) cs) in
      if once ms && (n <=? level k) then body else txt "[" ++ body ++ txt "]" ++ show_multipliers ms
  end.
Definition notation (c : component) : str := show 0 c.

(** ** The grammars that have a text *)
Definition word_char (c : N) : bool := (is_num c || is_letter c || (c =? 45)%N)%bool.
Definition is_text (s : str) : bool := match s with [] => false | _ => forallb word_char s end.
Definition begins_with (w s : str) : bool := bool_decide (take (length w) s = w).
(** a keyword: starts with a letter, or a letter after a dash; the three words that are read as such wherever they start a
    keyword are left out *)
Definition is_keyword (s : str) : bool :=
  is_text s &&
  match s with c :: r => is_letter c || (c =? 45)%N && match r with c' :: _ => is_letter c' | [] => false end | [] => false end &&
  negb (begins_with (txt "inherit") s) && negb (begins_with (txt "initial") s) && negb (begins_with (txt "unset") s).
Definition keyword_ok (s : str) : bool :=
  is_keyword s || match s with 64%N :: r => is_text r | _ => bool_decide (s = [37%N]) end.
(** the name of a data type; that of a function ends in [()] *)
Definition type_ok (s : str) : bool :=
  is_text s || (is_text (take (length s - 2) s) && bool_decide (drop (length s - 2) s = [40%N; 41%N])).
Definition is_int (s : str) : bool :=
  match s with 45%N :: (_ :: _) as r => forallb is_num (tl s) | [] => false | _ => forallb is_num s end.
(** a bound of a range: nothing, an integer, or infinity *)
Definition bound_ok (s : str) : bool :=
  match s with [] => true | _ => is_int s || bool_decide (s = infinity) || bool_decide (s = 45%N :: infinity) end.
Definition range_ok (rg : str) : bool :=
  match rg with
  | [] => true
  | _ => let (a, r) := span (fun c => negb (c =? 44)%N) rg in
         match r with _ :: b => bound_ok a && bound_ok b && negb (bool_decide (rg = [44%N])) | [] => false end
  end.
(** a value: 0, or a whole number with a unit that does not start with [e] *)
Definition value_ok (v : str) : bool :=
  bool_decide (v = [48%N]) ||
  let (ds, u) := span is_num v in
  match ds, u with
  | _ :: _, c :: _ => forallb is_letter u && negb ((c =? 101) || (c =? 69))%N
  | _, _ => false
  end.
Definition literal_ok (s : str) : bool :=
  bare s || forallb (fun c => negb (c =? 39)%N) s && negb (is_text s).
Definition multiplier_ok (m : multiplier) : bool :=
  match m with
  | Once => false
  | Between a b => (N.of_nat a <=? u32_max)%N && (N.of_nat b <=? u32_max)%N
  | CommaRepeat a b => (N.of_nat a <=? u32_max)%N && (b <=? u32_max)%N
  | _ => true
  end.
(** [#{2}] is a list of two, not two lists *)
Fixpoint unmistakable (ms : list multiplier) : bool :=
  match ms with
  | m :: ms' =>
      match m, ms' with
      | CommaRepeat 1 b, Between _ _ :: _ => negb (b =? u32_max)%N
      | _, _ => true
      end && unmistakable ms'
  | [] => true
  end.
Definition multipliers_ok (ms : list multiplier) : bool :=
  once ms || match ms with [] => false | _ => forallb multiplier_ok ms && unmistakable ms end.
Fixpoint writable (c : component) : bool :=
  multipliers_ok (multipliers c) &&
  match c with
  | CKeyword s _ => keyword_ok s
  | CProperty s _ => is_text s
  | CFunction f a _ => is_text f && negb (bool_decide (f = txt "unit")) && match a with Some a => writable a | None => true end
  | CDefinition s q rg _ => type_ok s && range_ok rg && (negb q || bool_decide (rg = []))
  | CInherit _ | CInitial _ | CUnset _ => true
  | CLiteral s _ => literal_ok s
  | CBuiltin v rg _ => value_ok v && bool_decide (rg = [])
  | CGroup k cs _ => forallb writable cs && (2 <=? length cs)
  end.

(** ** The grammars the engine is compiled with *)
Definition shipped_texts : list str := map (fun e => txt (snd e)) value_texts ++ map (fun e => txt (snd (fst (fst e)))) property_texts.
Definition unblank (s : str) : str := List.filter (fun c => negb (is_blank c)) s.
