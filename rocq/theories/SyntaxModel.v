(** Model of crates/gosub_css3/src/matcher/syntax_matcher.rs lines 1-1095 (matching the values of a
    declaration against the grammar of its property), of the grammar's types in
    crates/gosub_css3/src/matcher/syntax.rs lines 31-224, of the resolver that spreads a shorthand over
    its longhands in crates/gosub_css3/src/matcher/shorthands.rs lines 64-455, of the declarations'
    order in crates/gosub_css3/src/matcher/styling.rs lines 361-427 and of the values in
    crates/gosub_css3/src/stylesheet.rs lines 403-540.
    A number is kept as its bit pattern. What a data type (<length>, <color>, ...) accepts as one value
    is an argument. Log output is left out. *)
From Verif Require Import Base Text SelectorModel.

(** ** Values, stylesheet.rs:403-416 *)
Inductive value :=
| VNone | VColor (c : N) | VZero | VNumber (n : N) | VPercentage (n : N) | VString (s : str)
| VUnit (n : N) (u : str) | VFunction (name : str) (args : list value) | VInitial | VInherit | VComma
| VList (l : list value).
(** stylesheet.rs:518-524 *)
Definition from_vec (l : list value) : value := match l with [] => VNone | [v] => v | _ => VList l end.
(** stylesheet.rs:527-532 *)
Definition to_slice (v : value) : list value := match v with VList l => l | _ => [v] end.

(** ** Declarations *)
(** crates/gosub_interface/src/css3.rs:11-18 [CssOrigin] *)
Inductive origin := UserAgent | User | Author.
(** styling.rs:361-374 [DeclarationProperty] *)
Record decl := mk_decl { dc_value : value; dc_origin : origin; dc_important : bool; dc_location : str; dc_spec : specificity }.
(** styling.rs:378-401 *)
Definition priority (d : decl) : N :=
  match dc_origin d with
  | UserAgent => if dc_important d then 7 else 1
  | User => if dc_important d then 6 else 2
  | Author => if dc_important d then 5 else 3
  end%N.
(** styling.rs:418-424 [cmp] *)
Definition decl_cmp (a b : decl) : comparison :=
  match (priority a ?= priority b)%N with Eq => spec_cmp (dc_spec a) (dc_spec b) | c => c end.

(** ** Grammars *)
(** syntax.rs:47-63 *)
Inductive multiplier :=
| Once | ZeroOrMore | OneOrMore | Optional | Between (lo hi : nat) | AtLeastOneValue | CommaRepeat (lo : nat) (hi : N).
(** syntax.rs:34-44 *)
Inductive group := Juxtaposition | AllAnyOrder | AtLeastOneAnyOrder | ExactlyOne.
(** syntax.rs:135-200. [CBuiltin] stands for a data type with its range and also for the two
    kinds [Unit] and [Value], which accept one value too. *)
Inductive component :=
| CKeyword (s : str) (ms : list multiplier)
| CProperty (s : str) (ms : list multiplier)
| CFunction (name : str) (args : option component) (ms : list multiplier)
| CDefinition (s : str) (quoted : bool) (range : str) (ms : list multiplier)
| CInherit (ms : list multiplier)
| CInitial (ms : list multiplier)
| CUnset (ms : list multiplier)
| CLiteral (s : str) (ms : list multiplier)
| CBuiltin (datatype range : str) (ms : list multiplier)
| CGroup (k : group) (cs : list component) (ms : list multiplier).
(** syntax.rs:209-224 *)
Definition multipliers (c : component) : list multiplier :=
  match c with
  | CKeyword _ ms | CProperty _ ms | CFunction _ _ ms | CDefinition _ _ _ ms | CInherit ms | CInitial ms | CUnset ms
  | CLiteral _ ms | CBuiltin _ _ ms | CGroup _ _ ms => ms
  end.
(** syntax.rs:226-270 [update_multipliers] *)
Definition set_multipliers (ms : list multiplier) (c : component) : component :=
  match c with
  | CKeyword s _ => CKeyword s ms | CProperty s _ => CProperty s ms | CFunction n a _ => CFunction n a ms
  | CDefinition s q rg _ => CDefinition s q rg ms | CInherit _ => CInherit ms | CInitial _ => CInitial ms | CUnset _ => CUnset ms
  | CLiteral s _ => CLiteral s ms | CBuiltin t rg _ => CBuiltin t rg ms | CGroup k cs _ => CGroup k cs ms
  end.
(** property_definitions.rs:280-307 [resolve_property_reference], given the grammar of the property referred to *)
Definition refer (ms : list multiplier) (cs : list component) : component :=
  match cs with [c] => set_multipliers ms c | _ => CGroup Juxtaposition cs ms end.
(** syntax_matcher.rs:1005-1014 *)
Inductive fulfillment := NotYet | Full | MoreAllowed | NotFulfilled.
(** syntax_matcher.rs:1020-1029: the first multiplier that is neither [!] nor [#] *)
Definition is_primary (m : multiplier) : bool := match m with AtLeastOneValue | CommaRepeat _ _ => false | _ => true end.
Definition primary (ms : list multiplier) : multiplier :=
  match List.filter is_primary ms with m :: _ => m | [] => Once end.
(** syntax_matcher.rs:1032-1062 *)
Definition fulfilled (m : multiplier) (cnt : nat) : fulfillment :=
  match m with
  | Once => match cnt with 0 => NotYet | 1 => Full | _ => NotFulfilled end
  | ZeroOrMore => MoreAllowed
  | OneOrMore => match cnt with 0 => NotYet | _ => MoreAllowed end
  | Optional => match cnt with 0 => MoreAllowed | 1 => Full | _ => NotFulfilled end
  | Between lo hi =>
      if cnt <? lo then NotYet else if cnt =? hi then Full else if (lo <=? cnt) && (cnt <? hi) then MoreAllowed else NotFulfilled
  | _ => NotFulfilled
  end.
(** syntax_matcher.rs:997-1002 [is_omissible] *)
Definition enough (f : fulfillment) : bool := match f with Full | MoreAllowed => true | _ => false end.
Definition omissible (c : component) : bool := enough (fulfilled (primary (multipliers c)) 0).
(** syntax_matcher.rs:992-994 *)
Definition comma : str := [44%N].
Definition is_comma (c : component) : bool := match c with CLiteral s _ => bool_decide (s = comma) | _ => false end.
(** syntax_matcher.rs:238-246: the bounds of the last [#], if any *)
Fixpoint comma_bounds (ms : list multiplier) : option (nat * N) :=
  match ms with
  | [] => None
  | m :: ms => match comma_bounds ms, m with Some b, _ => Some b | None, CommaRepeat lo hi => Some (lo, hi) | None, _ => None end
  end.

(** ** The longhands found so far, shorthands.rs:104-127 *)
Record info := mk_info { i_origin : origin; i_important : bool; i_location : str; i_spec : specificity }.
(** each entry's vector holds exactly one declaration (shorthands.rs:380-397) *)
Record fixlist := mk_fix { f_list : list (str * decl); f_counts : list (str * nat); f_info : option info }.
Definition no_fix : fixlist := mk_fix [] [] None.
(** shorthands.rs:355-373 *)
Definition get_declaration (s : fixlist) (v : value) : decl :=
  match f_info s with
  | Some i => mk_decl v (i_origin i) (i_important i) (i_location i) (i_spec i)
  | None => mk_decl v Author false [] (0, 0, 0)%N
  end.
(** shorthands.rs:375-397 [insert]: [value >= existing] replaces *)
Fixpoint put (l : list (str * decl)) (name : str) (d : decl) : list (str * decl) :=
  match l with
  | [] => [(name, d)]
  | (k, e) :: l' =>
      if bool_decide (k = name) then (k, match decl_cmp d e with Lt => e | _ => d end) :: l' else (k, e) :: put l' name d
  end.
Definition insert (name : str) (v : value) (s : fixlist) : fixlist :=
  mk_fix (put (f_list s) name (get_declaration s v)) (f_counts s) (f_info s).
(** shorthands.rs:442-453 [complete] *)
Definition complete (names : list str) (vs : list value) (s : fixlist) : fixlist :=
  foldl (fun s n => insert n (from_vec vs) s) s names.

(** shorthands.rs:64-71 *)
Inductive spread := SNone | NextProp | QuadMulti | DuoMulti | OnlyMatched.
(** shorthands.rs:73-98 *)
Definition get_names (m : spread) (completed : list str) (multi : nat) : option (list str) :=
  match m with
  | NextProp => (fun n => [n]) <$> completed !! multi
  | DuoMulti => if decide (multi = 0) then Some completed else (fun n => [n]) <$> completed !! 1
  | QuadMulti =>
      match multi with
      | 0 => Some completed
      | 1 => match completed with _ :: a :: b :: _ => Some [a; b] | _ => None end
      | 2 => (fun n => [n]) <$> completed !! 0
      | 3 => (fun n => [n]) <$> completed !! 1
      | _ => None
      end
  | _ => None
  end.
(** shorthands.rs:100-105, 130-141 [Shorthands], [ShorthandResolver]: the longhands' names and the paths to
    their places in the grammar *)
Record resolver := mk_resolver { r_name : str; r_spread : spread; r_parts : list (str * list nat) }.
(** shorthands.rs:301-320 [step_complete] *)
Definition step_complete (p : str * list nat) (idx : nat) : option (option (str * list nat)) :=
  match p.2 with
  | [] => Some None
  | i :: path => if i =? idx then match path with [] => Some None | _ => Some (Some (p.1, path)) end else None
  end.
Definition going_on (idx : nat) (l : list (str * list nat)) : list (str * list nat) :=
  omap (fun p => match step_complete p idx with Some (Some q) => Some q | _ => None end) l.
Definition finished (idx : nat) (l : list (str * list nat)) : list str :=
  omap (fun p => match step_complete p idx with Some None => Some p.1 | _ => None end) l.
Inductive stepping := SSkip | SInto (r : resolver) | SComplete (names : list str) (s : fixlist).
Definition counts_up (l : list (str * nat)) (name : str) : list (str * nat) :=
  match list_find (fun e => e.1 = name) l with
  | Some (i, (_, n)) => <[i := (name, S n)]> l
  | None => l ++ [(name, 1)]
  end.
Definition count_of (l : list (str * nat)) (name : str) : nat :=
  match list_find (fun e => e.1 = name) l with Some (_, (_, n)) => n | None => 0 end.
(** shorthands.rs:209-289 [step]. For the spreading kinds the parts not finished are gathered twice
    (lines 222-233 and 263-277). *)
Definition step (r : resolver) (idx : nat) (s : fixlist) : stepping :=
  let spreads := match r_spread r with QuadMulti | DuoMulti | NextProp => true | _ => false end in
  let rest := going_on idx (r_parts r) in
  match finished idx (r_parts r), spreads with
  | (n :: ns) as done, true =>
      match get_names (r_spread r) done (count_of (f_counts s) (r_name r)) with
      | Some names => SComplete names (mk_fix (f_list s) (counts_up (f_counts s) (r_name r)) (f_info s))
      | None => SSkip
      end
  | n :: _, false => SComplete [n] s
  | [], _ =>
      let parts := if spreads then rest ++ rest else rest in
      match parts with [] => SSkip | _ => SInto (mk_resolver (r_name r) (r_spread r) parts) end
  end.

(** ** Matching *)
(** syntax_matcher.rs:8-15 *)
Record mres := mk_m { m_ok : bool; m_rest : list value; m_vals : list value }.
Definition no_match (l : list value) : mres := mk_m false l [].
Definition run : Type := list value -> option resolver -> fixlist -> res (mres * fixlist).
(** a component of a group: may it be left out, is it the comma, and how it is matched *)
Record runner := mk_runner { ru_omits : bool; ru_comma : bool; ru_run : run }.
(** The part the four kinds of groups share (syntax_matcher.rs:533-566, 619-656, 742-793, 957-977): the resolver
    takes a step; the longhands it completes are filled in when the component is [claimed], and otherwise the
    list is put back as it was (shorthands.rs:174-182 [drop]). *)
Definition stepped (f : run) (claimed : mres -> bool) (idx : nat) (input : list value) (r : option resolver) (s : fixlist) : res (mres * fixlist) :=
  match r with
  | None => f input None s
  | Some r =>
      match step r idx s with
      | SSkip => f input None s
      | SInto r' => f input (Some r') s
      | SComplete names s' =>
          let* (m, s'') := f input None s' in
          if claimed m then Ok (m, complete names (m_vals m) s'') else Ok (m, s)
      end
  end.
(** syntax_matcher.rs:515-604: every alternative is tried, and the first with the shortest rest wins *)
Fixpoint try_all (l : list runner) (idx : nat) (input : list value) (r : option resolver) (s : fixlist) : res (list mres * fixlist) :=
  match l with
  | [] => Ok ([], s)
  | x :: l =>
      let* (m, s1) := stepped (ru_run x) m_ok idx input r s in
      let* (ms, s2) := try_all l (S idx) input r s1 in
      Ok (if m_ok m then m :: ms else ms, s2)
  end.
Fixpoint shortest (m : mres) (l : list mres) : mres :=
  match l with [] => m | x :: l => if length (m_rest x) <? length (m_rest m) then shortest x l else shortest m l end.
Definition exactly_one (l : list runner) : run := fun input r s =>
  match input with
  | [] => Ok (no_match input, s)
  | _ => let* (ms, s') := try_all l 0 input r s in
         Ok (match ms with [] => no_match input | m :: ms => shortest m ms end, s')
  end.
(** syntax_matcher.rs:619-666, 682-719, 742-822, 898-925: the operands in their order of preference; each value goes to the
    first operand not used yet that claims it, and the search starts over *)
Definition claim (all : bool) (omits : bool) (input : list value) (m : mres) : bool :=
  m_ok m && (negb all || (length (m_rest m) <? length input) || negb omits).
Fixpoint scan (all : bool) (l : list (nat * runner)) (used : list nat) (input : list value) (r : option resolver) (s : fixlist)
    : res (option (nat * mres) * fixlist) :=
  match l with
  | [] => Ok (None, s)
  | (i, x) :: l =>
      if bool_decide (i ∈ used) then scan all l used input r s
      else
        let* (m, s') := stepped (ru_run x) (claim all (ru_omits x) input) i input r s in
        if claim all (ru_omits x) input m then Ok (Some (i, m), s') else scan all l used input r s'
  end.
Fixpoint claims (fuel : nat) (all : bool) (l : list (nat * runner)) (used : list nat) (input vals : list value)
    (r : option resolver) (s : fixlist) : res (list nat * list value * list value * fixlist) :=
  match fuel with
  | 0 => Diverge
  | S fuel =>
      match input with
      | [] => Ok (used, input, vals, s)
      | _ =>
          let* (o, s') := scan all l used input r s in
          match o with
          | None => Ok (used, input, vals, s')
          | Some (i, m) => claims fuel all l (used ++ [i]) (m_rest m) (vals ++ m_vals m) r s'
          end
      end
  end.
Definition any_order_pass (all : bool) (l : list (nat * runner)) : run := fun input r s =>
  let* (used, rest, vals, s') := claims (S (length l)) all l [] input [] r s in
  let ok := if all then forallb (fun x => bool_decide (x.1 ∈ used) || ru_omits x.2) l else negb (bool_decide (used = [])) in
  Ok (if ok then mk_m true rest vals else no_match input, s').
(** syntax_matcher.rs:826-851 [best_any_order_attempt] *)
Fixpoint best (l : list (list (nat * runner))) (all : bool) (input : list value) (b : option mres) (s : fixlist) : res (mres * fixlist) :=
  match l with
  | [] => Ok (match b with Some m => m | None => no_match input end, s)
  | o :: l =>
      let* (m, s') := any_order_pass all o input None s in
      if negb (m_ok m) then best l all input b s'
      else match m_rest m with
           | [] => Ok (m, s')
           | _ => best l all input
                    (match b with Some x => if length (m_rest m) <? length (m_rest x) then Some m else b | None => Some m end) s'
           end
  end.
Definition rotations {A} (l : list A) : list (list A) := map (fun i => drop i l ++ take i l) (seq 0 (Nat.max (length l) 1)).
Definition any_order (all : bool) (l : list runner) : run := fun input r s =>
  let l := imap pair l in
  match r with Some _ => any_order_pass all l input r s | None => best (rotations l) all input None s end.
(** syntax_matcher.rs:932-1018 [match_group_juxtaposition] *)
Fixpoint in_turn (l : list runner) (idx : nat) (input vals : list value) (prev_consumed : bool) (r : option resolver) (s : fixlist)
    : res (mres * fixlist) :=
  match l with
  | [] => Ok (mk_m true input vals, s)
  | x :: l =>
      let* (m, s') := stepped (ru_run x) m_ok idx input r s in
      if m_ok m then in_turn l (S idx) (m_rest m) (vals ++ m_vals m) (length (m_rest m) <? length input) r s'
      else if ru_comma x then
        if negb prev_consumed then in_turn l (S idx) input vals prev_consumed r s'
        else if negb (bool_decide (length l = 0)) && forallb ru_omits l then Ok (mk_m true input vals, s')
        else Ok (no_match input, s')
      else Ok (no_match input, s')
  end.
(** syntax_matcher.rs:300-317 [match_component_group] *)
Definition run_group (k : group) (l : list runner) : run := fun input r s =>
  match k with
  | Juxtaposition => in_turn l 0 input [] true r s
  | AllAnyOrder => any_order true l input r s
  | AtLeastOneAnyOrder => any_order false l input r s
  | ExactlyOne => exactly_one l input r s
  end.
(** syntax_matcher.rs:135-222 [match_component_inner]. The fuel is enough for every loop that ends: see
    [C74_checking_ends]. *)
Fixpoint repeated (fuel : nat) (once : run) (full : nat -> fulfillment) (raw input : list value) (cnt : nat) (vals : list value)
    (r : option resolver) (s : fixlist) : res (mres * fixlist) :=
  match fuel with
  | 0 => Diverge
  | S fuel =>
      match input with
      | [] => Ok (if enough (full 0) then mk_m true [] [] else no_match raw, s)
      | _ =>
          let* (m, s') := once input r s in
          if m_ok m then
            match full (S cnt) with
            | NotYet => repeated fuel once full raw (m_rest m) (S cnt) (vals ++ m_vals m) r s'
            | MoreAllowed =>
                match m_rest m with
                | [] => Ok (m, s')
                | _ => repeated fuel once full raw (m_rest m) (S cnt) (vals ++ m_vals m) r s'
                end
            | Full => Ok (m, s')
            | NotFulfilled => Ok (no_match raw, s')
            end
          else
            match full cnt with
            | NotYet | Full => Ok (m, s')
            | MoreAllowed => Ok (mk_m true input vals, s')
            | NotFulfilled => Ok (no_match raw, s')
            end
      end
  end.
Definition bound (m : multiplier) : nat := match m with Between lo hi => lo + hi | _ => 0 end.
(** syntax_matcher.rs:250-297, the loop over a comma-separated list *)
Definition after_comma (l : list value) : option (list value) := match l with VComma :: rest => Some rest | _ => None end.
Definition comma_end (lo : nat) (hi : N) (raw : list value) (cnt : nat) (input vals : list value) : mres :=
  if (lo <=? cnt) && (N.of_nat cnt <=? hi)%N then mk_m true input vals else no_match raw.
Fixpoint commas (fuel : nat) (item : run) (lo : nat) (hi : N) (raw input : list value) (cnt : nat) (vals : list value)
    (r : option resolver) (s : fixlist) : res (mres * fixlist) :=
  match fuel with
  | 0 => Diverge
  | S fuel =>
      let* (m, s') := item input r s in
      if negb (m_ok m) then Ok (comma_end lo hi raw cnt input vals, s')
      else match after_comma (m_rest m) with
           | None => Ok (comma_end lo hi raw (S cnt) (m_rest m) (vals ++ m_vals m), s')
           | Some [] => Ok (no_match raw, s')
           | Some rest => commas fuel item lo hi raw rest (S cnt) (vals ++ m_vals m) r s'
           end
  end.
(** syntax_matcher.rs:227-297 [match_component], given how the component matches once *)
Definition with_multipliers (ms : list multiplier) (once : run) : run := fun input r s =>
  let item : run := fun input r s =>
    repeated (S (S (length input + bound (primary ms)))) once (fulfilled (primary ms)) input input 0 [] r s in
  match comma_bounds ms with
  | None => item input r s
  | Some (lo, hi) => commas (S (length input)) item lo hi input input 0 [] r s
  end.

Section fits.
(** does the data type (with its range) accept the value *)
Context (fits : str -> str -> value -> bool).

Definition says (s : str) (v : value) : bool := match v with VString t => same_ignoring_case t s | _ => false end.
(** syntax_matcher.rs:320-510 [match_component_single] on the components that take one value *)
Definition keyword_ok (s : str) (v : value) : bool :=
  match v with VNone => same_ignoring_case s (txt "none") | _ => says s v end.
Definition literal_ok (s : str) (v : value) : bool :=
  match v with VComma => bool_decide (s = comma) | _ => says s v end.
Definition inherit_ok (v : value) : bool := match v with VInherit => true | _ => says (txt "inherit") v end.
Definition initial_ok (v : value) : bool := match v with VInitial => true | _ => says (txt "initial") v end.
Definition single (ok : value -> bool) : run := fun input _ s =>
  match input with v :: rest => Ok (if ok v then mk_m true rest [v] else no_match input, s) | [] => Ok (no_match input, s) end.

(** syntax_matcher.rs:475-502, [Property] panics (503-509) *)
Fixpoint match_component (c : component) : run :=
  with_multipliers (multipliers c)
    match c with
    | CKeyword s _ => single (keyword_ok s)
    | CDefinition _ _ _ _ => fun input _ s => Ok (no_match input, s)
    | CBuiltin t rg _ => single (fits t rg)
    | CInherit _ => single inherit_ok
    | CInitial _ => single initial_ok
    | CUnset _ => single (says (txt "unset"))
    | CLiteral l _ => single (literal_ok l)
    | CProperty _ _ => fun input _ s => Panic
    | CFunction name args _ => fun input _ s =>
        match input with
        | VFunction n vs :: rest =>
            if negb (same_ignoring_case name n) then Ok (no_match input, s)
            else match args with
                 | None => Ok (mk_m true rest [VFunction n vs], s)
                 | Some a =>
                     let* (m, s') := match_component a vs None s in
                     Ok (if m_ok m && bool_decide (length (m_rest m) = 0) then mk_m true rest [VFunction n vs] else no_match input, s')
                 end
        | _ => Ok (no_match input, s)
        end
    | CGroup k cs _ => run_group k (map (fun c => mk_runner (omissible c) (is_comma c) (match_component c)) cs)
    end.

(** syntax_matcher.rs:82-94 *)
Definition is_css_wide_keyword (l : list value) : bool :=
  match l with
  | [VInherit] | [VInitial] => true
  | [VString s] => existsb (fun k => same_ignoring_case s k) [txt "inherit"; txt "initial"; txt "unset"; txt "revert"; txt "revert-layer"]
  | _ => false
  end.
(** syntax_matcher.rs:104-118 *)
Definition vendor_prefixes : list str := [txt "-webkit-"; txt "-moz-"; txt "-ms-"; txt "-o-"; txt "-khtml-"; txt "-apple-"].
Definition is_vendor_prefixed_keyword (l : list value) : bool :=
  match l with
  | [VString s] => existsb (fun p => (length p <? length s) && same_ignoring_case (take (length p) s) p) vendor_prefixes
  | _ => false
  end.
(** syntax_matcher.rs:125-133 *)
Fixpoint substitutes (v : value) : bool :=
  match v with
  | VFunction n args => same_ignoring_case n (txt "var") || same_ignoring_case n (txt "env") || existsb substitutes args
  | VList l => existsb substitutes l
  | _ => false
  end.
Definition contains_substitution (l : list value) : bool := existsb substitutes l.

(** syntax_matcher.rs:35-75 [matches], [matches_and_shorthands] *)
Definition tree_matches (cs : list component) (input : list value) (r : option resolver) (s : fixlist) : res (bool * fixlist) :=
  match cs with
  | [] => Ok (false, s)
  | c :: more =>
      if is_css_wide_keyword input || contains_substitution input || is_vendor_prefixed_keyword input then Ok (true, s)
      else match more with
           | [] => let* (m, s') := match_component c input r s in Ok (m_ok m && bool_decide (length (m_rest m) = 0), s')
           | _ => Panic
           end
  end.
End fits.
