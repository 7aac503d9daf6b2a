(** What CSS selectors mean (Selectors Level 4), in terms of what a document shows: which nodes are
    elements, their names, attributes, classes, parents and child lists. *)
From stdpp Require Import gmap relations.
From Verif Require Import Text SettingsModel DomModel DomSpec SelectorModel.

(** ** Simple selectors *)
Definition begins (p s : str) : Prop := exists r, s = p ++ r.
Definition ends (p s : str) : Prop := exists r, s = r ++ p.
Definition occurs (p s : str) : Prop := exists a b, s = a ++ p ++ b.
(** §6.1, 6.2: what the value [v] of the attribute must be *)
Definition value_fits (m : matcher) (wanted v : str) : Prop :=
  match m with
  | MNone => True
  | MEquals => v = wanted
  | MIncludes => is_word wanted v
  | MDash => v = wanted \/ begins (wanted ++ [45%N]) v
  | MPrefix => wanted <> [] /\ begins wanted v
  | MSuffix => wanted <> [] /\ ends wanted v
  | MSubstring => wanted <> [] /\ occurs wanted v
  end.
Definition attr_fits (lower : str -> str) (a : attr_sel) (v : str) : Prop :=
  if a_ignore_case a then value_fits (a_matcher a) (lower (a_value a)) (lower v) else value_fits (a_matcher a) (a_value a) v.
(** [x] has no sibling element satisfying [P] before it (after it) *)
Definition siblings (d : doc) (x : nat) (before after : list nat) : Prop :=
  exists p, parent d x = Some p /\ children d p = before ++ x :: after.
Definition named_like (d : doc) (x y : nat) : Prop := tag_name d y = tag_name d x.
Definition pseudo_holds (d : doc) (x : nat) (s : str) : Prop :=
  if decide (s = txt "hover") then x ∈ hovered d
  else if decide (s = txt "link" \/ s = txt "any-link") then
    (exists v, attribute d x (txt "href") = Some v) /\
    (tag_name d x = Some (txt "a") \/ tag_name d x = Some (txt "area") \/ tag_name d x = Some (txt "link"))
  else if decide (s = txt "root") then forall p, parent d x = Some p -> ~ is_elem d p
  else if decide (s = txt "first-child") then exists b a, siblings d x b a /\ Forall (fun y => ~ is_elem d y) b
  else if decide (s = txt "last-child") then exists b a, siblings d x b a /\ Forall (fun y => ~ is_elem d y) a
  else if decide (s = txt "only-child") then exists b a, siblings d x b a /\ Forall (fun y => ~ is_elem d y) (b ++ a)
  else if decide (s = txt "first-of-type") then exists b a, siblings d x b a /\ Forall (fun y => ~ named_like d x y) b
  else if decide (s = txt "last-of-type") then exists b a, siblings d x b a /\ Forall (fun y => ~ named_like d x y) a
  else if decide (s = txt "only-of-type") then exists b a, siblings d x b a /\ Forall (fun y => ~ named_like d x y) (b ++ a)
  else if decide (s = txt "focus") then focused d = Some x
  else False.
(** the element [x] satisfies the simple selector *)
Definition holds (lower : str -> str) (d : doc) (x : nat) (p : part) : Prop :=
  is_elem d x /\
  match p with
  | PUniversal => True
  | PType s => tag_name d x = Some s
  | PClass s => has_class d x s = true
  | PId s => attribute d x (txt "id") = Some s
  | PAttribute a => exists v, attribute d x (a_name a) = Some v /\ attr_fits lower a v
  | PPseudoClass s => pseudo_holds d x s
  | _ => False
  end.

(** ** Complex selectors: compounds separated by combinators *)
Inductive complex := One (c : list part) | Then (s : complex) (k : combinator) (c : list part).
(** how they are handed to the engine *)
Fixpoint parts_of (s : complex) : list part :=
  match s with One c => c | Then s k c => parts_of s ++ PCombinator k :: c end.
(** §15: [y] is where the left side of the combinator has to match when the right side matches [x] *)
Definition related (d : doc) (k : combinator) (y x : nat) : Prop :=
  match k with
  | Descendant => tc (parent_of d) x y
  | Child => parent d x = Some y
  | NextSibling => exists b m a, siblings d x (b ++ y :: m) a /\ Forall (fun z => ~ is_elem d z) m
  | SubsequentSibling => exists b m a, siblings d x (b ++ y :: m) a
  | _ => False
  end.
Fixpoint means (lower : str -> str) (d : doc) (s : complex) (x : nat) : Prop :=
  match s with
  | One c => is_elem d x /\ Forall (holds lower d x) c
  | Then s k c => is_elem d x /\ Forall (holds lower d x) c /\ exists y, related d k y x /\ means lower d s y
  end.

(** ** Specificity, §17: ids; classes, attributes and pseudo-classes; types and pseudo-elements *)
Definition is_id (p : part) : bool := match p with PId _ => true | _ => false end.
Definition is_class_like (p : part) : bool := match p with PClass _ | PAttribute _ | PPseudoClass _ => true | _ => false end.
Definition is_type_like (p : part) : bool := match p with PType _ | PPseudoElement _ => true | _ => false end.
Definition how_many (f : part -> bool) (l : list part) : N := N.of_nat (length (filter (fun p => f p = true) l)).
Definition specificity_of (l : list part) : specificity := (how_many is_id l, how_many is_class_like l, how_many is_type_like l).
(** compared first by ids, then by classes, then by types *)
Definition less_specific (x y : specificity) : Prop :=
  (x.1.1 < y.1.1)%N \/ (x.1.1 = y.1.1 /\ ((x.1.2 < y.1.2)%N \/ (x.1.2 = y.1.2 /\ (x.2 < y.2)%N))).

(** ** The document *)
(** [x] is in the document: its topmost ancestor exists and is not an element but the document node *)
Definition in_document (d : doc) (x : nat) : Prop :=
  exists r, rtc (parent_of d) x r /\ exists_in d r /\ parent d r = None /\ ~ is_elem d r.

(** ** The selectors for which the engine is proved to agree *)
(** the attribute tests the engine performs as CSS says: compared as written, not by words, and not
    with an empty text where CSS makes that match nothing *)
Definition plain_attr (a : attr_sel) : Prop :=
  a_ignore_case a = false /\ a_matcher a <> MIncludes /\
  (a_value a = [] -> a_matcher a <> MPrefix /\ a_matcher a <> MSuffix /\ a_matcher a <> MSubstring).
Definition plain (p : part) : Prop :=
  match p with
  | PUniversal | PType _ | PClass _ | PId _ => True
  | PAttribute a => plain_attr a
  | PPseudoClass s => s ∈ [txt "hover"; txt "link"; txt "any-link"; txt "root"; txt "only-child"; txt "first-of-type";
                           txt "last-of-type"; txt "only-of-type"; txt "focus"]
  | _ => False
  end.
(** the part names something only an element can have *)
Definition naming (p : part) : Prop :=
  match p with PType _ | PClass _ | PId _ | PAttribute _ => True | _ => False end.
Fixpoint plain_sel (s : complex) : Prop :=
  match s with One c => Forall plain c | Then s k c => plain_sel s /\ Forall plain c end.
(** the compound on the right *)
Definition subject (s : complex) : list part := match s with One c => c | Then _ _ c => c end.
(** every compound left of a combinator names something *)
Fixpoint naming_sel (s : complex) : Prop :=
  match s with One c => True | Then s k c => naming_sel s /\ Exists naming (subject s) end.
(** a single simple selector, reached from the left by a child or descendant combinator if at all *)
Definition lone (s : complex) : Prop :=
  match s with
  | One c => length c = 1
  | Then _ k c => length c = 1 /\ (k = Child \/ k = Descendant)
  end.
(** never a match CSS would not make: [~] only after a lone simple selector *)
Fixpoint no_extra (s : complex) : Prop :=
  match s with
  | One _ => True
  | Then s k _ => no_extra s /\
      match k with Child | Descendant | NextSibling => True | SubsequentSibling => lone s | _ => False end
  end.
(** descendant combinators between single simple selectors *)
Fixpoint ladder (s : complex) : Prop :=
  match s with
  | One c => length c = 1
  | Then s k c => length c = 1 /\ k = Descendant /\ ladder s
  end.
(** never a match missed either: left of a descendant combinator there are only such ladders *)
Fixpoint no_miss (s : complex) : Prop :=
  match s with
  | One _ => True
  | Then s k _ => match k with Descendant => ladder s | _ => no_miss s end
  end.
Fixpoint uses (k : combinator) (s : complex) : Prop :=
  match s with One _ => False | Then s k' _ => k' = k \/ uses k s end.
(** only elements beside elements *)
Definition elements_only (d : doc) : Prop := forall p c e, child d p c -> child d p e -> is_elem d e -> is_elem d c.

(** the shape of every selector the grammar allows: compounds are not empty and hold no combinator *)
Definition no_comb (p : part) : Prop := match p with PCombinator _ => False | _ => True end.
Fixpoint well_formed (s : complex) : Prop :=
  match s with
  | One c => c <> [] /\ Forall no_comb c
  | Then s k c => well_formed s /\ c <> [] /\ Forall no_comb c
  end.

(** ** Hover *)
(** two documents that differ only in which nodes are hovered *)
Definition same_but_hover (d d' : doc) : Prop := ar d = ar d' /\ focused d = focused d'.
(** the pointer's path over the document: what the hit tests find *)
Inductive hovering (fp : fingerprints) : hover_state -> list (option nat) -> hover_state -> Prop :=
| hv_nil s : hovering fp s [] s
| hv_cons s x s1 b r s2 : update_hover fp x s = Ok (s1, b) -> hovering fp s1 r s2 -> hovering fp s (x :: r) s2.
(** [:hover] only in the rightmost compound *)
Definition hover_only_in_subject (s : complex) : Prop :=
  match s with One _ => True | Then s' _ _ => PPseudoClass (txt "hover") ∉ parts_of s' end.
(** the page on show: the pointer is nowhere and all styles are computed *)
Definition first_view (lower : str -> str) (d : doc) : view :=
  mk_view (mk_hs d None false) [] false (fun x parts pseudo => match_parts lower d x parts pseudo).
(** moves of the pointer, each followed by a repaint before the next *)
Inductive watching (lower : str -> str) (fp : fingerprints) : view -> list (option nat) -> view -> Prop :=
| wt_nil v : watching lower fp v [] v
| wt_cons v x v1 r v2 : move fp x v = Ok v1 -> watching lower fp (repaint lower v1) r v2 -> watching lower fp v (x :: r) v2.
