(** Model of crates/gosub_css3/src/matcher/styling.rs lines 18-358 (matching a selector against a
    node), of the selector types and the specificity of crates/gosub_css3/src/stylesheet.rs lines
    204-398, of the hover fingerprints of crates/gosub_css3/src/system.rs lines 292-343 and of the
    hover update of crates/gosub_engine/src/engine/context.rs lines 51-75 and 882-1001.
    The document is the one of DomModel. A slice of selector parts is kept reversed, so that
    [consume] (styling.rs:56-64), which takes the last part, takes the head of the list. *)
From stdpp Require Import gmap.
From Verif Require Import Text SettingsModel DomModel.

(** stylesheet.rs:244-251 *)
Inductive combinator := Descendant | Child | NextSibling | SubsequentSibling | Column | Namespace.
(** stylesheet.rs:316-326 *)
Inductive matcher := MNone | MEquals | MIncludes | MDash | MPrefix | MSuffix | MSubstring.
(** stylesheet.rs:236-241 [AttributeSelector] *)
Record attr_sel := mk_attr { a_name : str; a_matcher : matcher; a_value : str; a_ignore_case : bool }.
(** stylesheet.rs:223-233 [CssSelectorPart] *)
Inductive part :=
| PUniversal | PAttribute (a : attr_sel) | PClass (s : str) | PId (s : str) | PPseudoClass (s : str)
| PPseudoElement (s : str) | PCombinator (c : combinator) | PType (s : str).
Global Instance combinator_eq_dec : EqDecision combinator.
Proof. solve_decision. Defined.
Global Instance matcher_eq_dec : EqDecision matcher.
Proof. solve_decision. Defined.
Global Instance attr_sel_eq_dec : EqDecision attr_sel.
Proof. solve_decision. Defined.
Global Instance part_eq_dec : EqDecision part.
Proof. solve_decision. Defined.

(** [str::starts_with], [ends_with], [contains] *)
Fixpoint prefixb (p s : str) : bool :=
  match p, s with [], _ => true | x :: p', y :: s' => N.eqb x y && prefixb p' s' | _ :: _, [] => false end.
Definition suffixb (p s : str) : bool := prefixb (rev p) (rev s).
Fixpoint infixb (p s : str) : bool :=
  prefixb p s || match s with [] => false | _ :: s' => infixb p s' end.
(** [str::eq_ignore_ascii_case] *)
Definition ascii_low (c : N) : N := if (65 <=? c)%N && (c <=? 90)%N then (c + 32)%N else c.
Definition same_ignoring_case (a b : str) : bool := bool_decide (map ascii_low a = map ascii_low b).
(** document_impl.rs:176-181 *)
Definition namespace (d : doc) (i : nat) : option str := (get d i ≫= element_of) ≫= e_ns.

Section lower.
(** [str::to_lowercase] *)
Context (lower : str -> str).

(** styling.rs:119-141, the test of the attribute's value [got] *)
Definition attr_test (a : attr_sel) (got : str) : bool :=
  let '(wanted, got) := if a_ignore_case a then (lower (a_name a), lower got) else (a_value a, got) in
  match a_matcher a with
  | MNone => true
  | MEquals => bool_decide (wanted = got)
  | MIncludes => existsb (fun s => bool_decide (s = got)) (split_whitespace wanted)
  | MDash => bool_decide (got = wanted) || prefixb (wanted ++ [45%N]) got
  | MPrefix => prefixb wanted got
  | MSuffix => suffixb wanted got
  | MSubstring => infixb wanted got
  end.
(** styling.rs:143-248 *)
Definition has_attr (d : doc) (i : nat) (k : str) : bool := bool_decide (is_Some (attribute d i k)).
Definition same_tag (d : doc) (t : str) (l : list nat) : list nat := filter (fun j => tag_name d j = Some t) l.
Definition pseudo_class (d : doc) (cur : nat) (s : str) : bool :=
  if bool_decide (s = txt "hover") then bool_decide (cur ∈ hovered d)
  else if bool_decide (s ∈ [txt "link"; txt "any-link"; txt "-webkit-any-link"]) then
    is_element d cur && match tag_name d cur with Some t => bool_decide (t ∈ [txt "a"; txt "area"; txt "link"]) | None => false end
      && has_attr d cur (txt "href")
  else if bool_decide (s = txt "visited") then false
  else if bool_decide (s = txt "first-child") then
    match parent d cur with Some p => bool_decide (head (children d p) = Some cur) | None => false end
  else if bool_decide (s = txt "last-child") then
    match parent d cur with Some p => bool_decide (last (children d p) = Some cur) | None => false end
  else if bool_decide (s = txt "first-of-type") then
    match parent d cur, tag_name d cur with
    | Some p, Some t => bool_decide (head (same_tag d t (children d p)) = Some cur) | _, _ => false end
  else if bool_decide (s = txt "last-of-type") then
    match parent d cur, tag_name d cur with
    | Some p, Some t => bool_decide (last (same_tag d t (children d p)) = Some cur) | _, _ => false end
  else if bool_decide (s = txt "only-child") then
    match parent d cur with
    | Some p => bool_decide (filter (fun j => is_element d j = true) (children d p) = [cur]) | None => false end
  else if bool_decide (s = txt "only-of-type") then
    match parent d cur, tag_name d cur with
    | Some p, Some t => bool_decide (length (same_tag d t (children d p)) = 1) | _, _ => false end
  else if bool_decide (s = txt "root") then
    is_element d cur && match parent d cur with None => true | Some p => negb (is_element d p) end
  else if bool_decide (s = txt "checked") then has_attr d cur (txt "checked")
  else if bool_decide (s = txt "disabled") then has_attr d cur (txt "disabled")
  else if bool_decide (s = txt "enabled") then negb (has_attr d cur (txt "disabled")) && is_element d cur
  else if bool_decide (s = txt "read-only") then has_attr d cur (txt "readonly")
  else if bool_decide (s = txt "read-write") then
    negb (has_attr d cur (txt "readonly")) && negb (has_attr d cur (txt "disabled")) && is_element d cur
  else if bool_decide (s ∈ [txt "focus"; txt "focus-visible"]) then bool_decide (focused d = Some cur)
  else false.
(** styling.rs:100-252, every arm except the combinators *)
Definition simple (d : doc) (pseudo : option str) (cur : nat) (p : part) : bool :=
  match p with
  | PUniversal => true
  | PType s => is_element d cur && bool_decide (tag_name d cur = Some s)
  | PClass s => has_class d cur s
  | PId s => is_element d cur && bool_decide (attribute d cur (txt "id") = Some s)
  | PAttribute a => is_element d cur && match attribute d cur (a_name a) with Some v => attr_test a v | None => false end
  | PPseudoClass s => pseudo_class d cur s
  | PPseudoElement s => match pseudo with Some t => same_ignoring_case s t | None => false end
  | PCombinator _ => false
  end.

(** a call's answer: the verdict, where to continue, and the parts left *)
Definition answer : Type := bool * option nat * list part.
Definition attempt : Type := nat -> option nat -> list part -> res answer.
(** styling.rs:263-275, the loop over the ancestors; the parts an unsuccessful attempt took stay taken *)
Fixpoint climb (fuel : nat) (d : doc) (try : attempt) (p : nat) (ps : list part) : res answer :=
  match fuel with
  | 0 => Diverge
  | S k =>
      let* (b, next, ps1) := try p (Some p) ps in
      if (b : bool) then Ok (true, next, ps1)
      else match parent d p with None => Ok (false, next, ps1) | Some q => climb k d try q ps1 end
  end.
(** styling.rs:328-338, the loop over the earlier siblings *)
Fixpoint earlier (try : attempt) (l : list nat) (cur : nat) (next : option nat) (ps : list part) : res answer :=
  match l with
  | [] => Ok (false, next, ps)
  | c :: r =>
      if bool_decide (c = cur) then Ok (false, next, ps)
      else let* (b, next1, ps1) := try c next ps in
           if (b : bool) then Ok (true, next1, ps1) else earlier try r cur next1 ps1
  end.
Definition position (l : list nat) (x : nat) : option nat := fst <$> list_find (fun c => c = x) l.
(** styling.rs:92-358; [fuel] bounds how many combinators follow each other directly *)
Fixpoint match_part (fuel : nat) (d : doc) (pseudo : option str) (p : part) (cur : nat) (next : option nat) (ps : list part) : res answer :=
  match p with
  | PCombinator c =>
      match fuel with
      | 0 => Diverge
      | S f =>
          match c with
          | Descendant =>
              match parent d cur with
              | None => Ok (false, next, ps)
              | Some up =>
                  match ps with
                  | [] => Ok (false, next, ps)
                  | last :: ps' => climb (depth d) d (match_part f d pseudo last) up ps'
                  end
              end
          | Child =>
              match parent d cur with
              | None => Ok (false, next, ps)
              | Some up =>
                  match ps with
                  | [] => Ok (false, next, ps)
                  | last :: ps' => match_part f d pseudo last up (Some up) ps'
                  end
              end
          | NextSibling =>
              match parent d cur with
              | None => Ok (false, next, ps)
              | Some up =>
                  match position (children d up) cur with
                  | None | Some 0 => Ok (false, next, ps)
                  | Some (S n) =>
                      match children d up !! n with
                      | None => Ok (false, next, ps)
                      | Some prev =>
                          match ps with
                          | [] => Ok (false, next, ps)
                          | last :: ps' => match_part f d pseudo last prev (Some prev) ps'
                          end
                      end
                  end
              end
          | SubsequentSibling =>
              match parent d cur with
              | None => Ok (false, next, ps)
              | Some up =>
                  match ps with
                  | [] => Ok (false, next, ps)
                  | last :: ps' => earlier (match_part f d pseudo last) (children d up) cur next ps'
                  end
              end
          | Namespace =>
              match ps with
              | [] => Ok (false, next, ps)
              | PUniversal :: ps' => Ok (true, next, ps')
              | PType ns :: ps' => Ok (bool_decide (namespace d cur = Some ns), next, ps')
              | _ :: ps' => Ok (false, next, ps')
              end
          | Column => Ok (false, next, ps)
          end
      end
  | _ => Ok (simple d pseudo cur p, next, ps)
  end.
(** styling.rs:67-90 [match_selector_parts]; every round takes at least one part *)
Fixpoint match_loop (fuel : nat) (d : doc) (pseudo : option str) (next : option nat) (ps : list part) : res bool :=
  match fuel with
  | 0 => Diverge
  | S f =>
      match ps with
      | [] => Ok true
      | p :: ps' =>
          match next with
          | None => Ok false
          | Some cur =>
              match parent d cur with
              | None => Ok false
              | Some _ =>
                  let* (b, next1, ps1) := match_part (S (length ps')) d pseudo p cur next ps' in
                  if (b : bool) then match_loop f d pseudo next1 ps1 else Ok false
              end
          end
      end
  end.
Definition match_parts (d : doc) (i : nat) (parts : list part) (pseudo : option str) : res bool :=
  match_loop (S (length parts)) d pseudo (Some i) (rev parts).

(** stylesheet.rs:342-398 [Specificity]; the counters are u32 there *)
Definition specificity : Type := N * N * N.
Definition spec_of (parts : list part) : specificity :=
  fold_left (fun '(a, b, c) p =>
    match p with
    | PId _ => (a + 1, b, c)
    | PClass _ => (a, b + 1, c)
    | PType _ => (a, b, c + 1)
    | _ => (a, b, c)
    end)%N parts (0, 0, 0)%N.
Definition spec_cmp (x y : specificity) : comparison :=
  let '(a, b, c) := x in let '(a', b', c') := y in
  match N.compare a a' with Eq => match N.compare b b' with Eq => N.compare c c' | o => o end | o => o end.

(** stylesheet.rs:205-208 [CssSelector]: the alternatives of a comma-separated list *)
Definition selector : Type := list (list part).
(** styling.rs:26-49 [match_selector] *)
Definition targets (t : str) (parts : list part) : bool :=
  existsb (fun p => match p with PPseudoElement n => same_ignoring_case n t | _ => false end) parts.
Fixpoint match_selector (d : doc) (i : nat) (s : selector) (pseudo : option str) : res (bool * specificity) :=
  match s with
  | [] => Ok (false, (0, 0, 0)%N)
  | parts :: r =>
      if match pseudo with Some t => negb (targets t parts) | None => false end then match_selector d i r pseudo
      else let* b := match_parts d i parts pseudo in
           if (b : bool) then Ok (true, spec_of parts) else match_selector d i r pseudo
  end.
End lower.

(** * Hover *)
(** gosub_interface/src/css3.rs:27-36 [HoverFingerprints] *)
Record fingerprints := mk_fp { fp_universal : bool; fp_types : list str; fp_classes : list str; fp_ids : list str }.
Definition no_fp : fingerprints := mk_fp false [] [] [].
(** system.rs:317-333: the parts of a compound read so far *)
Definition note_part (p : part) (x : fingerprints * bool) : fingerprints * bool :=
  let '(fp, specific) := x in
  match p with
  | PType t => (mk_fp (fp_universal fp) (t :: fp_types fp) (fp_classes fp) (fp_ids fp), true)
  | PClass c => (mk_fp (fp_universal fp) (fp_types fp) (c :: fp_classes fp) (fp_ids fp), true)
  | PId v => (mk_fp (fp_universal fp) (fp_types fp) (fp_classes fp) (v :: fp_ids fp), true)
  | _ => x
  end.
(** system.rs:305-340; [inr] ends the whole scan ([return fp]) with everything sensitive *)
Fixpoint scan_parts (parts compound : list part) (fp : fingerprints) : fingerprints + fingerprints :=
  match parts with
  | [] => inl fp
  | PCombinator _ :: r => scan_parts r [] fp
  | p :: r =>
      let compound := compound ++ [p] in
      if bool_decide (p = PPseudoClass (txt "hover")) then
        let '(fp1, specific) := fold_left (fun x q => note_part q x) compound (fp, false) in
        if (specific : bool) then scan_parts r compound fp1
        else inr (mk_fp true (fp_types fp1) (fp_classes fp1) (fp_ids fp1))
      else scan_parts r compound fp
  end.
(** system.rs:292-343; the selectors of all rules of all sheets, in order *)
Fixpoint scan_all (l : list (list part)) (fp : fingerprints) : fingerprints :=
  match l with
  | [] => fp
  | parts :: r => match scan_parts parts [] fp with inl fp1 => scan_all r fp1 | inr fp1 => fp1 end
  end.
Definition hover_fingerprints (sels : list selector) : fingerprints := scan_all (concat sels) no_fp.
(** context.rs:53-75 [hover_matches] *)
Definition hover_matches (fp : fingerprints) (d : doc) (i : nat) : bool :=
  fp_universal fp
  || match tag_name d i with Some t => bool_decide (t ∈ fp_types fp) | None => false end
  || existsb (has_class d i) (fp_classes fp)
  || match attribute d i (txt "id") with Some v => bool_decide (v ∈ fp_ids fp) | None => false end.
(** context.rs:892-993 [update_hover], the part that decides on a restyle: [leaf] is the node the
    hit test found. Layout ids, cursor and link are left out. The state is the document, the node
    hovered, and whether the chain was sensitive. *)
Record hover_state := mk_hs { hs_doc : doc; hs_leaf : option nat; hs_sensitive : bool }.
Definition chain_sensitive (fp : fingerprints) (d : doc) (leaf : option nat) : res bool :=
  match leaf with
  | None => Ok false
  | Some i => let* l := chain (depth d) d i in Ok (existsb (hover_matches fp d) l)
  end.
Definition update_hover (fp : fingerprints) (leaf : option nat) (s : hover_state) : res (hover_state * bool) :=
  if bool_decide (leaf = hs_leaf s) then Ok (s, false)
  else
    let* sensitive := chain_sensitive fp (hs_doc s) leaf in
    let dirty := hs_sensitive s || sensitive in
    let* d := if dirty then set_hovered leaf (hs_doc s) else Ok (hs_doc s) in
    Ok (mk_hs d leaf sensitive, dirty).

(** context.rs:912-931: the nodes whose cached styles will be dropped, collected at every move to another node *)
Definition chain_of (d : doc) (leaf : option nat) : res (list nat) := match leaf with Some i => chain (depth d) d i | None => Ok [] end.
Definition hover_dirty_nodes (d : doc) (old new : option nat) : res (list nat) :=
  let* a := chain_of d old in let* b := chain_of d new in Ok (a ++ b).
(** the styles on show. What is cached for a node (render_pipeline pipeline_doc.rs, [style_cache]) is kept as
    the verdict of each selector on it; every tile is taken to overlap the hovered elements' boxes. *)
Definition verdicts : Type := list part -> option str -> res bool.
Record view := mk_view { v_hover : hover_state; v_nodes : list nat; v_dirty : bool; v_cache : nat -> verdicts }.
(** context.rs:892-1000 [update_hover] *)
Definition move (fp : fingerprints) (leaf : option nat) (v : view) : res view :=
  if bool_decide (leaf = hs_leaf (v_hover v)) then Ok v
  else
    let* nodes := hover_dirty_nodes (hs_doc (v_hover v)) (hs_leaf (v_hover v)) leaf in
    let* (h, b) := update_hover fp leaf (v_hover v) in
    Ok (mk_view h nodes (v_dirty v || b) (v_cache v)).
(** context.rs:485-528 and 1376-1393 with pipeline_doc.rs:1384-1395: the cached styles of these nodes are
    computed anew, the others are used again *)
Definition repaint (lower : str -> str) (v : view) : view :=
  if v_dirty v
  then mk_view (v_hover v) (v_nodes v) false
         (fun x => if bool_decide (x ∈ v_nodes v) then fun parts pseudo => match_parts lower (hs_doc (v_hover v)) x parts pseudo else v_cache v x)
  else v.
