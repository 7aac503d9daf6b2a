(** The properties C70, C71 and C72 of CSS selectors: what they match, how specific they are, and what
    the pointer's movements change. *)
From stdpp Require Import gmap relations.
From Verif Require Import Text SettingsModel DomModel DomSpec DomProofs DomNames SelectorModel SelectorSpec SelectorProofs SelectorHover.

(** * C70: a selector matches the elements CSS says it matches *)
(** For every document, node and list of parts, whatever the parts, matching ends with a verdict. *)
Theorem C70_matching_ends : forall lower ops d x parts pseudo, history careful new_doc ops d ->
  exists b, match_parts lower d x parts pseudo = Ok b.
Proof. intros lower ops d x parts pseudo H. destruct (careful_new ops d H) as (_&A&T). exact (matching_ends lower d (t_linked d T) A x parts pseudo). Qed.
Print Assumptions C70_matching_ends.
(** A compound (no combinators) of the plain simple selectors is matched exactly by the elements that
    satisfy every one of them. *)
Theorem C70_compound : forall lower ops d x c, history careful new_doc ops d -> in_document d x -> is_elem d x -> Forall plain c ->
  match_parts lower d x c None = Ok true <-> Forall (holds lower d x) c.
Proof.
  intros lower ops d x c H Hd Hx Hc. destruct (careful_new ops d H) as (_&A&T). pose proof (t_linked d T) as L.
  pose proof (in_document_grounded d x Hd) as G.
  change c with (parts_of (One c)) at 1. rewrite match_go. split.
  - intros E. exact (proj2 (sound lower d L A (One c) Hc I I x G Hx E)).
  - intros E. apply (complete lower d L A (One c) Hc I I I); [done|done|]. by split.
Qed.
Print Assumptions C70_compound.
(** With combinators: the engine never finds a match CSS would not, as long as compounds left of a
    combinator name a type, class, id or attribute, and [~] follows a single simple selector. *)
Theorem C70_no_extra_match : forall lower ops d x s, history careful new_doc ops d -> in_document d x -> is_elem d x ->
  plain_sel s -> naming_sel s -> no_extra s -> match_parts lower d x (parts_of s) None = Ok true -> means lower d s x.
Proof.
  intros lower ops d x s H Hd Hx Hp Hn He E. destruct (careful_new ops d H) as (_&A&T).
  rewrite match_go in E. exact (sound lower d (t_linked d T) A s Hp Hn He x (in_document_grounded d x Hd) Hx E).
Qed.
Print Assumptions C70_no_extra_match.
(** And none is missed when also a descendant combinator only follows a ladder of single simple
    selectors. Missing from the full property: the shapes refuted below. *)
Theorem C70_exact_partial : forall lower ops d x s, history careful new_doc ops d -> in_document d x -> is_elem d x ->
  plain_sel s -> naming_sel s -> no_extra s -> no_miss s -> (uses NextSibling s -> elements_only d) ->
  match_parts lower d x (parts_of s) None = Ok true <-> means lower d s x.
Proof.
  intros lower ops d x s H Hd Hx Hp Hn He Hm Hu. destruct (careful_new ops d H) as (_&A&T). pose proof (t_linked d T) as L.
  pose proof (in_document_grounded d x Hd) as G. rewrite match_go. split.
  - exact (sound lower d L A s Hp Hn He x G Hx).
  - exact (complete lower d L A s Hp Hn He Hm Hu x G).
Qed.
Print Assumptions C70_exact_partial.
(** a list of selectors matches when one of its members does, and takes the specificity of the first that does *)
Theorem C70_lists : forall lower ops d x sel, history careful new_doc ops d ->
  exists b sp, match_selector lower d x sel None = Ok (b, sp) /\
  (b = true <-> exists parts, parts ∈ sel /\ match_parts lower d x parts None = Ok true) /\
  (b = true -> exists l parts r, sel = l ++ parts :: r /\ match_parts lower d x parts None = Ok true /\ sp = spec_of parts /\
     Forall (fun p => match_parts lower d x p None = Ok false) l).
Proof. intros lower ops d x sel H. destruct (careful_new ops d H) as (_&A&T). exact (match_list lower d x sel (t_linked d T) A). Qed.
Print Assumptions C70_lists.
(** a selector ending in a pseudo-element matches that pseudo-element of the nodes the rest matches, and
    never the node itself *)
Theorem C70_pseudo_elements : forall lower d x parts n, parent d x <> None -> Forall not_pseudo_element parts ->
  (forall t, match_parts lower d x (parts ++ [PPseudoElement n]) (Some t) =
     (if same_ignoring_case n t then match_parts lower d x parts None else Ok false)) /\
  match_parts lower d x (parts ++ [PPseudoElement n]) None <> Ok true.
Proof.
  intros lower d x parts n Hx Hp. split.
  - intros t. exact (match_pseudo lower d x parts n t Hx Hp).
  - intros E. by apply match_last in E.
Qed.
Print Assumptions C70_pseudo_elements.
(** A list of selectors for pseudo-elements: one of them names the pseudo-element and holds of the element without its name. *)
Theorem C70_pseudo_lists : forall lower d x sel t b sp, parent d x <> None ->
  Forall (fun parts => exists base n, parts = base ++ [PPseudoElement n] /\ Forall not_pseudo_element base) sel ->
  match_selector lower d x sel (Some t) = Ok (b, sp) ->
  b = true <-> exists base n, base ++ [PPseudoElement n] ∈ sel /\ same_ignoring_case n t = true /\
    match_parts lower d x base None = Ok true.
Proof. exact pseudo_lists. Qed.
Print Assumptions C70_pseudo_lists.
(** [:first-child] and [:last-child], where no text stands beside elements (refuted otherwise, below). *)
Theorem C70_child_places_partial : forall lower ops d x s, history careful new_doc ops d -> in_document d x -> is_elem d x ->
  elements_only d -> s = txt "first-child" \/ s = txt "last-child" ->
  match_parts lower d x [PPseudoClass s] None = Ok true <-> pseudo_holds d x s.
Proof. intros lower ops d x s H. destruct (careful_new ops d H) as (_&A&T). exact (place_ok lower d (t_linked d T) A x s). Qed.
Print Assumptions C70_child_places_partial.
(** The states of form controls follow their attributes; no link is ever shown as visited. Any other
    element is treated alike, and a [fieldset] does not disable its fields. *)
Theorem C70_states_partial : forall lower ops d x, history careful new_doc ops d -> in_document d x -> is_elem d x ->
  let matched s := match_parts lower d x [PPseudoClass (txt s)] None = Ok true in
  let carries k := exists v, attribute d x (txt k) = Some v in
  (matched "checked" <-> carries "checked") /\ (matched "disabled" <-> carries "disabled") /\
  (matched "enabled" <-> ~ carries "disabled") /\ (matched "read-only" <-> carries "readonly") /\
  (matched "read-write" <-> ~ carries "readonly" /\ ~ carries "disabled") /\
  (matched "focus-visible" <-> focused d = Some x) /\ ~ matched "visited".
Proof. intros lower ops d x H. destruct (careful_new ops d H) as (_&A&T). exact (states_ok lower d (t_linked d T) A x). Qed.
Print Assumptions C70_states_partial.

(** ** Examples and refutations *)
Definition low : str -> str := map ascii_low.
Definition box (t cls : string) (i p : nat) : list op :=
  [OElement (txt t) None ∅; OSetAttribute i (txt "class") (txt cls); OAttach i p None].
Definition attr_box (t k v : string) (i p : nat) : list op :=
  [OElement (txt t) None ∅; OSetAttribute i (txt k) (txt v); OAttach i p None].
Definition doc_of (ops : list op) : doc := default new_doc (careful_runb new_doc ops).
Lemma doc_of_ok ops : match careful_runb new_doc ops with Some _ => true | None => false end = true -> history careful new_doc ops (doc_of ops).
Proof. intros H. apply careful_runb_ok. unfold doc_of. by destruct (careful_runb new_doc ops). Qed.
Ltac page ops := exists ops, (doc_of ops); split; [apply doc_of_ok; vm_compute; reflexivity|].
Ltac elem := eexists; vm_compute; reflexivity.
Ltac climbs l := match l with
  | ?x :: ?r => first [eapply (rtc_l _ _ x); [vm_compute; reflexivity|climbs r]]
  | nil => apply rtc_refl end.
Ltac indoc l := exists 0; split; [climbs l|]; split; [vm_compute; discriminate|]; split; [vm_compute; reflexivity|]; let He := fresh in intros [? He]; vm_compute in He; discriminate He.
Ltac holdsq := split; [elem|vm_compute; reflexivity].

(** html > div.a > p.b with [div.a > p.b] and [html p] *)
Definition sheet_page : list op := box "html" "" 1 0 ++ box "div" "a" 2 1 ++ box "p" "b" 3 2.
Definition child_sel : complex := Then (One [PType (txt "div"); PClass (txt "a")]) Child [PType (txt "p"); PClass (txt "b")].
Definition ladder_sel : complex := Then (Then (One [PType (txt "html")]) Descendant [PClass (txt "a")]) Descendant [PType (txt "p")].
Example C70_example : exists ops d, history careful new_doc ops d /\ in_document d 3 /\ is_elem d 3 /\
  (plain_sel child_sel /\ naming_sel child_sel /\ no_extra child_sel /\ no_miss child_sel) /\
  (plain_sel ladder_sel /\ naming_sel ladder_sel /\ no_extra ladder_sel /\ no_miss ladder_sel) /\
  match_parts low d 3 (parts_of child_sel) None = Ok true /\ match_parts low d 3 (parts_of ladder_sel) None = Ok true /\
  match_parts low d 2 (parts_of ladder_sel) None = Ok false.
Proof.
  page sheet_page. split; [indoc [2; 1; 0]|]. split; [elem|]. split; [|split].
  - split_and!; simpl; try done; repeat constructor.
  - split_and!; simpl; try done; repeat constructor.
  - split_and!; vm_compute; reflexivity.
Qed.
Example C70_pseudo_lists_example : exists ops d, history careful new_doc ops d /\ parent d 3 <> None /\
  match_selector low d 3 [[PType (txt "p"); PPseudoElement (txt "before")]; [PClass (txt "b"); PPseudoElement (txt "AFTER")]] (Some (txt "after")) = Ok (true, (0, 1, 0)%N).
Proof. page sheet_page. split; [by vm_compute|]. vm_compute; reflexivity. Qed.
Example C70_states_example : exists ops d, history careful new_doc ops d /\ in_document d 2 /\ is_elem d 2 /\
  match_parts low d 2 [PPseudoClass (txt "disabled")] None = Ok true /\
  match_parts low d 2 [PPseudoClass (txt "read-write")] None = Ok false /\
  match_parts low d 2 [PPseudoClass (txt "last-child")] None = Ok false /\
  match_parts low d 3 [PPseudoClass (txt "last-child")] None = Ok true /\
  match_parts low d 3 [PPseudoClass (txt "read-write")] None = Ok true.
Proof.
  page (box "html" "" 1 0 ++ attr_box "input" "disabled" "" 2 1 ++ box "input" "" 3 1). split; [indoc [1; 0]|]. split; [elem|].
  split_and!; vm_compute; reflexivity.
Qed.
(** [.x.y p]: only the nearest ancestor with the class [y] is tried *)
Theorem C70_compound_ancestor_refuted : exists ops d, history careful new_doc ops d /\ in_document d 4 /\
  let s := Then (One [PClass (txt "x"); PClass (txt "y")]) Descendant [PType (txt "p")] in
  means low d s 4 /\ match_parts low d 4 (parts_of s) None = Ok false.
Proof.
  page (box "html" "" 1 0 ++ box "div" "x y" 2 1 ++ box "div" "y" 3 2 ++ box "p" "" 4 3). split; [indoc [3; 2; 1; 0]|].
  intros s. split; [|vm_compute; reflexivity]. split; [elem|]. split; [constructor; [holdsq|constructor]|]. exists 2. split.
  - eapply (tc_l _ _ 3); [vm_compute; reflexivity|]. apply tc_once. vm_compute; reflexivity.
  - split; [elem|]. constructor; [holdsq|]. constructor; [holdsq|constructor].
Qed.
Print Assumptions C70_compound_ancestor_refuted.
(** [a > b c]: only the nearest ancestor [b] is tried *)
Theorem C70_child_then_descendant_refuted : exists ops d, history careful new_doc ops d /\ in_document d 6 /\
  let s := Then (Then (One [PType (txt "a")]) Child [PType (txt "b")]) Descendant [PType (txt "c")] in
  means low d s 6 /\ match_parts low d 6 (parts_of s) None = Ok false.
Proof.
  page (box "html" "" 1 0 ++ box "a" "" 2 1 ++ box "b" "" 3 2 ++ box "div" "" 4 3 ++ box "b" "" 5 4 ++ box "c" "" 6 5).
  split; [indoc [5; 4; 3; 2; 1; 0]|].
  intros s. split; [|vm_compute; reflexivity]. split; [elem|]. split; [constructor; [holdsq|constructor]|]. exists 3. split.
  - eapply (tc_l _ _ 5); [vm_compute; reflexivity|]. eapply (tc_l _ _ 4); [vm_compute; reflexivity|]. apply tc_once. vm_compute; reflexivity.
  - split; [elem|]. split; [constructor; [holdsq|constructor]|]. exists 2. split; [vm_compute; reflexivity|]. split; [elem|]. constructor; [holdsq|constructor].
Qed.
Print Assumptions C70_child_then_descendant_refuted.
(** [div.a ~ p]: the [div] is asked of the [p] itself *)
Theorem C70_sibling_compound_refuted : exists ops d, history careful new_doc ops d /\ in_document d 3 /\
  let s := Then (One [PType (txt "div"); PClass (txt "a")]) SubsequentSibling [PType (txt "p")] in
  means low d s 3 /\ match_parts low d 3 (parts_of s) None = Ok false.
Proof.
  page (box "html" "" 1 0 ++ box "div" "a" 2 1 ++ box "p" "" 3 1). split; [indoc [1; 0]|].
  intros s. split; [|vm_compute; reflexivity]. split; [elem|]. split; [constructor; [holdsq|constructor]|]. exists 2. split.
  - exists [], [], [], 1. split; vm_compute; reflexivity.
  - split; [elem|]. constructor; [holdsq|]. constructor; [holdsq|constructor].
Qed.
Print Assumptions C70_sibling_compound_refuted.
(** [a ~ b ~ c] matches the [c] of b, a, c *)
Theorem C70_sibling_chain_refuted : exists ops d, history careful new_doc ops d /\ in_document d 4 /\
  let s := Then (Then (One [PType (txt "a")]) SubsequentSibling [PType (txt "b")]) SubsequentSibling [PType (txt "c")] in
  match_parts low d 4 (parts_of s) None = Ok true /\ ~ means low d s 4.
Proof.
  page (box "html" "" 1 0 ++ box "b" "" 2 1 ++ box "a" "" 3 1 ++ box "c" "" 4 1). split; [indoc [1; 0]|].
  intros s. split; [vm_compute; reflexivity|].
  match goal with |- ~ means low ?x _ _ =>
    assert (P4 : parent x 4 = Some 1) by (vm_compute; reflexivity); assert (P2 : parent x 2 = Some 1) by (vm_compute; reflexivity);
    assert (C1 : children x 1 = [2; 3; 4]) by (vm_compute; reflexivity);
    assert (T3 : tag_name x 3 = Some (txt "a")) by (vm_compute; reflexivity); generalize dependent x end.
  intros d P4 P2 C1 T3 (_&_&y&(b&m&a&p&Hp&Hc)&_&Hy&z&(b'&m'&a'&p'&Hp'&Hc')&_&_).
  inversion Hy as [|?? [_ Ty] _]; subst. rewrite P4 in Hp. injection Hp as <-. rewrite C1 in Hc.
  assert (Hin : y ∈ [2; 3; 4]). { rewrite Hc. apply elem_of_app. left. apply elem_of_app. right. left. }
  assert (Hl : last [2; 3; 4] = last ((b ++ y :: m) ++ 4 :: a)) by (by rewrite Hc).
  rewrite !elem_of_cons, elem_of_nil in Hin. destruct Hin as [->|[->|[->|[]]]].
  - rewrite P2 in Hp'. injection Hp' as <-. rewrite C1 in Hc'. destruct b' as [|b1 b']; simpl in Hc'.
    + injection Hc' as <- Hc'. assert (E : 2 ∈ [3; 4]). { rewrite Hc'. apply elem_of_app. right. left. }
      rewrite !elem_of_cons, elem_of_nil in E. naive_solver lia.
    + injection Hc' as <- Hc'. assert (E : 2 ∈ [3; 4]). { rewrite Hc'. apply elem_of_app. right. left. }
      rewrite !elem_of_cons, elem_of_nil in E. naive_solver lia.
  - rewrite T3 in Ty. apply (inj Some) in Ty. vm_compute in Ty. discriminate Ty.
  - assert (ND : NoDup [2; 3; 4]) by (apply (bool_decide_unpack _); vm_compute; exact I).
    rewrite Hc in ND. apply NoDup_app in ND as (_&H2&_). exfalso. apply (H2 4); [|left]. apply elem_of_app. right. left.
Qed.
Print Assumptions C70_sibling_chain_refuted.
(** [a + b] does not see past a text between the two *)
Theorem C70_text_between_refuted : exists ops d, history careful new_doc ops d /\ in_document d 4 /\
  let s := Then (One [PType (txt "a")]) NextSibling [PType (txt "b")] in
  means low d s 4 /\ match_parts low d 4 (parts_of s) None = Ok false.
Proof.
  page (box "html" "" 1 0 ++ box "a" "" 2 1 ++ [OText (txt " "); OAttach 3 1 None] ++ box "b" "" 4 1). split; [indoc [1; 0]|].
  intros s. split; [|vm_compute; reflexivity]. split; [elem|]. split; [constructor; [holdsq|constructor]|]. exists 2. split.
  - exists [], [3], []. split; [exists 1; split; vm_compute; reflexivity|]. constructor; [|constructor]. intros [? He]. vm_compute in He. discriminate He.
  - split; [elem|]. constructor; [holdsq|constructor].
Qed.
Print Assumptions C70_text_between_refuted.
(** [p:first-child] and [p:last-child] count texts as children *)
Theorem C70_first_child_refuted : exists ops d, history careful new_doc ops d /\ in_document d 3 /\
  forall s, s = txt "first-child" \/ s = txt "last-child" ->
  holds low d 3 (PPseudoClass s) /\ match_parts low d 3 [PPseudoClass s] None = Ok false.
Proof.
  page (box "html" "" 1 0 ++ [OText (txt " "); OAttach 2 1 None] ++ box "p" "" 3 1 ++ [OText (txt " "); OAttach 4 1 None]). split; [indoc [1; 0]|].
  intros s Hs. split.
  - split; [elem|]. destruct Hs as [-> | ->]; unfold pseudo_holds.
    + repeat first [rewrite decide_False by (intros ?; repeat match goal with H : _ \/ _ |- _ => destruct H end; vm_compute in *; discriminate) | rewrite decide_True by done].
      exists [2], [4]. split; [exists 1; split; vm_compute; reflexivity|]. constructor; [|constructor]. intros [? He]. vm_compute in He. discriminate He.
    + repeat first [rewrite decide_False by (intros ?; repeat match goal with H : _ \/ _ |- _ => destruct H end; vm_compute in *; discriminate) | rewrite decide_True by done].
      exists [2], [4]. split; [exists 1; split; vm_compute; reflexivity|]. constructor; [|constructor]. intros [? He]. vm_compute in He. discriminate He.
  - destruct Hs as [-> | ->]; vm_compute; reflexivity.
Qed.
Print Assumptions C70_first_child_refuted.
(** [* > html] matches: the document node passes for an element *)
Theorem C70_universal_parent_refuted : exists ops d, history careful new_doc ops d /\ in_document d 1 /\
  let s := Then (One [PUniversal]) Child [PType (txt "html")] in
  match_parts low d 1 (parts_of s) None = Ok true /\ ~ means low d s 1.
Proof.
  page (box "html" "" 1 0). split; [indoc [0]|]. intros s. split; [vm_compute; reflexivity|].
  intros (_&_&y&Hy&[e He]&_). vm_compute in Hy. injection Hy as <-. vm_compute in He. discriminate He.
Qed.
Print Assumptions C70_universal_parent_refuted.
(** [[class~="a"]] does not match class="a b" *)
Theorem C70_word_attribute_refuted : exists ops d, history careful new_doc ops d /\ in_document d 1 /\
  let p := PAttribute (mk_attr (txt "class") MIncludes (txt "a") false) in
  holds low d 1 p /\ match_parts low d 1 [p] None = Ok false.
Proof.
  page (box "p" "a b" 1 0). split; [indoc [0]|]. intros p. split; [|vm_compute; reflexivity]. split; [elem|].
  exists (txt "a b"). split; [vm_compute; reflexivity|]. apply classes_of_words. vm_compute. reflexivity.
Qed.
Print Assumptions C70_word_attribute_refuted.
(** [[type="TEXT" i]] does not match type="text" *)
Theorem C70_ignore_case_refuted : exists ops d, history careful new_doc ops d /\ in_document d 1 /\
  let p := PAttribute (mk_attr (txt "type") MEquals (txt "TEXT") true) in
  holds low d 1 p /\ match_parts low d 1 [p] None = Ok false.
Proof.
  page (attr_box "input" "type" "text" 1 0). split; [indoc [0]|]. intros p. split; [|vm_compute; reflexivity]. split; [elem|].
  exists (txt "text"). split; vm_compute; reflexivity.
Qed.
Print Assumptions C70_ignore_case_refuted.
(** [[title^=""]] matches every title *)
Theorem C70_empty_prefix_refuted : exists ops d, history careful new_doc ops d /\ in_document d 1 /\
  let p := PAttribute (mk_attr (txt "title") MPrefix [] false) in
  match_parts low d 1 [p] None = Ok true /\ ~ holds low d 1 p.
Proof.
  page (attr_box "p" "title" "x" 1 0). split; [indoc [0]|]. intros p. split; [vm_compute; reflexivity|].
  intros (_&v&_&H&_). by apply H.
Qed.
Print Assumptions C70_empty_prefix_refuted.

(** * C71: specificity *)
(** [cmp] is the order CSS defines, it is total, and equal only for equal counts *)
Theorem C71_order : forall x y z,
  (spec_cmp x y = Lt <-> less_specific x y) /\ (spec_cmp x y = Gt <-> less_specific y x) /\ (spec_cmp x y = Eq <-> x = y) /\
  (less_specific x y -> less_specific y z -> less_specific x z) /\ ~ less_specific x x.
Proof.
  intros x y z. split_and!; [apply spec_cmp_lt| |apply spec_cmp_eq|apply less_trans|apply less_irrefl].
  rewrite <- spec_cmp_lt, (spec_cmp_flip x y). by destruct (spec_cmp x y).
Qed.
Print Assumptions C71_order.
Example C71_order_example : less_specific (0, 9, 9)%N (1, 0, 0)%N /\ spec_cmp (1, 2, 0)%N (1, 1, 7)%N = Gt.
Proof. split; [left; simpl; lia|reflexivity]. Qed.
(** a selector without attribute, pseudo-class and pseudo-element parts has the specificity CSS gives it *)
Theorem C71_counts_partial : forall l,
  Forall (fun p => match p with PAttribute _ | PPseudoClass _ | PPseudoElement _ => False | _ => True end) l -> spec_of l = specificity_of l.
Proof. exact spec_counts. Qed.
Print Assumptions C71_counts_partial.
Example C71_counts_example : spec_of (parts_of child_sel) = (0, 2, 2)%N /\ specificity_of (parts_of child_sel) = (0, 2, 2)%N.
Proof. split; vm_compute; reflexivity. Qed.
(** the others weigh nothing: [a:hover] loses to [.x] under no order of the sheet, and is as specific as [a] *)
Theorem C71_pseudo_class_refuted :
  spec_of [PType (txt "a"); PPseudoClass (txt "hover")] = spec_of [PType (txt "a")] /\
  less_specific (specificity_of [PType (txt "a")]) (specificity_of [PType (txt "a"); PPseudoClass (txt "hover")]) /\
  spec_of [PAttribute (mk_attr (txt "href") MNone [] false)] = (0, 0, 0)%N /\
  less_specific (0, 0, 0)%N (specificity_of [PAttribute (mk_attr (txt "href") MNone [] false)]).
Proof. split_and!; try (vm_compute; reflexivity); unfold less_specific; vm_compute; auto. Qed.
Print Assumptions C71_pseudo_class_refuted.
(** of a list, the first member that matches gives its specificity, not the most specific: [p, #x] on <p id=x> *)
Theorem C71_list_refuted : exists ops d, history careful new_doc ops d /\
  let sel := [[PType (txt "p")]; [PId (txt "x")]] in
  match_selector low d 1 sel None = Ok (true, (0, 0, 1)%N) /\ match_parts low d 1 [PId (txt "x")] None = Ok true /\
  spec_of [PId (txt "x")] = (1, 0, 0)%N.
Proof. page (attr_box "p" "id" "x" 1 0). intros sel. split_and!; vm_compute; reflexivity. Qed.
Print Assumptions C71_list_refuted.

(** * C72: hovering *)
(** Moving the pointer restyles the document only when a hover rule can see the move. Whatever the style
    sheets and wherever the pointer goes, what a selector matches with the recorded hovered nodes is what
    it matches with the pointer's real position. *)
Theorem C72_skips_are_safe : forall lower ops d sels path s, history careful new_doc ops d -> hovered d = ∅ ->
  hovering (hover_fingerprints sels) (mk_hs d None false) path s ->
  exists d', set_hovered (default None (last path)) d = Ok d' /\
  forall sel x pseudo, parts_of sel ∈ concat sels -> well_formed sel -> no_extra sel ->
    match_parts lower (hs_doc s) x (parts_of sel) pseudo = match_parts lower d' x (parts_of sel) pseudo.
Proof.
  intros lower ops d sels path s H Hh Hp. destruct (careful_new ops d H) as (_&A&T). pose proof (t_linked d T) as L.
  destruct (hovering_tracked (hover_fingerprints sels) d path L A _ (tracked_start _ d Hh)) as [_ HT].
  destruct (HT s Hp) as [Tr Hl]. simpl in Hl. destruct (tracked_match lower sels d s L A Tr) as (d'&E&M).
  exists d'. rewrite <- Hl. split; [done|]. intros sel x pseudo Hin Hw Hx. apply M; [done|]. by exists sel.
Qed.
Print Assumptions C72_skips_are_safe.
Theorem C72_hovering_ends : forall ops d sels path, history careful new_doc ops d -> hovered d = ∅ ->
  exists s, hovering (hover_fingerprints sels) (mk_hs d None false) path s.
Proof.
  intros ops d sels path H Hh. destruct (careful_new ops d H) as (_&A&T).
  exact (proj1 (hovering_tracked (hover_fingerprints sels) d path (t_linked d T) A _ (tracked_start _ d Hh))).
Qed.
Print Assumptions C72_hovering_ends.
(** When every move is followed by a repaint, the styles on show are those of the pointer's position, for
    selectors with [:hover] in the rightmost compound only. Missing: the other selectors, and moves that
    come faster than repaints; both are refuted below. *)
Theorem C72_repaints_partial : forall lower ops d sels path v, history careful new_doc ops d -> hovered d = ∅ ->
  watching lower (hover_fingerprints sels) (first_view lower d) path v ->
  exists d', set_hovered (default None (last path)) d = Ok d' /\
  forall sel x pseudo, parts_of sel ∈ concat sels -> well_formed sel -> no_extra sel -> hover_only_in_subject sel ->
    v_cache v x (parts_of sel) pseudo = match_parts lower d' x (parts_of sel) pseudo.
Proof.
  intros lower ops d sels path v H Hh Hp. destruct (careful_new ops d H) as (_&A&T). pose proof (t_linked d T) as L.
  destruct (watching_shows lower sels d path L A _ (first_shows lower sels d Hh)) as [_ HT].
  destruct (HT v Hp) as [(_&_&dt&E&M) Hl]. simpl in Hl. exists dt. rewrite <- Hl. by split.
Qed.
Print Assumptions C72_repaints_partial.

Fixpoint watch (lower : str -> str) (fp : fingerprints) (v : view) (path : list (option nat)) : res view :=
  match path with [] => Ok v | x :: r => let* v1 := move fp x v in watch lower fp (repaint lower v1) r end.
Lemma watch_ok lower fp path : forall v (f : view -> res bool) b, (let* v' := watch lower fp v path in f v') = Ok b ->
  exists v', watching lower fp v path v' /\ f v' = Ok b.
Proof.
  induction path as [|x path IH]; intros v f b; cbn [watch rbind].
  - intros E. exists v. split; [constructor|done].
  - destruct (move fp x v) as [v1| |] eqn:Em; cbn [rbind]; [|done|done]. intros E. destruct (IH _ f b E) as (v'&W&Hf). exists v'. split; [by econstructor|done].
Qed.
Lemma res_ok {A} (r : res A) (f : A -> res bool) b : (let* a := r in f a) = Ok b -> exists a, r = Ok a /\ f a = Ok b.
Proof. destruct r as [a| |]; [|done|done]. intros E. by exists a. Qed.
Definition both (x y : res bool) : res bool := let* a := x in let* b := y in Ok (a && b).
Lemma both_ok x y : both x y = Ok true -> x = Ok true /\ y = Ok true.
Proof. destruct x as [[]| |], y as [[]| |]; simpl; naive_solver. Qed.
Definition is_false (x : res bool) : res bool := let* a := x in Ok (negb a).
Lemma is_false_ok x : is_false x = Ok true -> x = Ok false.
Proof. destruct x as [[]| |]; simpl; naive_solver. Qed.

Definition menu_page : list op := box "html" "" 1 0 ++ box "div" "menu" 2 1 ++ box "p" "item" 3 2 ++ box "div" "" 4 1.
Definition item_hover : complex := Then (One [PClass (txt "menu")]) Descendant [PClass (txt "item"); PPseudoClass (txt "hover")].
Example C72_example : exists ops d, history careful new_doc ops d /\ hovered d = ∅ /\ well_formed item_hover /\ no_extra item_hover /\ hover_only_in_subject item_hover /\
  exists v, watching low (hover_fingerprints [[parts_of item_hover]]) (first_view low d) [Some 4; Some 3] v /\
    v_cache v 3 (parts_of item_hover) None = Ok true /\ v_cache v 4 (parts_of item_hover) None = Ok false.
Proof.
  page menu_page. split; [vm_compute; reflexivity|]. split; [simpl; split_and!; try done; repeat constructor|]. split; [simpl; tauto|].
  split; [vm_compute; intros H; inversion H as [|? ? ? H']; inversion H'|].
  destruct (watch_ok low (hover_fingerprints [[parts_of item_hover]]) [Some 4; Some 3] (first_view low (doc_of menu_page))
    (fun v => both (v_cache v 3 (parts_of item_hover) None) (is_false (v_cache v 4 (parts_of item_hover) None))) true) as (v&W&H);
    [vm_compute; reflexivity|]. exists v. split; [exact W|]. apply both_ok in H as [H1 H2]. apply is_false_ok in H2. by split.
Qed.
(** [.menu:hover .item]: hovering the menu's other content leaves the item's style as it was *)
Definition menu_hover : complex := Then (One [PClass (txt "menu"); PPseudoClass (txt "hover")]) Descendant [PClass (txt "item")].
Theorem C72_descendants_stale_refuted : exists ops d, history careful new_doc ops d /\ hovered d = ∅ /\
  exists v d', watching low (hover_fingerprints [[parts_of menu_hover]]) (first_view low d) [Some 2] v /\ set_hovered (Some 2) d = Ok d' /\
    v_cache v 3 (parts_of menu_hover) None = Ok false /\ match_parts low d' 3 (parts_of menu_hover) None = Ok true.
Proof.
  page menu_page. split; [vm_compute; reflexivity|].
  destruct (watch_ok low (hover_fingerprints [[parts_of menu_hover]]) [Some 2] (first_view low (doc_of menu_page))
    (fun v => v_cache v 3 (parts_of menu_hover) None) false) as (v&W&H); [vm_compute; reflexivity|].
  destruct (res_ok (set_hovered (Some 2) (doc_of menu_page)) (fun d' => match_parts low d' 3 (parts_of menu_hover) None) true) as (d'&E&M); [vm_compute; reflexivity|].
  exists v, d'. by split_and!.
Qed.
Print Assumptions C72_descendants_stale_refuted.
(** two moves before a repaint: the node hovered first keeps its hover style *)
Theorem C72_two_moves_stale_refuted : exists ops d, history careful new_doc ops d /\ hovered d = ∅ /\
  let fp := hover_fingerprints [[parts_of item_hover]] in
  exists v1 v2 v3 d', move fp (Some 3) (first_view low d) = Ok v1 /\ move fp (Some 2) (repaint low v1) = Ok v2 /\ move fp (Some 4) v2 = Ok v3 /\
    set_hovered (Some 4) d = Ok d' /\
    v_cache (repaint low v3) 3 (parts_of item_hover) None = Ok true /\ match_parts low d' 3 (parts_of item_hover) None = Ok false.
Proof.
  page menu_page. split; [vm_compute; reflexivity|]. intros fp. subst fp.
  set (fp := hover_fingerprints [[parts_of item_hover]]).
  destruct (res_ok (move fp (Some 3) (first_view low (doc_of menu_page))) (fun v1 => let* v2 := move fp (Some 2) (repaint low v1) in
    let* v3 := move fp (Some 4) v2 in v_cache (repaint low v3) 3 (parts_of item_hover) None) true) as (v1&E1&H1); [vm_compute; reflexivity|].
  apply res_ok in H1 as (v2&E2&H2). apply res_ok in H2 as (v3&E3&H3).
  destruct (res_ok (set_hovered (Some 4) (doc_of menu_page)) (fun d' => match_parts low d' 3 (parts_of item_hover) None) false) as (d'&E&M); [vm_compute; reflexivity|].
  exists v1, v2, v3, d'. by split_and!.
Qed.
Print Assumptions C72_two_moves_stale_refuted.
(** [.a:hover ~ .a], matched as shown in [C70_sibling_compound_refuted], depends on the hovering of a node without the class, which the engine does not track *)
Definition sibling_hover : complex := Then (One [PClass (txt "a"); PPseudoClass (txt "hover")]) SubsequentSibling [PClass (txt "a")].
Theorem C72_sibling_refuted : exists ops d, history careful new_doc ops d /\ hovered d = ∅ /\
  exists s d', hovering (hover_fingerprints [[parts_of sibling_hover]]) (mk_hs d None false) [Some 2] s /\ set_hovered (Some 2) d = Ok d' /\
    match_parts low (hs_doc s) 3 (parts_of sibling_hover) None = Ok false /\ match_parts low d' 3 (parts_of sibling_hover) None = Ok true.
Proof.
  page (box "html" "" 1 0 ++ box "div" "b" 2 1 ++ box "p" "a" 3 1). split; [vm_compute; reflexivity|].
  match goal with |- exists s d', hovering ?fp ?s0 _ _ /\ set_hovered _ ?d = _ /\ _ =>
    destruct (res_ok (update_hover fp (Some 2) s0) (fun '(s, _) => match_parts low (hs_doc s) 3 (parts_of sibling_hover) None) false) as ([s b]&E1&H1); [vm_compute; reflexivity|];
    destruct (res_ok (set_hovered (Some 2) d) (fun d' => match_parts low d' 3 (parts_of sibling_hover) None) true) as (d'&E&M); [vm_compute; reflexivity|] end.
  exists s, d'. split; [by eapply hv_cons; [exact E1|apply hv_nil]|]. by split_and!.
Qed.
Print Assumptions C72_sibling_refuted.
