(** The properties C29–C34, C61 and C62 of the document. *)
From stdpp Require Import gmap relations.
From Verif Require Import Text SettingsModel DomModel DomSpec DomProofs DomTraverse DomNames.

(** * C29: child links never form a cycle *)
(** Whatever calls are made, with whatever ids, every call returns and following child links from a
    node never comes back to it. *)
Theorem C29_acyclic : forall ops, exists d, run ops new_doc = Ok d /\ forall x, ~ tc (child d) x x.
Proof. intros ops. destruct (run_ok ops new_doc good_new acyclic_new) as (d&E&_&A). exists d. split; [exact E|exact A]. Qed.
Print Assumptions C29_acyclic.
(** so a traversal from any node ends *)
Theorem C29_traversal_ends : forall ops d i, run ops new_doc = Ok d ->
  exists l, forall fuel, length l < fuel -> iter_all fuel d [i] = Ok l.
Proof.
  intros ops d i H. destruct (history_new _ _ _ (run_any _ _ _ H)) as [_ A]. destruct (preorder_exists d i A) as [l Hl].
  exists l. intros fuel. exact (iter_preorder d i l fuel Hl).
Qed.
Print Assumptions C29_traversal_ends.

Definition el (s : string) : op := OElement (txt s) None ∅.
(** a tree, an attempt to attach an ancestor under its descendant (refused), and ids that do not exist *)
Definition wild : list op :=
  [el "html"; el "body"; el "p"; OAttach 1 0 None; OAttach 2 1 None; OAttach 3 2 None; OAttach 1 3 None; OAttach 9 2 None; OAttach 2 2 None;
   OAttach 0 3 None; OAttach 3 0 (Some 0); ORemove 2; OAttach 1 9 None].
Example C29_example : (let* d := run wild new_doc in Ok (children d <$> seq 0 5, parent d <$> seq 0 5)) =
  Ok ([[3; 1]; []; []; []; []], [None; Some 9; None; Some 0; None]).
Proof. vm_compute. reflexivity. Qed.

(** * C30: parents and children agree *)
Theorem C30_links_agree : forall ops d, history careful new_doc ops d -> linked d.
Proof. intros ops d H. destruct (careful_new ops d H) as (_&_&T). exact (t_linked d T). Qed.
Print Assumptions C30_links_agree.
(** attaching a detached node puts it where asked, after the others when the position does not exist,
    and changes nothing else; it is refused when the node is the parent or one of its ancestors *)
Theorem C30_attach : forall ops d i p pos, history careful new_doc ops d -> careful d (OAttach i p pos) ->
  exists d', apply (OAttach i p pos) d = Ok d' /\
  (rtc (child d) i p -> d' = d) /\
  (~ rtc (child d) i p ->
     (exists l r, children d p = l ++ r /\ children d' p = l ++ i :: r /\
        match pos with Some k => length l = k \/ (length (l ++ r) < k /\ r = []) | None => r = [] end) /\
     (forall q, q <> p -> children d' q = children d q) /\
     parent d' i = Some p /\ (forall c, c <> i -> parent d' c = parent d c) /\
     (forall x, exists_in d' x <-> exists_in d x)).
Proof. exact attach_effect. Qed.
Print Assumptions C30_attach.
Theorem C30_detach : forall ops d i, history careful new_doc ops d ->
  exists d', apply (ODetach i) d = Ok d' /\
  (forall q, children d' q = filter (fun x => x <> i) (children d q)) /\
  parent d' i = None /\ (forall c, c <> i -> parent d' c = parent d c) /\ (forall x, exists_in d' x <-> exists_in d x).
Proof. exact detach_effect. Qed.
Print Assumptions C30_detach.
Theorem C30_remove : forall ops d i, history careful new_doc ops d ->
  exists d', apply (ORemove i) d = Ok d' /\
  (forall q, q <> i -> children d' q = filter (fun x => x <> i) (children d q)) /\
  (forall c, c <> i -> parent d' c = parent d c) /\ (forall x, exists_in d' x <-> exists_in d x /\ x <> i).
Proof. exact remove_effect. Qed.
Print Assumptions C30_remove.
(** relocating moves the node to the end of the new parent's list *)
Theorem C30_relocate : forall ops d i p, history careful new_doc ops d -> careful d (ORelocate i p) -> ~ rtc (child d) i p ->
  exists d', apply (ORelocate i p) d = Ok d' /\
  (forall q, children d' q = filter (fun x => x <> i) (children d q) ++ (if bool_decide (q = p) then [i] else [])) /\
  parent d' i = Some p /\ (forall c, c <> i -> parent d' c = parent d c) /\ (forall x, exists_in d' x <-> exists_in d x).
Proof. exact relocate_effect. Qed.
Print Assumptions C30_relocate.
Theorem C30_next_sibling : forall ops d i j, history careful new_doc ops d ->
  next_sibling d i = Some j <-> exists p l r, children d p = l ++ i :: j :: r.
Proof. exact next_sibling_effect. Qed.
Print Assumptions C30_next_sibling.

Definition tree : list op :=
  [el "html"; el "head"; el "body"; el "p"; OText (txt "hi"); OAttach 1 0 None; OAttach 3 1 None; OAttach 2 1 (Some 0); OAttach 4 3 None;
   OAttach 5 4 (Some 7); ORelocate 4 2; ODetach 4; OAttach 4 3 None].
Lemma careful_steps d ops : (fix ok d ops := match ops with [] => True | o :: r => careful d o /\ match apply o d with Ok d1 => ok d1 r | _ => False end end) d ops ->
  exists d', history careful d ops d'.
Proof.
  revert d. induction ops as [|o r IH]; intros d H; [exists d; constructor|]. destruct H as [C H].
  destruct (apply o d) as [d1| |] eqn:E; [|done..]. destruct (IH d1 H) as [d' H']. exists d'. by econstructor.
Qed.
Example C30_example : exists d, history careful new_doc tree d /\
  children d <$> seq 0 6 = [[1]; [2; 3]; []; [4]; [5]; []] /\ next_sibling d 2 = Some 3 /\ careful d (ORelocate 4 2) /\ ~ rtc (child d) 4 2.
Proof.
  destruct (careful_steps new_doc tree) as [d H].
  { vm_compute; repeat split; intros; try discriminate; try (intros ?; discriminate); try (intros []; discriminate). }
  assert (E := run_history _ _ _ _ H). exists d. split; [exact H|].
  assert (Hd : d = match run tree new_doc with Ok x => x | _ => new_doc end) by (by rewrite E).
  assert (Hc : child d 4 5 /\ children d 4 = [5] /\ children d 5 = []) by (subst d; vm_compute; by repeat constructor).
  destruct Hc as (_&C4&C5). split_and!.
  - subst d. by vm_compute.
  - subst d. by vm_compute.
  - subst d. split; vm_compute; discriminate.
  - intros R. inversion R as [|? y ? Hy Ry].
    unfold child in Hy. rewrite C4 in Hy. apply elem_of_list_singleton in Hy as ->.
    inversion Ry as [|? w ? Hz _]. unfold child in Hz. rewrite C5 in Hz. by apply elem_of_nil in Hz.
Qed.

(** attaching a node that already has a parent leaves it in two lists *)
Theorem C30_attach_twice_refuted : exists ops d, run ops new_doc = Ok d /\ child d 1 3 /\ child d 2 3 /\ parent d 3 = Some 2.
Proof. exists [el "a"; el "b"; el "c"; OAttach 3 1 None; OAttach 3 2 None]. eexists. split; [vm_compute; reflexivity|]. split_and!; vm_compute; try done; left. Qed.
Print Assumptions C30_attach_twice_refuted.
(** attaching an id that does not exist lists it *)
Theorem C30_attach_missing_refuted : exists ops d, run ops new_doc = Ok d /\ child d 0 7 /\ ~ exists_in d 7.
Proof. exists [OAttach 7 0 None]. eexists. split; [vm_compute; reflexivity|]. split; vm_compute; [left|tauto]. Qed.
Print Assumptions C30_attach_missing_refuted.

(** * C31: identity *)
(** creating a node returns the id announced by [peek_next_id], which never existed before, and adds that node only *)
Theorem C31_ids_are_new : forall ops d dt d' i, run ops new_doc = Ok d -> register dt d = (d', i) ->
  i = peek_next_id d /\ exists_in d' i /\ (forall x, x <> i -> get d' x = get d x) /\
  (forall l r dm, ops = l ++ r -> run l new_doc = Ok dm -> ~ exists_in dm i).
Proof. exact ids_are_new. Qed.
Print Assumptions C31_ids_are_new.
Theorem C31_removed_is_gone : forall ops d i d1 ops' d2, run ops new_doc = Ok d -> exists_in d i -> apply (ORemove i) d = Ok d1 ->
  run ops' d1 = Ok d2 -> get d2 i = None.
Proof. exact removed_is_gone. Qed.
Print Assumptions C31_removed_is_gone.
(** no other operation makes a node disappear *)
Theorem C31_only_remove_removes : forall ops d o d' i, run ops new_doc = Ok d -> apply o d = Ok d' -> exists_in d i -> ~ exists_in d' i -> o = ORemove i.
Proof. exact only_remove_removes. Qed.
Print Assumptions C31_only_remove_removes.
Theorem C31_count : forall ops d a b, ledger new_doc ops d a b ->
  node_count d + b = 1 + a /\ node_count d = length (filter (fun i => is_Some (get d i)) (seq 0 (peek_next_id d))) /\
  (forall i, exists_in d i -> i < peek_next_id d).
Proof. exact count_nodes. Qed.
Print Assumptions C31_count.
Example C31_example : exists d, ledger new_doc (tree ++ [ORemove 4; ORemove 4; OClone 3]) d 6 1 /\ node_count d = 6 /\ peek_next_id d = 7.
Proof.
  eexists. split; [apply ledger_tally; vm_compute; reflexivity|]. vm_compute. done.
Qed.

(** * C32: traversal and queries *)
(** the iterator yields document order: each node reachable from the root exactly once *)
Theorem C32_iterates_document : forall ops d, history careful new_doc ops d ->
  exists l, preorder d 0 l /\ (forall fuel, length l < fuel -> iter_all fuel d [0] = Ok l) /\
  NoDup l /\ (forall x, x ∈ l <-> rtc (child d) 0 x).
Proof. exact iterates_document. Qed.
Print Assumptions C32_iterates_document.
(** in any document at all, it yields document order *)
Theorem C32_iterates_any : forall ops d, run ops new_doc = Ok d ->
  exists l, preorder d 0 l /\ (forall fuel, length l < fuel -> iter_all fuel d [0] = Ok l).
Proof.
  intros ops d H. destruct (history_new _ _ _ (run_any _ _ _ H)) as [_ A]. destruct (preorder_exists d 0 A) as [l Hl].
  exists l. split; [exact Hl|]. intros fuel. exact (iter_preorder d 0 l fuel Hl).
Qed.
Print Assumptions C32_iterates_any.
(** a query returns the nodes satisfying every condition, in document order; the first is the first of all *)
Theorem C32_query : forall ops d cs, run ops new_doc = Ok d ->
  exists l found, preorder d 0 l /\ sublist found l /\
  (forall fuel, length l < fuel -> query fuel d cs FindAll = Ok (Some found) /\ query fuel d cs FindFirst = Ok (Some (take 1 found))) /\
  (forall x, x ∈ found <-> x ∈ l /\ Forall (satisfies d x) cs) /\
  (NoDup l -> NoDup found).
Proof. exact query_document. Qed.
Print Assumptions C32_query.
(** a visitor enters and leaves the nodes in document order *)
Theorem C32_walk : forall ops d, run ops new_doc = Ok d -> exists_in d 0 ->
  exists l, walked d 0 l /\ walk_document (depth d) d = Ok l.
Proof. exact walk_in_order. Qed.
Print Assumptions C32_walk.
(** removing the root makes walking the document panic *)
Theorem C32_walk_removed_root_refuted : exists ops d, run ops new_doc = Ok d /\ forall fuel, walk_document fuel d = Panic.
Proof. exists [ORemove 0]. eexists. split; [vm_compute; reflexivity|]. intros. reflexivity. Qed.
Print Assumptions C32_walk_removed_root_refuted.
Definition page : list op :=
  [el "html"; OElement (txt "p") None {[txt "class" := txt "big red"]}; OElement (txt "p") None {[txt "id" := txt "x"]}; OText (txt "hi");
   OAttach 1 0 None; OAttach 3 1 None; OAttach 2 1 (Some 0); OAttach 4 2 None].
Example C32_example : exists d, history careful new_doc page d /\ iter_all 9 d [0] = Ok [0; 1; 2; 4; 3] /\
  query 9 d [EqualsTag (txt "p"); HasParentTag (txt "html")] FindAll = Ok (Some [2; 3]) /\
  query 9 d [ContainsClass (txt "red")] FindFirst = Ok (Some [2]) /\
  walk_document (depth d) d = Ok [Enter 0; Enter 1; Enter 2; Enter 4; Leave 4; Leave 2; Enter 3; Leave 3; Leave 1; Leave 0].
Proof.
  destruct (careful_steps new_doc page) as [d H].
  { vm_compute; repeat split; intros; try discriminate; try (intros ?; discriminate); try (intros []; discriminate). }
  assert (E := run_history _ _ _ _ H). exists d. split; [exact H|].
  assert (Hd : d = match run page new_doc with Ok x => x | _ => new_doc end) by (by rewrite E).
  clear E H. subst d. split_and!; vm_compute; reflexivity.
Qed.

(** * C33: looking up by id attribute *)
(** when ids are given once and elements with an id are not removed, the element found has the id *)
Theorem C33_found_has_id_partial : forall ops d s n, history steady new_doc ops d -> node_by_named_id d s = Some n ->
  attribute d n (txt "id") = Some s.
Proof.
  intros ops d s n H. destruct (nm_history _ _ _ H good_new acyclic_new nm_new) as [N _]. exact (nm_named d N s n).
Qed.
Print Assumptions C33_found_has_id_partial.
Theorem C33_is_found_partial : forall ops d s n, history steady new_doc ops d -> attribute d n (txt "id") = Some s ->
  s <> [] -> Forall (fun c => c <> 9 /\ c <> 10 /\ c <> 12 /\ c <> 13 /\ c <> 32)%N s -> exists m, node_by_named_id d s = Some m.
Proof. exact is_found. Qed.
Print Assumptions C33_is_found_partial.
(** the first element given an id keeps it *)
Theorem C33_first_wins_partial : forall ops d o d1 ops' d2 s n,
  history steady new_doc ops d -> steady d o -> apply o d = Ok d1 -> history steady d1 ops' d2 ->
  (forall m, attribute d m (txt "id") <> Some s) -> attribute d1 n (txt "id") = Some s ->
  s <> [] -> Forall (fun c => c <> 9 /\ c <> 10 /\ c <> 12 /\ c <> 13 /\ c <> 32)%N s ->
  node_by_named_id d2 s = Some n.
Proof. exact first_keeps. Qed.
Print Assumptions C33_first_wins_partial.
(** without any condition: the node found had the id at some time *)
Theorem C33_once_had_it : forall ops d s n, run ops new_doc = Ok d -> node_by_named_id d s = Some n ->
  exists l r dm, ops = l ++ r /\ run l new_doc = Ok dm /\ attribute dm n (txt "id") = Some s.
Proof. exact once_had_it. Qed.
Print Assumptions C33_once_had_it.
Definition with_id (v : string) : op := OElement (txt "p") None {[txt "id" := txt v]}.
Lemma steady_steps d ops : (fix ok d ops := match ops with [] => True | o :: r => steady d o /\ match apply o d with Ok d1 => ok d1 r | _ => False end end) d ops ->
  exists d', history steady d ops d'.
Proof.
  revert d. induction ops as [|o r IH]; intros d H; [exists d; constructor|]. destruct H as [C H].
  destruct (apply o d) as [d1| |] eqn:E; [|done..]. destruct (IH d1 H) as [d' H']. exists d'. by econstructor.
Qed.
Example C33_example : exists d, history steady new_doc [with_id "a"; el "div"; OSetAttribute 2 (txt "id") (txt "a"); OAttach 2 0 None; OClone 1; ODetach 2;
  OSetAttribute 2 (txt "title") (txt "t"); el "p"; ORemove 4; el "q"; OSetAttribute 5 (txt "id") (txt "b")] d /\
  node_by_named_id d (txt "a") = Some 1 /\ node_by_named_id d (txt "b") = Some 5 /\ attribute d 2 (txt "id") = Some (txt "a").
Proof.
  match goal with |- exists d, history _ _ ?o d /\ _ => destruct (steady_steps new_doc o) as [d H]; [|assert (E := run_history _ _ _ _ H);
    assert (Hd : d = match run o new_doc with Ok x => x | _ => new_doc end) by (by rewrite E)] end.
  { vm_compute. repeat split; try (intros; discriminate); try (intros; by left). }
  exists d. split; [exact H|]. clear E H. subst d. split_and!; vm_compute; reflexivity.
Qed.
(** a detached element is found *)
Theorem C33_detached_refuted : exists ops d, run ops new_doc = Ok d /\ node_by_named_id d (txt "a") = Some 1 /\ parent d 1 = None.
Proof. exists [with_id "a"]. eexists. split; [vm_compute; reflexivity|]. by vm_compute. Qed.
Print Assumptions C33_detached_refuted.
(** a removed element is still found, and hides a later one with the same id *)
Theorem C33_removed_refuted : exists ops d, run ops new_doc = Ok d /\ node_by_named_id d (txt "a") = Some 1 /\ ~ exists_in d 1 /\
  attribute d 2 (txt "id") = Some (txt "a") /\ parent d 2 = Some 0.
Proof.
  exists [with_id "a"; OAttach 1 0 None; ORemove 1; with_id "a"; OAttach 2 0 None]. eexists. split; [vm_compute; reflexivity|].
  split_and!; vm_compute; done || tauto.
Qed.
Print Assumptions C33_removed_refuted.
(** an element that changed its id is found by both *)
Theorem C33_changed_refuted : exists ops d, run ops new_doc = Ok d /\ node_by_named_id d (txt "a") = Some 1 /\ node_by_named_id d (txt "b") = Some 1 /\
  attribute d 1 (txt "id") = Some (txt "b").
Proof. exists [with_id "a"; OSetAttribute 1 (txt "id") (txt "b")]. eexists. split; [vm_compute; reflexivity|]. by vm_compute. Qed.
Print Assumptions C33_changed_refuted.
(** taking the id away leaves the element findable, until it is next attached or detached *)
Theorem C33_taken_away_refuted : exists ops d d', run ops new_doc = Ok d /\ node_by_named_id d (txt "a") = Some 1 /\ attribute d 1 (txt "id") = None /\
  apply (OAttach 1 0 None) d = Ok d' /\ node_by_named_id d' (txt "a") = None.
Proof. exists [with_id "a"; ORemoveAttribute 1 (txt "id")]. eexists _, _. split; [vm_compute; reflexivity|]. split_and!; vm_compute; done. Qed.
Print Assumptions C33_taken_away_refuted.

(** * C34: the task queue *)
(** on a document changed only through the queue, the promised ids are the ids of the nodes asked for *)
Theorem C34_promised_ids : forall ops d0 qs q d l, run ops new_doc = Ok d0 ->
  queue_history (new_queue d0, d0) qs (q, d) l -> q_tasks q = [] ->
  forall t i, (t, i) ∈ l -> exists n, get d i = Some n /\ made t n.
Proof. exact promised_ids. Qed.
Print Assumptions C34_promised_ids.
(** flushing always returns and leaves an empty queue *)
Theorem C34_flush_returns : forall ops d q, run ops new_doc = Ok d -> exists q' d' errs, flush q d = Ok (q', d', errs) /\ q_tasks q' = [] /\ q_next q' = q_next q.
Proof. exact flush_returns. Qed.
Print Assumptions C34_flush_returns.
(** a flush without errors is the calls made directly, in order *)
Theorem C34_flush_in_order_partial : forall ops d q q' d', run ops new_doc = Ok d -> flush q d = Ok (q', d', []) ->
  run (direct (peek_next_id d) (q_tasks q)) d = Ok d'.
Proof. exact flush_in_order. Qed.
Print Assumptions C34_flush_in_order_partial.
(** when a queued attribute is left out *)
Theorem C34_attribute_outcome : forall d k v i d' errs, run_task (TAttribute k v i) d = Ok (d', errs) ->
  (errs = [] /\ d' = set_attribute i k v d /\ is_elem d i /\ (node_by_named_id d v = None \/ node_by_named_id d v = Some i)) \/
  (errs <> [] /\ d' = d /\ ((k = txt "id" /\ (v = [] \/ Exists (fun c => c ∈ [9; 10; 12; 13; 32]%N) v)) \/ ~ is_elem d i \/ (exists j, node_by_named_id d v = Some j /\ j <> i))).
Proof. exact attribute_outcome. Qed.
Print Assumptions C34_attribute_outcome.
Example C34_example : exists d, queue_history (new_queue new_doc, new_doc)
  [QAdd (TElement (txt "p") (txt "ns") 0 None); QAdd (TText (txt "hi") 1); QAdd (TAttribute (txt "id") (txt "a") 1); QFlush; QAdd (TComment (txt "c") 1); QFlush]
  (mk_queue 4 [], d) [(TElement (txt "p") (txt "ns") 0 None, 1); (TText (txt "hi") 1, 2); (TComment (txt "c") 1, 3)] /\ children d 1 = [2; 3].
Proof.
  eexists. split.
  - eapply (qh_add _ _ _ _ (Some 1)); [reflexivity|]. eapply (qh_add _ _ _ _ (Some 2)); [reflexivity|]. eapply (qh_add _ _ _ _ None); [reflexivity|].
    eapply qh_flush; [vm_compute; reflexivity|]. eapply (qh_add _ _ _ _ (Some 3)); [reflexivity|]. eapply qh_flush; [vm_compute; reflexivity|]. constructor.
  - vm_compute. reflexivity.
Qed.
(** creating a node directly while tasks are queued breaks the promises *)
Theorem C34_direct_call_refuted : exists q i d d' q' errs, enqueue (TText (txt "hi") 0) (new_queue new_doc) = (q, Some i) /\
  apply (el "p") new_doc = Ok d /\ flush q d = Ok (q', d', errs) /\ tag_name d' i = Some (txt "p").
Proof. eexists _, _, _, _, _, _. split; [reflexivity|]. split; [vm_compute; reflexivity|]. split; [vm_compute; reflexivity|]. by vm_compute. Qed.
Print Assumptions C34_direct_call_refuted.
(** an attribute other than the id is left out when its value is some element's id *)
Theorem C34_other_attribute_refuted : exists ops d, run ops new_doc = Ok d /\ is_elem d 2 /\
  run_task (TAttribute (txt "class") (txt "a") 2) d = Ok (d, [IdTaken (txt "a")]).
Proof. exists [with_id "a"; el "p"]. eexists. split; [vm_compute; reflexivity|]. split; [eexists; vm_compute; reflexivity|]. by vm_compute. Qed.
Print Assumptions C34_other_attribute_refuted.

(** * C61: hovering *)
Theorem C61_hovers_ancestors : forall ops d i, history careful new_doc ops d ->
  exists d', set_hovered (Some i) d = Ok d' /\ forall x, x ∈ hovered d' <-> rtc (parent_of d) i x.
Proof. intros ops d i H. destruct (careful_new ops d H) as (_&A&T). exact (hovered_ok d i (t_linked d T) A). Qed.
Print Assumptions C61_hovers_ancestors.
Example C61_example : (let* d := run tree new_doc in let* d' := set_hovered (Some 5) d in Ok (elements (hovered d'))) = Ok (elements (list_to_set [5; 4; 3; 1; 0] : gset nat)).
Proof. vm_compute. reflexivity. Qed.
(** attaching to an id that does not exist yet can close a loop of parents, and hovering never returns *)
Theorem C61_loop_refuted : exists ops d, run ops new_doc = Ok d /\ forall fuel, chain fuel d 1 = Diverge.
Proof.
  exists [el "a"; OAttach 1 2 None; el "b"; OAttach 2 1 None]. eexists. split; [vm_compute; reflexivity|].
  assert (K : forall d fuel, parent d 1 = Some 2 -> parent d 2 = Some 1 -> chain fuel d 1 = Diverge /\ chain fuel d 2 = Diverge).
  { intros d fuel H1 H2. induction fuel as [|f [IH1 IH2]]; [done|]. unfold parent in H1, H2. simpl. rewrite H1, H2, IH1, IH2. done. }
  intros fuel. by apply K.
Qed.
Print Assumptions C61_loop_refuted.

(** * C62: classes *)
(** an element has exactly the classes its class attribute lists, as long as the attribute is only set *)
Theorem C62_classes_partial : forall ops d i c, history class_set_only new_doc ops d ->
  has_class d i c = true <-> exists v, attribute d i (txt "class") = Some v /\ is_word c v.
Proof. intros ops d i c H. exact (cls_has d i c (cls_history _ _ _ H good_new acyclic_new cls_new)). Qed.
Print Assumptions C62_classes_partial.
Example C62_example : (let* d := run [OElement (txt "p") None {[txt "class" := txt "a  b"]}; OSetAttribute 1 (txt "class") (txt "b c ")] new_doc in
  Ok (has_class d 1 (txt "a"), has_class d 1 (txt "b"), has_class d 1 (txt "c"))) = Ok (false, true, true).
Proof. vm_compute. reflexivity. Qed.
(** removing a class attribute with two words leaves both classes *)
Theorem C62_removed_refuted : exists ops d, run ops new_doc = Ok d /\ attribute d 1 (txt "class") = None /\ has_class d 1 (txt "a") = true.
Proof.
  exists [OElement (txt "p") None {[txt "class" := txt "a b"]}; ORemoveAttribute 1 (txt "class")]. eexists. split; [vm_compute; reflexivity|]. by vm_compute.
Qed.
Print Assumptions C62_removed_refuted.
(** a class added on its own is not found by a query *)
Theorem C62_added_refuted : exists ops d, run ops new_doc = Ok d /\ has_class d 1 (txt "a") = true /\ query 9 d [ContainsClass (txt "a")] FindAll = Ok (Some []).
Proof. exists [el "p"; OAttach 1 0 None; OAddClass 1 (txt "a")]. eexists. split; [vm_compute; reflexivity|]. by vm_compute. Qed.
Print Assumptions C62_added_refuted.
