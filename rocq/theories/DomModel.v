(** Model of crates/gosub_html5/src/node/arena.rs, node/node_impl.rs, node/data/element.rs,
    document/document_impl.rs, document/query.rs, parser/query.rs and document/task_queue.rs.
    Source locations, document URL, stylesheets and the [registered] flag (always true inside the
    arena) are left out. *)
From stdpp Require Import gmap.
From Verif Require Import Text SettingsModel.

(** * Nodes *)
(** [str::split_whitespace] *)
Fixpoint split_ws_acc (acc : str) (s : str) : list str :=
  match s with
  | [] => match acc with [] => [] | _ => [rev acc] end
  | c :: r => if is_space c then match acc with [] => split_ws_acc [] r | _ => rev acc :: split_ws_acc [] r end
              else split_ws_acc (c :: acc) r
  end.
Definition split_whitespace (s : str) : list str := split_ws_acc [] s.

(** element.rs:12-14 [ClassListImpl] and 109-117 [From<&str>] *)
Notation class_list := (gmap str bool).
Definition class_add (c : str) (m : class_list) : class_list :=             (** element.rs:60-64 *)
  match m !! c with Some _ => m | None => <[c := true]> m end.
Definition class_is_active (c : str) (m : class_list) : bool := default false (m !! c).   (** element.rs:82-84 *)
Definition classes_of (s : str) : class_list := fold_left (fun m c => <[c := true]> m) (split_whitespace s) ∅.

(** element.rs:121-130 [ElementData], without [node_id] and [force_async] *)
Record elem := mk_elem { e_name : str; e_ns : option str; e_attrs : gmap str str; e_classes : class_list; e_template : option nat }.
Definition new_elem (name : str) (ns : option str) (attrs : gmap str str) (cl : class_list) : elem :=  (** element.rs:143-158 *)
  mk_elem name (Some (default (txt "http://www.w3.org/1999/xhtml") ns)) attrs cl None.
Definition add_attribute (k v : str) (e : elem) : elem :=                  (** element.rs:202-210 *)
  mk_elem (e_name e) (e_ns e) (<[k := v]> (e_attrs e))
    (if bool_decide (k = txt "class") then fold_left (fun m c => class_add c m) (split_whitespace v) ∅ else e_classes e) (e_template e).
Definition drop_attribute (k : str) (e : elem) : elem :=                   (** element.rs:212-219 *)
  mk_elem (e_name e) (e_ns e) (delete k (e_attrs e))
    (if bool_decide (k = txt "class") then match e_attrs e !! k with Some v => delete v (e_classes e) | None => e_classes e end else e_classes e)
    (e_template e).
Definition elem_add_class (c : str) (e : elem) : elem :=                   (** element.rs:221-223 *)
  mk_elem (e_name e) (e_ns e) (e_attrs e) (class_add c (e_classes e)) (e_template e).
Definition elem_set_template (t : nat) (e : elem) : elem := mk_elem (e_name e) (e_ns e) (e_attrs e) (e_classes e) (Some t).

Inductive data := DDocument | DDoctype (name pub sys : str) | DText (s : str) | DComment (s : str) | DElement (e : elem).   (** node_impl.rs:13-19 *)
Record node := mk_node { n_parent : option nat; n_children : list nat; n_data : data }.                                    (** node_impl.rs:22-29 *)
Definition set_parent (p : option nat) (n : node) := mk_node p (n_children n) (n_data n).
Definition set_children (c : list nat) (n : node) := mk_node (n_parent n) c (n_data n).
Definition set_data (d : data) (n : node) := mk_node (n_parent n) (n_children n) d.
Definition fresh_node (d : data) : node := mk_node None [] d.              (** node_impl.rs:62-71 [new], 110-119 [new_from_node] *)
Definition element_of (n : node) : option elem := match n_data n with DElement e => Some e | _ => None end.
Definition map_elem (f : elem -> elem) (n : node) : node := match n_data n with DElement e => set_data (DElement (f e)) n | _ => n end.

(** * The arena *)
Record arena := mk_arena { slots : list (option node); next_id : nat; count : nat }.                                       (** arena.rs:8-13 *)
Definition node_ref (a : arena) (i : nat) : option node := match slots a !! i with Some (Some n) => Some n | _ => None end. (** arena.rs:47-49 *)
(** changing a node in place, arena.rs:52-54 *)
Definition with_node (a : arena) (i : nat) (f : node -> node) : arena :=
  match node_ref a i with Some n => mk_arena (<[i := Some (f n)]> (slots a)) (next_id a) (count a) | None => a end.
Definition delete_node (a : arena) (i : nat) : arena :=                                                                     (** arena.rs:61-67 *)
  match node_ref a i with Some _ => mk_arena (<[i := None]> (slots a)) (next_id a) (count a - 1) | None => a end.
Definition put (a : arena) (i : nat) (n : node) : arena :=                                                                  (** arena.rs:70-78 *)
  let s := if bool_decide (length (slots a) <= i) then slots a ++ replicate (i + 1 - length (slots a)) None else slots a in
  mk_arena (<[i := Some n]> s) (next_id a) (match s !! i with Some None => count a + 1 | _ => count a end).

(** * The document *)
Record doc := mk_doc { ar : arena; named : gmap str nat; named_by : gmap nat (list str); hovered : gset nat; focused : option nat }.   (** document_impl.rs:24-38 *)
Definition set_ar x (d : doc) := mk_doc x (named d) (named_by d) (hovered d) (focused d).
Definition set_named x y (d : doc) := mk_doc (ar d) x y (hovered d) (focused d).
Definition get (d : doc) (i : nat) : option node := node_ref (ar d) i.
Definition edit (d : doc) (i : nat) (f : node -> node) : doc := set_ar (with_node (ar d) i f) d.

Definition ascii_ws (c : N) : bool := bool_decide (c ∈ [9; 10; 12; 13; 32]%N).
Definition valid_id (v : str) : bool := negb (bool_decide (v = [])) && negb (existsb ascii_ws v).         (** task_queue.rs:138-140 *)

Definition register_name (v : str) (i : nat) (d : doc) : doc :=            (** document_impl.rs:209-214, 421-426, 443-451 *)
  if valid_id v then
    match named d !! v with
    | Some _ => d
    | None => set_named (<[v := i]> (named d)) (<[i := default [] (named_by d !! i) ++ [v]]> (named_by d)) d
    end
  else d.
Definition unregister_names (i : nat) (d : doc) : doc :=                   (** document_impl.rs:429-433, 452-458 *)
  match named_by d !! i with
  | Some ids => set_named (fold_left (fun m v => delete v m) ids (named d)) (delete i (named_by d)) d
  | None => d
  end.
(** document_impl.rs:414-436, 438-459: [e] is the element data of node [i] *)
Definition on_mutation_elem (i : nat) (e : elem) (d : doc) : doc :=
  match e_attrs e !! txt "id" with Some v => register_name v i d | None => unregister_names i d end.
Definition on_mutation (i : nat) (d : doc) : doc :=
  match get d i ≫= element_of with Some e => on_mutation_elem i e d | None => d end.

(** document_impl.rs:483-492, arena.rs:36-40, 84-89 [register_node] *)
Definition register (dt : data) (d : doc) : doc * nat :=
  let i := next_id (ar d) in
  let d1 := set_ar (mk_arena (slots (ar d)) (S i) (count (ar d))) d in
  let d2 := match dt with DElement e => on_mutation_elem i e d1 | _ => d1 end in
  (set_ar (put (ar d2) i (fresh_node dt)) d2, i).
Definition new_doc : doc :=                                                (** document_impl.rs:54-69, arena.rs:91-99 *)
  mk_doc (put (mk_arena [] 1 0) 0 (fresh_node DDocument)) ∅ ∅ ∅ None.

(** document_impl.rs:601-614, with the recursion depth as fuel *)
Fixpoint has_rec (fuel : nat) (d : doc) (p t : nat) : res bool :=
  match fuel with
  | 0 => Diverge
  | S f =>
      match get d p with
      | None => Ok false
      | Some n =>
          (fix each (l : list nat) : res bool :=
             match l with
             | [] => Ok false
             | c :: r => if bool_decide (c = t) then Ok true
                         else let* b := has_rec f d c t in if b then Ok true else each r
             end) (n_children n)
      end
  end.
(** more than any path without repetition needs *)
Definition depth (d : doc) : nat := S (S (length (slots (ar d)))).
Definition insert_at {A} (x : A) (i : nat) (l : list A) : list A := take i l ++ x :: drop i l.
(** document_impl.rs:502-523 *)
Definition attach (i p : nat) (pos : option nat) (d : doc) : res doc :=
  if bool_decide (p = i) then Ok d else
  let* b := has_rec (depth d) d i p in
  if b then Ok d else
  let d1 := match get d p with
            | Some n =>
                let c := match pos with
                         | Some k => if bool_decide (k <= length (n_children n)) then insert_at i k (n_children n) else n_children n ++ [i]
                         | None => n_children n ++ [i]
                         end in
                on_mutation p (edit d p (set_children c))
            | None => d
            end in
  match get d1 i with
  | Some _ => Ok (on_mutation i (edit d1 i (set_parent (Some p))))
  | None => Ok d1
  end.
Definition without (i : nat) (l : list nat) : list nat := filter (fun x => x <> i) l.        (** node_impl.rs:217-219 *)
Definition drop_child (i p : nat) (d : doc) : doc :=
  match get d p with Some n => on_mutation p (edit d p (set_children (without i (n_children n)))) | None => d end.
(** document_impl.rs:525-540 *)
Definition detach (i : nat) (d : doc) : doc :=
  match get d i with
  | Some n => match n_parent n with
              | Some p => let d1 := drop_child i p d in
                          match get d1 i with Some _ => on_mutation i (edit d1 i (set_parent None)) | None => d1 end
              | None => d
              end
  | None => d
  end.
(** document_impl.rs:574-585 [remove] *)
Definition remove (i : nat) (d : doc) : doc :=
  match get d i with
  | Some n => let d1 := match n_parent n with Some p => drop_child i p d | None => d end in set_ar (delete_node (ar d1) i) d1
  | None => d
  end.
(** document_impl.rs:156-159 (the trait's) and 542-554 (the inherent one) *)
Definition relocate (i p : nat) (d : doc) : res doc := attach i p None (detach i d).
Definition relocate_unless_there (i p : nat) (d : doc) : res doc :=
  match get d i with
  | Some n => if bool_decide (n_parent n = Some p) then Ok d else relocate i p d
  | None => Ok d
  end.
Definition set_attribute (i : nat) (k v : str) (d : doc) : doc :=          (** document_impl.rs:197-215 *)
  match get d i ≫= element_of with
  | Some _ => let d1 := edit d i (map_elem (add_attribute k v)) in
              if bool_decide (k = txt "id") then register_name v i d1 else d1
  | None => d
  end.
Definition remove_attribute (i : nat) (k : str) (d : doc) : doc := edit d i (map_elem (drop_attribute k)).       (** 217-224 *)
Definition add_class (i : nat) (c : str) (d : doc) : doc := edit d i (map_elem (elem_add_class c)).              (** 226-233 *)
Definition set_template (i t : nat) (d : doc) : doc := edit d i (map_elem (elem_set_template t)).                (** 252-259 *)
Definition set_text (i : nat) (s : str) (d : doc) : doc :=                                                       (** 270-277 *)
  edit d i (fun n => match n_data n with DText _ => set_data (DText s) n | _ => n end).
Definition append_text (i : nat) (s : str) (d : doc) : doc :=                                                    (** 279-291 *)
  edit d i (fun n => match n_data n with DText x => set_data (DText (x ++ s)) n | _ => n end).
Definition clone_node (i : nat) (d : doc) : doc * nat :=                                                         (** 114-124 *)
  match get d i with Some n => register (n_data n) d | None => (d, i) end.
(** document_impl.rs:394-406; [fuel] bounds the number of ancestors *)
Fixpoint chain (fuel : nat) (d : doc) (i : nat) : res (list nat) :=
  match fuel with
  | 0 => Diverge
  | S f => match get d i ≫= n_parent with
           | Some p => let* l := chain f d p in Ok (i :: l)
           | None => Ok [i]
           end
  end.
Definition set_hovered (leaf : option nat) (d : doc) : res doc :=
  match leaf with
  | Some i => let* l := chain (depth d) d i in Ok (mk_doc (ar d) (named d) (named_by d) (list_to_set l) (focused d))
  | None => Ok (mk_doc (ar d) (named d) (named_by d) ∅ (focused d))
  end.
Definition set_focused (x : option nat) (d : doc) : doc := mk_doc (ar d) (named d) (named_by d) (hovered d) x.   (** 390-392 *)

(** reading *)
Definition parent (d : doc) (i : nat) : option nat := get d i ≫= n_parent.                                       (** 132-134 *)
Definition children (d : doc) (i : nat) : list nat := match get d i with Some n => n_children n | None => [] end. (** 136-138 *)
Definition attribute (d : doc) (i : nat) (k : str) : option str := (get d i ≫= element_of) ≫= fun e => e_attrs e !! k.   (** 183-188 *)
Definition tag_name (d : doc) (i : nat) : option str := e_name <$> (get d i ≫= element_of).                      (** 169-174 *)
Definition has_class (d : doc) (i : nat) (c : str) : bool :=                                                      (** 235-243 *)
  match get d i ≫= element_of with Some e => class_is_active c (e_classes e) | None => false end.
Definition is_element (d : doc) (i : nat) : bool := match get d i ≫= element_of with Some _ => true | None => false end.
Definition next_sibling (d : doc) (i : nat) : option nat :=                                                       (** 587-599 *)
  n ← get d i; p ← n_parent n; pn ← get d p;
  k ← fst <$> list_find (fun x => x = i) (n_children pn); n_children pn !! S k.
Definition node_by_named_id (d : doc) (v : str) : option nat := named d !! v.                                     (** 343-345 *)
Definition node_count (d : doc) : nat := count (ar d).                                                            (** 347-349 *)
Definition peek_next_id (d : doc) : nat := next_id (ar d).                                                        (** 351-353 *)

(** * Traversal and queries *)
(** document_impl.rs:734-761 [TreeIterator]: the stack, top first *)
Definition iter_next (d : doc) (stack : list nat) : option (nat * list nat) :=
  match stack with [] => None | i :: r => Some (i, children d i ++ r) end.
Fixpoint iter_all (fuel : nat) (d : doc) (stack : list nat) : res (list nat) :=
  match fuel with
  | 0 => Diverge
  | S f => match iter_next d stack with
           | Some (i, s') => let* l := iter_all f d s' in Ok (i :: l)
           | None => Ok []
           end
  end.
(** document_impl.rs:765-786: what a visitor sees *)
Inductive visit := Enter (i : nat) | Leave (i : nat).
Fixpoint walk (fuel : nat) (d : doc) (i : nat) : res (list visit) :=
  match fuel with
  | 0 => Diverge
  | S f =>
      let* l := (fix each (l : list nat) : res (list visit) :=
                   match l with
                   | [] => Ok []
                   | c :: r => match get d c with
                               | Some _ => let* a := walk f d c in let* b := each r in Ok (a ++ b)
                               | None => each r
                               end
                   end) (children d i) in
      Ok (Enter i :: l ++ [Leave i])
  end.

Definition walk_document (fuel : nat) (d : doc) : res (list visit) :=       (** document_impl.rs:477-480, 765-771 *)
  match get d 0 with Some _ => walk fuel d 0 | None => Panic end.

Inductive condition := EqualsTag (s : str) | EqualsId (s : str) | ContainsClass (s : str) | ContainsAttribute (s : str)
| ContainsChildTag (s : str) | HasParentTag (s : str).                     (** parser/query.rs:2-9 *)
Inductive search := Uninitialized | FindFirst | FindAll.                   (** parser/query.rs:12-16 *)
Definition matches (d : doc) (i : nat) (c : condition) : bool :=           (** query.rs:46-80 *)
  is_element d i &&
  match c with
  | EqualsTag s => bool_decide (tag_name d i = Some s)
  | EqualsId s => bool_decide (attribute d i (txt "id") = Some s)
  | ContainsClass s => match attribute d i (txt "class") with Some v => bool_decide (s ∈ split_whitespace v) | None => false end
  | ContainsAttribute s => match attribute d i s with Some _ => true | None => false end
  | ContainsChildTag s => existsb (fun c => is_element d c && bool_decide (tag_name d c = Some s)) (children d i)
  | HasParentTag s => match parent d i with Some p => bool_decide (tag_name d p = Some s) | None => false end
  end.
(** query.rs:17-43; the loop over the iterator, [Ok None] is the error for an uninitialised query *)
Fixpoint query_loop (fuel : nat) (d : doc) (cs : list condition) (first : bool) (stack : list nat) : res (list nat) :=
  match fuel with
  | 0 => Diverge
  | S f => match iter_next d stack with
           | None => Ok []
           | Some (i, s') => if forallb (matches d i) cs
                             then if first then Ok [i] else let* l := query_loop f d cs first s' in Ok (i :: l)
                             else query_loop f d cs first s'
           end
  end.
Definition query (fuel : nat) (d : doc) (cs : list condition) (t : search) : res (option (list nat)) :=
  match t with
  | Uninitialized => Ok None
  | FindFirst => let* l := query_loop fuel d cs true [0] in Ok (Some l)
  | FindAll => let* l := query_loop fuel d cs false [0] in Ok (Some l)
  end.

(** * The task queue *)
Inductive task :=                                                          (** task_queue.rs:17-41 *)
| TElement (name ns : str) (p : nat) (pos : option nat) | TText (s : str) (p : nat) | TComment (s : str) (p : nat)
| TAttribute (k v : str) (i : nat).
Record queue := mk_queue { q_next : nat; q_tasks : list task }.            (** task_queue.rs:54-68 *)
Definition new_queue (d : doc) : queue := mk_queue (next_id (ar d)) [].    (** task_queue.rs:205-211 *)
Definition enqueue (t : task) (q : queue) : queue * option nat :=          (** task_queue.rs:143-202 *)
  match t with
  | TAttribute _ _ _ => (mk_queue (q_next q) (q_tasks q ++ [t]), None)
  | _ => (mk_queue (S (q_next q)) (q_tasks q ++ [t]), Some (q_next q))
  end.
Inductive task_error := BadId (v : str) | IdTaken (v : str) | NotElement (i : nat).
Definition run_task (t : task) (d : doc) : res (doc * list task_error) :=  (** task_queue.rs:79-129 *)
  match t with
  | TElement name ns p pos =>
      let (d1, i) := register (DElement (new_elem name (Some ns) ∅ ∅)) d in let* d2 := attach i p pos d1 in Ok (d2, [])
  | TText s p => let (d1, i) := register (DText s) d in let* d2 := attach i p None d1 in Ok (d2, [])
  | TComment s p => let (d1, i) := register (DComment s) d in let* d2 := attach i p None d1 in Ok (d2, [])
  | TAttribute k v i =>
      if bool_decide (k = txt "id") && negb (valid_id v) then Ok (d, [BadId v])
      else if match node_by_named_id d v with Some j => negb (bool_decide (j = i)) | None => false end then Ok (d, [IdTaken v])
      else if negb (is_element d i) then Ok (d, [NotElement i])
      else Ok (set_attribute i k v d, [])
  end.
Fixpoint run_tasks (ts : list task) (d : doc) : res (doc * list task_error) :=
  match ts with
  | [] => Ok (d, [])
  | t :: r => let* x := run_task t d in let* y := run_tasks r x.1 in Ok (y.1, x.2 ++ y.2)
  end.
Definition flush (q : queue) (d : doc) : res (queue * doc * list task_error) :=     (** task_queue.rs:76-134 *)
  let* x := run_tasks (q_tasks q) d in Ok (mk_queue (q_next q) [], x.1, x.2).

(** * Histories *)
Inductive op :=
| OElement (name : str) (ns : option str) (attrs : gmap str str) | OText (s : str) | OComment (s : str) | ODoctype (n p s : str)
| OClone (i : nat) | OAttach (i p : nat) (pos : option nat) | ODetach (i : nat) | ORemove (i : nat)
| ORelocate (i p : nat) | ORelocateUnlessThere (i p : nat)
| OSetAttribute (i : nat) (k v : str) | ORemoveAttribute (i : nat) (k : str) | OAddClass (i : nat) (c : str)
| OSetTemplate (i t : nat) | OSetText (i : nat) (s : str) | OAppendText (i : nat) (s : str)
| OFocus (x : option nat).
Definition apply (o : op) (d : doc) : res doc :=
  match o with
  | OElement n ns a =>                                                     (** document_impl.rs:73-89 *)
      Ok (register (DElement (new_elem n ns a (match a !! txt "class" with Some v => classes_of v | None => ∅ end))) d).1
  | OText s => Ok (register (DText s) d).1
  | OComment s => Ok (register (DComment s) d).1
  | ODoctype n p s => Ok (register (DDoctype n p s) d).1
  | OClone i => Ok (clone_node i d).1
  | OAttach i p pos => attach i p pos d
  | ODetach i => Ok (detach i d)
  | ORemove i => Ok (remove i d)
  | ORelocate i p => relocate i p d
  | ORelocateUnlessThere i p => relocate_unless_there i p d
  | OSetAttribute i k v => Ok (set_attribute i k v d)
  | ORemoveAttribute i k => Ok (remove_attribute i k d)
  | OAddClass i c => Ok (add_class i c d)
  | OSetTemplate i t => Ok (set_template i t d)
  | OSetText i s => Ok (set_text i s d)
  | OAppendText i s => Ok (append_text i s d)
  | OFocus x => Ok (set_focused x d)
  end.
Fixpoint run (ops : list op) (d : doc) : res doc :=
  match ops with [] => Ok d | o :: r => let* d' := apply o d in run r d' end.
