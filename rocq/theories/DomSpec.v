(** What a user of the document relies on, in terms of what the document lets them see: which nodes
    exist, the child list and parent of each, attributes, and lookups. *)
From stdpp Require Import gmap relations.
From Verif Require Import Text SettingsModel DomModel.

Definition exists_in (d : doc) (i : nat) : Prop := get d i <> None.
(** [c] is listed as a child of [p] *)
Definition child (d : doc) (p c : nat) : Prop := c ∈ children d p.

(** every listed child names the lister as its parent, is listed once, and every node whose parent
    exists is listed by it *)
Record linked (d : doc) : Prop := {
  lk_exists : forall p c, child d p c -> exists_in d c;
  lk_parent : forall p c, child d p c -> parent d c = Some p;
  lk_once : forall p, NoDup (children d p);
  lk_listed : forall p c, parent d c = Some p -> exists_in d p -> child d p c }.

(** a node is detached when it has no parent in the document *)
Definition detached (d : doc) (i : nat) : Prop := forall p, parent d i = Some p -> ~ exists_in d p.
(** nodes are attached only while detached, or relocated, and only existing ids are used for that *)
Definition careful (d : doc) (o : op) : Prop :=
  match o with
  | OAttach i p _ => exists_in d i /\ exists_in d p /\ detached d i
  | ORelocate i p | ORelocateUnlessThere i p => exists_in d i /\ exists_in d p
  | _ => True
  end.
(** the element's id attribute is given once and an element with an id is not removed *)
Definition steady (d : doc) (o : op) : Prop :=
  match o with
  | OSetAttribute i k v => k = txt "id" -> attribute d i k = None \/ attribute d i k = Some v
  | ORemoveAttribute i k => k <> txt "id"
  | ORemove i => attribute d i (txt "id") = None
  | _ => True
  end.
(** a history whose every step satisfies a condition *)
Inductive history (P : doc -> op -> Prop) : doc -> list op -> doc -> Prop :=
| h_nil d : history P d [] d
| h_cons d o d1 r d2 : P d o -> apply o d = Ok d1 -> history P d1 r d2 -> history P d (o :: r) d2.
Definition any (_ : doc) (_ : op) : Prop := True.

(** document order: a node, then the document order of each child in turn *)
Inductive preorder (d : doc) : nat -> list nat -> Prop :=
| pre i ls : Forall2 (preorder d) (children d i) ls -> preorder d i (i :: concat ls).

(** the number of nodes an operation registers, and removes *)
Definition registers (d : doc) (o : op) : nat :=
  match o with
  | OElement _ _ _ | OText _ | OComment _ | ODoctype _ _ _ => 1
  | OClone i => if get d i then 1 else 0
  | _ => 0
  end.
Definition removes (d : doc) (o : op) : nat :=
  match o with ORemove i => if get d i then 1 else 0 | _ => 0 end.
Inductive ledger : doc -> list op -> doc -> nat -> nat -> Prop :=
| lg_nil d : ledger d [] d 0 0
| lg_cons d o d1 r d2 a b : apply o d = Ok d1 -> ledger d1 r d2 a b -> ledger d (o :: r) d2 (registers d o + a) (removes d o + b).

(** the document's ancestors, starting with the node itself *)
Definition parent_of (d : doc) (c p : nat) : Prop := parent d c = Some p.

(** * The task queue *)
Inductive qop := QAdd (t : task) | QFlush.
(** a queue used on a document nobody else changes: the ids promised, in order, and the rejected attributes *)
Inductive queue_history : queue * doc -> list qop -> queue * doc -> list (task * nat) -> Prop :=
| qh_nil s : queue_history s [] s []
| qh_add q d t q' x r s l : enqueue t q = (q', x) -> queue_history (q', d) r s l ->
    queue_history (q, d) (QAdd t :: r) s (match x with Some i => (t, i) :: l | None => l end)
| qh_flush q d q' d' errs r s l : flush q d = Ok (q', d', errs) -> queue_history (q', d') r s l ->
    queue_history (q, d) (QFlush :: r) s l.
(** the node is the one the task asked for *)
Definition made (t : task) (n : node) : Prop :=
  match t, n_data n with
  | TElement name ns _ _, DElement e => e_name e = name /\ e_ns e = Some ns
  | TText s _, DText x => x = s
  | TComment s _, DComment x => x = s
  | _, _ => False
  end.
(** the calls a task stands for, when the nodes created get ids [n], [n+1], … *)
Fixpoint direct (n : nat) (ts : list task) : list op :=
  match ts with
  | [] => []
  | TElement name ns p pos :: r => OElement name (Some ns) ∅ :: OAttach n p pos :: direct (S n) r
  | TText s p :: r => OText s :: OAttach n p None :: direct (S n) r
  | TComment s p :: r => OComment s :: OAttach n p None :: direct (S n) r
  | TAttribute k v i :: r => OSetAttribute i k v :: direct n r
  end.

(** * Queries *)
(** a word of a text: a maximal run of non-blank characters *)
Definition is_word (w s : str) : Prop :=
  w <> [] /\ Forall (fun c => is_space c = false) w /\
  exists a b, s = a ++ w ++ b /\ (forall c, last a = Some c -> is_space c = true) /\ (forall c, head b = Some c -> is_space c = true).
Definition is_elem (d : doc) (i : nat) : Prop := exists e, (get d i ≫= element_of) = Some e.
Definition satisfies (d : doc) (i : nat) (c : condition) : Prop :=
  is_elem d i /\
  match c with
  | EqualsTag s => tag_name d i = Some s
  | EqualsId s => attribute d i (txt "id") = Some s
  | ContainsClass s => exists v, attribute d i (txt "class") = Some v /\ is_word s v
  | ContainsAttribute s => exists v, attribute d i s = Some v
  | ContainsChildTag s => exists x, child d i x /\ tag_name d x = Some s
  | HasParentTag s => exists p, parent d i = Some p /\ tag_name d p = Some s
  end.
(** entering and leaving nest like the document, skipping listed children that do not exist *)
Inductive walked (d : doc) : nat -> list visit -> Prop :=
| wk i ls : Forall2 (walked d) (filter (fun c => is_Some (get d c)) (children d i)) ls -> walked d i (Enter i :: concat ls ++ [Leave i]).

(** the class attribute is only ever set *)
Definition class_set_only (d : doc) (o : op) : Prop :=
  match o with
  | OAddClass _ _ => False
  | ORemoveAttribute _ k => k <> txt "class"
  | _ => True
  end.
