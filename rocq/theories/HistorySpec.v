(** Specification vocabulary for the session history properties (C01-C06, C47).
    It only looks at what the API exposes: the entries, the current entry and the
    ids returned by the calls. *)
From Verif Require Import Base HistoryModel.

(** Histories an embedder can produce from a fresh tab. *)
Definition reachable (h : history) : Prop :=
  exists ops rs, run empty_history ops = Ok (h, rs).

(** The entry another entry was opened from. *)
Definition parent_of (h : history) (i : entry_id) : option entry_id :=
  match h_entries h !! i with Some e => e_parent e | None => None end.

Definition is_navigable (h : history) (i : entry_id) : Prop :=
  exists e, h_entries h !! i = Some e /\ e_navigable e = true.

(** All ids whose parent is [p], oldest first. *)
Definition opened_from (h : history) (p : entry_id) : list entry_id :=
  filter (fun i => parent_of h i = Some p) (seq 0 (length (h_entries h))).

(** C01: the shape of the tree. *)
Record tree_ok (h : history) : Prop := {
  tree_parent_older : forall i p, parent_of h i = Some p -> p < i /\ i < length (h_entries h);
  tree_children : forall p e, h_entries h !! p = Some e -> e_children e = opened_from h p;
  tree_current : match h_current h with
                 | None => h_entries h = []
                 | Some c => c < length (h_entries h)
                 end;
}.

(** Ids returned by the [push] calls of a run. *)
Fixpoint pushed_ids (ops : list op) (rs : list (option entry_id)) : list entry_id :=
  match ops, rs with
  | OPush _ _ :: ops', Some i :: rs' => i :: pushed_ids ops' rs'
  | _ :: ops', _ :: rs' => pushed_ids ops' rs'
  | _, _ => []
  end.

(** Entries arrived at by something other than "back", oldest first: new pages,
    forward moves and jumps. *)
Definition arrival (o : op) (r : option entry_id) : list entry_id :=
  match o, r with
  | OPush _ _, Some i | OForward _, Some i | OGoTo _, Some i => [i]
  | _, _ => []
  end.
Fixpoint arrivals (ops : list op) (rs : list (option entry_id)) : list entry_id :=
  match ops, rs with
  | o :: ops', r :: rs' => arrival o r ++ arrivals ops' rs'
  | _, _ => []
  end.

(** The child of [p] that was arrived at last. *)
Definition last_chosen_child (h : history) (log : list entry_id) (p : entry_id) : option entry_id :=
  last (filter (fun i => parent_of h i = Some p) log).

(** [back_goes_to h i r]: walking from [i] towards the root, [r] is the first
    navigable proper ancestor ([None]: there is none). *)
Inductive back_goes_to (h : history) : entry_id -> option entry_id -> Prop :=
| BGroot i : parent_of h i = None -> back_goes_to h i None
| BGhere i p : parent_of h i = Some p -> is_navigable h p -> back_goes_to h i (Some p)
| BGskip i p r : parent_of h i = Some p -> ~ is_navigable h p ->
                 back_goes_to h p r -> back_goes_to h i r.

(** C04: a ledger of the visible page data, driven only by the calls made and the ids
    they returned. *)
Record page := mk_page { pg_url : str; pg_title : option str; pg_scroll : Z * Z }.
Record ledger := mk_ledger { lg_cur : option entry_id; lg_pages : entry_id -> option page }.
Definition put (f : entry_id -> option page) (i : entry_id) (v : option page) : entry_id -> option page :=
  fun j => if decide (j = i) then v else f j.
Definition on_cur (l : ledger) (g : page -> page) : ledger :=
  match lg_cur l with
  | Some c => mk_ledger (lg_cur l) (put (lg_pages l) c (g <$> lg_pages l c))
  | None => l
  end.
Definition ledger_step (l : ledger) (o : op) (r : option entry_id) : ledger :=
  match o, r with
  | OPush u t, Some i => mk_ledger (Some i) (put (lg_pages l) i (Some (mk_page u t (0%Z, 0%Z))))
  | OReplaceUrl u, _ => on_cur l (fun p => mk_page u (pg_title p) (pg_scroll p))
  | OSetTitle t, _ => on_cur l (fun p => mk_page (pg_url p) t (pg_scroll p))
  | OSetScroll x y, _ => on_cur l (fun p => mk_page (pg_url p) (pg_title p) (x, y))
  | OBack, Some i | OForward _, Some i | OGoTo _, Some i => mk_ledger (Some i) (lg_pages l)
  | _, _ => l
  end.
Fixpoint ledger_run (l : ledger) (ops : list op) (rs : list (option entry_id)) : ledger :=
  match ops, rs with
  | o :: ops', r :: rs' => ledger_run (ledger_step l o r) ops' rs'
  | _, _ => l
  end.
Definition empty_ledger : ledger := mk_ledger None (fun _ => None).
Definition page_of (h : history) (i : entry_id) : option page :=
  match h_entries h !! i with
  | Some e => Some (mk_page (e_url e) (e_title e) (e_scroll e))
  | None => None
  end.

(** C05: calls that neither jump nor mark entries as non-navigable. *)
Definition no_jump (o : op) : Prop :=
  match o with OGoTo _ | OSetNavigable _ _ => False | _ => True end.

(** C47: the classic linear browser history: a back stack, the current page and a
    forward stack; a new page clears the forward stack. *)
Record two_stack := mk_two { ts_back : list entry_id; ts_cur : option entry_id; ts_fwd : list entry_id; ts_next : nat }.
Definition two_empty : two_stack := mk_two [] None [] 0.
Definition linear (o : op) : Prop :=
  match o with OGoTo _ | OSetNavigable _ _ | OForward (Some _) => False | _ => True end.
Definition two_step (s : two_stack) (o : op) : two_stack * option entry_id :=
  match o with
  | OPush _ _ =>
      (mk_two (match ts_cur s with Some c => c :: ts_back s | None => ts_back s end)
              (Some (ts_next s)) [] (S (ts_next s)), Some (ts_next s))
  | OBack =>
      match ts_cur s, ts_back s with
      | Some c, b :: bs => (mk_two bs (Some b) (c :: ts_fwd s) (ts_next s), Some b)
      | _, _ => (s, None)
      end
  | OForward _ =>
      match ts_cur s, ts_fwd s with
      | Some c, f :: fs => (mk_two (c :: ts_back s) (Some f) fs (ts_next s), Some f)
      | _, _ => (s, None)
      end
  | _ => (s, None)
  end.
Fixpoint two_run (s : two_stack) (ops : list op) : two_stack * list (option entry_id) :=
  match ops with
  | [] => (s, [])
  | o :: ops' => let (s', r) := two_step s o in
                 let (s'', rs) := two_run s' ops' in (s'', r :: rs)
  end.
