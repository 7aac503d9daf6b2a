(** Model of crates/gosub_engine/src/engine/tab/history.rs *)
From Verif Require Import Base.

(** history.rs:19-22 [HistoryEntryId]: an index into the arena. *)
Notation entry_id := nat (only parsing).

(** history.rs:24-40 [HistoryEntry]. URLs and titles are texts. *)
Record entry := mk_entry {
  e_url : str;
  e_title : option str;
  e_scroll : Z * Z;
  e_navigable : bool;
  e_parent : option entry_id;
  e_children : list entry_id;
  e_preferred : option entry_id;
}.

(** history.rs:63-68 [History] *)
Record history := mk_history {
  h_entries : list entry;
  h_current : option entry_id;
}.

(** history.rs:64 [#[derive(Default)]] *)
Definition empty_history : history := mk_history [] None.

Definition with_children (e : entry) (cs : list entry_id) : entry :=
  mk_entry (e_url e) (e_title e) (e_scroll e) (e_navigable e) (e_parent e) cs (e_preferred e).
Definition with_preferred (e : entry) (p : option entry_id) : entry :=
  mk_entry (e_url e) (e_title e) (e_scroll e) (e_navigable e) (e_parent e) (e_children e) p.
Definition with_url (e : entry) (u : str) : entry :=
  mk_entry u (e_title e) (e_scroll e) (e_navigable e) (e_parent e) (e_children e) (e_preferred e).
Definition with_title (e : entry) (t : option str) : entry :=
  mk_entry (e_url e) t (e_scroll e) (e_navigable e) (e_parent e) (e_children e) (e_preferred e).
Definition with_scroll (e : entry) (s : Z * Z) : entry :=
  mk_entry (e_url e) (e_title e) s (e_navigable e) (e_parent e) (e_children e) (e_preferred e).
Definition with_navigable (e : entry) (b : bool) : entry :=
  mk_entry (e_url e) (e_title e) (e_scroll e) b (e_parent e) (e_children e) (e_preferred e).

(** Indexing [self.entries[i]] followed by a field update; panics when out of range. *)
Definition upd (es : list entry) (i : entry_id) (f : entry -> entry) : res (list entry) :=
  let* e := of_opt (es !! i) in Ok (<[i := f e]> es).

(** history.rs:73-91 [History::push] *)
Definition push (h : history) (url : str) (title : option str) : res (history * entry_id) :=
  let id := length (h_entries h) in
  let es := h_entries h ++ [mk_entry url title (0%Z, 0%Z) true (h_current h) [] None] in
  let* es' := match h_current h with
              | Some cur => upd es cur (fun p => with_preferred (with_children p (e_children p ++ [id])) (Some id))
              | None => Ok es
              end in
  Ok (mk_history es' (Some id), id).

(** Updates of the current entry; no-op without one. *)
Definition upd_current (h : history) (f : entry -> entry) : res history :=
  match h_current h with
  | Some cur => let* es := upd (h_entries h) cur f in Ok (mk_history es (h_current h))
  | None => Ok h
  end.

(** history.rs:95-99 [History::replace_current_url] *)
Definition replace_current_url (h : history) (u : str) : res history :=
  upd_current h (fun e => with_url e u).

(** history.rs:122-126 [History::set_current_title] *)
Definition set_current_title (h : history) (t : option str) : res history :=
  upd_current h (fun e => with_title e t).

(** history.rs:129-133 [History::set_current_scroll] *)
Definition set_current_scroll (h : history) (x y : Z) : res history :=
  upd_current h (fun e => with_scroll e (x, y)).

(** history.rs:138-143, the loop of [History::back_target]. The Rust loop has no
    bound; the fuel makes it total and [Diverge] marks exhaustion. *)
Fixpoint back_loop (fuel : nat) (es : list entry) (node : option entry_id) : res (option entry_id) :=
  match node with
  | None => Ok None
  | Some id =>
      match fuel with
      | O => Diverge
      | S fuel' =>
          let* e := of_opt (es !! id) in
          if e_navigable e then Ok (Some id) else back_loop fuel' es (e_parent e)
      end
  end.

(** history.rs:136-145 [History::back_target] *)
Definition back_target (h : history) : res (option entry_id) :=
  match h_current h with
  | None => Ok None
  | Some cur =>
      let* e := of_opt (h_entries h !! cur) in
      back_loop (length (h_entries h)) (h_entries h) (e_parent e)
  end.

(** [.iter().copied().filter(|c| self.entries[c.0].navigable).collect()] of
    history.rs:153-158; indexing may panic. *)
Fixpoint filter_navigable (es : list entry) (cs : list entry_id) : res (list entry_id) :=
  match cs with
  | [] => Ok []
  | c :: cs' =>
      let* e := of_opt (es !! c) in
      let* r := filter_navigable es cs' in
      Ok (if e_navigable e then c :: r else r)
  end.

(** [iter().position(|c| *c == x)] *)
Fixpoint position (x : entry_id) (l : list entry_id) : option nat :=
  match l with
  | [] => None
  | y :: l' => if decide (y = x) then Some 0 else S <$> position x l'
  end.

(** [slice::swap(0, pos)]; panics when either index is out of range. *)
Definition swap0 (l : list entry_id) (pos : nat) : res (list entry_id) :=
  let* a := of_opt (l !! 0) in
  let* b := of_opt (l !! pos) in
  Ok (<[pos := a]> (<[0 := b]> l)).

(** history.rs:148-165 [History::forward_targets] *)
Definition forward_targets (h : history) : res (list entry_id) :=
  match h_current h with
  | None => Ok []
  | Some cur =>
      let* e := of_opt (h_entries h !! cur) in
      let* out := filter_navigable (h_entries h) (e_children e) in
      match e_preferred e with
      | Some pref =>
          match position pref out with
          | Some pos => swap0 out pos
          | None => Ok out
          end
      | None => Ok out
      end
  end.

(** history.rs:167-169 [History::can_go_back] *)
Definition can_go_back (h : history) : res bool :=
  let* t := back_target h in Ok (match t with Some _ => true | None => false end).

(** history.rs:171-173 [History::can_go_forward] *)
Definition can_go_forward (h : history) : res bool :=
  let* t := forward_targets h in Ok (match t with [] => false | _ => true end).

(** history.rs:176-180 [History::go_back] *)
Definition go_back (h : history) : res (history * option entry_id) :=
  let* t := back_target h in
  Ok (match t with
      | Some id => (mk_history (h_entries h) (Some id), Some id)
      | None => (h, None)
      end).

(** history.rs:193-197, the tail of [History::go_forward] *)
Definition forward_to (h : history) (id : entry_id) : res (history * option entry_id) :=
  let* es := match h_current h with
             | Some cur => upd (h_entries h) cur (fun e => with_preferred e (Some id))
             | None => Ok (h_entries h)
             end in
  Ok (mk_history es (Some id), Some id).

(** history.rs:186-198 [History::go_forward] *)
Definition go_forward (h : history) (want : option entry_id) : res (history * option entry_id) :=
  let* targets := forward_targets h in
  match want with
  | Some id => if decide (id ∈ targets) then forward_to h id else Ok (h, None)
  | None => match targets with
            | id :: _ => forward_to h id
            | [] => Ok (h, None)
            end
  end.

(** history.rs:202-212 [History::go_to] *)
Definition go_to (h : history) (id : entry_id) : res (history * option entry_id) :=
  match h_entries h !! id with
  | None => Ok (h, None)
  | Some e =>
      if e_navigable e then
        let* es := match e_parent e with
                   | Some p => upd (h_entries h) p (fun pe => with_preferred pe (Some id))
                   | None => Ok (h_entries h)
                   end in
        Ok (mk_history es (Some id), Some id)
      else Ok (h, None)
  end.

(** history.rs:54-61 [HistoryEntrySummary], 42-52 [HistorySnapshot] *)
Record summary := mk_summary {
  s_id : entry_id; s_url : str; s_title : option str; s_parent : option entry_id }.
Record snapshot := mk_snapshot {
  sn_current : option entry_id; sn_can_go_back : bool;
  sn_forward : list summary; sn_entries : list summary }.

(** the closure [summary] of history.rs:215-223 *)
Definition summarise (es : list entry) (id : entry_id) : res summary :=
  let* e := of_opt (es !! id) in Ok (mk_summary id (e_url e) (e_title e) (e_parent e)).

Fixpoint rmap {A B} (f : A -> res B) (l : list A) : res (list B) :=
  match l with
  | [] => Ok []
  | a :: l' => let* b := f a in let* bs := rmap f l' in Ok (b :: bs)
  end.

(** history.rs:214-230 [History::snapshot] *)
Definition take_snapshot (h : history) : res snapshot :=
  let* b := can_go_back h in
  let* ts := forward_targets h in
  let* fw := rmap (summarise (h_entries h)) ts in
  let* en := rmap (summarise (h_entries h)) (seq 0 (length (h_entries h))) in
  Ok (mk_snapshot (h_current h) b fw en).

(** The public operations. [OSetNavigable] is the direct write to the [navigable]
    field (history.rs:32-35 calls it "the hook for when form submissions arrive"; no
    public method performs it today, the tests do, history.rs:330). *)
Inductive op :=
| OPush (url : str) (title : option str)
| OReplaceUrl (url : str)
| OSetTitle (t : option str)
| OSetScroll (x y : Z)
| OBack
| OForward (want : option entry_id)
| OGoTo (id : entry_id)
| OSetNavigable (id : entry_id) (b : bool).

Definition ret (r : res history) : res (history * option entry_id) :=
  let* h := r in Ok (h, None).

(** One call; the second component is the returned entry id, if any. *)
Definition step (h : history) (o : op) : res (history * option entry_id) :=
  match o with
  | OPush u t => let* (h', id) := push h u t in Ok (h', Some id)
  | OReplaceUrl u => ret (replace_current_url h u)
  | OSetTitle t => ret (set_current_title h t)
  | OSetScroll x y => ret (set_current_scroll h x y)
  | OBack => go_back h
  | OForward w => go_forward h w
  | OGoTo id => go_to h id
  | OSetNavigable id b =>
      match h_entries h !! id with
      | Some e => Ok (mk_history (<[id := with_navigable e b]> (h_entries h)) (h_current h), None)
      | None => Ok (h, None)
      end
  end.

(** A sequence of calls with the list of returned ids. *)
Fixpoint run (h : history) (ops : list op) : res (history * list (option entry_id)) :=
  match ops with
  | [] => Ok (h, [])
  | o :: ops' =>
      let* (h', r) := step h o in
      let* (h'', rs) := run h' ops' in
      Ok (h'', r :: rs)
  end.
