(** Model of the navigation side of a tab worker,
    crates/gosub_engine/src/engine/tab/worker.rs: the commands that start, cancel and
    traverse navigations, the tasks they spawn, the loop that receives the tasks'
    results, and what a result does to the tab.

    The worker, its load tasks and the embedder run concurrently. A run of the model is
    any list of [label]s: commands handled by the worker, load tasks ending, results
    received, redraw ticks, in any order. A label that is not enabled changes nothing.

    Not modelled: drawing, input other than scrolling and links, web fonts and favicons,
    downloads (beyond the offer), cookies and request headers of a load (see the Cookie
    and Net areas), the request reference map (Hub area), smooth scrolling (Scroll
    area), crashes of the worker. A URL is its serialisation. *)
From Verif Require Import Base HistoryModel.

(** [Url::set_fragment(None)] on a serialised URL: everything before the first [#]. *)
Fixpoint strip (u : str) : str :=
  match u with
  | [] => []
  | c :: u' => if N.eqb c 35 then [] else c :: strip u'
  end.
(** [Url::fragment]: everything after the first [#]. *)
Fixpoint fragment (u : str) : option str :=
  match u with
  | [] => None
  | c :: u' => if N.eqb c 35 then Some u' else fragment u'
  end.

(** [u.scheme() == s] on a serialised URL: it starts with the scheme and a colon. *)
Definition has_scheme (s u : str) : bool :=
  bool_decide (take (length s + 1) u = s ++ [58%N]).
Definition s_gosub : str := [103; 111; 115; 117; 98]%N.
Definition s_about : str := [97; 98; 111; 117; 116]%N.
Definition s_http : str := [104; 116; 116; 112]%N.
Definition s_https : str := s_http ++ [115%N].
Definition about_blank : str := s_about ++ [58; 98; 108; 97; 110; 107]%N.

(** internal_pages.rs:115-117 [InternalPages::handles] *)
Definition is_internal (u : str) : bool := has_scheme s_gosub u || has_scheme s_about u.
(** worker.rs:793 [matches!(final_url.scheme(), "http" | "https")] *)
Definition is_web (u : str) : bool := has_scheme s_http u || has_scheme s_https u.

(** worker.rs:160-171 [HistoryIntent] *)
Inductive intent := Push | Reload | Traverse (e : entry_id).
Global Instance intent_eq_dec : EqDecision intent.
Proof. solve_decision. Defined.

(** worker.rs:132-148 [NavigationResult]; the error value and the download's metadata
    other than its URL are left out. A document is a number: its identity. *)
Inductive result :=
| ROk (url : str) (title : option str) (doc : nat)
| RErr
| RDownload (url : str).

(** How a spawned load task ends (worker.rs:1476-1591 and 1715-1742): it sends a result;
    or it reports a blocked response itself and drops the sender (1568-1583); or it drops
    the sender with no message (1560-1567, or a panic). *)
Inductive outcome := OSend (r : result) | OBlocked (url : str) | ODrop.

(** A load task and its one-shot channel. *)
Inductive task_state :=
| Running            (* the task has not ended *)
| Sent (r : result)  (* the result waits in the channel *)
| Hung               (* the sender is gone, nothing was sent *)
| Received (r : result)
| Lost               (* the receiver was told that the sender is gone *)
| Local.             (* a same-document navigation: no task, no channel *)

Record task := mk_task { k_url : str; k_state : task_state }.

(** Events sent to the embedder (events.rs [NavigationEvent], and
    [EngineEvent::DownloadRequested]); [EVisit] is the call of
    [places.record_visit(url, title)], worker.rs:792-796. *)
Inductive event :=
| EStarted (id : nat) (url : str)
| EFinished (id : nat) (url : str)
| EFailed (id : option nat) (url : str)
| EFailedUrl (text : str)
| ECancelled (id : nat) (url : str)
| EDownload (url : str)
| EHistory (s : snapshot)
| EVisit (url title : str).

(** worker.rs:151-158 [ActiveNav] *)
Record active := mk_active { a_id : nat; a_url : str; a_history : intent }.

(** worker.rs:250-255 [PendingScroll] *)
Inductive pending_scroll := POffset (x y : Z) | PFragment (f : str).

(** The navigation state of worker.rs:180-247 [TabWorker], plus [t_pending], the local
    variable [pending_nav_rx] of worker.rs:504 (the id stands for the receiver), and
    [t_tasks], the tasks spawned so far: navigation ids are their positions
    ([NavigationId::new] is a fresh UUID). [t_load] is [load]: the id of the navigation
    and whether its receiver is still inside (worker.rs:173-178). *)
Record tab := mk_tab {
  t_doc : option nat;
  t_url : option str;
  t_title : str;
  t_loading : bool;
  t_error : bool;
  t_pending_url : option str;
  t_scroll : Z * Z;
  t_pscroll : option pending_scroll;
  t_load : option (nat * bool);
  t_active : option active;
  t_hist : history;
  t_pending : option nat;
  t_tasks : list task;
}.

(** worker.rs:423-455, a fresh tab; the title is the setting
    [useragent.tab.default_title] (435) *)
Definition new_tab (title : str) : tab :=
  mk_tab None None title false false None (0, 0)%Z None None None empty_history None [].

Definition with_doc d t := mk_tab d (t_url t) (t_title t) (t_loading t) (t_error t) (t_pending_url t) (t_scroll t) (t_pscroll t) (t_load t) (t_active t) (t_hist t) (t_pending t) (t_tasks t).
Definition with_url' u t := mk_tab (t_doc t) u (t_title t) (t_loading t) (t_error t) (t_pending_url t) (t_scroll t) (t_pscroll t) (t_load t) (t_active t) (t_hist t) (t_pending t) (t_tasks t).
Definition with_title' x t := mk_tab (t_doc t) (t_url t) x (t_loading t) (t_error t) (t_pending_url t) (t_scroll t) (t_pscroll t) (t_load t) (t_active t) (t_hist t) (t_pending t) (t_tasks t).
Definition with_flags l e t := mk_tab (t_doc t) (t_url t) (t_title t) l e (t_pending_url t) (t_scroll t) (t_pscroll t) (t_load t) (t_active t) (t_hist t) (t_pending t) (t_tasks t).
Definition with_pending_url u t := mk_tab (t_doc t) (t_url t) (t_title t) (t_loading t) (t_error t) u (t_scroll t) (t_pscroll t) (t_load t) (t_active t) (t_hist t) (t_pending t) (t_tasks t).
Definition with_scroll' s t := mk_tab (t_doc t) (t_url t) (t_title t) (t_loading t) (t_error t) (t_pending_url t) s (t_pscroll t) (t_load t) (t_active t) (t_hist t) (t_pending t) (t_tasks t).
Definition with_pscroll s t := mk_tab (t_doc t) (t_url t) (t_title t) (t_loading t) (t_error t) (t_pending_url t) (t_scroll t) s (t_load t) (t_active t) (t_hist t) (t_pending t) (t_tasks t).
Definition with_load l t := mk_tab (t_doc t) (t_url t) (t_title t) (t_loading t) (t_error t) (t_pending_url t) (t_scroll t) (t_pscroll t) l (t_active t) (t_hist t) (t_pending t) (t_tasks t).
Definition with_active a t := mk_tab (t_doc t) (t_url t) (t_title t) (t_loading t) (t_error t) (t_pending_url t) (t_scroll t) (t_pscroll t) (t_load t) a (t_hist t) (t_pending t) (t_tasks t).
Definition with_hist h t := mk_tab (t_doc t) (t_url t) (t_title t) (t_loading t) (t_error t) (t_pending_url t) (t_scroll t) (t_pscroll t) (t_load t) (t_active t) h (t_pending t) (t_tasks t).
Definition with_pending p t := mk_tab (t_doc t) (t_url t) (t_title t) (t_loading t) (t_error t) (t_pending_url t) (t_scroll t) (t_pscroll t) (t_load t) (t_active t) (t_hist t) p (t_tasks t).
Definition with_tasks k t := mk_tab (t_doc t) (t_url t) (t_title t) (t_loading t) (t_error t) (t_pending_url t) (t_scroll t) (t_pscroll t) (t_load t) (t_active t) (t_hist t) (t_pending t) k.

(** Set the state of one task. *)
Definition set_task (id : nat) (s : task_state) (t : tab) : tab :=
  with_tasks (alter (fun k => mk_task (k_url k) s) id (t_tasks t)) t.

(** A call on the tab's history. *)
Definition hist (t : tab) (o : op) : res (tab * option entry_id) :=
  let* (h, r) := HistoryModel.step (t_hist t) o in Ok (with_hist h t, r).

(** [self.history.set_current_scroll(self.scroll_x, self.scroll_y)] *)
Definition save_scroll (t : tab) : res tab :=
  let* (t, _) := hist t (OSetScroll (t_scroll t).1 (t_scroll t).2) in Ok t.

(** worker.rs:1265-1272 [emit_history_changed] *)
Definition history_changed (t : tab) : res event :=
  let* s := take_snapshot (t_hist t) in Ok (EHistory s).

(** [self.history.entry(e).map(|e| e.scroll)] *)
Definition saved_scroll (t : tab) (e : entry_id) : option (Z * Z) :=
  e_scroll <$> h_entries (t_hist t) !! e.

Section tab.
(** [Url::parse], giving the serialisation. *)
Variable parse : str -> option str.
(** [context.set_scroll] followed by [context.scroll_xy], rounded: where asking for an
    offset leaves the given document (it clamps to the page). A document's layout is
    taken to be fixed. *)
Variable place : option nat -> Z * Z -> Z * Z.
(** [context.fragment_target_y], rounded. *)
Variable target_y : option nat -> str -> option Z.

(** worker.rs:1333-1342 [apply_scroll] *)
Definition apply_scroll (s : Z * Z) (t : tab) : tab := with_scroll' (place (t_doc t) s) t.

(** worker.rs:1276-1286 [is_same_document] *)
Definition is_same_document (t : tab) (u : str) : bool :=
  match t_url t, t_loading t with
  | Some cur, false => bool_decide (strip cur = strip u)
  | _, _ => false
  end.

(** worker.rs:1292-1331 [navigate_same_document] *)
Definition navigate_same_document (t : tab) (u : str) (i : intent) : res (tab * list event) :=
  let id := length (t_tasks t) in
  let t := with_tasks (t_tasks t ++ [mk_task u Local]) t in
  let* t := match i with
            | Push => let* t := save_scroll t in
                      let* (t, _) := hist t (OPush u (Some (t_title t))) in Ok t
            | Reload | Traverse _ => Ok t
            end in
  let t := with_url' (Some u) t in
  let target := match i with
                | Traverse e => saved_scroll t e
                | _ => f ← fragment u; y ← target_y (t_doc t) f; Some (0%Z, y)
                end in
  let t := match target with Some s => apply_scroll s t | None => t end in
  let* h := history_changed t in
  Ok (t, [EStarted id u; EFinished id u; h]).

(** worker.rs:2062-2071 [cancel_current_nav]. Cancelling the token may make the load
    task end with [RErr], if it is still waiting for its response (1490-1498); the tasks
    are free to end in any way, so the token itself is not modelled. *)
Definition cancel_current_nav (t : tab) : tab := with_active None t.

(** worker.rs:1396-1422 and 1594-1597, and the same code at 1655-1681 and 1744-1747: a
    load is started. An older receiver still inside [load] is dropped with it. *)
Definition start_load (t : tab) (u : str) (i : intent) : tab * list event :=
  let id := length (t_tasks t) in
  let t := with_tasks (t_tasks t ++ [mk_task u Running]) t in
  let t := with_active (Some (mk_active id u i)) t in
  let t := with_pending_url (Some u) t in
  let t := with_flags true false t in
  (with_load (Some (id, true)) t, [EStarted id u]).

(** worker.rs:1384-1394 and 1643-1653: the storage areas are bound before the load is
    started; when that fails, [bind_storage_for] (2097-2119) and its caller both report
    it. [bind_ok]: whether the storage service delivers the areas. *)
Definition bind_and_load (bind_ok : bool) (t : tab) (u : str) (i : intent) : tab * list event :=
  if bind_ok then start_load t u i else (t, [EFailed None u; EFailed None u]).

(** worker.rs:1347-1598 [navigate_to]. The page of an internal URL (1371-1382) is loaded
    like any other: by a task, [load_html_document]. *)
Definition navigate_to (bind_ok : bool) (t : tab) (text : str) (i : intent) : res (tab * list event) :=
  match parse text with
  | None => Ok (t, [EFailedUrl text])
  | Some u =>
      if negb (bool_decide (i = Reload)) && is_same_document t u
      then navigate_same_document t u i
      else
        let* t := match i with Traverse _ => Ok t | _ => save_scroll t end in
        let t := cancel_current_nav (with_scroll' (0, 0)%Z (with_pscroll None t)) in
        Ok (bind_and_load bind_ok t u i)
  end.

(** worker.rs:1615-1627 [load_html] *)
Definition load_html (bind_ok : bool) (t : tab) (text : str) : res (tab * list event) :=
  match parse text with
  | None => Ok (t, [EFailedUrl text])
  | Some u =>
      let* t := save_scroll t in
      let t := cancel_current_nav (with_scroll' (0, 0)%Z (with_pscroll None t)) in
      Ok (bind_and_load bind_ok t u Push)
  end.

(** worker.rs:1242-1252 [traverse_history]; [None]: the history did not move. *)
Definition traverse_history (bind_ok : bool) (t : tab) (e : option entry_id) : res (tab * list event) :=
  match e with
  | None => Ok (t, [])
  | Some e =>
      match h_entries (t_hist t) !! e with
      | None => Ok (t, [])
      | Some x =>
          let* (t, es) := navigate_to bind_ok t (e_url x) (Traverse e) in
          let* h := history_changed t in
          Ok (t, es ++ [h])
      end
  end.

(** The commands of worker.rs:1070-1228 that concern navigation. [CNavigate] is also what
    a click on a link does (1160-1170), with the resolved URL. [CScroll] stands for the
    scrolling inputs, 1020-1068, and gives the offset they lead to (the Scroll area). *)
Inductive command :=
| CNavigate (text : str)
| CLoadHtml (base : str)
| CReload
| CGoBack
| CGoForward (e : option entry_id)
| CGoTo (e : entry_id)
| CCancel
| CSetTitle (x : str)
| CScroll (s : Z * Z).

(** worker.rs:1070-1228 [handle_tab_command] *)
Definition handle (bind_ok : bool) (t : tab) (c : command) : res (tab * list event) :=
  match c with
  | CNavigate text => navigate_to bind_ok t text Push
  | CLoadHtml base => load_html bind_ok t base
  | CReload => navigate_to bind_ok t (default about_blank (t_url t)) Reload
  | CGoBack =>
      let* t := save_scroll t in
      let* (t, e) := hist t OBack in traverse_history bind_ok t e
  | CGoForward w =>
      let* t := save_scroll t in
      let* (t, e) := hist t (OForward w) in traverse_history bind_ok t e
  | CGoTo e =>
      if bool_decide (Some e = h_current (t_hist t)) then Ok (t, [])
      else
        let* t := save_scroll t in
        let* (t, e) := hist t (OGoTo e) in traverse_history bind_ok t e
  | CCancel => Ok (with_load None t, [])
  | CSetTitle x => Ok (with_title' x t, [])
  | CScroll s => Ok (with_scroll' s t, [])
  end.

(** worker.rs:757-764: the intent of the navigation, if it is the active one *)
Definition intent_of (t : tab) (id : nat) : intent :=
  match t_active t with
  | Some a => if a_id a =? id then a_history a else Push
  | None => Push
  end.

(** worker.rs:765-779: the commit to the session history; the offset to restore *)
Definition commit (t : tab) (i : intent) (u : str) (title : option str) : res (tab * option (Z * Z)) :=
  match i with
  | Push => let* (t, _) := hist t (OPush u title) in Ok (t, None)
  | Reload =>
      let* (t, _) := hist t (OReplaceUrl u) in
      let* (t, _) := hist t (OSetTitle title) in
      Ok (t, e ← h_current (t_hist t); saved_scroll t e)
  | Traverse e =>
      let* (t, _) := hist t (OReplaceUrl u) in
      let* (t, _) := hist t (OSetTitle title) in
      Ok (t, saved_scroll t e)
  end.

(** worker.rs:782-789: where the new page is to be scrolled *)
Definition landing (restore : option (Z * Z)) (u : str) : option pending_scroll :=
  let frag := match fragment u with
              | Some (c :: f) => Some (PFragment (c :: f))
              | _ => None
              end in
  match restore with
  | Some (x, y) => if bool_decide ((x, y) = (0, 0)%Z) then frag else Some (POffset x y)
  | None => frag
  end.

(** worker.rs:730-852 [on_nav_result] *)
Definition on_nav_result (t : tab) (id : nat) (r : result) : res (tab * list event) :=
  match r with
  | ROk u title doc =>
      let t := with_url' (Some u) (with_doc (Some doc) t) in
      let t := match title with Some x => with_title' x t | None => t end in
      let t := with_flags false false t in
      let* (t, restore) := commit t (intent_of t id) u title in
      let t := with_pscroll (landing restore u) t in
      let visit := if is_web u then [EVisit u (t_title t)] else [] in
      let* h := history_changed t in
      Ok (t, visit ++ [EFinished id u; h])
  | RDownload u =>
      Ok (with_pending_url None (with_flags false false t), [ECancelled id u; EDownload u])
  | RErr =>
      let u := match t_active t with
               | Some a => a_url a
               | None => default about_blank (t_pending_url t)
               end in
      Ok (with_flags false true t, [EFailed (Some id) u])
  end.

(** worker.rs:509-516: the top of the loop takes the receiver of a fresh load, if none
    is being waited for *)
Definition sync (t : tab) : tab :=
  match t_pending t, t_load t with
  | None, Some (id, true) => with_pending (Some id) (with_load (Some (id, false)) t)
  | _, _ => t
  end.

(** What can happen next. *)
Inductive label :=
| LCommand (bind_ok : bool) (c : command)  (* the worker handles a command *)
| LEnd (id : nat) (o : outcome)            (* a load task ends *)
| LReceive                                 (* the worker receives a result *)
| LTick (laid_out : bool).                 (* a redraw; whether [page_height() > 0] *)

(** worker.rs:1766-1782, the part of [tick_draw] that scrolls a fresh document *)
Definition tick (laid_out : bool) (t : tab) : tab :=
  if laid_out then
    match t_pscroll t with
    | Some (POffset x y) => apply_scroll (x, y) (with_pscroll None t)
    | Some (PFragment f) =>
        let t := with_pscroll None t in
        match target_y (t_doc t) f with Some y => apply_scroll (0%Z, y) t | None => t end
    | None => t
    end
  else t.

(** One arm of the [select!] of worker.rs:518-562 and the top of the next iteration, or
    a step of a load task. *)
Definition step (t : tab) (l : label) : res (tab * list event) :=
  match l with
  | LCommand bind_ok c =>
      let* (t, es) := handle bind_ok t c in Ok (sync t, es)
  | LEnd id o =>
      match t_tasks t !! id with
      | Some (mk_task _ Running) =>
          Ok (match o with
              | OSend r => (set_task id (Sent r) t, [])
              | OBlocked u => (set_task id Hung t, [EFailed (Some id) u])
              | ODrop => (set_task id Hung t, [])
              end)
      | _ => Ok (t, [])
      end
  | LReceive =>
      match t_pending t with
      | Some id =>
          match t_tasks t !! id with
          | Some (mk_task _ (Sent r)) =>
              let* (t, es) := on_nav_result (set_task id (Received r) (with_pending None t)) id r in
              Ok (sync t, es)
          | Some (mk_task _ Hung) => Ok (sync (set_task id Lost (with_pending None t)), [])
          | _ => Ok (t, [])
          end
      | None => Ok (t, [])
      end
  | LTick laid_out => Ok (sync (tick laid_out t), [])
  end.

(** A run, with the events it sends. *)
Fixpoint run (t : tab) (ls : list label) : res (tab * list event) :=
  match ls with
  | [] => Ok (t, [])
  | l :: ls' =>
      let* (t', es) := step t l in
      let* (t'', es') := run t' ls' in
      Ok (t'', es ++ es')
  end.
End tab.
