(** Specification vocabulary for the properties of a tab's navigations (C81-C89). It
    speaks of the labels of a run (what the embedder asked for, how the loads ended), the
    events the embedder received, and the page, address, title and flags of the tab. *)
From Verif Require Import Base HistoryModel HistorySpec TabModel.

(** The embedder never asks to cancel. *)
Definition never_cancels (ls : list label) : Prop :=
  Forall (fun l => match l with LCommand _ CCancel => False | _ => True end) ls.

(** Every load that ends sends a result: no response is blocked or silently dropped. *)
Definition always_answers (ls : list label) : Prop :=
  Forall (fun l => match l with LEnd _ (OBlocked _) | LEnd _ ODrop => False | _ => True end) ls.
(** Every load that ends sends a result or is reported as blocked. *)
Definition never_silent (ls : list label) : Prop :=
  Forall (fun l => match l with LEnd _ ODrop => False | _ => True end) ls.

(** Navigations of which the embedder was told that they started. *)
Definition started_id (e : event) : option nat :=
  match e with EStarted id _ => Some id | _ => None end.
(** Navigations of which it was told that they ended: finished, failed or cancelled. *)
Definition ended_id (e : event) : option nat :=
  match e with
  | EFinished id _ | ECancelled id _ => Some id
  | EFailed id _ => id
  | _ => None
  end.
(** How often it was told so of navigation [id]. *)
Definition times_ended (id : nat) (es : list event) : nat :=
  length (filter (fun e => ended_id e = Some id) es).

(** The address an embedder shows that follows the "finished" events. *)
Definition finished_url (e : event) : option str :=
  match e with EFinished _ u => Some u | _ => None end.
(** The history an embedder shows that follows the "history changed" events. *)
Definition told_history (e : event) : option snapshot :=
  match e with EHistory s => Some s | _ => None end.

(** No result is awaited any more. *)
Definition settled (t : tab) : Prop := t_pending t = None.

(** A navigation that loads a document (not one within the page). *)
Definition loads (k : task) : Prop := k_state k <> Local.
(** The load that was started last. *)
Definition latest (t : tab) (id : nat) (k : task) : Prop :=
  t_tasks t !! id = Some k /\ loads k /\
  forall j k', id < j -> t_tasks t !! j = Some k' -> ~ loads k'.

(** The load ended well with the given page. *)
Definition loaded (k : task) (u : str) (title : option str) (d : nat) : Prop :=
  k_state k = Received (ROk u title d).

(** The address of the current history entry. *)
Definition entry_url (h : history) : option str :=
  match h_current h with Some c => e_url <$> h_entries h !! c | None => None end.
Definition entry_title (h : history) : option (option str) :=
  match h_current h with Some c => e_title <$> h_entries h !! c | None => None end.

(** The title only ever comes from pages, and every page has one. *)
Definition pages_titled (ls : list label) : Prop :=
  Forall (fun l => match l with
                   | LCommand _ (CSetTitle _) => False
                   | LEnd _ (OSend (ROk _ None _)) => False
                   | _ => True
                   end) ls.

(** What the user does while staying on a page: scrolling; redraws happen. *)
Definition stays (l : label) : Prop :=
  match l with LCommand _ (CScroll _) | LTick _ => True | _ => False end.
(** Leaving for [text], whose page arrives, staying there, going back, the page arriving
    again, and a redraw once it is laid out. [n] and [S n] are the two loads. *)
Definition leave_and_return (n : nat) (text : str) (page : result) (mid : list label) (page' : result) : list label :=
  [LCommand true (CNavigate text); LEnd n (OSend page); LReceive] ++ mid ++
  [LCommand true CGoBack; LEnd (S n) (OSend page'); LReceive; LTick true].
