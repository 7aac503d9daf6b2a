(** Decisions, reference registry and reference counts: what the records of a run may look like. *)
From stdpp Require Import gmap.
From Verif Require Import Base HubModel.

(** ** Decisions *)
(** No token is drawn twice. *)
Definition fresh_tokens {A} (h : list (hub_event A)) : Prop :=
  forall i j k c d, h !! i = Some (Registered k c) -> h !! j = Some (Registered k d) -> i = j.
(** [a] is the first answer given to token [k] after the registration at [i], at place [m]. *)
Definition first_answer {A} (h : list (hub_event A)) (k : N) (i m : nat) (a : A) : Prop :=
  i < m /\ h !! m = Some (Fulfilled k a) /\ forall x b, i < x < m -> h !! x <> Some (Fulfilled k b).
(** Token [k] is not waiting: it was never registered, or was answered since. *)
Definition not_waiting {A} (h : list (hub_event A)) (k : N) : Prop :=
  forall i c, h !! i = Some (Registered k c) -> exists m a, i < m /\ h !! m = Some (Fulfilled k a).

(** ** Registry *)
(** The request's last record before place [j] says [m]. *)
Definition last_meta {M} (h : list (registry_event M)) (j : nat) (id : N) (m : M) : Prop :=
  exists i, i < j /\ h !! i = Some (MetaSet id m) /\
    forall x, i < x < j -> h !! x <> Some (MetaForgotten id) /\ forall m', h !! x <> Some (MetaSet id m').

(** ** Reference counts *)
Global Instance count_event_eq_dec : EqDecision count_event.
Proof. solve_decision. Defined.
Definition incs (h : list count_event) (r : reference) : nat :=
  length (filter (fun e => e = EInc r) h).
Definition decs (h : list count_event) (r : reference) : nat :=
  length (filter (fun e => e = EDec r) h).
Definition finalized (h : list count_event) (r : reference) : Prop := EFinalize r ∈ h.
(** The requests of [r] that have begun and not ended. *)
Definition active (h : list count_event) (r : reference) : nat := incs h r - decs h r.
(** Requests end after they began, and none begins once the group was closed. *)
Definition orderly (h : list count_event) (r : reference) : Prop :=
  (forall i, h !! i = Some (EDec r) -> decs (take i h) r < incs (take i h) r) /\
  (forall i j, h !! i = Some (EFinalize r) -> i < j -> h !! j <> Some (EInc r) /\ forall tab, h !! j <> Some (EName r tab)).
(** The tab the reference was last entered for. *)
Definition named (h : list count_event) (r : reference) (tab : N) : Prop :=
  exists i, h !! i = Some (EName r tab) /\ forall j tab', i < j -> h !! j <> Some (EName r tab').
(** No call is under way. *)
Definition quiet (s : counts) : Prop := Forall (fun p => p = CIdle) (calls s).
