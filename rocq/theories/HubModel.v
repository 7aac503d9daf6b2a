(** Model of crates/gosub_engine/src/net/{decision_hub,req_ref_tracker}.rs: pending decisions, the
    reference registry and the reference counts.

    All three are shared between threads. A machine takes one step of one thread at a time, as told
    by a schedule; a step that is not possible (the thread is elsewhere, or a lock is held) makes the
    schedule invalid. Each access to a shared map or atomic variable is a step of its own. A step may
    record an event; the record is for the specification only. *)
From Coq Require Import NArith.
From stdpp Require Import gmap.
From Verif Require Import Base.

(** Following a schedule: the last state and all events, first one first. *)
Section machine.
  Context {S C E : Type} (step : S -> C -> option (S * list E)).
  Fixpoint follow (s : S) (l : list C) : option (S * list E) :=
    match l with
    | [] => Some (s, [])
    | c :: l => '(s1, e1) ← step s c; '(s2, e2) ← follow s1 l; Some (s2, e1 ++ e2)
    end.
End machine.

(** ** Decisions
    decision_hub.rs:33-64. Tokens (UUIDs) are numbers, as are channels; actions are any type. A
    channel is the state shared by the two ends of a [oneshot]: nothing sent, a value sent, or the
    sender gone. *)
Inductive chan (A : Type) := Waiting | Sent (a : A) | Closed | Taken (a : A) | Dropped.
Global Arguments Waiting {A}. Global Arguments Sent {A} a. Global Arguments Closed {A}.
Global Arguments Taken {A} a. Global Arguments Dropped {A}.
Record hub (A : Type) := mk_hub { waiters : gmap N nat; chans : list (chan A); sending : list (option (nat * A)) }.
Global Arguments mk_hub {A}. Global Arguments waiters {A}. Global Arguments chans {A}. Global Arguments sending {A}.
Inductive hub_event (A : Type) :=
  | Registered (k : N) (ch : nat) | Fulfilled (k : N) (a : A) | Received (ch : nat) (r : option A).
Global Arguments Registered {A} k ch. Global Arguments Fulfilled {A} k a. Global Arguments Received {A} ch r.
(** What can happen next: [register] with the token drawn; the removal in [fulfill] by a thread, then
    its sending; the waiter looking at its channel or dropping it. *)
Inductive hub_choice (A : Type) :=
  | Register (k : N) | FulfillStart (t : nat) (k : N) (a : A) | FulfillSend (t : nat) | Receive (ch : nat) | DropReceiver (ch : nat).
Global Arguments Register {A} k. Global Arguments FulfillStart {A} t k a. Global Arguments FulfillSend {A} t.
Global Arguments Receive {A} ch. Global Arguments DropReceiver {A} ch.

(** Dropping a sender that has not sent: tokio's [oneshot::Sender::drop]. *)
Definition drop_sender {A} (c : chan A) : chan A := match c with Waiting => Closed | c => c end.
(** [oneshot::Sender::send]: without a receiver the value is lost. *)
Definition send {A} (a : A) (c : chan A) : chan A := match c with Waiting => Sent a | c => c end.

Definition hub_step {A} (h : hub A) (c : hub_choice A) : option (hub A * list (hub_event A)) :=
  match c with
  (* decision_hub.rs:51-56 [register]. Inserting drops the sender stored under the same token, if any. *)
  | Register k =>
      let ch := length (chans h) in
      let old := match waiters h !! k with Some o => alter drop_sender o (chans h) | None => chans h end in
      Some (mk_hub (<[k := ch]> (waiters h)) (old ++ [Waiting]) (sending h), [Registered k ch])
  (* decision_hub.rs:58-59 [fulfill] *)
  | FulfillStart t k a =>
      match sending h !! t with
      | Some None =>
          match waiters h !! k with
          | Some ch => Some (mk_hub (delete k (waiters h)) (chans h) (<[t := Some (ch, a)]> (sending h)), [Fulfilled k a])
          | None => Some (h, [Fulfilled k a])
          end
      | _ => None
      end
  (* decision_hub.rs:60; the sender is consumed *)
  | FulfillSend t =>
      match sending h !! t with
      | Some (Some (ch, a)) => Some (mk_hub (waiters h) (alter (send a) ch (chans h)) (<[t := None]> (sending h)), [])
      | _ => None
      end
  (* awaiting the receiver: resolves when there is a value or no sender *)
  | Receive ch =>
      match chans h !! ch with
      | Some (Sent a) => Some (mk_hub (waiters h) (<[ch := Taken a]> (chans h)) (sending h), [Received ch (Some a)])
      | Some Closed => Some (mk_hub (waiters h) (<[ch := Dropped]> (chans h)) (sending h), [Received ch None])
      | _ => None
      end
  | DropReceiver ch =>
      match chans h !! ch with
      | Some (Taken _) | Some Dropped | None => None
      | Some _ => Some (mk_hub (waiters h) (<[ch := Dropped]> (chans h)) (sending h), [])
      end
  end.
(** decision_hub.rs:44-48, with [n] threads that may fulfil *)
Definition new_hub {A} (n : nat) : hub A := mk_hub ∅ [] (replicate n None).

(** ** Reference registry
    req_ref_tracker.rs:28-37: a reference is one of four kinds with a number. *)
Inductive kind := Navigation | Document | Prefetch | Background.
Notation reference := (kind * N)%type.
Global Instance kind_eq_dec : EqDecision kind.
Proof. solve_decision. Defined.
Global Instance kind_countable : Countable kind.
Proof.
  refine (inj_countable (fun k => match k with Navigation => 0 | Document => 1 | Prefetch => 2 | Background => 3 end)
    (fun n => Some match n with 0 => Navigation | 1 => Document | 2 => Prefetch | _ => Background end) _).
  by intros [].
Defined.
(** gosub-sonar's reference *)
Inductive net_ref := Tagged (id : N) | NetBackground (id : N).

(** Where a call of [to_net] is: nowhere; or holding the vacant entry of [r], before drawing a
    number, before inserting it in [reverse], or before inserting it in [forward]. *)
Inductive intern_pc := IIdle | IVacant (r : reference) | IDrawn (r : reference) (id : N) | IReversed (r : reference) (id : N).
Definition holds (r : reference) (p : intern_pc) : bool :=
  match p with IIdle => false | IVacant r' | IDrawn r' _ | IReversed r' _ => bool_decide (r = r') end.
(** req_ref_tracker.rs:56-64. [M] is the kind and initiator of a request. *)
Record registry (M : Type) := mk_registry {
  forward : gmap reference N; reverse : gmap N reference; next_id : N; request_metas : gmap N M; interning : list intern_pc }.
Global Arguments mk_registry {M}. Global Arguments forward {M}. Global Arguments reverse {M}. Global Arguments next_id {M}.
Global Arguments request_metas {M}. Global Arguments interning {M}.
Inductive registry_event (M : Type) :=
  | ToNet (r : reference) (n : net_ref) | FromNet (n : net_ref) (r : option reference)
  | MetaSet (id : N) (m : M) | MetaForgotten (id : N) | MetaRead (id : N) (m : option M).
Global Arguments ToNet {M} r n. Global Arguments FromNet {M} n r. Global Arguments MetaSet {M} id m.
Global Arguments MetaForgotten {M} id. Global Arguments MetaRead {M} id m.
Inductive registry_choice (M : Type) :=
  | ToNetStart (t : nat) (r : reference) | ToNetNext (t : nat) | CallFromNet (n : net_ref)
  | SetMeta (id : N) (m : M) | ForgetMeta (id : N) | ReadMeta (id : N).
Global Arguments ToNetStart {M} t r. Global Arguments ToNetNext {M} t. Global Arguments CallFromNet {M} n.
Global Arguments SetMeta {M} id m. Global Arguments ForgetMeta {M} id. Global Arguments ReadMeta {M} id.

(** Simplified: the 64-bit counter does not overflow; a lock covers one key and not a whole shard of
    the map, which allows more schedules. *)
Definition registry_step {M} (g : registry M) (c : registry_choice M) : option (registry M * list (registry_event M)) :=
  let at_ p t := mk_registry (forward g) (reverse g) (next_id g) (request_metas g) (<[t := p]> (interning g)) in
  match c with
  (* req_ref_tracker.rs:92-95: the entry of the key is locked from here on *)
  | ToNetStart t r =>
      match interning g !! t with
      | Some IIdle =>
          if existsb (holds r) (interning g) then None
          else match forward g !! r with
               | Some id => Some (g, [ToNet r (Tagged id)])
               | None => Some (at_ (IVacant r) t, [])
               end
      | _ => None
      end
  | ToNetNext t =>
      match interning g !! t with
      (* req_ref_tracker.rs:96 *)
      | Some (IVacant r) =>
          Some (mk_registry (forward g) (reverse g) (next_id g + 1)%N (request_metas g) (<[t := IDrawn r (next_id g)]> (interning g)), [])
      (* req_ref_tracker.rs:97 *)
      | Some (IDrawn r id) =>
          Some (mk_registry (forward g) (<[id := r]> (reverse g)) (next_id g) (request_metas g) (<[t := IReversed r id]> (interning g)), [])
      (* req_ref_tracker.rs:98-102 *)
      | Some (IReversed r id) =>
          Some (mk_registry (<[r := id]> (forward g)) (reverse g) (next_id g) (request_metas g) (<[t := IIdle]> (interning g)), [ToNet r (Tagged id)])
      | _ => None
      end
  (* req_ref_tracker.rs:106-111 *)
  | CallFromNet n =>
      let r := match n with Tagged id => reverse g !! id | NetBackground id => Some (Background, id) end in
      Some (g, [FromNet n r])
  (* req_ref_tracker.rs:77-79 *)
  | SetMeta id m => Some (mk_registry (forward g) (reverse g) (next_id g) (<[id := m]> (request_metas g)) (interning g), [MetaSet id m])
  (* req_ref_tracker.rs:87-89 *)
  | ForgetMeta id => Some (mk_registry (forward g) (reverse g) (next_id g) (delete id (request_metas g)) (interning g), [MetaForgotten id])
  (* req_ref_tracker.rs:82-84 *)
  | ReadMeta id => Some (g, [MetaRead id (request_metas g !! id)])
  end.
(** req_ref_tracker.rs:67-74, with [n] threads *)
Definition new_registry {M} (n : nat) : registry M := mk_registry ∅ ∅ 1 ∅ (replicate n IIdle).

(** ** Reference counts
    req_ref_tracker.rs:117-172. The map from references to tabs belongs to the engine. *)
(** Where a call of [dec_and_maybe_cleanup] or [finalize] is. While it holds the entry ([DGot] to
    before the drop) nobody can take the entry's write lock. [late] is whether the flag it stored
    is still in the processor's store buffer. *)
Inductive count_pc :=
  | CIdle
  | DGot (r : reference) | DSub (r : reference) (prev : N) | DNames (r : reference) | DInner (r : reference)
  | FNone (r : reference) | FGot (r : reference) | FStored (r : reference) (late : bool)
  | FLoaded (r : reference) (now : N) (late : bool) | FNames (r : reference) | FInner (r : reference).
Definition guards (r : reference) (p : count_pc) : bool :=
  match p with
  | DGot r' | DSub r' _ | FGot r' | FStored r' _ | FLoaded r' _ _ => bool_decide (r = r')
  | _ => false
  end.
Record counts := mk_counts { inner : gmap reference (N * bool); names : gmap reference N; calls : list count_pc }.
Inductive count_event :=
  | EName (r : reference) (tab : N) | EInc (r : reference) | EDec (r : reference) | EFinalize (r : reference).
Inductive count_choice :=
  | Name (r : reference) (tab : N) | Inc (r : reference) | Dec (t : nat) (r : reference) | Finalize (t : nat) (r : reference)
  | Flush (t : nat) | Next (t : nat).

(** [fetch_sub] on 64 bits; counting up is not bounded here *)
Definition sub1 (c : N) : N := if (c =? 0)%N then (2 ^ 64 - 1)%N else (c - 1)%N.

(** [tso]: stores may be delayed past later loads of the same thread, as on x86. Without, the memory
    is sequentially consistent. [Ordering::Relaxed] allows both and more. *)
Definition count_step (tso : bool) (s : counts) (c : count_choice) : option (counts * list count_event) :=
  let go p t := mk_counts (inner s) (names s) (<[t := p]> (calls s)) in
  let free r := negb (existsb (guards r) (calls s)) in
  match c with
  (* engine/tab/worker.rs:1406-1408, 1665-1667: the tab enters the reference *)
  | Name r tab => Some (mk_counts (inner s) (<[r := tab]> (names s)) (calls s), [EName r tab])
  (* req_ref_tracker.rs:127-136 [inc]: under the write lock of the entry *)
  | Inc r =>
      if free r
      then let v := match inner s !! r with Some (n, f) => ((n + 1)%N, f) | None => (1%N, false) end in
           Some (mk_counts (<[r := v]> (inner s)) (names s) (calls s), [EInc r])
      else None
  (* req_ref_tracker.rs:138-141 *)
  | Dec t r =>
      match calls s !! t with
      | Some CIdle => Some (match inner s !! r with Some _ => go (DGot r) t | None => s end, [EDec r])
      | _ => None
      end
  (* req_ref_tracker.rs:153-154 *)
  | Finalize t r =>
      match calls s !! t with
      | Some CIdle => Some (go (match inner s !! r with Some _ => FGot r | None => FNone r end) t, [EFinalize r])
      | _ => None
      end
  (* the store buffer reaches the memory *)
  | Flush t =>
      let set r := alter (fun x => (x.1, true)) r (inner s) in
      match calls s !! t with
      | Some (FStored r true) => Some (mk_counts (set r) (names s) (<[t := FStored r false]> (calls s)), [])
      | Some (FLoaded r now true) => Some (mk_counts (set r) (names s) (<[t := FLoaded r now false]> (calls s)), [])
      | _ => None
      end
  | Next t =>
      match calls s !! t with
      (* req_ref_tracker.rs:143 *)
      | Some (DGot r) =>
          match inner s !! r with
          | Some (n, f) => Some (mk_counts (<[r := (sub1 n, f)]> (inner s)) (names s) (<[t := DSub r n]> (calls s)), [])
          | None => None
          end
      (* req_ref_tracker.rs:144-148 *)
      | Some (DSub r prev) =>
          match inner s !! r with
          | Some (_, f) => Some (go (if (prev <=? 1)%N && f then DNames r else CIdle) t, [])
          | None => None
          end
      (* req_ref_tracker.rs:149 *)
      | Some (DNames r) => Some (mk_counts (inner s) (delete r (names s)) (<[t := DInner r]> (calls s)), [])
      (* req_ref_tracker.rs:150 *)
      | Some (DInner r) =>
          if free r then Some (mk_counts (delete r (inner s)) (names s) (<[t := CIdle]> (calls s)), []) else None
      (* req_ref_tracker.rs:155-156 *)
      | Some (FNone r) => Some (mk_counts (inner s) (delete r (names s)) (<[t := CIdle]> (calls s)), [])
      (* req_ref_tracker.rs:158 *)
      | Some (FGot r) =>
          if tso then Some (go (FStored r true) t, [])
          else Some (mk_counts (alter (fun x => (x.1, true)) r (inner s)) (names s) (<[t := FStored r false]> (calls s)), [])
      (* req_ref_tracker.rs:160 *)
      | Some (FStored r late) =>
          match inner s !! r with
          | Some (n, _) => Some (go (FLoaded r n late) t, [])
          | None => None
          end
      (* req_ref_tracker.rs:162-164: releasing the lock empties the store buffer *)
      | Some (FLoaded r now false) => Some (go (if (now =? 0)%N then FNames r else CIdle) t, [])
      | Some (FLoaded _ _ true) => None
      (* req_ref_tracker.rs:165 *)
      | Some (FNames r) => Some (mk_counts (inner s) (delete r (names s)) (<[t := FInner r]> (calls s)), [])
      (* req_ref_tracker.rs:166 *)
      | Some (FInner r) =>
          if free r then Some (mk_counts (delete r (inner s)) (names s) (<[t := CIdle]> (calls s)), []) else None
      | Some CIdle | None => None
      end
  end.
(** req_ref_tracker.rs:123-125, with [n] threads and the tabs' names given *)
Definition new_counts (n : nat) : counts := mk_counts ∅ ∅ (replicate n CIdle).
