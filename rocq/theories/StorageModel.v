(** Model of crates/gosub_engine/src/engine/storage/: types.rs, service.rs, local/in_memory.rs,
    local/sqlite_store.rs, session/in_memory.rs *)
From stdpp Require Import gmap.
From Verif Require Import Text SettingsModel.

(** * Names of areas *)
(** [url::Origin]; a tuple is scheme, host as printed, port *)
Inductive origin := Tuple (scheme host : str) (port : N) | Opaque (id : N).
Inductive part := PNone | TopLevel (o : origin) | Custom (s : str).          (** types.rs:6-14 [PartitionKey] *)
Global Instance origin_eq_dec : EqDecision origin.
Proof. solve_decision. Defined.
Global Instance part_eq_dec : EqDecision part.
Proof. solve_decision. Defined.
Global Instance origin_countable : Countable origin.
Proof.
  apply (inj_countable' (fun o => match o with Tuple s h p => inl (s, h, p) | Opaque i => inr i end)
    (fun x => match x with inl (s, h, p) => Tuple s h p | inr i => Opaque i end)). by intros [].
Defined.
Global Instance part_countable : Countable part.
Proof.
  apply (inj_countable' (fun p => match p with PNone => inl (inl ()) | TopLevel o => inl (inr o) | Custom s => inr s end)
    (fun x => match x with inl (inl _) => PNone | inl (inr o) => TopLevel o | inr s => Custom s end)). by intros [].
Defined.

(** The [url] crate's [Origin::ascii_serialization] and [default_port]. *)
Definition default_port (scheme : str) : option N :=
  if bool_decide (scheme = txt "http") then Some 80%N
  else if bool_decide (scheme = txt "https") then Some 443%N
  else if bool_decide (scheme = txt "ws") then Some 80%N
  else if bool_decide (scheme = txt "wss") then Some 443%N
  else if bool_decide (scheme = txt "ftp") then Some 21%N else None.
Definition ascii_serialization (o : origin) : str :=
  match o with
  | Opaque _ => txt "null"
  | Tuple s h p => s ++ txt "://" ++ h ++ (if bool_decide (default_port s = Some p) then [] else txt ":" ++ show_N p)
  end.
(** sqlite_store.rs:53-57 and session/in_memory.rs:32-36 *)
Definition part_text (p : part) : str :=
  match p with PNone => [] | TopLevel o => txt "top:" ++ ascii_serialization o | Custom s => s end.

(** What [local_for] and [session_for] are asked for. Zone and tab ids are numbers for UUIDs. *)
Inductive area := Local (z : N) (p : part) (o : origin) | Session (z t : N) (p : part) (o : origin).
Global Instance area_eq_dec : EqDecision area.
Proof. solve_decision. Defined.

(** * The stores *)
Inductive backend := InMemory | Sqlite.           (** which [LocalStore] the service was given *)
(** The [StorageArea] behind a handle: a shared map (local/in_memory.rs:38-41; by number, as an
    [Arc] is), a row prefix (sqlite_store.rs:63-68), or a key of the session map
    (session/in_memory.rs:56-59). *)
Inductive inner := IMem (i : nat) | ISql (z : N) (p o : str) | ISess (k : N * N * str * str).
(** service.rs:112-120 [NotifyingArea]; zone, partition, origin, source tab and scope are the [area]. *)
Record handle := mk_handle { h_inner : inner; h_area : area }.
(** event.rs:12-23 [StorageEvent]: zone, partition, origin, source tab and scope are the [area];
    [source_tab] is [None] exactly for local areas (service.rs:64-85). *)
Record event := mk_event { e_area : area; e_key : option str; e_old : option str; e_new : option str }.

Record stores := mk_stores {
  areas : gmap (N * part * origin) nat;            (** local/in_memory.rs:9 *)
  maps : list (gmap str str);
  rows : gmap (N * str * str * str) str;           (** sqlite_store.rs:26-34; the primary key makes it a map *)
  sessions : gmap (N * N * str * str) (gmap str str)   (** session/in_memory.rs:11-12 *)
}.
Definition set_maps m (s : stores) := mk_stores (areas s) m (rows s) (sessions s).
Definition set_rows r (s : stores) := mk_stores (areas s) (maps s) r (sessions s).
Definition set_sessions m (s : stores) := mk_stores (areas s) (maps s) (rows s) m.

(** local/in_memory.rs:25-33, sqlite_store.rs:48-60, session/in_memory.rs:28-48 [area] *)
Definition open_area (bk : backend) (a : area) (s : stores) : stores * inner :=
  match a with
  | Local z p o =>
      match bk with
      | InMemory => match areas s !! (z, p, o) with
                    | Some i => (s, IMem i)
                    | None => let i := length (maps s) in
                              (mk_stores (<[(z, p, o) := i]> (areas s)) (maps s ++ [∅]) (rows s) (sessions s), IMem i)
                    end
      | Sqlite => (s, ISql z (part_text p) (ascii_serialization o))
      end
  | Session z t p o =>
      let k := (z, t, part_text p, ascii_serialization o) in
      (set_sessions (<[k := default ∅ (sessions s !! k)]> (sessions s)) s, ISess k)
  end.
(** session/in_memory.rs:50-53 [drop_tab] *)
Definition drop_tab (z t : N) (s : stores) : stores :=
  set_sessions (filter (fun kv => ~ (kv.1.1.1.1 = z /\ kv.1.1.1.2 = t)) (sessions s)) s.

(** [get_item]: local/in_memory.rs:44-46, sqlite_store.rs:77-85, session/in_memory.rs:62-64. With
    SQLite, [fails] (no connection, busy database) gives [None]. *)
Definition get_item (fails : bool) (i : inner) (k : str) (s : stores) : option str :=
  match i with
  | IMem n => maps s !! n ≫= fun m => m !! k
  | ISql z p o => if fails then None else rows s !! (z, p, o, k)
  | ISess key => sessions s !! key ≫= fun m => m !! k
  end.
(** [set_item]: local/in_memory.rs:48-51, sqlite_store.rs:87-96, session/in_memory.rs:66-74.
    [None] is an error; a missing session map ignores the write. *)
Definition set_item (fails : bool) (i : inner) (k v : str) (s : stores) : option stores :=
  match i with
  | IMem n => Some (set_maps (alter (fun m => <[k := v]> m) n (maps s)) s)
  | ISql z p o => if fails then None else Some (set_rows (<[(z, p, o, k) := v]> (rows s)) s)
  | ISess key => Some (set_sessions (alter (fun m => <[k := v]> m) key (sessions s)) s)
  end.
(** [remove_item]: local/in_memory.rs:53-56, sqlite_store.rs:98-105, session/in_memory.rs:76-79 *)
Definition remove_item (fails : bool) (i : inner) (k : str) (s : stores) : option stores :=
  match i with
  | IMem n => Some (set_maps (alter (fun m => delete k m) n (maps s)) s)
  | ISql z p o => if fails then None else Some (set_rows (delete (z, p, o, k) (rows s)) s)
  | ISess key => Some (set_sessions (alter (fun m => delete k m) key (sessions s)) s)
  end.
(** [clear]: local/in_memory.rs:58-61, sqlite_store.rs:107-114, session/in_memory.rs:81-87 *)
Definition clear (fails : bool) (i : inner) (s : stores) : option stores :=
  match i with
  | IMem n => Some (set_maps (alter (fun _ => ∅) n (maps s)) s)
  | ISql z p o => if fails then None else Some (set_rows (filter (fun kv => ~ (kv.1.1.1.1 = z /\ kv.1.1.1.2 = p /\ kv.1.1.2 = o)) (rows s)) s)
  | ISess key => Some (set_sessions (alter (fun _ => ∅) key (sessions s)) s)
  end.
(** [keys]: local/in_memory.rs:67-71, sqlite_store.rs:131-152, session/in_memory.rs:93-99. The first
    two sort; here the order is left open, like the hash map's. *)
Definition keys (fails : bool) (i : inner) (s : stores) : list str :=
  match i with
  | IMem n => map fst (map_to_list (default ∅ (maps s !! n)))
  | ISql z p o => if fails then []
      else omap (fun kv => if bool_decide (kv.1.1.1.1 = z /\ kv.1.1.1.2 = p /\ kv.1.1.2 = o) then Some kv.1.2 else None) (map_to_list (rows s))
  | ISess key => map fst (map_to_list (default ∅ (sessions s !! key)))
  end.
(** [len]: local/in_memory.rs:63-65, sqlite_store.rs:116-129, session/in_memory.rs:89-91. The row
    count is read as a [u32]; tables that large are not modelled. *)
Definition len (fails : bool) (i : inner) (s : stores) : nat :=
  match i with
  | IMem n => size (default ∅ (maps s !! n))
  | ISql z p o => if fails then 0 else size (filter (fun kv => kv.1.1.1.1 = z /\ kv.1.1.1.2 = p /\ kv.1.1.2 = o) (rows s))
  | ISess key => size (default ∅ (sessions s !! key))
  end.

(** * The service shared by threads *)
(** Every call on an inner area holds that store's lock, or is one SQL statement, so it is one step;
    a notifying handle makes up to three of them (service.rs:123-176). *)
Inductive call :=
| COpen (a : area)                                (** service.rs:64-91 [local_for], [session_for] *)
| CGet (h : nat) (k : str) | CSet (h : nat) (k v : str) | CRemove (h : nat) (k : str) | CClear (h : nat)
| CKeys (h : nat) | CLen (h : nat)
| CDrop (z t : N).                                (** service.rs:93-95 [drop_tab] *)
Inductive pc :=
| Setting (h : handle) (k v : str) (old : option str)    (** service.rs:128 the inner [set_item] is next *)
| Removing (h : handle) (k : str) (old : option str)     (** service.rs:143 the inner [remove_item] is next *)
| Publishing (e : event).                                (** service.rs:129-138, 144-153, 158-167 [publish] is next *)
(** What happened, in order. *)
Inductive entry :=
| Opened (a : area) | Read (a : area) (k : str) (r : option str) | Listed (a : area) (r : list str) | Counted (a : area) (r : nat)
| Stored (a : area) (k v : str) | Removed (a : area) (k : str) | Cleared (a : area) | Dropped (z t : N)
| Published (e : event).

Record state := mk_state { st : stores; handles : list handle; threads : gmap N pc; log : list entry }.
Definition start (r : gmap (N * str * str * str) str) : state := mk_state (mk_stores ∅ [] r ∅) [] ∅ [].
Definition note (e : entry) (s : state) := mk_state (st s) (handles s) (threads s) (log s ++ [e]).
Definition set_st x (s : state) := mk_state x (handles s) (threads s) (log s).
Definition go_on (t : N) (p : pc) (s : state) := mk_state (st s) (handles s) (<[t := p]> (threads s)) (log s).
Definition finish (t : N) (s : state) := mk_state (st s) (handles s) (delete t (threads s)) (log s).
Definition add_handle (h : handle) (s : state) := mk_state (st s) (handles s ++ [h]) (threads s) (log s).

(** The first step of a call; [None] if the thread is busy or the handle does not exist. *)
Definition begin (bk : backend) (t : N) (c : call) (fails : bool) (s : state) : option state :=
  match threads s !! t with
  | Some _ => None
  | None =>
      match c with
      | COpen a => let (x, i) := open_area bk a (st s) in Some (note (Opened a) (add_handle (mk_handle i a) (set_st x s)))
      | CGet n k => h ← handles s !! n; Some (note (Read (h_area h) k (get_item fails (h_inner h) k (st s))) s)
      | CSet n k v => h ← handles s !! n; Some (go_on t (Setting h k v (get_item fails (h_inner h) k (st s))) s)
      | CRemove n k => h ← handles s !! n; Some (go_on t (Removing h k (get_item fails (h_inner h) k (st s))) s)
      | CClear n => h ← handles s !! n;
          match clear fails (h_inner h) (st s) with
          | Some x => Some (note (Cleared (h_area h)) (go_on t (Publishing (mk_event (h_area h) None None None)) (set_st x s)))
          | None => Some s
          end
      | CKeys n => h ← handles s !! n; Some (note (Listed (h_area h) (keys fails (h_inner h) (st s))) s)
      | CLen n => h ← handles s !! n; Some (note (Counted (h_area h) (len fails (h_inner h) (st s))) s)
      | CDrop z tab => Some (note (Dropped z tab) (set_st (drop_tab z tab (st s)) s))
      end
  end.
Definition advance (t : N) (fails : bool) (s : state) : option state :=
  p ← threads s !! t;
  match p with
  | Setting h k v old =>
      match set_item fails (h_inner h) k v (st s) with
      | Some x => Some (note (Stored (h_area h) k v) (go_on t (Publishing (mk_event (h_area h) (Some k) old (Some v))) (set_st x s)))
      | None => Some (finish t s)
      end
  | Removing h k old =>
      match remove_item fails (h_inner h) k (st s) with
      | Some x => Some (note (Removed (h_area h) k) (go_on t (Publishing (mk_event (h_area h) (Some k) old None)) (set_st x s)))
      | None => Some (finish t s)
      end
  | Publishing e => Some (note (Published e) (finish t s))
  end.
Inductive action := Begin (t : N) (c : call) (fails : bool) | Advance (t : N) (fails : bool).
Definition act (bk : backend) (s : state) (x : action) : option state :=
  match x with Begin t c f => begin bk t c f s | Advance t f => advance t f s end.
Fixpoint exec (bk : backend) (s : state) (l : list action) : option state :=
  match l with [] => Some s | x :: r => s' ← act bk s x; exec bk s' r end.
