(** Model of crates/gosub_engine/src/engine/cookies/store.rs, store/in_memory.rs, store/json.rs,
    store/sqlite.rs and persistent_cookie_jar.rs *)
From stdpp Require Import gmap.
From Verif Require Import Text SettingsModel CookieModel.

(** * Saving the JSON file *)
(** A file system as far as [fs::write], [fs::rename] and [fs::read] see it: names point to
    inodes, inodes hold bytes. A process crash keeps both. Directories, permissions and what a
    power failure does to unsynced data are not modelled. *)
Record fsys := mk_fs { names : gmap str nat; data : gmap nat (list N); fresh_ino : nat }.
Definition contents_of (f : fsys) (p : str) : option (list N) := names f !! p ≫= fun i => data f !! i.
(** [File::create]: open with O_CREAT and O_TRUNC *)
Definition create (f : fsys) (p : str) : fsys * nat :=
  match names f !! p with
  | Some i => (mk_fs (names f) (<[i := []]> (data f)) (fresh_ino f), i)
  | None => let i := fresh_ino f in (mk_fs (<[p := i]> (names f)) (<[i := []]> (data f)) (S i), i)
  end.
(** one write(2) at offset [off]: bytes past the end are zero-filled *)
Definition overwrite (d : list N) (off : nat) (b : list N) : list N :=
  take off d ++ replicate (off - length d) 0%N ++ b ++ drop (off + length b) d.
Definition write_at (f : fsys) (i off : nat) (b : list N) : fsys :=
  mk_fs (names f) (alter (fun d => overwrite d off b) i (data f)) (fresh_ino f).
(** rename(2) replaces the target in one step; [None]: the source is gone *)
Definition rename (f : fsys) (p q : str) : option fsys :=
  match names f !! p with
  | Some i => Some (mk_fs (<[q := i]> (delete p (names f))) (data f) (fresh_ino f))
  | None => None
  end.

(** [Path::with_extension] on a path without a trailing separator. *)
Definition file_name (p : str) : str * str :=
  match rsplit_once slash p with Some (d, n) => (d ++ [slash], n) | None => ([], p) end.
Definition with_extension (p ext : str) : str :=
  let (d, n) := file_name p in
  if bool_decide (n = []) || bool_decide (n = txt "..") then p
  else match rsplit_once dot n with
       | Some (a, _) => if bool_decide (a = []) then p ++ [dot] ++ ext else d ++ a ++ [dot] ++ ext
       | None => p ++ [dot] ++ ext
       end.

(** json.rs:119-138 [save_file], one system call at a time. [SStart] has the serialised text. *)
Inductive saving := SStart (bytes : list N) | SWriting (ino off : nat) (rest : list N) | SDone.
Inductive choice := Fail | Go (n : nat).   (** the call fails, or the write takes [S n] bytes *)
Definition tmp_of (p : str) : str := with_extension p (txt "json.tmp").
Definition save_step (p : str) (c : choice) (f : fsys) (s : saving) : fsys * saving :=
  match s, c with
  | SStart b, Go _ => let (f', i) := create f (tmp_of p) in (f', SWriting i 0 b)
  | SWriting i off [], Go _ => match rename f (tmp_of p) p with Some f' => (f', SDone) | None => (f, SDone) end
  | SWriting i off (x :: r), Go n =>
      let b := take (S n) (x :: r) in (write_at f i off b, SWriting i (off + length b) (drop (S n) (x :: r)))
  | _, Fail => (f, SDone)
  | SDone, _ => (f, SDone)
  end.
Fixpoint save_run (p : str) (cs : list choice) (f : fsys) (s : saving) : fsys * saving :=
  match cs with [] => (f, s) | c :: r => let (f', s') := save_step p c f s in save_run p r f' s' end.
(** Several saves at once: each element says which of them takes the next step. *)
Fixpoint save_runs (p : str) (cs : list (nat * choice)) (f : fsys) (ss : list saving) : fsys * list saving :=
  match cs with
  | [] => (f, ss)
  | (k, c) :: r =>
      match ss !! k with
      | Some s => let (f', s') := save_step p c f s in save_runs p r f' (<[k := s']> ss)
      | None => save_runs p r f ss
      end
  end.

(** json.rs:75-79 in [new]: an absent file is created by one [fs::write] of the empty structure. *)
Inductive creating := NStart (bytes : list N) | NWriting (ino off : nat) (rest : list N) | NDone.
Definition create_step (p : str) (c : choice) (f : fsys) (s : creating) : fsys * creating :=
  match s, c with
  | NStart b, Go _ => let (f', i) := create f p in (f', NWriting i 0 b)
  | NWriting i off [], Go _ => (f, NDone)
  | NWriting i off (x :: r), Go n =>
      let b := take (S n) (x :: r) in (write_at f i off b, NWriting i (off + length b) (drop (S n) (x :: r)))
  | _, Fail => (f, NDone)
  | NDone, _ => (f, NDone)
  end.
Fixpoint create_run (p : str) (cs : list choice) (f : fsys) (s : creating) : fsys * creating :=
  match cs with [] => (f, s) | c :: r => let (f', s') := create_step p c f s in create_run p r f' s' end.

Section json.
  (** serde_json on [CookieStoreFile]; [parse] also covers [read_to_string]'s UTF-8 check *)
  Context {zones : Type} (empty_zones : zones) (parse : list N -> option zones).
  (** json.rs:99-114 [load_file] *)
  Definition load_file (f : fsys) (p : str) : zones :=
    match contents_of f p with
    | None => empty_zones
    | Some b => default empty_zones (parse b)
    end.
End json.

(** * Stores shared between threads *)
(** Jars are opaque here: [empty] is a new jar, [reload] what a store gives back of a saved jar
    (all of it for JSON, see [sql_load] below for SQLite). Zones, handles and threads are numbers;
    a handle is the address of an [Arc]. *)
Inductive backend := InMemory | Json | Sqlite.
Global Instance backend_eq_dec : EqDecision backend.
Proof. solve_decision. Defined.

Section store.
  Context {J : Type} (empty : J) (reload : J -> J) (bk : backend).

  Inductive call :=
  | CGet (z : N)              (** [jar_for] *)
  | CWrite (h : N) (f : J -> J)  (** a mutating method of the jar behind handle [h] *)
  | CRelease (z : N) | CRemove (z : N) | CPersistAll.

  (** Where a thread is inside a call, between two atomic steps. *)
  Inductive pc :=
  | Missed (z : N)                      (** store.rs:197-201: not in the cache, about to load *)
  | Loaded (z : N) (j : J)              (** store.rs:211-216: about to take the write lock *)
  | Persisting (lk : option N) (z : N) (j : J)  (** about to persist snapshot [j], holding the write lock of a handle or none *)
  | Saving (lk : option N) (z : N) (j : option J) (file : gmap N J)  (** json.rs:165-166, 180-182: file read and changed, about to be replaced *)
  | Evicting (z h : N)                  (** store.rs:232: out of the cache, about to be read *)
  | Removing (z : N)                    (** json.rs:178, sqlite.rs:285 *)
  | AllJson (todo : list (N * N)) (file : gmap N J)  (** json.rs:191-197, holding the cache's read lock *)
  | AllSql (todo : list (N * N)).       (** sqlite.rs:294-295, holding the cache's read lock *)

  (** What happened, oldest first; observation only. *)
  Inductive event :=
  | Got (z h : N)            (** [jar_for z] obtained [h] *)
  | Made (h z : N) (j : J)   (** [h] was created for [z] with contents [j] *)
  | Wrote (h : N) (f : J -> J)
  | Gone (z : N)             (** the cache entry of [z] was dropped by release or remove *)
  | Saved (z : N) (j : J) | Deleted (z : N).

  Record state := mk_state {
    cache : gmap N N;             (** [jars] *)
    heap : gmap N (N * J);        (** handle -> zone and contents of the jar *)
    disk : gmap N J;              (** the persisted jars *)
    locked : gset N;              (** handles whose write lock is held *)
    threads : gmap N pc;          (** threads inside a call *)
    next : N;                     (** next unused address *)
    log : list event }.
  Definition init (d : gmap N J) : state := mk_state ∅ ∅ d ∅ ∅ 0 [].

  Definition set_thread (t : N) (p : option pc) (s : state) : state :=
    mk_state (cache s) (heap s) (disk s) (locked s)
      (match p with Some p => <[t := p]> (threads s) | None => delete t (threads s) end) (next s) (log s).
  Definition note (e : event) (s : state) : state :=
    mk_state (cache s) (heap s) (disk s) (locked s) (threads s) (next s) (log s ++ [e]).
  Definition set_disk (d : gmap N J) (s : state) : state :=
    mk_state (cache s) (heap s) d (locked s) (threads s) (next s) (log s).
  Definition set_cache (c : gmap N N) (s : state) : state :=
    mk_state c (heap s) (disk s) (locked s) (threads s) (next s) (log s).
  Definition set_jar (h z : N) (j : J) (s : state) : state :=
    mk_state (cache s) (<[h := (z, j)]> (heap s)) (disk s) (locked s) (threads s) (next s) (log s).
  Definition lock_jar (h : N) (s : state) : state :=
    mk_state (cache s) (heap s) (disk s) ({[h]} ∪ locked s) (threads s) (next s) (log s).
  Definition unlock_jar (o : option N) (s : state) : state :=
    match o with
    | Some h => mk_state (cache s) (heap s) (disk s) (locked s ∖ {[h]}) (threads s) (next s) (log s)
    | None => s
    end.
  (** The cache's read lock is held exactly by [persist_all]. *)
  Definition cache_held (s : state) : bool :=
    existsb (fun tp => match tp.2 with AllJson _ _ | AllSql _ => true | _ => false end) (map_to_list (threads s)).

  (** A new jar for [z] in the cache: in_memory.rs:36-40, store.rs:205,217-218 *)
  Definition provision (z : N) (j : J) (s : state) : state :=
    let h := next s in
    note (Got z h) (note (Made h z j)
      (mk_state (<[z := h]> (cache s)) (<[h := (z, j)]> (heap s)) (disk s) (locked s) (threads s) (h + 1) (log s))).
  (** json.rs:155-157 and sqlite.rs:262-265: what [load] gives for a zone *)
  Definition load (s : state) (z : N) : J := match disk s !! z with Some j => reload j | None => empty end.

  (** The first step of a call by an idle thread; [None]: it has to wait (or the thread is busy). *)
  Definition begin (s : state) (t : N) (c : call) : option state :=
    match threads s !! t with
    | Some _ => None
    | None =>
      match c with
      | CGet z =>
          match cache s !! z, bk with
          | Some h, InMemory => if cache_held s then None else Some (note (Got z h) s)
          | Some h, _ => Some (note (Got z h) s)
          | None, InMemory => if cache_held s then None else Some (provision z empty s)
          | None, _ => Some (set_thread t (Some (Missed z)) s)
          end
      | CWrite h f =>   (** persistent_cookie_jar.rs:55-58 etc. *)
          if bool_decide (h ∈ locked s) then None else
          match heap s !! h with
          | None => None
          | Some (z, j) =>
              let s' := note (Wrote h f) (set_jar h z (f j) s) in
              match bk with
              | InMemory => Some s'
              | _ => Some (set_thread t (Some (Persisting (Some h) z (f j))) (lock_jar h s'))
              end
          end
      | CRelease z =>   (** in_memory.rs:50-52; store.rs:231 *)
          if cache_held s then None else
          let s' := note (Gone z) (set_cache (delete z (cache s)) s) in
          match cache s !! z, bk with
          | Some h, Json | Some h, Sqlite => Some (set_thread t (Some (Evicting z h)) s')
          | _, _ => Some s'
          end
      | CRemove z =>    (** in_memory.rs:45-47; json.rs:176; sqlite.rs:284 *)
          if cache_held s then None else
          let s' := note (Gone z) (set_cache (delete z (cache s)) s) in
          match bk with InMemory => Some s' | _ => Some (set_thread t (Some (Removing z)) s') end
      | CPersistAll =>  (** the hash map is walked in the order of [map_to_list]; the result does not depend on it *)
          match bk with
          | InMemory => Some s
          | Json => Some (set_thread t (Some (AllJson (map_to_list (cache s)) (disk s))) s)
          | Sqlite => Some (set_thread t (Some (AllSql (map_to_list (cache s)))) s)
          end
      end
    end.

  (** The next step of a thread inside a call. Reading and replacing the JSON file and an SQLite
      transaction are single steps; I/O errors are not modelled here. *)
  Definition advance (s : state) (t : N) : option state :=
    match threads s !! t with
    | None => None
    | Some (Missed z) => Some (set_thread t (Some (Loaded z (load s z))) s)
    | Some (Loaded z j) =>
        if cache_held s then None else
        match cache s !! z with
        | Some h => Some (set_thread t None (note (Got z h) s))
        | None => Some (set_thread t None (provision z j s))
        end
    | Some (Persisting l z j) =>
        match bk with
        | Json => Some (set_thread t (Some (Saving l z (Some j) (<[z := j]> (disk s)))) s)
        | _ => Some (set_thread t None (unlock_jar l (note (Saved z j) (set_disk (<[z := j]> (disk s)) s))))
        end
    | Some (Saving l z j file) =>
        Some (set_thread t None (unlock_jar l (note (match j with Some j => Saved z j | None => Deleted z end) (set_disk file s))))
    | Some (Evicting z h) =>
        if bool_decide (h ∈ locked s) then None else
        match heap s !! h with
        | Some (z', j) => Some (set_thread t (Some (Persisting None z j)) s)
        | None => None
        end
    | Some (Removing z) =>
        match bk with
        | Json => Some (set_thread t (Some (Saving None z None (delete z (disk s)))) s)
        | _ => Some (set_thread t None (note (Deleted z) (set_disk (delete z (disk s)) s)))
        end
    | Some (AllJson [] file) => Some (set_thread t None (set_disk file s))
    | Some (AllJson ((z, h) :: r) file) =>
        if bool_decide (h ∈ locked s) then None else
        match heap s !! h with
        | Some (z', j) => Some (set_thread t (Some (AllJson r (<[z := j]> file))) s)
        | None => None
        end
    | Some (AllSql []) => Some (set_thread t None s)
    | Some (AllSql ((z, h) :: r)) =>
        if bool_decide (h ∈ locked s) then None else
        match heap s !! h with
        | Some (z', j) => Some (set_thread t (Some (AllSql r)) (note (Saved z j) (set_disk (<[z := j]> (disk s)) s)))
        | None => None
        end
    end.

  Inductive action := Begin (t : N) (c : call) | Advance (t : N).
  Definition act (s : state) (a : action) : option state :=
    match a with Begin t c => begin s t c | Advance t => advance s t end.
  (** A schedule; [None] when some step of it cannot be taken. *)
  Fixpoint exec (s : state) (l : list action) : option state :=
    match l with
    | [] => Some s
    | a :: r => match act s a with Some s' => exec s' r | None => None end
    end.
End store.

(** * The SQLite table *)
(** sqlite.rs:88-102: a row; the key is (zone, origin, name, path, domain), where SQLite takes NULLs
    as distinct. Column conversions (bool to INTEGER and back) are exact and left out. *)
Definition row : Type := N * str * cookie.
Definition row_key (r : row) : option (N * str * str * str * str) :=
  match c_path r.2, c_domain r.2 with
  | Some p, Some d => Some (r.1.1, r.1.2, c_name r.2, p, d)
  | _, _ => None
  end.
(** INSERT fails when another row has the same key. *)
Fixpoint insert_rows (t : list row) (rs : list row) : option (list row) :=
  match rs with
  | [] => Some t
  | r :: rest =>
      if bool_decide (Exists (fun x => row_key x = row_key r /\ row_key r <> None) t) then None
      else insert_rows (t ++ [r]) rest
  end.
(** sqlite.rs:183-231 [save_zone]: one transaction, rolled back if an INSERT fails. [order] is the
    jar's hash map as it is walked. *)
Definition zone_rows (z : N) (order : list (str * list cookie)) : list row :=
  flat_map (fun b => map (fun c => (z, b.1, c)) b.2) order.
Definition save_zone (t : list row) (z : N) (order : list (str * list cookie)) : list row :=
  match insert_rows (filter (fun r => r.1.1 <> z) t) (zone_rows z order) with
  | Some t' => t'
  | None => t
  end.
(** sqlite.rs:134-177 [load_zone]: [rows] is what the SELECT gives, in whatever order SQLite has it. *)
Fixpoint group (rows : list row) (m : gmap str (list cookie)) : gmap str (list cookie) :=
  match rows with
  | [] => m
  | (_, o, c) :: r => group r (<[o := default [] (m !! o) ++ [c]]> m)
  end.
Definition load_zone (rows : list row) (now : Z) : jar := purge_expired (mk_jar (group rows ∅) Allow) now.
(** sqlite.rs:238-245 *)
Definition remove_zone_rows (t : list row) (z : N) : list row := filter (fun r => r.1.1 <> z) t.
