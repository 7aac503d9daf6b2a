(** Model of the store of images and drawings of a page
    (crates/gosub_render_pipeline/src/common/media/media_store.rs), used by the layout of pages, by background threads
    that load images, and by the engine that asks whether a page has to be laid out again (engine/context.rs:360). Every
    access to a locked or atomic field is one step, and steps of all callers and threads interleave in any order.

    Simplifications: a SHA-256 hash is the text that is hashed (no collisions); as in the code, sources and data share
    one space of hashes. Pictures are numbers. [u64] ids do not run out. What the network, and the decoding of what it
    sends, answer to a load is a choice made at each load; decoding of inline data is a function given as an argument.
    A decoder that panics in a background thread is not modelled. Not modelled: [svg_raster_tile], [update_svg] (no
    caller), [get] and its variants. *)
From stdpp Require Import numbers option list gmap.
From Verif Require Import Base.
Local Open Scope N_scope.

Notation key := (list N).
(** media_store.rs:29-45: the fields [entries], [cache], [pending], [completed], [next_id]. An entry has the text it was
    loaded for ([Media::image(src, ..)], 135-141) and its picture. *)
Record store := mk_store {
  entries : gmap N (key * N); cache : gmap key N; pending : gset key; completed : bool; next_id : N }.
(** media_store.rs:12-14 *)
Definition DEFAULT_SVG_ID : N := 0.
Definition DEFAULT_IMAGE_ID : N := 1.
Definition FIRST_FREE_IMAGE_ID : N := 100.
(** media_store.rs:56-92; the pictures of the placeholders are 0 and 1 *)
Definition new_store : store :=
  mk_store {[DEFAULT_SVG_ID := ([], 0); DEFAULT_IMAGE_ID := ([], 1)]} ∅ ∅ false FIRST_FREE_IMAGE_ID.

(** The calls: [request_media], [load_media], [load_media_from_data]. *)
Inductive call := Request (s : key) | Load (s : key) | Data (d : key).
(** What is seen from outside: calls, their answers, loads and what they gave, background loads that are over, and
    answers of [take_completed]. *)
Inductive event :=
  | Asked (c : call) | Ready (s : key) (i : N) | Pending (s : key) | SpawnFailed (s : key)
  | Fetched (s : key) (r : option N) | Loaded (s : key) (i : N) | Raised (s : key)
  | Decoded (d : key) (m : N) | DataLoaded (d : key) (i : N) | Took (b : bool).
(** Where a caller or a thread is. [w] tells a background thread from a caller of [load_media]. *)
Inductive pc :=
  | RqCheck (s : key) | RqInsert (s : key) | RqSpawn (s : key) | RqUndo (s : key)
  | LdCheck (w : bool) (s : key) | LdFetch (w : bool) (s : key) | LdFail (w : bool) (s : key)
  | LdAlloc (w : bool) (s : key) (m : N) | LdStore (w : bool) (s : key) (m i : N) | LdCache (w : bool) (s : key) (i : N)
  | WkClear (s : key) | WkFlag (s : key)
  | DtCheck (d : key) | DtAlloc (d : key) (m : N) | DtStore (d : key) (m i : N) | DtCache (d : key) (i : N)
  | Done.
(** What the world chooses at a step: whether a thread can be spawned, and what a load gives. *)
Record wish := mk_wish { w_spawn : bool; w_fetch : option N }.

(** [pending.write()], media_store.rs:107, 117 and 123 *)
Definition set_pending (f : gset key -> gset key) (σ : store) : store :=
  mk_store (entries σ) (cache σ) (f (pending σ)) (completed σ) (next_id σ).
(** [completed.store] and [swap], media_store.rs:118 and 132 *)
Definition set_completed (b : bool) (σ : store) : store := mk_store (entries σ) (cache σ) (pending σ) b (next_id σ).
(** [cache.entry(h).or_insert(id)], 165 and 172 *)
Definition or_insert (s : key) (i : N) (σ : store) : store :=
  match cache σ !! s with
  | Some _ => σ
  | None => mk_store (entries σ) (<[s := i]> (cache σ)) (pending σ) (completed σ) (next_id σ)
  end.
(** [cache.insert(h, id)], 197 *)
Definition cache_insert (s : key) (i : N) (σ : store) : store :=
  mk_store (entries σ) (<[s := i]> (cache σ)) (pending σ) (completed σ) (next_id σ).
(** [entries.write().insert(id, media)], 196 and 238 *)
Definition enter (i : N) (e : key * N) (σ : store) : store :=
  mk_store (<[i := e]> (entries σ)) (cache σ) (pending σ) (completed σ) (next_id σ).
(** media_store.rs:52-54 *)
Definition bump (σ : store) : store := mk_store (entries σ) (cache σ) (pending σ) (completed σ) (next_id σ + 1).
(** The end of [load_media] with the answer [i]: a caller has it (151, 166, 174); a background thread drops it and goes
    on at 117. *)
Definition finish (w : bool) (s : key) (i : N) : pc * option event :=
  if w then (WkClear s, None) else (Done, Some (Loaded s i)).

(** One step. *)
Definition step_pc (decode : key -> option N) (p : pc) (x : wish) (σ : store) : store * (pc * option event) :=
  match p with
  (** request_media, media_store.rs:99-127. The answer [Pending] is certain at line 107. When the thread has been
      spawned (112) the caller has nothing left to do but return, so its place is taken by the thread. *)
  | RqCheck s => (σ, match cache σ !! s with Some i => (Done, Some (Ready s i)) | None => (RqInsert s, None) end)
  | RqInsert s =>
      if decide (s ∈ pending σ) then (σ, (Done, Some (Pending s)))
      else (set_pending (fun p => {[s]} ∪ p) σ, (RqSpawn s, Some (Pending s)))
  | RqSpawn s => (σ, if w_spawn x then (LdCheck true s, None) else (RqUndo s, Some (SpawnFailed s)))
  | RqUndo s => (set_pending (fun p => p ∖ {[s]}) σ, (Done, None))
  (** load_media, media_store.rs:146-175, with load_media_from_source, 226-241 *)
  | LdCheck w s => (σ, match cache σ !! s with Some i => finish w s i | None => (LdFetch w s, None) end)
  | LdFetch w s =>
      (σ, (match w_fetch x with Some m => LdAlloc w s m | None => LdFail w s end, Some (Fetched s (w_fetch x))))
  | LdFail w s => (or_insert s DEFAULT_IMAGE_ID σ, finish w s DEFAULT_IMAGE_ID)
  | LdAlloc w s m => (bump σ, (LdStore w s m (next_id σ), None))
  | LdStore w s m i => (enter i (s, m) σ, (LdCache w s i, None))
  | LdCache w s i => (or_insert s i σ, finish w s i)
  (** the background thread after the load, media_store.rs:117-118 *)
  | WkClear s => (set_pending (fun p => p ∖ {[s]}) σ, (WkFlag s, None))
  | WkFlag s => (set_completed true σ, (Done, Some (Raised s)))
  (** load_media_from_data, media_store.rs:177-200 *)
  | DtCheck d =>
      (σ, match cache σ !! d with
          | Some i => (Done, Some (DataLoaded d i))
          | None => match decode d with Some m => (DtAlloc d m, Some (Decoded d m)) | None => (Done, None) end
          end)
  | DtAlloc d m => (bump σ, (DtStore d m (next_id σ), None))
  | DtStore d m i => (enter i (d, m) σ, (DtCache d i, None))
  | DtCache d i => (cache_insert d i σ, (Done, Some (DataLoaded d i)))
  | Done => (σ, (Done, None))
  end.

(** The store with all callers and threads, and all that has been seen, oldest first. *)
Record machine := mk_machine { shared : store; threads : list pc; trace : list event }.
(** The entries of the three functions: media_store.rs:99, 146, 177 *)
Definition start (c : call) : pc :=
  match c with Request s => RqCheck s | Load s => LdCheck false s | Data d => DtCheck d end.
(** A new call, a step of the [k]-th caller or thread, or [take_completed] (media_store.rs:131-133). *)
Inductive action := Call (c : call) | Run (k : nat) (x : wish) | Take.
Definition exec (decode : key -> option N) (M : machine) (a : action) : machine :=
  match a with
  | Call c => mk_machine (shared M) (threads M ++ [start c]) (trace M ++ [Asked c])
  | Run k x =>
      match threads M !! k with
      | Some p =>
          let '(σ, (p', ev)) := step_pc decode p x (shared M) in
          mk_machine σ (<[k := p']> (threads M)) (trace M ++ option_list ev)
      | None => M
      end
  | Take => mk_machine (set_completed false (shared M)) (threads M) (trace M ++ [Took (completed (shared M))])
  end.
(** All schedules of all calls. *)
Definition run (decode : key -> option N) (acts : list action) : machine :=
  foldl (exec decode) (mk_machine new_store [] []) acts.
