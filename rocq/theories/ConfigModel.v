(** Model of crates/gosub_config/src/lib.rs and storage/*.rs *)
From stdpp Require Import gmap.
From Verif Require Import Base SettingsModel.

Section config.
  Context {fo : float_ops} (is_bool_value : str -> bool).

  (** settings.rs:334-343 [SettingInfo] *)
  Record info := mk_info {
    i_key : str; i_desc : str; i_default : setting; i_constraint : option constraint }.

  (** lib.rs:57-61 [Subscription]; the callback is identified by the subscription id *)
  Record sub := mk_sub { sub_id : N; sub_pat : str }.

  (** lib.rs:264-276 [ConfigStore]. The storage adapter is its map of saved settings; a call to
      it may fail, see [ok] below. *)
  Record store := mk_store {
    settings : gmap str setting;
    infos : gmap str info;
    keys : list str;
    storage : gmap str setting;
    subs : list sub;
    next_sub : N }.

  Definition with_settings (s : store) m := mk_store m (infos s) (keys s) (storage s) (subs s) (next_sub s).
  Definition with_storage (s : store) m := mk_store (settings s) (infos s) (keys s) m (subs s) (next_sub s).

  (** lib.rs:281-299 [ConfigStore::new] *)
  Definition add_info (s : store) (i : info) : store :=
    mk_store (<[i_key i := i_default i]> (settings s)) (<[i_key i := i]> (infos s))
      (keys s ++ [i_key i]) (storage s) (subs s) (next_sub s).
  Definition new (schema : list info) : store :=
    foldl add_info (mk_store ∅ ∅ [] ∅ [] 0) schema.

  (** lib.rs:304-313 [set_storage]; [all_ok] is whether [storage.all()] succeeds *)
  Definition set_storage (s : store) (m : gmap str setting) (all_ok : bool) : store :=
    with_storage (if all_ok then with_settings s (m ∪ settings s) else s) m.

  (** lib.rs:316-318 [has] *)
  Definition has (s : store) (k : str) : bool := bool_decide (is_Some (settings s !! k)).

  (** the wildmatch crate: [*] (42) any sequence, [?] (63) any one character *)
  Fixpoint glob (p : str) : str -> bool :=
    match p with
    | [] => fun s => match s with [] => true | _ => false end
    | c :: p' =>
        if (c =? 42)%N then
          fix go (s : str) : bool := glob p' s || match s with [] => false | _ :: s' => go s' end
        else fun s =>
          match s with
          | [] => false
          | d :: s' => ((c =? 63)%N || (c =? d)%N) && glob p' s'
          end
    end.

  (** lib.rs:322-334 [find] *)
  Definition find (s : store) (pat : str) : list str := filter (fun k => glob pat k = true) (keys s).

  (** What a call returns: [Err], or [Ok v]. *)
  Inductive reply (A : Type) := RErr | ROk (a : A).
  Global Arguments RErr {A}.
  Global Arguments ROk {A} _.

  (** lib.rs:344-361 [get]; [ok] is whether the storage call, if made, succeeds *)
  Definition get (s : store) (k : str) (ok : bool) : store * reply (option setting) :=
    match settings s !! k with
    | Some v => (s, ROk (Some v))
    | None =>
        if negb ok then (s, RErr)
        else match storage s !! k with
             | Some v => (with_settings s (<[k := v]> (settings s)), ROk (Some v))
             | None => (s, ROk (i_default <$> infos s !! k))
             end
    end.

  Definition changed_to (s : store) (k : str) (v : setting) : bool :=
    match settings s !! k with Some old => negb (setting_eqb old v) | None => true end.

  (** the checks of lib.rs:368-393 *)
  Definition accepted (s : store) (k : str) (v : setting) : bool :=
    match infos s !! k with
    | None => false
    | Some i => (kind (i_default i) =? kind v) &&
                match i_constraint i with None => true | Some c => allows is_bool_value c v end
    end.

  (** lib.rs:367-400 [ConfigStore::set]; the in-memory value is replaced before the storage call *)
  Definition store_set (s : store) (k : str) (v : setting) (ok : bool) : store * reply (option setting) :=
    if accepted s k v then
      let changed := changed_to s k v in
      let s1 := with_settings s (<[k := v]> (settings s)) in
      if ok then (with_storage s1 (<[k := v]> (storage s1)), ROk (if changed then Some v else None))
      else (s1, RErr)
    else (s, RErr).

  (** lib.rs:405-425 [ConfigStore::remove] *)
  Definition store_remove (s : store) (k : str) (ok : bool) : store * reply (option setting) :=
    match infos s !! k with
    | None => (s, RErr)
    | Some i =>
        if ok then
          let d := i_default i in
          let changed := changed_to s k d in
          (with_storage (with_settings s (<[k := d]> (settings s))) (delete k (storage s)),
           ROk (if changed then Some d else None))
        else (s, RErr)
    end.

  (** lib.rs:435-447 [subscribe], 450-454 [unsubscribe], 458-464 [matching_callbacks] *)
  Definition subscribe (s : store) (pat : str) : store * N :=
    (mk_store (settings s) (infos s) (keys s) (storage s)
       (subs s ++ [mk_sub (next_sub s) pat]) (next_sub s + 1), next_sub s).
  Definition unsubscribe (s : store) (id : N) : store * bool :=
    let l := filter (fun b => sub_id b <> id) (subs s) in
    (mk_store (settings s) (infos s) (keys s) (storage s) l (next_sub s),
     negb (length l =? length (subs s))).
  Definition matching (s : store) (k : str) : list sub := filter (fun b => glob (sub_pat b) k = true) (subs s).

  (** A callback invocation: subscription, key, new value. *)
  Definition note : Type := N * str * setting.
  Definition fire (s : store) (k : str) (r : reply (option setting)) : list note :=
    match r with
    | ROk (Some v) => map (fun b => (sub_id b, k, v)) (matching s k)
    | _ => []
    end.
  Definition unit_reply (r : reply (option setting)) : reply unit :=
    match r with ROk _ => ROk tt | RErr => RErr end.

  (** lib.rs:122-138 [Config::set], 142-156 [Config::remove]: the callbacks that run *)
  Definition cfg_set (s : store) (k : str) (v : setting) (ok : bool) : store * reply unit * list note :=
    let (s', r) := store_set s k v ok in (s', unit_reply r, fire s' k r).
  Definition cfg_remove (s : store) (k : str) (ok : bool) : store * reply unit * list note :=
    let (s', r) := store_remove s k ok in (s', unit_reply r, fire s' k r).

  (** lib.rs:467-477 [snapshot] *)
  Definition snapshot (s : store) : list (info * setting) :=
    omap (fun k => match infos s !! k with
                   | Some i => Some (i, default (i_default i) (settings s !! k))
                   | None => None
                   end) (keys s).

  (** [trim_end_matches('.')] *)
  Fixpoint drop_dots (s : str) : str :=
    match s with c :: r => if (c =? 46)%N then drop_dots r else s | [] => [] end.
  Definition trim_dots (s : str) : str := rev (drop_dots (rev s)).

  (** lib.rs:481-507 [absorb] *)
  Definition merged_key (ns k : str) : str :=
    match trim_dots ns with [] => k | n => n ++ [46%N] ++ k end.
  Definition absorb_one (ns : str) (acc : store * nat) (e : info * setting) : store * nat :=
    let (s, n) := acc in
    let k := merged_key ns (i_key e.1) in
    match infos s !! k with
    | Some _ => (s, n)
    | None =>
        (mk_store (<[k := e.2]> (settings s))
           (<[k := mk_info k (i_desc e.1) (i_default e.1) (i_constraint e.1)]> (infos s))
           (keys s ++ [k]) (storage s) (subs s) (next_sub s), S n)
    end.
  Definition absorb (s : store) (es : list (info * setting)) (ns : str) : store * nat :=
    foldl (absorb_one ns) (s, 0) es.
  (** lib.rs:107-113 [Config::merge] *)
  Definition merge (s other : store) (ns : str) : store * nat := absorb s (snapshot other) ns.

  (** * Call sequences *)
  Inductive op :=
  | OSet (k : str) (v : setting) (ok : bool)
  | ORemove (k : str) (ok : bool)
  | OGet (k : str) (ok : bool)
  | OSubscribe (pat : str)
  | OUnsubscribe (id : N).

  (** New store, whether the call succeeded, callbacks run. *)
  Definition step (s : store) (o : op) : store * bool * list note :=
    match o with
    | OSet k v ok => let '(s', r, ns) := cfg_set s k v ok in
                     (s', match r with ROk _ => true | RErr => false end, ns)
    | ORemove k ok => let '(s', r, ns) := cfg_remove s k ok in
                      (s', match r with ROk _ => true | RErr => false end, ns)
    | OGet k ok => let (s', r) := get s k ok in
                   (s', match r with ROk _ => true | RErr => false end, [])
    | OSubscribe p => ((subscribe s p).1, true, [])
    | OUnsubscribe id => let (s', b) := unsubscribe s id in (s', b, [])
    end.
  Definition run (s : store) (ops : list op) : store := foldl (fun s o => (step s o).1.1) s ops.

  (** * Storage adapters that keep the text form *)
  (** storage/sqlite.rs:36-95: a row holds the key and [format!("{value}")]. [all] fails when one
      row does not parse. Model: the table is a map to texts. *)
  Definition table := gmap str str.
  Definition save_table (m : gmap str setting) : table := display <$> m.
  Definition load_table (t : table) : option (gmap str setting) :=
    if decide (map_Forall (fun _ x => is_Some (from_str x)) t) then Some (omap from_str t) else None.
  (** lib.rs:85-89 [Config::with_storage] on a stored table *)
  Definition reopen (schema : list info) (t : table) : store :=
    match load_table t with
    | Some m => set_storage (new schema) m true
    | None => set_storage (new schema) ∅ false
    end.

  (** storage/json.rs [write_file]: open with truncate, then write the text. The file contents a
      crash can leave behind, in order. [writes] is how the kernel cuts the write. *)
  Definition write_file_states (old new : str) : list str :=
    old :: map (fun n => take n new) (seq 0 (S (length new))).
End config.
