(** What C21, C22, C59 and C60 mean, in terms of the log of calls. *)
From stdpp Require Import gmap.
From Verif Require Import Text SettingsModel StorageModel.

(** What key [k] of area [a] holds after the calls in the log, computed from the log alone: whether
    the area exists, and the value. Local areas always exist; a tab's area exists from when it is
    asked for until the tab is dropped, and writes to it count only then. *)
Definition is_local (a : area) : bool := match a with Local _ _ _ => true | _ => false end.
Definition of_tab (z t : N) (a : area) : bool :=
  match a with Session z' t' _ _ => bool_decide (z' = z) && bool_decide (t' = t) | _ => false end.
Definition cell_after (a : area) (k : str) (c : bool * option str) (e : entry) : bool * option str :=
  match e with
  | Opened b => if bool_decide (b = a) then (true, c.2) else c
  | Stored b k' v => if bool_decide (b = a) && bool_decide (k' = k) && c.1 then (c.1, Some v) else c
  | Removed b k' => if bool_decide (b = a) && bool_decide (k' = k) then (c.1, None) else c
  | Cleared b => if bool_decide (b = a) then (c.1, None) else c
  | Dropped z t => if of_tab z t a then (false, None) else c
  | _ => c
  end.
Definition cell (a : area) (k : str) (l : list entry) : bool * option str := fold_left (cell_after a k) l (is_local a, None).
Definition value (a : area) (k : str) (l : list entry) : option str := (cell a k l).2.

(** Origins as the [url] crate makes them: the scheme has no colon; a host has none either unless it
    is an IPv6 address in brackets. *)
Definition tuple_origin (o : origin) : Prop :=
  match o with
  | Tuple s h p => 58%N ∉ s /\ (58%N ∉ h \/ exists h', h = h' ++ [93%N])
  | Opaque _ => False
  end.
(** Partition keys whose text is not that of another one. *)
Definition plain_part (p : part) : Prop :=
  match p with PNone => True | TopLevel o => tuple_origin o | Custom s => s <> [] /\ forall r, s <> txt "top:" ++ r end.
(** Areas of the in-memory local store need nothing; the others are told apart by their text. *)
Definition proper (bk : backend) (a : area) : Prop :=
  match a with
  | Local _ p o => bk = InMemory \/ (plain_part p /\ tuple_origin o)
  | Session _ _ p o => plain_part p /\ tuple_origin o
  end.
Definition working (l : list action) : Prop :=
  Forall (fun x => match x with Begin _ _ f | Advance _ f => f = false end) l.

(** Several runs of the browser over one database: each may be cut off anywhere. [lived r lg]: the
    table is [r] after the runs with logs [lg]. *)
Inductive lived : gmap (N * str * str * str) str -> list entry -> Prop :=
| lived_first : lived ∅ []
| lived_again r lg l s : lived r lg -> working l -> exec Sqlite (start r) l = Some s -> lived (rows (st s)) (lg ++ log s).

(** Changes made and changes announced: area, key ([None] for the whole area), new value. *)
Definition change_of (e : entry) : option (area * option str * option str) :=
  match e with
  | Stored a k v => Some (a, Some k, Some v)
  | Removed a k => Some (a, Some k, None)
  | Cleared a => Some (a, None, None)
  | _ => None
  end.
Definition told_of (e : entry) : option (area * option str * option str) :=
  match e with Published e => Some (e_area e, e_key e, e_new e) | _ => None end.
Definition changes (l : list entry) := omap change_of l.
Definition told (l : list entry) := omap told_of l.
Definition only_thread (t : N) (l : list action) : Prop :=
  Forall (fun x => match x with Begin t' _ _ | Advance t' _ => t' = t end) l.
