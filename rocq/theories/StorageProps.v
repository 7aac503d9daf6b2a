(** Web storage: property theorems C21, C22, C59 and C60. *)
From stdpp Require Import gmap.
From Verif Require Import Text SettingsModel StorageModel StorageSpec StorageProofs.

(** * C21 *)
(** Any threads and schedule, either local store: every read returns what the log of calls says the
    key of that very area holds. Areas other than in-memory local ones are told apart by text, so
    for them the origins have to be tuples and partition keys must not look like each other. *)
Theorem C21_reads_partial : forall bk l s l1 a k v l2,
  exec bk (start ∅) l = Some s -> working l -> (forall b, Opened b ∈ log s -> proper bk b) ->
  log s = l1 ++ Read a k v :: l2 -> v = value a k l1.
Proof.
  intros bk l s l1 a k v l2 E W O H. pose proof (inv_log bk ∅ s (run_inv bk l s E W O) _ _ _ H) as Hv. simpl in Hv. by rewrite val_from_empty in Hv.
Qed.
Print Assumptions C21_reads_partial.

(** Without session storage and SQLite there is no such condition. *)
Theorem C21_local_in_memory : forall l s l1 a k v l2,
  exec InMemory (start ∅) l = Some s -> working l -> (forall b, Opened b ∈ log s -> is_local b = true) ->
  log s = l1 ++ Read a k v :: l2 -> v = value a k l1.
Proof.
  intros l s l1 a k v l2 E W O. apply (C21_reads_partial InMemory l s); [done..|]. intros b Hb. specialize (O _ Hb). destruct b; [by left|done].
Qed.
Print Assumptions C21_local_in_memory.

(** The list of keys has each key that holds something once, and the length counts them. *)
Theorem C21_keys_partial : forall bk l s l1 e l2,
  exec bk (start ∅) l = Some s -> working l -> (forall b, Opened b ∈ log s -> proper bk b) ->
  log s = l1 ++ e :: l2 ->
  (forall a ks, e = Listed a ks -> NoDup ks /\ forall k, k ∈ ks <-> is_Some (value a k l1)) /\
  (forall a n, e = Counted a n -> exists ks, length ks = n /\ NoDup ks /\ forall k, k ∈ ks <-> is_Some (value a k l1)).
Proof.
  intros bk l s l1 e l2 E W O H. pose proof (inv_log bk ∅ s (run_inv bk l s E W O) _ _ _ H) as He. split.
  - intros a ks ->. destruct He as [H1 H2]. split; [done|]. intros k. by rewrite H2, val_from_empty.
  - intros a n ->. destruct He as (ks & H1 & H2 & H3). exists ks. split; [done|]. split; [done|]. intros k. by rewrite H3, val_from_empty.
Qed.
Print Assumptions C21_keys_partial.

Definition site (s : string) : origin := Tuple (txt "https") (txt s) 443.
Definition area1 : area := Session 1 7 (TopLevel (site "a.test")) (site "b.test").
Definition area2 : area := Session 1 8 (TopLevel (site "a.test")) (site "b.test").
Definition area3 : area := Local 1 PNone (Tuple (txt "http") (txt "[::1]") 8080).
Definition demo : list action :=
  [Begin 1 (COpen area1) false; Begin 1 (COpen area2) false; Begin 2 (COpen area3) false;
   Begin 1 (CSet 0 (txt "k") (txt "v")) false; Begin 2 (CSet 2 (txt "k") (txt "w")) false; Advance 2 false; Advance 1 false; Advance 1 false; Advance 2 false;
   Begin 1 (CGet 0 (txt "k")) false; Begin 1 (CGet 1 (txt "k")) false; Begin 1 (CGet 2 (txt "k")) false; Begin 2 (CKeys 2) false; Begin 2 (CLen 0) false]%N.
Definition tail_of (n : nat) (o : option state) : option (list entry) := option_map (fun s => drop n (log s)) o.
Lemma tuple_site s : 58%N ∉ txt s -> tuple_origin (site s).
Proof. intros H. split; [vm_compute; set_solver|by left]. Qed.
Example C21_example :
  tail_of 7 (exec Sqlite (start ∅) demo) =
    Some [Read area1 (txt "k") (Some (txt "v")); Read area2 (txt "k") None; Read area3 (txt "k") (Some (txt "w")); Listed area3 [txt "k"]; Counted area1 1] /\
  tail_of 7 (exec InMemory (start ∅) demo) = tail_of 7 (exec Sqlite (start ∅) demo) /\
  working demo /\ proper Sqlite area1 /\ proper Sqlite area2 /\ proper Sqlite area3 /\
  ascii_serialization (Tuple (txt "http") (txt "[::1]") 8080) = txt "http://[::1]:8080".
Proof.
  split; [by vm_compute|]. split; [by vm_compute|]. split; [by repeat constructor|].
  assert (tuple_origin (site "a.test") /\ tuple_origin (site "b.test")) as [Ha Hb] by (split; apply tuple_site; vm_compute; set_solver).
  split; [done|]. split; [done|]. split; [|by vm_compute]. right. split; [done|]. split; [vm_compute; set_solver|]. right. by exists (txt "[::1").
Qed.

Lemma seen bk l lg : option_map log (exec bk (start ∅) l) = Some lg -> exists s, exec bk (start ∅) l = Some s /\ log s = lg.
Proof. destruct (exec _ _ l) as [s|]; simpl; [|done]. intros [= <-]. by exists s. Qed.
(** Two opaque origins share one session area; so do "no partition" and the custom partition "". *)
Theorem C21_opaque_refuted : exists l s a b k v,
  a <> b /\ exec InMemory (start ∅) l = Some s /\ working l /\ log s = [Opened a; Opened b; Stored a k v; Read b k (Some v)].
Proof.
  set (l := [Begin 1 (COpen (Session 1 7 PNone (Opaque 1))) false; Begin 1 (COpen (Session 1 7 PNone (Opaque 2))) false;
    Begin 1 (CSet 0 (txt "k") (txt "v")) false; Advance 1 false; Begin 2 (CGet 1 (txt "k")) false]%N).
  destruct (seen InMemory l [Opened ((Session 1 7 PNone (Opaque 1))); Opened ((Session 1 7 PNone (Opaque 2))); Stored ((Session 1 7 PNone (Opaque 1))) ((txt "k")) ((txt "v")); Read ((Session 1 7 PNone (Opaque 2))) ((txt "k")) (Some ((txt "v")))]) as (s & E & Hl); [by vm_compute|]. exists l, s, (Session 1 7 PNone (Opaque 1)), (Session 1 7 PNone (Opaque 2)), (txt "k"), (txt "v").
  split; [done|]. split; [done|]. split; [by repeat constructor|]. done.
Qed.
Print Assumptions C21_opaque_refuted.
Theorem C21_custom_partition_refuted : exists l s a b k v,
  a <> b /\ exec Sqlite (start ∅) l = Some s /\ working l /\ log s = [Opened a; Opened b; Stored a k v; Read b k (Some v)].
Proof.
  set (l := [Begin 1 (COpen (Local 1 PNone (site "a.test"))) false; Begin 1 (COpen (Local 1 (Custom []) (site "a.test"))) false;
    Begin 1 (CSet 0 (txt "k") (txt "v")) false; Advance 1 false; Begin 2 (CGet 1 (txt "k")) false]%N).
  destruct (seen Sqlite l [Opened ((Local 1 PNone (site "a.test"))); Opened ((Local 1 (Custom []) (site "a.test"))); Stored ((Local 1 PNone (site "a.test"))) ((txt "k")) ((txt "v")); Read ((Local 1 (Custom []) (site "a.test"))) ((txt "k")) (Some ((txt "v")))]) as (s & E & Hl); [by vm_compute|]. exists l, s, (Local 1 PNone (site "a.test")), (Local 1 (Custom []) (site "a.test")), (txt "k"), (txt "v").
  split; [done|]. split; [done|]. split; [by repeat constructor|]. done.
Qed.
Print Assumptions C21_custom_partition_refuted.
(** A busy database makes a read answer "no such key". *)
Theorem C21_busy_refuted : exists l s a k v,
  exec Sqlite (start ∅) l = Some s /\ log s = [Opened a; Stored a k v; Read a k None].
Proof.
  set (l := [Begin 1 (COpen (Local 1 PNone (site "a.test"))) false; Begin 1 (CSet 0 (txt "k") (txt "v")) false; Advance 1 false; Begin 2 (CGet 0 (txt "k")) true]%N).
  destruct (seen Sqlite l [Opened ((Local 1 PNone (site "a.test"))); Stored ((Local 1 PNone (site "a.test"))) ((txt "k")) ((txt "v")); Read ((Local 1 PNone (site "a.test"))) ((txt "k")) None]) as (s & E & Hl); [by vm_compute|]. exists l, s, (Local 1 PNone (site "a.test")), (txt "k"), (txt "v").
  split; [done|]. done.
Qed.
Print Assumptions C21_busy_refuted.

(** * C22 *)
(** After a tab is dropped, reads in its areas find nothing until the area is asked for again,
    whatever old handles write meanwhile. *)
Theorem C22_drop_empties_partial : forall bk l s l1 z t l2 p o k v l3,
  exec bk (start ∅) l = Some s -> working l -> (forall b, Opened b ∈ log s -> proper bk b) ->
  log s = l1 ++ Dropped z t :: l2 ++ Read (Session z t p o) k v :: l3 ->
  Opened (Session z t p o) ∉ l2 -> v = None.
Proof.
  intros bk l s l1 z t l2 p o k v l3 E W O H Hn. rewrite app_comm_cons, app_assoc in H.
  rewrite (C21_reads_partial bk l s _ _ _ _ _ E W O H). by apply dropped_value.
Qed.
Print Assumptions C22_drop_empties_partial.

(** Dropping a tab changes nothing any handle of another tab, zone or of local storage shows. *)
Theorem C22_others_untouched : forall bk l s t z tab s' n h k,
  exec bk (start ∅) l = Some s -> working l -> (forall b, Opened b ∈ log s -> proper bk b) ->
  exec bk s [Begin t (CDrop z tab) false] = Some s' ->
  handles s !! n = Some h -> of_tab z tab (h_area h) = false ->
  get_item false (h_inner h) k (st s') = get_item false (h_inner h) k (st s).
Proof. intros bk l s t z tab s' n h k E W O. apply (drop_others bk ∅). by eapply run_inv. Qed.
Print Assumptions C22_others_untouched.

Example C22_example :
  tail_of 13 (exec InMemory (start ∅) (demo ++
    [Begin 1 (CDrop 1 7) false; Begin 2 (CSet 0 (txt "k") (txt "x")) false; Advance 2 false; Advance 2 false;
     Begin 1 (CGet 0 (txt "k")) false; Begin 1 (CGet 2 (txt "k")) false]%N)) =
  Some [Stored area1 (txt "k") (txt "x"); Published (mk_event area1 (Some (txt "k")) None (Some (txt "x")));
        Read area1 (txt "k") None; Read area3 (txt "k") (Some (txt "w"))].
Proof. by vm_compute. Qed.

(** Once the area is asked for again, a handle kept from before the drop writes into the new one. *)
Theorem C22_reopened_refuted : exists l s a k v z t,
  exec InMemory (start ∅) l = Some s /\ working l /\ of_tab z t a = true /\
  log s = [Opened a; Dropped z t; Opened a; Stored a k v; Read a k (Some v)] /\
  exists rest, l = rest ++ [Begin 1 (CSet 0 k v) false; Advance 1 false; Begin 2 (CGet 1 k) false]%N.
Proof.
  set (l := ([Begin 1 (COpen area1) false; Begin 1 (CDrop 1 7) false; Begin 1 (COpen area1) false] ++
    [Begin 1 (CSet 0 (txt "k") (txt "v")) false; Advance 1 false; Begin 2 (CGet 1 (txt "k")) false])%N).
  destruct (seen InMemory l [Opened (area1); Dropped (1%N) (7%N); Opened (area1); Stored (area1) ((txt "k")) ((txt "v")); Read (area1) ((txt "k")) (Some ((txt "v")))]) as (s & E & Hl); [by vm_compute|]. exists l, s, area1, (txt "k"), (txt "v"), 1%N, 7%N.
  split; [done|]. split; [by repeat constructor|].
  split; [by vm_compute|]. split; [by vm_compute|]. by eexists.
Qed.
Print Assumptions C22_reopened_refuted.

(** * C59 *)
(** Local storage in SQLite: whatever number of runs there were before, each cut off anywhere, a
    read returns what the calls of all of them say. *)
Theorem C59_survives_restarts_partial : forall r lg l s l1 z p o k v l2,
  lived r lg -> working l -> exec Sqlite (start r) l = Some s -> (forall b, Opened b ∈ lg ++ log s -> proper Sqlite b) ->
  log s = l1 ++ Read (Local z p o) k v :: l2 -> proper Sqlite (Local z p o) -> v = value (Local z p o) k (lg ++ l1).
Proof.
  intros r lg l s l1 z p o k v l2 L W E O H Pa.
  destruct (exec_inv Sqlite r l (start r) s E (inv_start Sqlite r) W) as [I _]; [intros a Ha; apply O; set_solver|].
  pose proof (inv_log Sqlite r s I _ _ _ H) as Hv. simpl in Hv. rewrite Hv. unfold val_from, cell_from, value, cell. rewrite fold_left_app. do 2 f_equal.
  rewrite (cell_fold_none (Local z p o) k lg (is_local (Local z p o), None)) by done. simpl. f_equal.
  exact (lived_rows r lg L ltac:(intros a Ha; apply O; set_solver) z p o k Pa).
Qed.
Print Assumptions C59_survives_restarts_partial.

Definition first_run : list action :=
  [Begin 1 (COpen area3) false; Begin 1 (CSet 0 (txt "k") (txt "v")) false; Advance 1 false; Begin 2 (CRemove 0 (txt "k")) false]%N.
Example C59_example : exists s1, exec Sqlite (start ∅) first_run = Some s1 /\ lived (rows (st s1)) (log s1) /\ log s1 = [Opened area3; Stored area3 (txt "k") (txt "v")] /\
  tail_of 1 (exec Sqlite (start (rows (st s1))) [Begin 1 (COpen area3) false; Begin 1 (CGet 0 (txt "k")) false]%N) = Some [Read area3 (txt "k") (Some (txt "v"))].
Proof.
  destruct (exec Sqlite (start ∅) first_run) as [s1|] eqn:E; [|by vm_compute in E]. exists s1. split; [done|].
  split; [apply (lived_again ∅ [] first_run s1); [constructor|by repeat constructor|done]|].
  assert (forall A (f : state -> A) v, option_map f (exec Sqlite (start ∅) first_run) = Some v -> f s1 = v) as Hf by (rewrite E; simpl; congruence).
  split; [apply (Hf _ log); by vm_compute|].
  apply (Hf _ (fun s1 => tail_of 1 (exec Sqlite (start (rows (st s1))) [Begin 1 (COpen area3) false; Begin 1 (CGet 0 (txt "k")) false]%N))). by vm_compute.
Qed.

(** * C60 *)
(** Once all calls have returned, the changes announced on the bus are exactly the changes made
    (each as often as it was made), for any schedule and with failing databases too. *)
Theorem C60_every_change_announced : forall bk r l s,
  exec bk (start r) l = Some s -> threads s = ∅ -> told (log s) ≡ₚ changes (log s).
Proof.
  intros bk r l s E H. pose proof (exec_told bk l (start r) s E) as Ht. rewrite H in Ht. simpl in Ht.
  rewrite app_nil_r in Ht. symmetry. by apply Ht.
Qed.
Print Assumptions C60_every_change_announced.

(** When one thread uses the service, each announcement comes right after its change, with the
    value the key held before it. *)
Theorem C60_alone_exact_partial : forall bk t l s l1 e l2,
  exec bk (start ∅) l = Some s -> working l -> only_thread t l -> (forall b, Opened b ∈ log s -> proper bk b) ->
  log s = l1 ++ Published e :: l2 ->
  exists l0 c, l1 = l0 ++ [c] /\ change_of c = Some (e_area e, e_key e, e_new e) /\
    e_old e = match e_key e with Some k => value (e_area e) k l0 | None => None end.
Proof.
  intros bk t l s l1 e l2 E W T O H.
  destruct (exec_alone bk ∅ t l (start ∅) s E (inv_start bk ∅)) as (_ & _ & A); [|done..|].
  { split; [done|]. split; [done|]. intros l1' e' l2' H'. by destruct l1'. }
  destruct (A _ _ _ H) as (l0 & c & H1 & H2 & H3). exists l0, c. split; [done|]. split; [done|]. rewrite H3. destruct (e_key e); [|done]. by rewrite val_from_empty.
Qed.
Print Assumptions C60_alone_exact_partial.

Definition event_demo : list action :=
  [Begin 1 (COpen area1) false; Begin 1 (CSet 0 (txt "k") (txt "v")) false; Advance 1 false; Advance 1 false;
   Begin 1 (CRemove 0 (txt "k")) false; Advance 1 false; Advance 1 false; Begin 1 (CClear 0) false; Advance 1 false]%N.
Example C60_example : only_thread 1 event_demo /\
  option_map (fun s => (told (log s), changes (log s), size (threads s))) (exec InMemory (start ∅) event_demo) =
  Some ([(area1, Some (txt "k"), Some (txt "v")); (area1, Some (txt "k"), None); (area1, None, None)],
        [(area1, Some (txt "k"), Some (txt "v")); (area1, Some (txt "k"), None); (area1, None, None)], 0).
Proof. split; [by repeat constructor|by vm_compute]. Qed.

(** With two threads the announcements can come in the other order, so that a listener ends up with
    a value the key does not hold. *)
Theorem C60_order_refuted : exists l s a k v w,
  exec InMemory (start ∅) l = Some s /\ working l /\ v <> w /\
  log s = [Opened a; Stored a k v; Stored a k w; Published (mk_event a (Some k) None (Some w)); Published (mk_event a (Some k) None (Some v)); Read a k (Some w)].
Proof.
  set (l := [Begin 1 (COpen area3) false; Begin 1 (CSet 0 (txt "k") (txt "v")) false; Begin 2 (CSet 0 (txt "k") (txt "w")) false;
    Advance 1 false; Advance 2 false; Advance 2 false; Advance 1 false; Begin 1 (CGet 0 (txt "k")) false]%N).
  destruct (seen InMemory l [Opened (area3); Stored (area3) ((txt "k")) ((txt "v")); Stored (area3) ((txt "k")) ((txt "w")); Published (mk_event (area3) (Some ((txt "k"))) None (Some ((txt "w")))); Published (mk_event (area3) (Some ((txt "k"))) None (Some ((txt "v")))); Read (area3) ((txt "k")) (Some ((txt "w")))]) as (s & E & Hl); [by vm_compute|]. exists l, s, area3, (txt "k"), (txt "v"), (txt "w").
  split; [done|]. split; [by repeat constructor|].
  split; [done|]. done.
Qed.
Print Assumptions C60_order_refuted.
(** A write to a dropped tab's area is announced although nothing was stored. *)
Theorem C60_ignored_write_refuted : exists l s a k v z t,
  exec InMemory (start ∅) l = Some s /\ working l /\
  log s = [Opened a; Dropped z t; Stored a k v; Published (mk_event a (Some k) None (Some v)); Read a k None].
Proof.
  set (l := [Begin 1 (COpen area1) false; Begin 1 (CDrop 1 7) false; Begin 1 (CSet 0 (txt "k") (txt "v")) false; Advance 1 false; Advance 1 false; Begin 1 (CGet 0 (txt "k")) false]%N).
  destruct (seen InMemory l [Opened (area1); Dropped (1%N) (7%N); Stored (area1) ((txt "k")) ((txt "v")); Published (mk_event (area1) (Some ((txt "k"))) None (Some ((txt "v")))); Read (area1) ((txt "k")) None]) as (s & E & Hl); [by vm_compute|]. exists l, s, area1, (txt "k"), (txt "v"), 1%N, 7%N.
  split; [done|]. split; [by repeat constructor|]. done.
Qed.
Print Assumptions C60_ignored_write_refuted.
