(** Cookie stores: property theorems C19, C20 and C58. *)
From stdpp Require Import gmap.
From Verif Require Import Text SettingsModel CookieModel CookieSpec CookieProofs CookieStoreModel CookieStoreSpec CookieStoreProofs.

(** * C19 *)
(** Stop a save after any number of steps, with writes as short as the kernel likes and any call
    failing: the file holds all of its old or all of its new bytes, and of the other files only
    the temporary one changes. *)
Theorem C19_crash_atomic : forall p f new cs f' s',
  proper_path p -> sound_fs f -> save_run p cs f (SStart new) = (f', s') ->
  sound_fs f' /\ (contents_of f' p = contents_of f p \/ contents_of f' p = Some new) /\
  (forall q, q <> p -> q <> tmp_of p -> contents_of f' q = contents_of f q).
Proof. exact crash_atomic. Qed.
Print Assumptions C19_crash_atomic.

(** A save that runs long enough without failing puts the new bytes in place. *)
Theorem C19_save_completes : forall p f new cs f' s',
  proper_path p -> sound_fs f -> Forall (fun c => c <> Fail) cs -> length new + 2 <= length cs ->
  save_run p cs f (SStart new) = (f', s') -> s' = SDone /\ contents_of f' p = Some new.
Proof. exact save_completes. Qed.
Print Assumptions C19_save_completes.

(** Reopening after any number of saves, each stopped anywhere, gives the jars of the last state
    that was saved completely; [print] and [parse] stand for serde_json, which reads back what it
    wrote. *)
Theorem C19_reopen : forall (zones : Type) (none : zones) (print : zones -> list N) (parse : list N -> option zones) p f saves f',
  (forall z, parse (print z) = Some z) -> proper_path p -> sound_fs f ->
  f' = fold_left (fun f zc => (save_run p zc.2 f (SStart (print zc.1))).1) saves f ->
  load_file none parse f' p = load_file none parse f p \/
  exists zc, zc ∈ saves /\ load_file none parse f' p = zc.1.
Proof.
  intros zones none print parse p f saves f' Hpp Hp S ->.
  destruct (saves_atomic p (map (fun zc => (print zc.1, zc.2)) saves) f Hp S) as [_ H].
  assert (forall l g, fold_left (fun f nc => (save_run p nc.2 f (SStart nc.1)).1) (map (fun zc : zones * list choice => (print zc.1, zc.2)) l) g =
    fold_left (fun f zc => (save_run p zc.2 f (SStart (print zc.1))).1) l g) as Hfold by (induction l; intros; simpl; auto).
  rewrite Hfold in H. unfold load_file. destruct H as [->|(nc & Hin & ->)]; [by left|].
  apply elem_of_list_fmap in Hin as (zc & -> & Hin). right. exists zc. split; [done|]. simpl. by rewrite Hpp.
Qed.
Print Assumptions C19_reopen.

(** Opening a store where there is no file yet, stopped anywhere: the next open finds no cookies.
    The hypothesis on [parse] says that a cut-off text of the empty structure is not a text of
    another one. *)
Theorem C19_first_open : forall (zones : Type) (none : zones) (text : list N) (parse : list N -> option zones) p f cs f' s',
  (forall d rest z, d ++ rest = text -> parse d = Some z -> z = none) -> sound_fs f -> contents_of f p = None ->
  create_run p cs f (NStart text) = (f', s') -> load_file none parse f' p = none.
Proof.
  intros zones none text parse p f cs f' s' Hparse S Hn E. destruct (creating_prefix _ _ _ _ _ _ S E) as (_ & H & _). unfold load_file.
  destruct H as [->|(d & rest & -> & Hd)]; [by rewrite Hn|]. destruct (parse d) as [z|] eqn:Ez; [|done]. simpl. by eapply Hparse.
Qed.
Print Assumptions C19_first_open.

Definition demo_path : str := txt "data/cookies.json".
Definition demo_fs : fsys := mk_fs {[ demo_path := 0 ]} {[ 0 := [7; 7; 7; 7]%N ]} 1.
Example C19_example : proper_path demo_path /\ sound_fs demo_fs /\ tmp_of demo_path = txt "data/cookies.json.tmp" /\
  contents_of (save_run demo_path [Go 0; Go 1] demo_fs (SStart [1; 2; 3]%N)).1 demo_path = Some [7; 7; 7; 7]%N /\
  contents_of (save_run demo_path [Go 0; Go 1] demo_fs (SStart [1; 2; 3]%N)).1 (tmp_of demo_path) = Some [1; 2]%N /\
  contents_of (save_run demo_path [Go 0; Go 1; Fail] demo_fs (SStart [1; 2; 3]%N)).1 demo_path = Some [7; 7; 7; 7]%N /\
  contents_of (save_run demo_path [Go 0; Go 1; Go 0; Go 0] demo_fs (SStart [1; 2; 3]%N)).1 demo_path = Some [1; 2; 3]%N.
Proof.
  split; [|split].
  - exists (txt "data/"), (txt "cookies.json"). split; [done|]. split; [vm_compute; set_solver|]. split; [done|]. split; [done|]. right. done.
  - split; simpl.
    + intros p i H. apply lookup_singleton_Some in H as [<- <-]. split; [by eexists|lia].
    + intros p q i H1 H2. apply lookup_singleton_Some in H1 as [<- _]. apply lookup_singleton_Some in H2 as [<- _]. done.
  - by vm_compute.
Qed.

(** Two saves at the same time (two zones being written, each by its own thread) share the
    temporary file, and both finishing can leave a mixture of the two texts. *)
Theorem C19_concurrent_refuted : exists cs f',
  save_runs demo_path cs demo_fs [SStart [1; 1; 1]%N; SStart [2; 2]%N] = (f', [SDone; SDone]) /\
  contents_of f' demo_path = Some [2; 1; 1]%N.
Proof.
  exists [(0, Go 0); (0, Go 0); (1, Go 0); (1, Go 1); (1, Go 0); (0, Go 1); (0, Go 0)].
  eexists. split; vm_compute; reflexivity.
Qed.
Print Assumptions C19_concurrent_refuted.

(** * C20 *)
(** Any threads, any schedule, any back end: as long as a zone is neither released nor removed in
    between, every [jar_for] of it gives the same jar. *)
Theorem C20_same_jar : forall (J : Type) (empty : J) reload bk d s z l1 l2 l3 h1 h2,
  reachable empty reload bk (fun _ => True) d s ->
  log s = l1 ++ Got z h1 :: l2 ++ Got z h2 :: l3 -> Gone z ∉ l2 -> h1 = h2.
Proof. intros J empty reload bk d s z l1 l2 l3 h1 h2. exact (same_jar empty reload bk d s _ z l1 l2 l3 h1 h2). Qed.
Print Assumptions C20_same_jar.

(** What a handle shows is what it was made with plus the writes through that very handle, and
    handles of different zones are different: nothing done to one zone shows up in another. *)
Theorem C20_handles_isolated : forall (J : Type) (empty : J) reload bk d s,
  reachable empty reload bk (fun _ => True) d s ->
  (forall h, snd <$> heap s !! h = replay h (log s) None) /\
  (forall z z' h, Got z h ∈ log s -> Got z' h ∈ log s -> z = z').
Proof. intros J empty reload bk d s. exact (handle_contents empty reload bk d s _). Qed.
Print Assumptions C20_handles_isolated.

(** SQLite: what is saved for a zone is the last thing saved for that zone, whatever is done to
    other zones at the same time. *)
Theorem C20_sqlite_zones_independent : forall (J : Type) (empty : J) reload d s,
  reachable empty reload Sqlite (fun _ => True) d s ->
  forall z, disk s !! z = last_saved z (log s) (d !! z).
Proof. intros J empty reload d s. exact (disk_by_zone empty reload Sqlite d s _ eq_refl). Qed.
Print Assumptions C20_sqlite_zones_independent.

(** SQLite: once all calls have returned, every zone that was not released or removed is saved as
    its jar stands, whatever the threads did to the others. *)
Theorem C20_sqlite_writes_saved : forall (J : Type) (empty : J) reload d s,
  reachable empty reload Sqlite (fun _ => True) d s -> quiet s ->
  forall z, Gone z ∉ log s -> zone_saved s z.
Proof. intros J empty reload d s. by apply writes_saved. Qed.
Print Assumptions C20_sqlite_writes_saved.

(** JSON: the same, provided no two threads are between reading and replacing the file at once. *)
Theorem C20_json_writes_saved_partial : forall (J : Type) (empty : J) reload d s,
  reachable empty reload Json file_alone d s -> quiet s ->
  forall z, Gone z ∉ log s -> zone_saved s z.
Proof. intros J empty reload d s. by apply writes_saved. Qed.
Print Assumptions C20_json_writes_saved_partial.

(** ** Examples: jars are lists of numbers *)
Definition jar0 : list N := [].
Definition same (j : list N) : list N := j.
Definition put (x : N) (j : list N) : list N := x :: j.
Definition demo_init : @state (list N) := init ∅.
Definition two_writers : list (@action (list N)) :=
  [Begin 1 (CGet 10); Begin 2 (CGet 20); Advance 1; Advance 2; Advance 2; Advance 1;
   Begin 1 (CWrite 1 (put 5)); Begin 2 (CWrite 0 (put 6))]%N.
Definition summary (o : option (@state (list N))) : option (option (list N) * option (list N) * nat) :=
  option_map (fun s => (disk s !! 10%N, disk s !! 20%N, size (threads s))) o.
Example C20_example :
  summary (exec jar0 same Sqlite demo_init (two_writers ++ [Advance 1; Advance 2]%N)) = Some (Some [5%N], Some [6%N], 0) /\
  summary (exec jar0 same Json demo_init (two_writers ++ [Advance 1; Advance 1; Advance 2; Advance 2]%N)) = Some (Some [5%N], Some [6%N], 0).
Proof. by vm_compute. Qed.

Lemma size_quiet (s : @state (list N)) : size (threads s) = 0 -> quiet s.
Proof. apply map_size_empty_inv. Qed.
Lemma exec_seen bk l : (if exec jar0 same bk demo_init l then true else false) = true ->
  exists s, exec jar0 same bk demo_init l = Some s /\
    forall A (f : @state (list N) -> A) v, option_map f (exec jar0 same bk demo_init l) = Some v -> f s = v.
Proof. destruct (exec _ _ _ _ l) as [s|]; [|done]. intros _. exists s. split; [done|]. simpl. congruence. Qed.
(** JSON: two zones written at the same time, both calls return, and one zone's cookies are not
    in the file. *)
Theorem C20_json_concurrent_refuted : exists l s,
  exec jar0 same Json demo_init l = Some s /\ quiet s /\ Gone 20%N ∉ log s /\
  disk s !! 10%N = Some [5%N] /\ ~ zone_saved s 20.
Proof.
  destruct (exec_seen Json (two_writers ++ [Advance 1; Advance 2; Advance 2; Advance 1]%N)) as (s & E & Hf); [by vm_compute|].
  exists (two_writers ++ [Advance 1; Advance 2; Advance 2; Advance 1]%N), s. split; [done|].
  split; [apply size_quiet, (Hf _ (fun s => size (threads s))); by vm_compute|].
  assert (log s = [Made 0%N 20%N []; Got 20%N 0%N; Made 1%N 10%N []; Got 10%N 1%N; Wrote 1%N (put 5); Wrote 0%N (put 6);
    Saved 20%N [6%N]; Saved 10%N [5%N]]) as Hl by (apply (Hf _ log); by vm_compute).
  split; [rewrite Hl; set_solver|].
  split; [apply (Hf _ (fun s => disk s !! 10%N)); by vm_compute|].
  intros H. specialize (H 0%N (put 6) [6%N]).
  assert (disk s !! 20%N = None) as E1 by (apply (Hf _ (fun s => disk s !! 20%N)); by vm_compute).
  rewrite H in E1; [done|apply elem_of_list_lookup; exists 1; by rewrite Hl|apply elem_of_list_lookup; exists 5; by rewrite Hl|apply (Hf _ (fun s => heap s !! 0%N)); by vm_compute].
Qed.
Print Assumptions C20_json_concurrent_refuted.

(** Removing a zone while nothing else is going on: its jar and its saved cookies are gone, all
    other zones keep theirs, and the next [jar_for] gives a new, empty jar. *)
Theorem C20_remove_forgets : forall (J : Type) (empty : J) reload bk (s : @state J) t z,
  bk <> InMemory -> quiet s ->
  exists n s', exec empty reload bk s (Begin t (CRemove z) :: replicate n (Advance t)) = Some s' /\
    quiet s' /\ cache s' !! z = None /\ disk s' !! z = None /\
    (forall z', z' <> z -> cache s' !! z' = cache s !! z' /\ disk s' !! z' = disk s !! z') /\ heap s' = heap s /\
    exists n' s'', exec empty reload bk s' (Begin t (CGet z) :: replicate n' (Advance t)) = Some s'' /\
      quiet s'' /\ exists h, cache s'' !! z = Some h /\ heap s'' !! h = Some (z, empty).
Proof.
  intros J empty reload bk s t z Hb Hq. destruct (remove_quiet empty reload bk s t z Hb Hq) as (n & s' & E & Q & H1 & H2 & H3 & H4 & H5).
  exists n, s'. split; [done|]. split; [done|]. rewrite H1, H2, !lookup_delete. split; [done|]. split; [done|].
  split; [by intros z' Hz; rewrite !lookup_delete_ne by done|]. split; [done|].
  destruct (get_quiet empty reload bk s' t z Hb Q) as (n' & s'' & E' & Q' & H1' & H2' & H3' & H4'); [by rewrite H1, lookup_delete|].
  exists n', s''. split; [done|]. split; [done|]. exists (next s'). rewrite H1', H4', !lookup_insert. split; [done|]. by rewrite H2, lookup_delete.
Qed.
Print Assumptions C20_remove_forgets.

(** But a handle kept from before brings the removed zone back. *)
Theorem C20_removed_returns_refuted : exists l s,
  exec jar0 same Sqlite demo_init l = Some s /\ quiet s /\ last (log s) = Some (Saved 10%N [6%N; 5%N]) /\
  log s !! 4 = Some (Gone 10%N) /\ log s !! 5 = Some (Deleted 10%N) /\ disk s !! 10%N = Some [6%N; 5%N].
Proof.
  set (l := [Begin 1 (CGet 10); Advance 1; Advance 1; Begin 1 (CWrite 0 (put 5)); Advance 1; Begin 1 (CRemove 10); Advance 1;
    Begin 1 (CWrite 0 (put 6)); Advance 1]%N).
  destruct (exec_seen Sqlite l) as (s & E & Hf); [by vm_compute|]. exists l, s. split; [done|].
  split; [apply size_quiet, (Hf _ (fun s => size (threads s))); by vm_compute|].
  assert (log s = [Made 0%N 10%N []; Got 10%N 0%N; Wrote 0%N (put 5); Saved 10%N [5%N]; Gone 10%N; Deleted 10%N; Wrote 0%N (put 6);
    Saved 10%N [6%N; 5%N]]) as Hl by (apply (Hf _ log); by vm_compute). rewrite Hl. do 3 (split; [done|]).
  apply (Hf _ (fun s => disk s !! 10%N)); by vm_compute.
Qed.
Print Assumptions C20_removed_returns_refuted.

(** Releasing a zone while nothing else is going on saves its jar, and the next [jar_for] has it
    back (as far as the back end gives back what it saved). *)
Theorem C20_release_keeps : forall (J : Type) (empty : J) reload bk d (s : @state J) t z h j,
  bk <> InMemory -> reachable empty reload bk (fun _ => True) d s -> quiet s ->
  cache s !! z = Some h -> heap s !! h = Some (z, j) ->
  exists n s', exec empty reload bk s (Begin t (CRelease z) :: replicate n (Advance t)) = Some s' /\
    quiet s' /\ cache s' !! z = None /\ disk s' !! z = Some j /\
    (forall z', z' <> z -> cache s' !! z' = cache s !! z' /\ disk s' !! z' = disk s !! z') /\ heap s' = heap s /\
    exists n' s'', exec empty reload bk s' (Begin t (CGet z) :: replicate n' (Advance t)) = Some s'' /\
      quiet s'' /\ exists h', cache s'' !! z = Some h' /\ heap s'' !! h' = Some (z, reload j).
Proof.
  intros J empty reload bk d s t z h j Hb Hr Hq Hc Hj. destruct (reach_inv empty reload bk _ _ _ Hr) as (G & _).
  destruct (release_quiet empty reload bk s t z h j Hb Hq G Hc Hj) as (n & s' & E & Q & H1 & H2 & H3 & H4 & H5).
  exists n, s'. split; [done|]. split; [done|]. rewrite H1, H2, lookup_delete, lookup_insert. split; [done|]. split; [done|].
  split; [by intros z' Hz; rewrite lookup_delete_ne, lookup_insert_ne by done|]. split; [done|].
  destruct (get_quiet empty reload bk s' t z Hb Q) as (n' & s'' & E' & Q' & H1' & H2' & H3' & H4'); [by rewrite H1, lookup_delete|].
  exists n', s''. split; [done|]. split; [done|]. exists (next s'). rewrite H1', H4', !lookup_insert. split; [done|]. by rewrite H2, lookup_insert.
Qed.
Print Assumptions C20_release_keeps.

(** A [jar_for] that read the disk before another thread opened, wrote and released the zone
    installs the old cookies: the zone's jar lacks what was saved. *)
Theorem C20_release_race_refuted : exists l s h,
  exec jar0 same Sqlite demo_init l = Some s /\ quiet s /\
  disk s !! 10%N = Some [5%N] /\ cache s !! 10%N = Some h /\ heap s !! h = Some (10%N, []).
Proof.
  set (l := [Begin 1 (CGet 10); Advance 1; Begin 2 (CGet 10); Advance 2; Advance 2; Begin 2 (CWrite 0 (put 5)); Advance 2;
    Begin 2 (CRelease 10); Advance 2; Advance 2; Advance 1]%N).
  destruct (exec_seen Sqlite l) as (s & E & Hf); [by vm_compute|]. exists l, s, 1%N. split; [done|].
  split; [apply size_quiet, (Hf _ (fun s => size (threads s))); by vm_compute|].
  split; [apply (Hf _ (fun s => disk s !! 10%N)); by vm_compute|].
  split; [apply (Hf _ (fun s => cache s !! 10%N)); by vm_compute|apply (Hf _ (fun s => heap s !! 1%N)); by vm_compute].
Qed.
Print Assumptions C20_release_race_refuted.

(** * C58 *)
(** SQLite: a jar that came about by storing responses is saved (no INSERT fails), and loading the
    rows back, in whatever order SQLite returns them, gives for every origin the same cookies less
    those expired meanwhile. The rows of other zones are untouched. *)
Theorem C58_sqlite_roundtrip : forall psl_domain psl_known http_date p ops j t z order now rows,
  run psl_domain psl_known http_date (new_jar p) ops = Ok j ->
  NoDup (omap row_key t) -> enumerates order j ->
  rows ≡ₚ filter (fun r => r.1.1 = z) (save_zone t z order) ->
  (forall o, default [] (entries (load_zone rows now) !! o) ≡ₚ
             filter (fun c => (match c_expires c with Some e => (now <? e)%Z | None => true end) = true) (default [] (entries j !! o))) /\
  (forall z', z' <> z -> filter (fun r => r.1.1 = z') (save_zone t z order) = filter (fun r => r.1.1 = z') t) /\
  NoDup (omap row_key (save_zone t z order)).
Proof.
  intros pd pk hd p ops j t z order now rows Hr Ht He Hrows.
  destruct (sql_roundtrip t z j order now rows (run_unique pd pk hd p ops j Hr) Ht He Hrows) as (H1 & H2 & H3).
  split; [|done]. intros o. rewrite H1. apply reflexive_eq. apply filter_ext_iff. intros c _. unfold unexpired.
  destruct (c_expires c); [|done]. by rewrite Z.ltb_lt.
Qed.
Print Assumptions C58_sqlite_roundtrip.

Definition a_cookie (n : str) (e : option Z) : cookie := mk_cookie n (txt "v") (Some (txt "/")) None false e None false 0.
Example C58_example :
  let order := [(txt "https://a", [a_cookie (txt "x") None; a_cookie (txt "y") (Some 50%Z)]); (txt "https://b", [a_cookie (txt "z") None])] in
  let t := save_zone [(2%N, txt "https://c", a_cookie (txt "w") None)] 1 order in
  length t = 4 /\
  map (fun o => map c_name (default [] (entries (load_zone (rev (filter (fun r => r.1.1 = 1%N) t)) 60) !! o))) [txt "https://a"; txt "https://b"; txt "https://c"] =
    [[txt "x"]; [txt "z"]; []].
Proof. by vm_compute. Qed.

(** The third-party policy is not saved: a jar that blocks third parties comes back allowing them. *)
Theorem C58_policy_refuted : exists j order now,
  enumerates order j /\ jar_policy j = Block /\ jar_policy (load_zone (save_zone [] 1 order) now) = Allow.
Proof. exists (new_jar Block), [], 0%Z. by split; [constructor|]. Qed.
Print Assumptions C58_policy_refuted.
