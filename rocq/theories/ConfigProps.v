(** Settings: property theorems C25, C26, C27, C28, C49, C50, C51, C52. *)
From stdpp Require Import gmap.
From Verif Require Import Base SettingsModel ConfigModel ConfigSpec SettingsProofs ConfigProofs.

(** For the examples: a single float, and a test for yes/no words. *)
Definition demo_floats : float_ops :=
  {| fl := unit; fl_show _ := [48%N]; fl_parse _ := Some tt; fl_isize _ := 0%Z; fl_eqb _ _ := true |}.
Local Existing Instance demo_floats | 100.
Definition yes (s : str) : bool := bool_decide (s = [121%N]).

(** Keys "a.x", "a.y", "b" *)
Definition kx : str := [97;46;120]%N.
Definition ky : str := [97;46;121]%N.
Definition kb : str := [98]%N.
Definition demo_schema : list info :=
  [mk_info kx [] (SInt 3) (Some (Range [(0, 10); (20, 30)]%Z));
   mk_info ky [] (String [117%N]) (Some (Enum [[117%N]; [118%N]]));
   mk_info kb [] (UInt 1) None].
Definition demo_ops : list op :=
  [OSubscribe [97;46;42]%N;          (* "a.*" *)
   OSet kx (SInt 25) true; OSet kx (SInt 15) true; OSubscribe [42]%N;
   OSet ky (String [118%N]) true; OSet kb (SInt 4) true; ORemove kx true;
   OSet [99]%N (Bool true) true; OGet kx true; OUnsubscribe 0; OSet kx (SInt 7) true].

(** * C25 *)
(** Every setting whose parts the text form can carry comes back unchanged; parsing is a total
    function with an explicit error. *)
Theorem C25_text_round_trip : forall (fo : float_ops) (a : setting),
  survives a -> from_str (display a) = Some a.
Proof. intros fo. exact survives_round_trip. Qed.
Print Assumptions C25_text_round_trip.

(** For maps the condition is exact. *)
Theorem C25_maps_exact : forall (fo : float_ops) (l : list str),
  from_str (display (Map l)) = Some (Map l) <-> l <> [[]] /\ Forall (fun e => comma ∉ e) l.
Proof. intros fo. exact map_round_trip_iff. Qed.
Print Assumptions C25_maps_exact.

(** Whatever was read from text survives being written and read again. *)
Theorem C25_parsed_is_stable : forall (fo : float_ops) t (a : setting),
  from_str t = Some a -> (forall x, a = Float x -> fl_parse (fl_show x) = Some x) ->
  from_str (display a) = Some a.
Proof. intros fo t a H Hf. apply survives_round_trip. by eapply parsed_survives. Qed.
Print Assumptions C25_parsed_is_stable.

(** A map element with a comma and the map holding one empty text do not survive. *)
Theorem C25_map_refuted :
  from_str (display (Map [[97; 44; 98]%N])) = Some (Map [[97]; [98]]%N) /\
  from_str (display (Map [[]])) = Some (Map []).
Proof. by vm_compute. Qed.
Print Assumptions C25_map_refuted.

Example C25_example :
  survives (SInt (-9223372036854775808)) /\ survives (Map [[97]; []; [98; 58]]%N) /\
  display (Map [[97]; []; [98; 58]]%N) = [109; 58; 97; 44; 44; 98; 58]%N.
Proof. split; [by vm_compute|]. split; [|by vm_compute]. split; [done|]. repeat constructor; vm_compute; set_solver. Qed.

(** * C26 *)
(** After any history, [get] of a declared key returns the value of the last [set] that reported
    success, or the default if there was none since the last successful [remove]. Assumes the
    storage adapter does not fail. *)
Theorem C26_get_last_set_partial : forall (fo : float_ops) is_bool_value schema ops k i ok,
  Forall storage_ok ops -> declared schema k = Some i ->
  (get (run is_bool_value (new schema) ops) k ok).2 =
    ROk (Some (value_after k (i_default i) (i_default i) (zip ops (replies is_bool_value (new schema) ops)))).
Proof. intros fo. exact get_last_set. Qed.
Print Assumptions C26_get_last_set_partial.

(** After any history a [set] succeeds exactly when the key is declared and the value has the
    declared type, meets the constraint, and the storage adapter works. Unsigned values above
    [isize::MAX] are excluded. *)
Theorem C26_set_accepts_partial : forall (fo : float_ops) is_bool_value schema ops k v ok,
  not_huge v ->
  (step is_bool_value (run is_bool_value (new schema) ops) (OSet k v ok)).1.2 = true <->
  ok = true /\ exists i, declared schema k = Some i /\ valid_for is_bool_value i v.
Proof. intros fo. exact set_reply. Qed.
Print Assumptions C26_set_accepts_partial.

(** Every value [get] returns is the default or satisfies type and constraint, even when storage
    calls fail. *)
Theorem C26_values_valid_partial : forall (fo : float_ops) is_bool_value schema ops k i v ok,
  declared schema k = Some i -> (get (run is_bool_value (new schema) ops) k ok).2 = ROk (Some v) ->
  v = i_default i \/ (not_huge v -> valid_for is_bool_value i v).
Proof. intros fo. exact values_valid. Qed.
Print Assumptions C26_values_valid_partial.

(** A call that reports failure changes nothing, if the storage adapter works. *)
Theorem C26_failure_changes_nothing_partial : forall (fo : float_ops) is_bool_value s o,
  storage_ok o -> (step is_bool_value s o).1.2 = false -> (step is_bool_value s o).1.1 = s.
Proof. intros fo. exact failed_unchanged. Qed.
Print Assumptions C26_failure_changes_nothing_partial.

(** An undeclared key is refused by [set] and [remove]: failure, no change, no callback. *)
Theorem C26_unknown_key_refused : forall (fo : float_ops) is_bool_value schema ops k v ok,
  declared schema k = None ->
  let s := run is_bool_value (new schema) ops in
  step is_bool_value s (OSet k v ok) = (s, false, []) /\ step is_bool_value s (ORemove k ok) = (s, false, []).
Proof.
  intros fo ibv schema ops k v ok Hd s.
  assert (infos s !! k = None) as Hi by (unfold s; by rewrite run_infos, new_infos).
  rewrite step_set, step_remove. unfold accepted. by rewrite Hi.
Qed.
Print Assumptions C26_unknown_key_refused.

Example C26_example :
  Forall storage_ok demo_ops /\ not_huge (SInt 25) /\
  valid_for yes (mk_info kx [] (SInt 3) (Some (Range [(0, 10); (20, 30)]%Z))) (SInt 25) /\
  declared demo_schema kx = Some (mk_info kx [] (SInt 3) (Some (Range [(0, 10); (20, 30)]%Z))) /\
  declared demo_schema [99]%N = None /\
  replies yes (new demo_schema) demo_ops = [true; true; false; true; true; false; true; false; true; true; true] /\
  (get (run yes (new demo_schema) (take 6 demo_ops)) kx true).2 = ROk (Some (SInt 25)) /\
  (get (run yes (new demo_schema) demo_ops) kx true).2 = ROk (Some (SInt 7)).
Proof.
  split; [repeat constructor|]. split; [done|]. split.
  { split; [done|]. exists 20%Z, 30%Z. split; [set_solver|simpl; lia]. }
  by vm_compute.
Qed.

(** When the storage adapter fails, [set] reports failure and yet changes the value. *)
Theorem C26_storage_failure_refuted :
  let s := new demo_schema in
  (step yes s (OSet kx (SInt 25) false)).1.2 = false /\
  (get (step yes s (OSet kx (SInt 25) false)).1.1 kx true).2 <> (get s kx true).2.
Proof. by vm_compute. Qed.
Print Assumptions C26_storage_failure_refuted.

(** An unsigned value above [isize::MAX] slips through a range check. *)
Theorem C26_huge_unsigned_refuted :
  let i := mk_info kb [] (UInt 1) (Some (Range [(-5, 5)]%Z)) in
  (step yes (new [i]) (OSet kb (UInt umax) true)).1.2 = true /\ ~ valid_for yes i (UInt umax).
Proof.
  split; [by vm_compute|]. intros [_ (lo & hi & Hin & H1 & H2)].
  apply elem_of_list_singleton in Hin. injection Hin as -> ->. by vm_compute in H2.
Qed.
Print Assumptions C26_huge_unsigned_refuted.

(** Values preloaded from storage are not checked: a wrong type and a wrong range get in. *)
Theorem C26_preloaded_unchecked_refuted :
  let s := set_storage (new demo_schema) {[ kx := Bool true; ky := String [122%N] ]} true in
  (get s kx true).2 = ROk (Some (Bool true)) /\ (get s ky true).2 = ROk (Some (String [122%N])).
Proof. by vm_compute. Qed.
Print Assumptions C26_preloaded_unchecked_refuted.

(** * C27 *)
(** After any history, a [set] that succeeds and changes the value calls every live subscription
    whose pattern matches the key, once, in order of subscription, with the key and the new
    value, and nobody else; a failed or unchanged [set] calls nobody. *)
Theorem C27_set_notifies : forall (fo : float_ops) is_bool_value schema ops k v ok s' b ns,
  step is_bool_value (run is_bool_value (new schema) ops) (OSet k v ok) = (s', b, ns) ->
  (b = true /\ (exists old, (get (run is_bool_value (new schema) ops) k true).2 = ROk (Some old) /\ ~ same_value old v) ->
     notifies_all ops k v ns) /\
  (b = false \/ (exists old, (get (run is_bool_value (new schema) ops) k true).2 = ROk (Some old) /\ same_value old v) -> ns = []).
Proof. intros fo. exact set_notifies. Qed.
Print Assumptions C27_set_notifies.

Theorem C27_remove_notifies : forall (fo : float_ops) is_bool_value schema ops k ok s' b ns,
  step is_bool_value (run is_bool_value (new schema) ops) (ORemove k ok) = (s', b, ns) ->
  (forall i, b = true -> declared schema k = Some i ->
     (exists old, (get (run is_bool_value (new schema) ops) k true).2 = ROk (Some old) /\ ~ same_value old (i_default i)) ->
     notifies_all ops k (i_default i) ns) /\
  (b = false \/ (exists i old, declared schema k = Some i /\
     (get (run is_bool_value (new schema) ops) k true).2 = ROk (Some old) /\ same_value old (i_default i)) -> ns = []).
Proof. intros fo. exact remove_notifies. Qed.
Print Assumptions C27_remove_notifies.

(** Other calls notify nobody. *)
Theorem C27_others_silent : forall (fo : float_ops) is_bool_value s o s' b ns,
  step is_bool_value s o = (s', b, ns) ->
  match o with OSet _ _ _ | ORemove _ _ => True | _ => ns = [] end.
Proof. intros fo. exact others_silent. Qed.
Print Assumptions C27_others_silent.

(** Once unsubscribed, an id is never called again, and no later subscription gets the same id. *)
Theorem C27_unsubscribed_is_silent : forall (fo : float_ops) is_bool_value schema ops1 id ops2,
  (id < N.of_nat (subscriptions_made ops1))%N ->
  (forall o s' b ns n,
     step is_bool_value (run is_bool_value (new schema) (ops1 ++ OUnsubscribe id :: ops2)) o = (s', b, ns) ->
     n ∈ ns -> n.1.1 <> id) /\
  id ∉ map fst (live 0 [] (ops1 ++ OUnsubscribe id :: ops2)).
Proof.
  intros fo ibv schema ops1 id ops2 Hid. split.
  - intros o s' b ns n. by apply unsubscribed_silent.
  - by apply unsubscribed_gone.
Qed.
Print Assumptions C27_unsubscribed_is_silent.

(** Ids of live subscriptions are distinct, and [subscribe] returns the id used in [live]. *)
Theorem C27_ids_distinct : forall (fo : float_ops) is_bool_value schema ops p,
  NoDup (map fst (live 0 [] ops)) /\
  (subscribe (run is_bool_value (new schema) ops) p).2 = N.of_nat (subscriptions_made ops) /\
  (N.of_nat (subscriptions_made ops), p) ∈ live 0 [] (ops ++ [OSubscribe p]).
Proof.
  intros fo ibv schema ops p. split; [apply live_ids|]. split.
  - unfold subscribe. simpl. by destruct (run_subs ibv schema ops) as [_ ->].
  - apply (live_stays ibv _ ops p []); [done|]. apply not_elem_of_nil.
Qed.
Print Assumptions C27_ids_distinct.

(** A subscriber who reads the value after subscribing and from then on believes its callbacks
    always knows the current value. Assumes storage does not fail; float keys are excluded
    because equality of floats is not identity. *)
Theorem C27_listener_in_sync_partial : forall (fo : float_ops) is_bool_value schema ops1 p ops2 k i v0,
  Forall storage_ok ops2 -> declared schema k = Some i -> ~ is_float (i_default i) ->
  wild_matches p k -> OUnsubscribe (N.of_nat (subscriptions_made ops1)) ∉ ops2 ->
  let s := run is_bool_value (new schema) (ops1 ++ [OSubscribe p]) in
  (get s k true).2 = ROk (Some v0) ->
  (get (run is_bool_value s ops2) k true).2 =
    ROk (Some (told (N.of_nat (subscriptions_made ops1)) k v0 (callbacks is_bool_value s ops2))).
Proof. intros fo. exact listener_sync. Qed.
Print Assumptions C27_listener_in_sync_partial.

(** With a storage failure in between the listener is never told: the failing call changes the
    value silently and the successful retry sees no change. *)
Theorem C27_listener_in_sync_refuted :
  let s := run yes (new demo_schema) [OSubscribe [42]%N] in
  let ops2 := [OSet kx (SInt 25) false; OSet kx (SInt 25) true] in
  replies yes s ops2 = [false; true] /\
  (get s kx true).2 = ROk (Some (SInt 3)) /\
  (get (run yes s ops2) kx true).2 = ROk (Some (SInt 25)) /\
  told 0 kx (SInt 3) (callbacks yes s ops2) = SInt 3.
Proof. by vm_compute. Qed.
Print Assumptions C27_listener_in_sync_refuted.

Lemma glob_true p s : glob p s = true -> wild_matches p s.
Proof. apply glob_spec. Qed.
Example C27_example :
  wild_matches [97;46;42]%N kx /\ ~ wild_matches [97;46;42]%N kb /\
  live 0 [] demo_ops = [(1%N, [42]%N)] /\
  callbacks yes (new demo_schema) demo_ops =
    [(0%N, kx, SInt 25); (0%N, ky, String [118%N]); (1%N, ky, String [118%N]);
     (0%N, kx, SInt 3); (1%N, kx, SInt 3); (1%N, kx, SInt 7)].
Proof.
  split; [by apply glob_true|]. split; [|by vm_compute].
  intros H. apply glob_spec in H. by vm_compute in H.
Qed.

(** * C28 *)
(** Merging a configuration with any history into any other: declared keys of the target keep
    declaration and value; exactly the keys of the source, prefixed, are added with the source's
    declaration and current value; the count is the number of added keys; saved values and
    subscriptions are untouched. *)
Theorem C28_merge_additive : forall (fo : float_ops) is_bool_value s schema ops ns,
  let o := run is_bool_value (new schema) ops in
  let r := merge s o ns in
  (forall p, is_Some (infos s !! p) -> infos r.1 !! p = infos s !! p /\ settings r.1 !! p = settings s !! p) /\
  (forall p k i, infos s !! p = None -> qualified ns k p -> declared schema k = Some i ->
     infos r.1 !! p = Some (mk_info p (i_desc i) (i_default i) (i_constraint i)) /\
     exists v, (get o k true).2 = ROk (Some v) /\ settings r.1 !! p = Some v) /\
  (forall p, infos s !! p = None -> ~ (exists k, qualified ns k p /\ is_Some (declared schema k)) ->
     infos r.1 !! p = None /\ settings r.1 !! p = settings s !! p) /\
  (exists added, keys r.1 = keys s ++ added /\ NoDup added /\ r.2 = length added /\
     forall p, p ∈ added <-> infos s !! p = None /\ is_Some (infos r.1 !! p)) /\
  storage r.1 = storage s /\ subs r.1 = subs s.
Proof.
  intros fo ibv s schema ops ns o r.
  assert (forall k, infos o !! k = declared schema k) as Hd by (intros k; unfold o; by rewrite run_infos, new_infos).
  destruct (merge_spec ibv s o ns) as (H1 & H2 & H3 & H4); [apply run_keyed|apply run_total, new_total|].
  split; [exact H1|]. split; [|split; [|exact H4]].
  - intros p k i Hp Hq Hi. rewrite <- Hd in Hi.
    destruct (get_declared o k i true) as (v & Hv & Hg); [apply run_total, new_total|done|].
    destruct (H2 p Hp k i v Hq Hi Hv) as [H5 H6]. split; [exact H5|]. exists v. by rewrite Hg.
  - intros p Hp Hno. apply H3; [done|]. intros (k & Hq & Hk). apply Hno. exists k. by rewrite <- Hd.
Qed.
Print Assumptions C28_merge_additive.

Example C28_example :
  qualified [122; 46; 46]%N kx ([122; 46]%N ++ kx) /\
  let r := merge (run yes (new demo_schema) demo_ops) (run yes (new demo_schema) [OSet kx (SInt 9) true]) [122; 46; 46]%N in
  r.2 = 3 /\ settings r.1 !! ([122; 46]%N ++ kx) = Some (SInt 9) /\ settings r.1 !! kx = Some (SInt 7) /\
  (merge r.1 (new demo_schema) []).2 = 0.
Proof. split; [by exists [122]%N, 2|]. by vm_compute. Qed.

(** A value the user saved for a key that is not declared yet is lost to the merged default,
    although it is still in storage. *)
Theorem C28_saved_override_refuted :
  let k := ([122; 46]%N ++ kb) in
  let s := set_storage (new demo_schema) {[ k := UInt 42 ]} true in
  (get s k true).2 = ROk (Some (UInt 42)) /\
  (get (merge s (new demo_schema) [122]%N).1 k true).2 = ROk (Some (UInt 1)).
Proof. by vm_compute. Qed.
Print Assumptions C28_saved_override_refuted.

(** * C49 *)
(** A parsed constraint, written out and parsed again, is the same constraint. *)
Theorem C49_constraint_round_trip : forall v c,
  constraint_parse v = Ok (Some c) -> constraint_parse (join [comma] (tokens c)) = Ok (Some c).
Proof. exact constraint_round_trip. Qed.
Print Assumptions C49_constraint_round_trip.

(** Every list of 64-bit ranges, negative bounds included, is read back from its text. *)
Theorem C49_ranges_parse : forall l,
  l <> [] -> Forall (fun r => (imin <= r.1 <= imax)%Z /\ (imin <= r.2 <= imax)%Z) l ->
  constraint_parse (join [comma] (tokens (Range l))) = Ok (Some (Range l)).
Proof. exact ranges_parse. Qed.
Print Assumptions C49_ranges_parse.

(** Parsing does not panic when every entry starts with an ASCII character... *)
Theorem C49_parse_total_partial : forall v,
  Forall (fun t => match t with c :: _ => (c < 128)%N | [] => True end) (constraint_tokens v) ->
  exists c, constraint_parse v = Ok c.
Proof. exact constraint_total. Qed.
Print Assumptions C49_parse_total_partial.

(** ... and panics otherwise: the constraint "é". *)
Theorem C49_parse_total_refuted : constraint_parse [233%N] = Panic.
Proof. by vm_compute. Qed.
Print Assumptions C49_parse_total_refuted.

Example C49_example :
  constraint_parse [45;53;45;45;49;44;32;55]%N = Ok (Some (Range [(-5, -1); (7, 7)]%Z)) /\   (* "-5--1, 7" *)
  constraint_parse [97;44;98]%N = Ok (Some (Enum [[97]; [98]]%N)).
Proof. by vm_compute. Qed.

(** * C50 *)
(** Threads share one configuration. Whatever the interleaving, once every thread has finished
    its deliveries, the callbacks that ran are exactly those the critical sections decided on,
    each once. *)
Theorem C50_no_notification_lost : forall (fo : float_ops) is_bool_value st0 x all,
  sh_run is_bool_value st0 x all -> all_delivered x -> sh_log x ≡ₚ all.
Proof. intros fo. exact concurrent_all_delivered. Qed.
Print Assumptions C50_no_notification_lost.

(** But the order can be inverted: the last callback need not carry the current value. *)
Theorem C50_order_refuted : exists x all,
  sh_run yes (run yes (new demo_schema) [OSubscribe [42]%N]) x all /\ all_delivered x /\
  (get (sh_store x) kx true).2 = ROk (Some (SInt 8)) /\
  last (sh_log x) = Some (0%N, kx, SInt 5).
Proof.
  set (s0 := run yes (new demo_schema) [OSubscribe [42]%N]).
  set (r1 := cfg_set yes s0 kx (SInt 5) true). set (r2 := cfg_set yes r1.1.1 kx (SInt 8) true).
  exists (mk_shared r2.1.1 [[]; []] [(0%N, kx, SInt 8); (0%N, kx, SInt 5)]), (r1.2 ++ r2.2).
  split; [|split; [repeat constructor|by vm_compute]].
  assert (sh_run yes s0 (mk_shared r1.1.1 [r1.2] []) r1.2) as H1.
  { apply (sr_set yes s0 (mk_shared s0 [] []) kx (SInt 5) true r1.1.1 r1.1.2 r1.2 []); [constructor|].
    simpl. fold r1. by destruct r1 as [[? ?] ?]. }
  assert (sh_run yes s0 (mk_shared r2.1.1 [r1.2; r2.2] []) (r1.2 ++ r2.2)) as H2.
  { apply (sr_set yes s0 _ kx (SInt 8) true r2.1.1 r2.1.2 r2.2 _ H1).
    simpl. fold r2. by destruct r2 as [[? ?] ?]. }
  assert (r1.2 = [(0%N, kx, SInt 5)]) as E1 by by vm_compute.
  assert (r2.2 = [(0%N, kx, SInt 8)]) as E2 by by vm_compute.
  apply (sr_deliver yes s0 (mk_shared r2.1.1 [r1.2; []] [(0%N, kx, SInt 8)]) _ [] (0%N, kx, SInt 5) [] [[]]); [|simpl; by rewrite E1].
  apply (sr_deliver yes s0 (mk_shared r2.1.1 [r1.2; r2.2] []) _ [r1.2] (0%N, kx, SInt 8) [] []); [exact H2|simpl; by rewrite E2].
Qed.
Print Assumptions C50_order_refuted.

(** * C51 *)
(** Restart: a configuration reopened on what the previous one saved in text form answers [get]
    of every declared key as before, provided the values set survive the text form. *)
Theorem C51_restart_keeps_settings_partial : forall (fo : float_ops) is_bool_value schema ops k i ok ok',
  Forall storage_ok ops ->
  Forall (fun o => match o with OSet _ v _ => survives v | _ => True end) ops ->
  declared schema k = Some i ->
  (get (reopen schema (save_table (storage (run is_bool_value (new schema) ops)))) k ok').2 =
  (get (run is_bool_value (new schema) ops) k ok).2.
Proof. intros fo. exact restart_keeps. Qed.
Print Assumptions C51_restart_keeps_settings_partial.

(** A list setting with a comma in an element is a different list after the restart. *)
Theorem C51_restart_refuted :
  let schema := [mk_info kb [] (Map []) None] in
  let s := run yes (new schema) [OSet kb (Map [[97; 44; 98]%N]) true] in
  (get s kb true).2 = ROk (Some (Map [[97; 44; 98]%N])) /\
  (get (reopen schema (save_table (storage s))) kb true).2 = ROk (Some (Map [[97]; [98]]%N)).
Proof. by vm_compute. Qed.
Print Assumptions C51_restart_refuted.

(** The JSON adapter truncates its file before writing: a crash can leave neither the old nor
    the new content. *)
Theorem C51_json_crash_refuted : exists old new left,
  left ∈ write_file_states old new /\ left <> old /\ left <> new.
Proof. exists [1%N], [2%N], []. split; [|done]. vm_compute. set_solver. Qed.
Print Assumptions C51_json_crash_refuted.

Example C51_example :
  Forall (fun o => match o with OSet _ v _ => survives v | _ => True end) demo_ops /\
  (get (reopen demo_schema (save_table (storage (run yes (new demo_schema) demo_ops)))) ky true).2 = ROk (Some (String [118%N])).
Proof. split; [repeat constructor; by vm_compute|by vm_compute]. Qed.

(** * C52 *)
(** [find] lists exactly the declared keys matching the pattern, in order of declaration. *)
Theorem C52_find : forall (fo : float_ops) is_bool_value schema ops pat,
  find (run is_bool_value (new schema) ops) pat `sublist_of` map i_key schema /\
  forall k, k ∈ find (run is_bool_value (new schema) ops) pat <-> is_Some (declared schema k) /\ wild_matches pat k.
Proof. intros fo. exact find_spec. Qed.
Print Assumptions C52_find.

Example C52_example : find (run yes (new demo_schema) demo_ops) [97;46;63]%N = [kx; ky].
Proof. by vm_compute. Qed.
