(** Session history: property theorems C01-C06, C47. *)
From Verif Require Import Base HistoryModel HistorySpec HistoryProofs.

(** A forked history used in the examples: a(0) -> b(1) -> c(2), back twice, a -> d(3). *)
Definition demo_ops : list op :=
  [OPush [97%N] None; OSetScroll 0 500; OPush [98%N] None; OPush [99%N] None;
   OBack; OBack; OPush [100%N] (Some [68%N]); OGoTo 2; OForward (Some 7); OBack].

(** C01 *)
Theorem C01_history_total : forall ops,
  exists h rs, run empty_history ops = Ok (h, rs) /\ tree_ok h /\
    pushed_ids ops rs = seq 0 (length (h_entries h)) /\
    (exists b, can_go_back h = Ok b) /\ (exists b, can_go_forward h = Ok b) /\
    (exists ts, forward_targets h = Ok ts) /\ (exists s, take_snapshot h = Ok s).
Proof. exact C01_total_lemma. Qed.
Print Assumptions C01_history_total.

Theorem C01_entries_stable : forall h ops h' rs,
  reachable h -> run h ops = Ok (h', rs) ->
  forall i e, h_entries h !! i = Some e ->
    exists e', h_entries h' !! i = Some e' /\ e_parent e' = e_parent e /\
               e_children e `prefix_of` e_children e'.
Proof. exact C01_stable_lemma. Qed.
Print Assumptions C01_entries_stable.

Theorem C01_push_parent : forall h u t h' i,
  reachable h -> push h u t = Ok (h', i) ->
  parent_of h' i = h_current h /\ h_current h' = Some i /\ i = length (h_entries h).
Proof. exact C01_push_parent_lemma. Qed.
Print Assumptions C01_push_parent.

Example C01_example : exists h rs, run empty_history demo_ops = Ok (h, rs) /\
  length (h_entries h) = 4 /\ h_current h = Some 1 /\ opened_from h 0 = [1; 3] /\
  rs = [Some 0; None; Some 1; Some 2; Some 1; Some 0; Some 3; Some 2; None; Some 1].
Proof. eexists _, _. split; [vm_compute; reflexivity|]. by vm_compute. Qed.

(** C02 *)
Theorem C02_push_back_forward : forall h u t c,
  reachable h -> h_current h = Some c -> is_navigable h c ->
  exists h' id, run h [OPush u t; OBack; OForward None] = Ok (h', [Some id; Some c; Some id]) /\
    h_current h' = Some id /\ id = length (h_entries h).
Proof. exact C02_lemma. Qed.
Print Assumptions C02_push_back_forward.

Theorem C02_back_nearest_navigable : forall h,
  reachable h -> exists h' r, step h OBack = Ok (h', r) /\
    h_entries h' = h_entries h /\
    match h_current h with
    | None => r = None /\ h' = h
    | Some c => back_goes_to h c r /\ h_current h' = match r with Some i => Some i | None => Some c end
    end.
Proof. exact C02_back_lemma. Qed.
Print Assumptions C02_back_nearest_navigable.

Example C02_example : exists h rs, run empty_history demo_ops = Ok (h, rs) /\
  h_current h = Some 1 /\ is_navigable h 1.
Proof. eexists _, _. split; [vm_compute; reflexivity|]. split; [done|]. eexists. by vm_compute. Qed.

(** non-navigable entries are skipped by back *)
Example C02_skip_example : exists h rs,
  run empty_history [OPush [] None; OPush [] None; OSetNavigable 1 false; OPush [] None] = Ok (h, rs) /\
  back_goes_to h 2 (Some 0).
Proof.
  eexists _, _. split; [vm_compute; reflexivity|].
  eapply BGskip with (p := 1); [done| |].
  - intros (e & He & Hn). vm_compute in He. injection He as <-. done.
  - apply BGhere; [done|]. eexists. by vm_compute.
Qed.

(** C03 *)
Theorem C03_forward_targets : forall ops h rs,
  run empty_history ops = Ok (h, rs) ->
  exists ts, forward_targets h = Ok ts /\ NoDup ts /\
    (forall i, i ∈ ts <-> exists c, h_current h = Some c /\ parent_of h i = Some c /\ is_navigable h i) /\
    (forall c i, h_current h = Some c -> last_chosen_child h (arrivals ops rs) c = Some i ->
                 is_navigable h i -> head ts = Some i).
Proof. exact C03_lemma. Qed.
Print Assumptions C03_forward_targets.

Theorem C03_forward_moves : forall h w ts,
  reachable h -> forward_targets h = Ok ts ->
  exists h' r, step h (OForward w) = Ok (h', r) /\
    r = (match w with Some i => if decide (i ∈ ts) then Some i else None | None => head ts end) /\
    match r with Some i => h_current h' = Some i | None => h' = h end.
Proof. exact C03_move_lemma. Qed.
Print Assumptions C03_forward_moves.

Example C03_example : exists h rs, run empty_history (demo_ops ++ [OBack]) = Ok (h, rs) /\
  h_current h = Some 0 /\ forward_targets h = Ok [3; 1] /\
  last_chosen_child h (arrivals (demo_ops ++ [OBack]) rs) 0 = Some 3 /\ is_navigable h 3.
Proof.
  eexists _, _. split; [vm_compute; reflexivity|]. split_and!; [by vm_compute..|].
  eexists. by vm_compute.
Qed.

(** C04 *)
Theorem C04_page_data_isolated : forall ops h rs,
  run empty_history ops = Ok (h, rs) ->
  forall i, page_of h i = lg_pages (ledger_run empty_ledger ops rs) i.
Proof. exact C04_lemma. Qed.
Print Assumptions C04_page_data_isolated.

Example C04_example : exists h rs, run empty_history demo_ops = Ok (h, rs) /\
  page_of h 0 = Some (mk_page [97%N] None (0%Z, 500%Z)) /\
  page_of h 3 = Some (mk_page [100%N] (Some [68%N]) (0%Z, 0%Z)).
Proof. eexists _, _. split; [vm_compute; reflexivity|]. by vm_compute. Qed.

(** C05: false in general once the embedder jumps inside the tree ... *)
Theorem C05_back_forward_refuted :
  exists ops h rs k h1 rs1 h2 rs2,
    run empty_history ops = Ok (h, rs) /\
    run h (replicate k OBack) = Ok (h1, rs1) /\ Forall is_Some rs1 /\
    run h1 (replicate k (OForward None)) = Ok (h2, rs2) /\ Forall is_Some (take 1 rs2) /\
    h_current h2 <> h_current h.
Proof.
  exists [OPush [97%N] None; OPush [98%N] None; OPush [99%N] None; OBack; OBack; OPush [100%N] None; OGoTo 2].
  eexists _, _, 2, _, _, _, _. split; [vm_compute; reflexivity|].
  split; [vm_compute; reflexivity|]. split; [repeat constructor; eauto|].
  split; [vm_compute; reflexivity|]. split; [repeat constructor; eauto|]. by vm_compute.
Qed.
Print Assumptions C05_back_forward_refuted.

(** ... and true for every history built without jumps (all entries are navigable, as in
    the current engine). *)
Theorem C05_back_forward_partial : forall ops h rs k h1 rs1,
  Forall no_jump ops -> run empty_history ops = Ok (h, rs) ->
  run h (replicate k OBack) = Ok (h1, rs1) -> Forall is_Some rs1 ->
  exists rs2, run h1 (replicate k (OForward None)) = Ok (h, rs2).
Proof. exact C05_lemma. Qed.
Print Assumptions C05_back_forward_partial.

Example C05_example : exists h rs h1 rs1,
  let ops := [OPush [97%N] None; OPush [98%N] None; OBack; OPush [99%N] None; OBack; OForward (Some 1); OPush [100%N] None] in
  Forall no_jump ops /\ run empty_history ops = Ok (h, rs) /\
  run h (replicate 2 OBack) = Ok (h1, rs1) /\ Forall is_Some rs1 /\ h_current h = Some 3.
Proof.
  eexists _, _, _, _. cbv zeta. split; [repeat constructor|]. split; [vm_compute; reflexivity|].
  split; [vm_compute; reflexivity|]. split; [repeat constructor; eauto|]. done.
Qed.

(** C06 *)
Theorem C06_snapshot_faithful : forall h s,
  reachable h -> take_snapshot h = Ok s ->
  sn_current s = h_current h /\
  (sn_can_go_back s = true <-> exists h' i, step h OBack = Ok (h', Some i)) /\
  (exists ts, forward_targets h = Ok ts /\ map s_id (sn_forward s) = ts) /\
  map s_id (sn_entries s) = seq 0 (length (h_entries h)) /\
  (forall x, x ∈ sn_entries s ++ sn_forward s -> exists e, h_entries h !! s_id x = Some e /\
      s_url x = e_url e /\ s_title x = e_title e /\ s_parent x = e_parent e).
Proof. exact C06_lemma. Qed.
Print Assumptions C06_snapshot_faithful.

Example C06_example : exists h rs s, run empty_history demo_ops = Ok (h, rs) /\ take_snapshot h = Ok s /\
  sn_can_go_back s = true /\ length (sn_entries s) = 4 /\ map s_id (sn_forward s) = [2].
Proof. eexists _, _, _. split; [vm_compute; reflexivity|]. split; [vm_compute; reflexivity|]. by vm_compute. Qed.

(** C47: used linearly, the tree is observably the classic two-stack history. *)
Theorem C47_linear_history : forall ops,
  Forall linear ops ->
  exists h, run empty_history ops = Ok (h, snd (two_run two_empty ops)) /\
    let s := fst (two_run two_empty ops) in
    h_current h = ts_cur s /\
    can_go_back h = Ok (match ts_back s with [] => false | _ => true end) /\
    can_go_forward h = Ok (match ts_fwd s with [] => false | _ => true end).
Proof. exact C47_lemma. Qed.
Print Assumptions C47_linear_history.

Example C47_example :
  let ops := [OPush [97%N] None; OPush [98%N] None; OPush [99%N] None; OBack; OBack; OForward None;
              OPush [100%N] None; OForward None; OBack] in
  Forall linear ops /\ ts_fwd (fst (two_run two_empty ops)) = [3] /\ ts_back (fst (two_run two_empty ops)) = [0].
Proof. cbv zeta. split; [repeat constructor|]. by vm_compute. Qed.
