(** Theorems about the console. *)
From stdpp Require Import numbers option list gmap.
From Verif Require Import Base ConsoleModel ConsoleSpec ConsoleProofs.
Local Open Scope N_scope.

(** ** C119: counters count, timers measure, groups nest *)
(** A counter shows how often it was counted since its reset, whatever else was called. *)
Theorem C119_count h c now l :
  calls new_console h = Ok c ->
  exists c', call c now (Count l) = Ok (c', Some (Counted l (counted l h 0 + 1)), None).
Proof.
  intros H. pose proof (count_ok _ _ _ l 0 H eq_refl) as E. cbn. rewrite <- E. destruct (count_map c !! l); cbn; eauto.
Qed.
Print Assumptions C119_count.
(** A timer shows the time since it was first started. Missing: timers that end. *)
Theorem C119_timer_partial h c now l :
  calls new_console h = Ok c ->
  match started l h with
  | Some s => s <= now -> call c now (TimeLog l) = Ok (c, Some (Elapsed l (now - s)), None) /\ call c now (TimeEnd l) = Ok (c, Some (Ended l (now - s)), None)
  | None => call c now (TimeLog l) = Ok (c, Some (NoTimer l), None) /\ call c now (TimeEnd l) = Ok (c, Some (NoTimer l), None)
  end.
Proof.
  intros H. pose proof (timer_ok _ _ _ l H) as E. cbn in E. rewrite lookup_empty in E. cbn in E. unfold call. rewrite E.
  destruct (started l h) as [s|]; [|done]. intros Hs. unfold elapsed. destruct (N.ltb_spec now s); [lia|]. done.
Qed.
Print Assumptions C119_timer_partial.
(** The end of a group ends the group that was opened last and not yet closed. *)
Theorem C119_groups h c now b g inner c2 now' :
  calls new_console h = Ok c -> balanced inner -> calls c ((now, Group b g) :: inner) = Ok c2 ->
  exists c3, call c2 now' GroupEnd = Ok (c3, Some Foot, Some g) /\ group_stacks c3 = group_stacks c.
Proof.
  intros _ B H. cbn in H. apply (balanced_ok _ B) in H. cbn in H. cbn. eexists. rewrite H, last_snoc. split; [done|]. cbn. apply take_snoc.
Qed.
Print Assumptions C119_groups.
(** Nothing panics as long as the clock does not go back. *)
Theorem C119_safe h : forwards 0 h -> exists c, calls new_console h = Ok c.
Proof. apply forwards_ok. intros l s. cbn. by rewrite lookup_empty. Qed.
Print Assumptions C119_safe.
Example C119_example :
  let h := [(0, Count 1); (1, Group false 7); (2, Time 5); (3, Count 1); (3, Count 2); (4, Group true 8); (9, CountReset 2); (9, GroupEnd)] in
  forwards 0 h /\ counted 1 h 0 = 2 /\ counted 2 h 0 = 0 /\ started 5 h = Some 2 /\ is_Some (match calls new_console h with Ok c => Some c | _ => None end)
  /\ balanced [(2, Time 5); (3, Count 1); (3, Count 2); (4, Group true 8); (9, CountReset 2); (9, GroupEnd)].
Proof.
  cbv zeta. split; [cbn; lia|]. split; [done|]. split; [done|]. split; [done|]. split; [by eexists|].
  repeat (apply bal_other; [done..|]). apply (bal_group 4 true 8 [(9, CountReset 2)] 9 []); [|constructor]. apply bal_other; [done..|constructor].
Qed.
(** A timer does not end: when it is started again it goes on from its first start. *)
Theorem C119_end_refuted :
  ~ forall h c now l, forwards 0 h -> calls new_console h = Ok c ->
      match running l h None with
      | Some s => s <= now -> call c now (TimeLog l) = Ok (c, Some (Elapsed l (now - s)), None)
      | None => call c now (TimeLog l) = Ok (c, Some (NoTimer l), None)
      end.
Proof.
  intros K. pose (h := [(0, Time 1); (5, TimeEnd 1); (10, Time 1)]). destruct (calls new_console h) as [c| |] eqn:E; [|done..].
  assert (forwards 0 h) as F by (subst h; cbn; lia). specialize (K h c 12 1 F E). cbn [running h N.eqb Pos.eqb] in K.
  assert (call c 12 (TimeLog 1) = Ok (c, Some (Elapsed 1 2), None)) as H by (apply K; done).
  vm_compute in E. injection E as <-. vm_compute in H. done.
Qed.
Print Assumptions C119_end_refuted.
(** A clock that is set back makes the console panic. *)
Theorem C119_clock_refuted : ~ forall h, exists c, calls new_console h = Ok c.
Proof. intros K. destruct (K [(5, Time 1); (4, TimeLog 1)]) as [c E]. vm_compute in E. done. Qed.
Print Assumptions C119_clock_refuted.
