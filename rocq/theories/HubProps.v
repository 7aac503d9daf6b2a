(** Decisions (C38), reference counts (C39) and the reference registry (C64): property theorems. *)
From stdpp Require Import gmap.
From Verif Require Import Base HubModel HubSpec HubProofs.

(** * C38 *)
(** What a waiter receives is the first answer given to its own token after it registered. *)
Theorem C38_delivery : forall A n l (s : hub A) h j ch o,
  follow hub_step (new_hub n) l = Some (s, h) -> fresh_tokens h ->
  h !! j = Some (Received ch o) ->
  exists a k i m, o = Some a /\ h !! i = Some (Registered k ch) /\ first_answer h k i m a /\ m < j.
Proof. intros. by eapply delivered_run. Qed.
Print Assumptions C38_delivery.
(** At most once, and every registration has a receiver of its own. *)
Theorem C38_once : forall A n l (s : hub A) h, follow hub_step (new_hub n) l = Some (s, h) ->
  (forall i j ch r r', h !! i = Some (Received ch r) -> h !! j = Some (Received ch r') -> i = j) /\
  (forall i j k k' ch, h !! i = Some (Registered k ch) -> h !! j = Some (Registered k' ch) -> i = j).
Proof. intros A n l s h H. pose proof (chan_inv_run _ _ _ _ H) as Hc. split; [apply (ci_recv_once _ _ _ Hc)|apply (ci_reg_once _ _ _ Hc)]. Qed.
Print Assumptions C38_once.
(** A token nobody is waiting under: nothing changes. *)
Theorem C38_unknown : forall A n l (s : hub A) h t k a s' e,
  follow hub_step (new_hub n) l = Some (s, h) -> fresh_tokens h -> not_waiting h k ->
  hub_step s (FulfillStart t k a) = Some (s', e) -> s' = s.
Proof. intros. by eapply hub_unknown. Qed.
Print Assumptions C38_unknown.
(** An answered waiter that is still there can receive the answer once no call is under way. *)
Theorem C38_arrives : forall A n l (s : hub A) h i m k ch a,
  follow hub_step (new_hub n) l = Some (s, h) -> fresh_tokens h ->
  h !! i = Some (Registered k ch) -> first_answer h k i m a ->
  Forall (fun x => x = None) (sending s) -> DropReceiver ch ∉ l -> (forall j r, h !! j <> Some (Received ch r)) ->
  exists s', hub_step s (Receive ch) = Some (s', [Received ch (Some a)]).
Proof. intros. by eapply hub_arrives. Qed.
Print Assumptions C38_arrives.
(** Two waiters, answered in the other order by two threads at once; the second answer to a token
    and an unknown token go nowhere. *)
Definition hub_schedule : list (hub_choice N) :=
  [Register 7; Register 8; FulfillStart 0 8 1%N; FulfillStart 1 7 2%N; FulfillSend 1; FulfillStart 1 7 3%N; FulfillSend 0; FulfillStart 0 9 4%N; Receive 0].
Example C38_example : exists s h, follow hub_step (new_hub 2) hub_schedule = Some (s, h) /\ fresh_tokens h /\
  h !! 6 = Some (Received 0 (Some 2%N)) /\ first_answer h 8 1 2 1%N /\ not_waiting h 7 /\
  Forall (fun x => x = None) (sending s) /\ DropReceiver 1 ∉ hub_schedule.
Proof.
  eexists _, _. split; [vm_compute; reflexivity|]. split_and!.
  - intros i j k c d Hi Hj. do 7 (destruct i; [do 7 (destruct j; [by simplify_eq/=|]); by rewrite lookup_nil in Hj || done|]). done.
  - done.
  - split_and!; [lia|done|lia].
  - intros i c Hi. do 2 (destruct i; [simplify_eq/=; try (exists 3, 2%N; split; [lia|done])|]). do 5 (destruct i; [done|]). done.
  - repeat constructor.
  - unfold hub_schedule. intros H. repeat (apply elem_of_cons in H as [H|H]; [done|]). by apply elem_of_nil in H.
Qed.
(** Tokens are drawn at random and nothing checks that they are new: the earlier waiter would lose
    its sender. *)
Theorem C38_repeated_token_refuted : exists l (s : hub N) h,
  follow hub_step (new_hub 1) l = Some (s, h) /\ h !! 0 = Some (Registered 7 0) /\ h !! 2 = Some (Fulfilled 7 1%N) /\
  last h = Some (Received 0 None).
Proof. exists [Register 7; Register 7; FulfillStart 0 7 1%N; FulfillSend 0; Receive 0]. eexists _, _. split; [vm_compute; reflexivity|]. done. Qed.
Print Assumptions C38_repeated_token_refuted.

(** * C39 *)
(** While no call is under way, the count is the number of requests begun and not ended. *)
Theorem C39_exact_count : forall tso r n l s h,
  follow (count_step tso) (new_counts n) l = Some (s, h) -> orderly h r -> quiet s ->
  match inner s !! r with Some (c, _) => c = N.of_nat (active h r) | None => active h r = 0 end.
Proof. exact exact_count. Qed.
Print Assumptions C39_exact_count.
(** The name stays as long as there are requests or the group is open, at every moment. *)
Theorem C39_kept : forall tso r n l s h tab,
  follow (count_step tso) (new_counts n) l = Some (s, h) -> orderly h r ->
  named h r tab -> active h r > 0 \/ ~ finalized h r -> names s !! r = Some tab.
Proof. intros tso r n l s h tab Hr Ho. apply (co_named _ _ _ _ (count_inv_run tso r n l s h Hr Ho)). Qed.
Print Assumptions C39_kept.
(** When the group is closed, all its requests have ended and all calls returned, in whatever order
    their steps came, everything is cleaned up. Missing: memory that delays stores. *)
Theorem C39_cleaned_partial : forall r n l s h,
  follow (count_step false) (new_counts n) l = Some (s, h) -> orderly h r -> quiet s ->
  finalized h r -> active h r = 0 -> inner s !! r = None /\ names s !! r = None.
Proof. intros r n l s h. by apply (cleaned false). Qed.
Print Assumptions C39_cleaned_partial.
Definition nav : reference := (Navigation, 1%N).
(** Two requests; the last one ends while the group is being closed. *)
Definition count_schedule : list count_choice :=
  [Name nav 5; Inc nav; Inc nav; Dec 0 nav; Next 0; Next 0; Finalize 1 nav; Dec 0 nav; Next 1; Next 0; Next 1; Next 0; Next 1; Next 0; Next 1; Next 0; Next 1].
Ltac orderly_tac :=
  split; [intros i Hi; do 8 (destruct i; [simplify_eq/=; try (vm_compute; lia)|]); by rewrite ?lookup_nil in Hi || done
         |intros i j Hi Hj; do 8 (destruct i; [try done; do 8 (destruct j; [try lia; done|]); by destruct j|]); by destruct i].
Example C39_example : exists s h, follow (count_step false) (new_counts 2) count_schedule = Some (s, h) /\
  orderly h nav /\ quiet s /\ finalized h nav /\ active h nav = 0 /\ named (take 3 h) nav 5.
Proof.
  eexists _, _. split; [vm_compute; reflexivity|]. split_and!.
  - orderly_tac.
  - repeat constructor.
  - unfold finalized. by repeat (apply elem_of_cons; (by left) || right).
  - by vm_compute.
  - exists 0. split; [done|]. intros j tab Hj. destruct j as [|[|[|j]]]; [lia|done..].
Qed.
(** With a store that is delayed past the following load - as x86 may, and [Relaxed] allows - the
    closing call sees the last request running and the last request's end sees an open group: nobody
    cleans up. *)
Definition late_schedule : list count_choice :=
  [Name nav 5; Inc nav; Finalize 1 nav; Dec 0 nav; Next 1; Next 1; Next 0; Next 0; Flush 1; Next 1].
Theorem C39_late_store_refuted : exists r n l s h,
  follow (count_step true) (new_counts n) l = Some (s, h) /\ orderly h r /\ quiet s /\ finalized h r /\ active h r = 0 /\
  names s !! r = Some 5%N /\ inner s !! r = Some (0%N, true).
Proof.
  exists nav, 2, late_schedule. eexists _, _. split; [vm_compute; reflexivity|]. split_and!.
  - orderly_tac.
  - repeat constructor.
  - unfold finalized. by repeat (apply elem_of_cons; (by left) || right).
  - by vm_compute.
  - by vm_compute.
  - by vm_compute.
Qed.
Print Assumptions C39_late_store_refuted.
(** A request that begins while the group is being closed loses its count and its name. *)
Theorem C39_begin_after_close_refuted : exists r n l s h,
  follow (count_step false) (new_counts n) l = Some (s, h) /\ quiet s /\ active h r = 1 /\
  names s !! r = None /\ inner s !! r = None.
Proof.
  exists nav, 1, [Name nav 5; Inc nav; Finalize 0 nav; Next 0; Next 0; Next 0; Dec 0 nav; Next 0; Next 0; Inc nav; Next 0; Next 0].
  eexists _, _. split; [vm_compute; reflexivity|]. split_and!; [repeat constructor|by vm_compute..].
Qed.
Print Assumptions C39_begin_after_close_refuted.
(** An end that was not begun makes the count wrap around, and the group is never cleaned up. *)
Theorem C39_underflow_refuted : exists r n l s h,
  follow (count_step false) (new_counts n) l = Some (s, h) /\ quiet s /\ finalized h r /\
  names s !! r = Some 5%N /\ inner s !! r = Some ((2 ^ 64 - 1)%N, true).
Proof.
  exists nav, 1, [Name nav 5; Inc nav; Dec 0 nav; Next 0; Next 0; Dec 0 nav; Next 0; Next 0; Finalize 0 nav; Next 0; Next 0; Next 0].
  eexists _, _. split; [vm_compute; reflexivity|]. split_and!; [repeat constructor| |by vm_compute..].
  unfold finalized. by repeat (apply elem_of_cons; (by left) || right).
Qed.
Print Assumptions C39_underflow_refuted.

(** * C64 *)
(** There and back. *)
Theorem C64_round_trip : forall M n l (g : registry M) h i j r x y,
  follow registry_step (new_registry n) l = Some (g, h) ->
  i < j -> h !! i = Some (ToNet r x) -> h !! j = Some (FromNet x y) -> y = Some r.
Proof. intros M n l g h i j r x y H. apply (rr_from _ _ _ (reg_record_run _ _ _ _ H)). Qed.
Print Assumptions C64_round_trip.
(** One reference has one tag, and one tag has one reference, whichever threads asked. *)
Theorem C64_bijection : forall M n l (g : registry M) h i j r r' x x',
  follow registry_step (new_registry n) l = Some (g, h) ->
  h !! i = Some (ToNet r x) -> h !! j = Some (ToNet r' x') -> (r = r' <-> x = x').
Proof.
  intros M n l g h i j r r' x x' H Hi Hj. pose proof (reg_record_run _ _ _ _ H) as Hr.
  destruct (rr_to _ _ _ Hr _ _ _ Hi) as (id & -> & Hf). destruct (rr_to _ _ _ Hr _ _ _ Hj) as (id' & -> & Hf'). split.
  - intros <-. congruence.
  - intros [= <-]. apply (ri_fwd _ (rr_inv _ _ _ Hr)) in Hf. apply (ri_fwd _ (rr_inv _ _ _ Hr)) in Hf'. congruence.
Qed.
Print Assumptions C64_bijection.
(** A tag stands for a reference only if somebody asked for that reference's tag. *)
Theorem C64_sound : forall M n l (g : registry M) h j id r,
  follow registry_step (new_registry n) l = Some (g, h) ->
  h !! j = Some (FromNet (Tagged id) (Some r)) -> exists t, ToNetStart t r ∈ l.
Proof. intros M n l g h j id r H. apply (rr_sound _ _ _ (reg_record_run _ _ _ _ H)). Qed.
Print Assumptions C64_sound.
(** What was last recorded for a request is read, until it is forgotten. *)
Theorem C64_metas : forall M n l (g : registry M) h j id x,
  follow registry_step (new_registry n) l = Some (g, h) ->
  h !! j = Some (MetaRead id x) -> forall m, x = Some m <-> last_meta h j id m.
Proof. intros M n l g h j id x H. by apply (metas_run _ _ _ _ H). Qed.
Print Assumptions C64_metas.
(** Two threads interning the same and different references at once. *)
Definition registry_schedule : list (registry_choice N) :=
  [ToNetStart 0 nav; SetMeta 3 9%N; ToNetStart 1 (Document, 1%N); ToNetNext 1; ToNetNext 0; ToNetNext 0; ReadMeta 3; ToNetNext 1; ToNetNext 1; ToNetNext 0;
   ToNetStart 1 nav; ForgetMeta 3; CallFromNet (Tagged 2); CallFromNet (Tagged 1); ReadMeta 3].
Example C64_example : exists g, follow registry_step (new_registry 2) registry_schedule = Some (g,
  [MetaSet 3 9; MetaRead 3 (Some 9); ToNet (Document, 1%N) (Tagged 1); ToNet nav (Tagged 2); ToNet nav (Tagged 2); MetaForgotten 3;
   FromNet (Tagged 2) (Some nav); FromNet (Tagged 1) (Some (Document, 1%N)); MetaRead 3 None]%N).
Proof. eexists. vm_compute. reflexivity. Qed.
(** And the second thread has to wait while the first one is interning the same reference. *)
Example C64_example_locked : follow registry_step (new_registry (M:=N) 2) [ToNetStart 0 nav; ToNetStart 1 nav] = None.
Proof. by vm_compute. Qed.
