(** Theorems about the store of images. *)
From stdpp Require Import numbers option list gmap.
From Verif Require Import Base MediaModel MediaSpec MediaProofs.
Local Open Scope N_scope.

(** ** C116: what an image is answered stays, and is that image *)
(** A source that was answered keeps its answer, unless inline data with the same text is loaded too. *)
Theorem C116_stable decode acts s i j :
  let tr := trace (run decode acts) in Ready s i ∈ tr -> Ready s j ∈ tr -> Asked (Data s) ∉ tr -> i = j.
Proof.
  cbv zeta. intros Hi Hj Hd. destruct (run_stable decode acts s i Hi) as [?|Ei]; [done|]. destruct (run_stable decode acts s j Hj) as [?|Ej]; [done|]. congruence.
Qed.
Print Assumptions C116_stable.
(** An answer is either the placeholder, and a load of the source failed, or it has, from then on, a picture that loading the
    source gave. *)
Theorem C116_answer decode acts more s i :
  let M := run decode (acts ++ more) in
  Ready s i ∈ trace (run decode acts) ->
  (i = DEFAULT_IMAGE_ID /\ Fetched s None ∈ trace M) \/ exists m, picture M i = Some m /\ gave (trace M) s m.
Proof.
  intros M H. assert (Ready s i ∈ trace M) as H'.
  { subst M. induction more as [|a more IH] using rev_ind; [by rewrite app_nil_r|]. rewrite app_assoc, run_snoc.
    unfold exec. destruct a as [c|k x|]; [cbn; apply elem_of_app; auto| |cbn; apply elem_of_app; auto].
    destruct (threads _ !! k); [|done]. destruct (step_pc _ _ _ _) as [σ' [p' ev]]. cbn. apply elem_of_app. auto. }
  destruct (run_answered decode (acts ++ more) s i H') as [K|(m & E & K)]; [auto|]. right. exists m. split; [|done]. unfold picture. subst M. by rewrite E.
Qed.
Print Assumptions C116_answer.
(** Two sources never have the same answer, except the placeholder. *)
Theorem C116_apart decode acts s t i :
  Ready s i ∈ trace (run decode acts) -> Ready t i ∈ trace (run decode acts) -> s = t \/ i = DEFAULT_IMAGE_ID.
Proof.
  intros Hs Ht. destruct (run_answered decode acts s i Hs) as [[-> _]|(m & E & _)]; [auto|].
  destruct (run_answered decode acts t i Ht) as [[-> _]|(m' & E' & _)]; [auto|]. left. congruence.
Qed.
Print Assumptions C116_apart.
(** Two images and one that cannot be loaded; threads interleave. *)
Definition good (m : N) : wish := mk_wish true (Some m).
Definition bad : wish := mk_wish true None.
Definition times (n : nat) (a : action) : list action := replicate n a.
Definition busy : list action :=
  [Call (Request [1]); Call (Request [2]); Call (Request [3])] ++ times 5 (Run 0 (good 7)) ++ times 6 (Run 1 (good 8))
  ++ times 12 (Run 2 bad) ++ times 9 (Run 0 (good 7)) ++ [Take] ++ times 9 (Run 1 (good 8))
  ++ [Call (Request [1]); Call (Request [2]); Call (Request [3]); Call (Request [1]); Run 3 bad; Run 4 bad; Run 5 bad; Run 6 bad].
Ltac is_in := repeat (apply elem_of_cons; first [left; reflexivity|right]).
Ltac not_in := intros Hin; repeat (apply elem_of_cons in Hin as [Hin|Hin]; [discriminate Hin|]); by apply elem_of_nil in Hin.
Example C116_example :
  let M := run (fun _ => None) busy in
  Ready [1] 101 ∈ trace M /\ Ready [2] 100 ∈ trace M /\ Ready [3] 1 ∈ trace M /\ Asked (Data [1]) ∉ trace M
  /\ picture M 101 = Some 7 /\ picture M 100 = Some 8 /\ Fetched [3] None ∈ trace M.
Proof.
  cbv zeta. assert (E : forall e, e ∈ trace (run (fun _ => None) busy) <-> e ∈ ltac:(let t := eval vm_compute in (trace (run (fun _ => None) busy)) in exact t)) by (intros e; by vm_compute).
  rewrite !E. clear E. split; [is_in|]. split; [is_in|]. split; [is_in|]. split; [not_in|]. split; [by vm_compute|]. split; [by vm_compute|is_in].
Qed.
(** Two callers that wait for the same source can be given different ids, only one of which is kept. *)
Theorem C116_loaded_refuted :
  ~ forall decode acts s i j, Loaded s i ∈ trace (run decode acts) -> Loaded s j ∈ trace (run decode acts) -> i = j.
Proof.
  intros K. specialize (K (fun _ => None) ([Call (Load [1]); Call (Load [1]); Run 0 bad; Run 1 bad] ++ times 4 (Run 0 (good 7)) ++ times 4 (Run 1 (good 7))) [1] 100 101).
  assert (100 = 101); [|done]. apply K; vm_compute; is_in.
Qed.
Print Assumptions C116_loaded_refuted.
(** So can two callers with the same inline drawing. *)
Theorem C116_data_refuted :
  ~ forall decode acts d i j, DataLoaded d i ∈ trace (run decode acts) -> DataLoaded d j ∈ trace (run decode acts) -> i = j.
Proof.
  intros K. specialize (K (fun _ => Some 5) ([Call (Data [1]); Call (Data [1]); Run 0 bad; Run 1 bad] ++ times 3 (Run 0 bad) ++ times 3 (Run 1 bad)) [1] 100 101).
  assert (100 = 101); [|done]. apply K; vm_compute; is_in.
Qed.
Print Assumptions C116_data_refuted.
(** An image whose source is the text of an inline drawing replaces the drawing by the placeholder, as sources and drawings
    share one cache. *)
Theorem C116_shared_refuted :
  ~ forall decode acts d m i, decode d = Some m -> DataLoaded d i ∈ trace (run decode acts) -> i <> DEFAULT_IMAGE_ID.
Proof.
  intros K. apply (K (fun _ => Some 5) ([Call (Load [1]); Call (Data [1])] ++ times 3 (Run 0 bad) ++ [Run 1 bad]) [1] 5 1); [done| |done].
  vm_compute. is_in.
Qed.
Print Assumptions C116_shared_refuted.

(** ** C117: a page is laid out again when an image it waits for is there *)
(** Once everything is over, each [Pending] has been followed by the end of a load of that source, and that by an answer "lay out
    again" of [take_completed], at the latest when it is asked next. And the source is then ready. Missing: threads that cannot be
    spawned. *)
Theorem C117_woken_partial decode acts s t1 t2 :
  let M := run decode acts in
  quiet M -> SpawnFailed s ∉ trace M -> trace M = t1 ++ Pending s :: t2 ->
  later (t2 ++ [Took (completed (shared M))]) (Raised s) (Took true)
  /\ exec decode M Take = mk_machine (shared (exec decode M Take)) (threads M) (trace M ++ [Took (completed (shared M))])
  /\ forall x, exists i, trace (exec decode (exec decode M (Call (Request s))) (Run (length (threads M)) x)) = trace M ++ [Asked (Request s); Ready s i].
Proof.
  intros M Q Hf Ht. pose proof (run_flagged decode acts) as [F1 F2]. fold M in F1, F2.
  destruct (run_promised decode acts s t1 t2 Ht) as [(k & p & K & R)|[K|K]]; [|done|].
  { apply Q in K as ->. done. }
  split_and!; [|done|].
  - apply elem_of_list_split in K as (t3 & t4 & E). exists t3, (t4 ++ [Took (completed (shared M))]). split; [by rewrite E, <- app_assoc|].
    rewrite elem_of_app, elem_of_list_singleton. specialize (F1 s (t1 ++ Pending s :: t3) t4). destruct F1 as [->|?]; auto.
    rewrite Ht, E, <- app_assoc. done.
  - intros x. destruct (F2 s) as [i Ei]. { rewrite Ht, elem_of_app, elem_of_cons. auto. }
    exists i. cbn. rewrite list_lookup_middle by done. cbn. rewrite Ei. cbn. by rewrite <- app_assoc.
Qed.
Print Assumptions C117_woken_partial.
(** No call and no thread waits for another: each is over after ten steps of its own, whatever the others did before. *)
Theorem C117_ends decode acts k xs p :
  threads (run decode acts) !! k = Some p -> (10 <= length xs)%nat ->
  threads (run decode (acts ++ (Run k <$> xs))) !! k = Some Done.
Proof.
  intros H L. unfold run. rewrite foldl_app, <- runs_foldl. eapply runs_done; [exact H|]. destruct p; cbn; lia.
Qed.
Print Assumptions C117_ends.
(** However many requests there are, a source is loaded by one background thread at a time. *)
Theorem C117_one decode acts s j k p q :
  threads (run decode acts) !! j = Some p -> threads (run decode acts) !! k = Some q -> loading s p -> loading s q -> j = k.
Proof.
  intros Hj Hk Lp Lq. destruct (run_owned decode acts) as [_ O]. eapply (O j k p q s); eauto.
  - destruct p; cbn in *; try done; by destruct Lp as [-> ->].
  - destruct q; cbn in *; try done; by destruct Lq as [-> ->].
Qed.
Print Assumptions C117_one.
Example C117_example :
  let M := run (fun _ => None) busy in
  quiet M /\ SpawnFailed [2] ∉ trace M /\ Asked (Load [2]) ∉ trace M /\ Pending [2] ∈ trace M /\ Took true ∈ trace M
  /\ exists k p, threads (run (fun _ => None) (take 14 busy)) !! k = Some p /\ loading [2] p.
Proof.
  cbv zeta. assert (E : forall e, e ∈ trace (run (fun _ => None) busy) <-> e ∈ ltac:(let t := eval vm_compute in (trace (run (fun _ => None) busy)) in exact t)) by (intros e; by vm_compute).
  rewrite !E. clear E. split; [|split; [not_in|split; [not_in|split; [is_in|split; [is_in|]]]]].
  - intros k p H. assert (H' : Forall (fun p => p = Done) (threads (run (fun _ => None) busy))) by (vm_compute; by repeat constructor).
    by eapply Forall_lookup_1 in H'.
  - exists 1%nat. eexists. split; [by vm_compute|]. cbn. auto.
Qed.
(** A source that is only requested is loaded once, also when the load fails. *)
Theorem C117_once decode acts s r1 r2 :
  Asked (Load s) ∉ trace (run decode acts) -> ~ later (trace (run decode acts)) (Fetched s r1) (Fetched s r2).
Proof. intros Hn. destruct (run_once decode acts s) as [?|(_ & _ & _ & H)]; [done|apply H]. Qed.
Print Assumptions C117_once.
(** Callers of [load_media] can load a source twice. *)
Theorem C117_again_refuted :
  ~ forall decode acts s r1 r2, ~ later (trace (run decode acts)) (Fetched s r1) (Fetched s r2).
Proof.
  intros K. apply (K (fun _ => None) [Call (Load [1]); Call (Load [1]); Run 0 bad; Run 1 bad; Run 0 (good 7); Run 1 (good 7)] [1] (Some 7) (Some 7)).
  exists [Asked (Load [1]); Asked (Load [1])]. eexists. split; [vm_compute; reflexivity|]. is_in.
Qed.
Print Assumptions C117_again_refuted.
(** A request whose thread cannot be spawned is answered [Pending], but nothing is loaded and the page is not laid out again. *)
Theorem C117_spawn_refuted :
  ~ forall decode acts s, let M := run decode acts in
      quiet M -> Pending s ∈ trace M -> Took true ∈ trace (exec decode M Take).
Proof.
  intros K. specialize (K (fun _ => None) (Call (Request [1]) :: times 4 (Run 0 (mk_wish false None))) [1]). cbv zeta in K.
  assert (~ Took true ∈ trace (exec (fun _ => None) (run (fun _ => None) (Call (Request [1]) :: times 4 (Run 0 (mk_wish false None)))) Take)) as Hn.
  { vm_compute. not_in. }
  apply Hn, K.
  - intros k p H. assert (H' : Forall (fun p => p = Done) (threads (run (fun _ => None) (Call (Request [1]) :: times 4 (Run 0 (mk_wish false None)))))) by (vm_compute; by repeat constructor).
    by eapply Forall_lookup_1 in H'.
  - vm_compute. is_in.
Qed.
Print Assumptions C117_spawn_refuted.
