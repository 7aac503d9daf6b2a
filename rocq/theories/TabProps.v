(** Navigations of a tab: property theorems C81-C89. *)
From Verif Require Import Base HistoryModel HistorySpec TabModel TabSpec TabProofs.

(** The addresses, pages and the environment of the examples: every text is an address,
    a page takes every offset and has no fragment targets. *)
Definition ua : str := [97]%N.
Definition ub : str := [98]%N.
Definition uc : str := [99]%N.
(** [ua] with a fragment *)
Definition uax : str := [97; 35; 120]%N.
(** [http:a], [http:b] *)
Definition wa : str := s_http ++ [58; 97]%N.
Definition wb : str := s_http ++ [58; 98]%N.
Notation demo_place := (fun (_ : option nat) (s : Z * Z) => s).
Notation demo_target := (fun (_ : option nat) (_ : str) => @None Z).
Notation go ls := (run Some demo_place demo_target (new_tab []) ls).
Notation go_from t ls := (run Some demo_place demo_target t ls).
Notation nav u := (LCommand true (CNavigate u)).
Notation cmd c := (LCommand true c).
(** The page at [u] arrives for load [n] and is received. *)
Definition page (n : nat) (u : str) : list label := [LEnd n (OSend (ROk u (Some u) n)); LReceive].
Definition visit (n : nat) (u : str) : list label := nav u :: page n u.

(** C81: the latest navigation wins *)
Theorem C81_latest_wins_partial : forall parse place target_y ttl ls t es id k,
  run parse place target_y (new_tab ttl) ls = Ok (t, es) -> never_cancels ls ->
  settled t -> latest t id k ->
  match k_state k with
  | Received (ROk u title d) =>
      t_doc t = Some d /\ t_loading t = false /\ t_error t = false /\
      exists v, t_url t = Some v /\ strip v = strip u /\ (S id = length (t_tasks t) -> v = u)
  | Received RErr => t_loading t = false /\ t_error t = true
  | Received (RDownload _) => t_loading t = false /\ t_error t = false
  | Lost => True
  | _ => False
  end.
Proof. exact latest_wins_lemma. Qed.
Print Assumptions C81_latest_wins_partial.

(** Three navigations in a row; the second ends first, the first fails, the third wins. *)
Definition demo_race : list label :=
  [nav ua; nav ub; nav uc; LEnd 1 (OSend (ROk ub None 1)); LEnd 0 (OSend RErr); LReceive;
   LEnd 2 (OSend (ROk uc None 2)); LReceive].
Example C81_example : exists t es k, go demo_race = Ok (t, es) /\ never_cancels demo_race /\ settled t /\
  t_tasks t !! 2 = Some k /\ latest t 2 k /\ loaded k uc None 2 /\ t_doc t = Some 2 /\ t_url t = Some uc.
Proof.
  eexists _, _, _. split; [vm_compute; reflexivity|]. split; [repeat constructor|].
  split; [reflexivity|]. split; [reflexivity|]. split; [|done]. split; [reflexivity|].
  split; [discriminate|]. intros j k' Hj Hk. exfalso. do 3 (destruct j as [|j]; [lia|]). done.
Qed.

(** A navigation within the page that is shown does not win over an older load. *)
Theorem C81_fragment_refuted : exists ls t es,
  go ls = Ok (t, es) /\ never_cancels ls /\ always_answers ls /\ settled t /\
  last (t_tasks t) = Some (mk_task uax Local) /\ t_url t = Some ub.
Proof.
  exists ([nav ua; LEnd 0 (OSend (ROk ua None 0)); nav ub; LReceive; nav uax] ++ page 1 ub).
  eexists _, _. split; [vm_compute; reflexivity|]. split; [repeat constructor|]. split; [repeat constructor|]. done.
Qed.
Print Assumptions C81_fragment_refuted.

(** C82: navigations are reported once *)
Theorem C82_reported_once : forall parse place target_y ttl ls t es,
  run parse place target_y (new_tab ttl) ls = Ok (t, es) ->
  omap started_id es = seq 0 (length (t_tasks t)) /\
  (forall id, times_ended id es <= 1) /\
  (forall es1 e es2 id, es = es1 ++ e :: es2 -> ended_id e = Some id -> id ∈ omap started_id es1).
Proof. exact reported_once_lemma. Qed.
Print Assumptions C82_reported_once.

Theorem C82_latest_reported_partial : forall parse place target_y ttl ls t es id k,
  run parse place target_y (new_tab ttl) ls = Ok (t, es) -> never_cancels ls -> never_silent ls ->
  settled t -> latest t id k -> times_ended id es = 1.
Proof. exact latest_reported_lemma. Qed.
Print Assumptions C82_latest_reported_partial.

Example C82_example : exists t es, go demo_race = Ok (t, es) /\ never_silent demo_race /\
  omap started_id es = [0; 1; 2] /\ omap ended_id es = [0; 2] /\ times_ended 2 es = 1.
Proof. eexists _, _. split; [vm_compute; reflexivity|]. split; [repeat constructor|]. by vm_compute. Qed.

(** A superseded navigation may never be reported as over. *)
Theorem C82_every_reported_refuted : exists ls t es,
  go ls = Ok (t, es) /\ never_cancels ls /\ always_answers ls /\ settled t /\
  1 ∈ omap started_id es /\ times_ended 1 es = 0.
Proof.
  exists demo_race. eexists _, _. split; [vm_compute; reflexivity|]. split; [repeat constructor|].
  split; [repeat constructor|]. split; [reflexivity|]. split; [|by vm_compute].
  apply elem_of_list_lookup. by exists 1.
Qed.
Print Assumptions C82_every_reported_refuted.

(** Nor may one that the embedder cancels. *)
Theorem C82_cancelled_refuted : exists ls t es,
  go ls = Ok (t, es) /\ always_answers ls /\ settled t /\
  omap started_id es = [0; 1] /\ times_ended 1 es = 0.
Proof.
  exists [nav ua; nav ub; cmd CCancel; LEnd 0 (OSend RErr); LEnd 1 (OSend RErr); LReceive; LReceive].
  eexists _, _. split; [vm_compute; reflexivity|]. split; [repeat constructor|]. by vm_compute.
Qed.
Print Assumptions C82_cancelled_refuted.

(** C83: what changes the page *)
Theorem C83_page_change_partial : forall parse place target_y ttl ls t es l t' es',
  run parse place target_y (new_tab ttl) ls = Ok (t, es) ->
  step parse place target_y t l = Ok (t', es') -> t_doc t' <> t_doc t ->
  l = LReceive /\ exists id k u title d, t_pending t = Some id /\ t_tasks t !! id = Some k /\
    k_state k = Sent (ROk u title d) /\ t_doc t' = Some d /\ t_url t' = Some u /\ EFinished id u ∈ es'.
Proof. exact page_change_lemma. Qed.
Print Assumptions C83_page_change_partial.

Example C83_example : exists t es t' es',
  go (visit 0 ua ++ [nav ub; LEnd 1 (OSend (ROk ub None 1))]) = Ok (t, es) /\
  step Some demo_place demo_target t LReceive = Ok (t', es') /\ t_doc t = Some 0 /\ t_doc t' = Some 1.
Proof. eexists _, _, _, _. split; [vm_compute; reflexivity|]. split; [vm_compute; reflexivity|]. done. Qed.

(** The page of a superseded navigation is shown and enters the history. *)
Theorem C83_superseded_page_refuted : exists ls t es k,
  go ls = Ok (t, es) /\ never_cancels ls /\
  t_tasks t = [k; mk_task ub Running] /\ loaded k ua None 0 /\
  t_doc t = Some 0 /\ t_url t = Some ua /\ e_url <$> h_entries (t_hist t) = [ua].
Proof.
  exists [nav ua; LEnd 0 (OSend (ROk ua None 0)); nav ub; LReceive]. eexists _, _, _.
  split; [vm_compute; reflexivity|]. split; [repeat constructor|]. by vm_compute.
Qed.
Print Assumptions C83_superseded_page_refuted.

(** The failure of a superseded navigation (what cancelling its load leads to) is
    reported with the address of the new one, and shown as an error of the tab. *)
Theorem C83_superseded_failure_refuted : exists ls t es,
  go ls = Ok (t, es) /\ never_cancels ls /\
  t_tasks t = [mk_task ua (Received RErr); mk_task ub Running] /\
  es = [EStarted 0 ua; EStarted 1 ub; EFailed (Some 0) ub] /\ t_error t = true /\ t_loading t = false.
Proof.
  exists [nav ua; nav ub; LEnd 0 (OSend RErr); LReceive]. eexists _, _.
  split; [vm_compute; reflexivity|]. split; [repeat constructor|]. by vm_compute.
Qed.
Print Assumptions C83_superseded_failure_refuted.

(** C84: what the embedder is told is what the tab shows *)
Theorem C84_told : forall parse place target_y ttl ls t es,
  run parse place target_y (new_tab ttl) ls = Ok (t, es) ->
  t_url t = last (omap finished_url es) /\
  match last (omap told_history es) with
  | Some s => take_snapshot (t_hist t) = Ok s
  | None => h_entries (t_hist t) = []
  end.
Proof. exact told_lemma. Qed.
Print Assumptions C84_told.

(** Two pages, a fragment, back twice (the second load fails), a new page. *)
Definition demo_walk : list label :=
  visit 0 ua ++ visit 1 ub ++ [nav (ub ++ [35; 121]%N); cmd CGoBack] ++
  [cmd CGoBack; LEnd 4 (OSend RErr); LReceive] ++ visit 5 uc.
Example C84_example : exists t es s, go demo_walk = Ok (t, es) /\
  omap finished_url es = [ua; ub; ub ++ [35; 121]%N; ub; uc] /\ t_url t = Some uc /\
  last (omap told_history es) = Some s /\ take_snapshot (t_hist t) = Ok s /\
  e_url <$> h_entries (t_hist t) = [ua; ub; ub ++ [35; 121]%N; uc] /\
  e_parent <$> h_entries (t_hist t) = [None; Some 0; Some 1; Some 0].
Proof.
  eexists _, _, _. split; [vm_compute; reflexivity|]. split; [reflexivity|]. split; [reflexivity|].
  split; [reflexivity|]. by vm_compute.
Qed.

(** C85: pages are filed in the history *)
Theorem C85_history_reachable : forall parse place target_y ttl ls,
  exists t es, run parse place target_y (new_tab ttl) ls = Ok (t, es) /\ reachable (t_hist t).
Proof. exact run_total_lemma. Qed.
Print Assumptions C85_history_reachable.

Theorem C85_filed_partial : forall parse place target_y ttl ls t es t' es' id u,
  run parse place target_y (new_tab ttl) ls = Ok (t, es) ->
  step parse place target_y t LReceive = Ok (t', es') -> EFinished id u ∈ es' ->
  h_entries (t_hist t') <> [] ->
  exists k title d, t_tasks t !! id = Some k /\ k_state k = Sent (ROk u title d) /\
    entry_url (t_hist t') = Some u /\ entry_title (t_hist t') = Some title.
Proof. exact commit_filed_lemma. Qed.
Print Assumptions C85_filed_partial.

Example C85_example : exists t es t' es',
  go (visit 0 ua ++ visit 1 ub ++ [cmd CGoBack; LEnd 2 (OSend (ROk ua (Some uc) 2))]) = Ok (t, es) /\
  step Some demo_place demo_target t LReceive = Ok (t', es') /\ head es' = Some (EFinished 2 ua) /\
  e_url <$> h_entries (t_hist t') = [ua; ub] /\ entry_url (t_hist t') = Some ua /\ entry_title (t_hist t') = Some (Some uc).
Proof. eexists _, _, _, _. split; [vm_compute; reflexivity|]. split; [vm_compute; reflexivity|]. by vm_compute. Qed.

(** After going back fails, reloading files the page under another page's entry. *)
Theorem C85_failed_back_refuted : exists ls t es,
  go ls = Ok (t, es) /\ never_cancels ls /\ always_answers ls /\
  omap (fun l => match l with LCommand _ (CNavigate u) => Some u | _ => None end) ls = [ua; ub] /\
  e_url <$> h_entries (t_hist t) = [ub; ub].
Proof.
  exists (visit 0 ua ++ visit 1 ub ++ [cmd CGoBack; LEnd 2 (OSend RErr); LReceive; cmd CReload] ++ page 3 ub).
  eexists _, _. split; [vm_compute; reflexivity|]. split; [repeat constructor|]. split; [repeat constructor|]. by vm_compute.
Qed.
Print Assumptions C85_failed_back_refuted.

(** Going back and at once forward again leaves a third entry, and the user on it. *)
Theorem C85_stale_back_refuted : exists ls t es,
  go ls = Ok (t, es) /\ never_cancels ls /\ always_answers ls /\ settled t /\
  omap (fun l => match l with LCommand _ (CNavigate u) => Some u | _ => None end) ls = [ua; ub] /\
  e_url <$> h_entries (t_hist t) = [ua; ub; ub] /\ h_current (t_hist t) = Some 2.
Proof.
  exists (visit 0 ua ++ visit 1 ub ++
    [cmd CGoBack; LEnd 2 (OSend (ROk ua (Some ua) 2)); cmd (CGoForward None); LReceive] ++ page 3 ub).
  eexists _, _. split; [vm_compute; reflexivity|]. split; [repeat constructor|]. split; [repeat constructor|]. by vm_compute.
Qed.
Print Assumptions C85_stale_back_refuted.

(** Reloading a fresh tab shows a page that has no entry. *)
Theorem C85_fresh_reload_refuted : exists ls t es,
  go ls = Ok (t, es) /\ t_doc t = Some 0 /\ h_entries (t_hist t) = [].
Proof.
  exists (cmd CReload :: page 0 about_blank). eexists _, _. split; [vm_compute; reflexivity|]. done.
Qed.
Print Assumptions C85_fresh_reload_refuted.

(** C86: the loading indicator *)
Theorem C86_loading_ends_partial : forall parse place target_y ttl ls t es,
  run parse place target_y (new_tab ttl) ls = Ok (t, es) -> never_cancels ls -> always_answers ls ->
  settled t -> t_loading t = false.
Proof. exact loading_ends_lemma. Qed.
Print Assumptions C86_loading_ends_partial.

Example C86_example : exists t es t' es',
  go [nav ua; nav ub; LEnd 0 (OSend RErr)] = Ok (t, es) /\ t_loading t = true /\
  go_from t ([LReceive] ++ page 1 ub) = Ok (t', es') /\ settled t' /\ t_loading t' = false /\ t_doc t' = Some 1.
Proof. eexists _, _, _, _. split; [vm_compute; reflexivity|]. split; [reflexivity|]. split; [vm_compute; reflexivity|]. done. Qed.

(** A blocked response leaves it on, although nothing is loading. *)
Theorem C86_blocked_refuted : exists ls t es,
  go ls = Ok (t, es) /\ never_cancels ls /\ settled t /\
  t_tasks t = [mk_task ua Lost] /\ es = [EStarted 0 ua; EFailed (Some 0) ua] /\ t_loading t = true.
Proof.
  exists [nav ua; LEnd 0 (OBlocked ua); LReceive]. eexists _, _.
  split; [vm_compute; reflexivity|]. split; [repeat constructor|]. by vm_compute.
Qed.
Print Assumptions C86_blocked_refuted.

(** It is off while the page asked for is loading. *)
Theorem C86_off_while_loading_refuted : exists ls t es,
  go ls = Ok (t, es) /\ never_cancels ls /\ always_answers ls /\
  last (t_tasks t) = Some (mk_task ub Running) /\ t_pending t = Some 1 /\ t_loading t = false.
Proof.
  exists [nav ua; nav ub; LEnd 0 (OSend RErr); LReceive]. eexists _, _.
  split; [vm_compute; reflexivity|]. split; [repeat constructor|]. split; [repeat constructor|]. by vm_compute.
Qed.
Print Assumptions C86_off_while_loading_refuted.

(** C87: coming back to where the user was *)
Theorem C87_back_restores_partial : forall (parse : str -> option str) place target_y ttl ls t es c e text u v title d mid w w' title' d' t' es',
  run parse place target_y (new_tab ttl) ls = Ok (t, es) -> settled t ->
  h_current (t_hist t) = Some c -> h_entries (t_hist t) !! c = Some e -> t_scroll t <> (0, 0)%Z ->
  parse text = Some u -> (forall cur, t_url t = Some cur -> t_loading t = false -> strip cur <> strip u) ->
  parse (e_url e) = Some w -> strip v <> strip w ->
  Forall stays mid ->
  run parse place target_y t
    (leave_and_return (length (t_tasks t)) text (ROk v title d) mid (ROk w' title' d')) = Ok (t', es') ->
  t_doc t' = Some d' /\ t_url t' = Some w' /\ h_current (t_hist t') = Some c /\
  t_scroll t' = place (Some d') (t_scroll t).
Proof. exact return_lemma. Qed.
Print Assumptions C87_back_restores_partial.

Example C87_example : exists t es t' es',
  go (visit 0 ua ++ [cmd (CScroll (0, 500)%Z)]) = Ok (t, es) /\ settled t /\ t_scroll t = (0, 500)%Z /\
  go_from t (leave_and_return 1 ub (ROk ub None 1) [cmd (CScroll (0, 70)%Z); LTick true] (ROk ua None 2)) = Ok (t', es') /\
  t_url t' = Some ua /\ t_scroll t' = (0, 500)%Z.
Proof. eexists _, _, _, _. split; [vm_compute; reflexivity|]. split; [done|]. split; [done|]. split; [vm_compute; reflexivity|]. done. Qed.

(** Changing one's mind while the next page loads loses the place. *)
Theorem C87_second_thought_refuted : exists ls t es,
  go ls = Ok (t, es) /\ settled t /\ t_url t = Some ua /\
  ls = visit 0 ua ++ [cmd (CScroll (0, 500)%Z); nav ub; nav uc; LEnd 1 (OSend RErr); LReceive] ++ page 2 uc ++
       [cmd CGoBack] ++ page 3 ua ++ [LTick true] /\
  t_scroll t = (0, 0)%Z.
Proof.
  eexists _, _, _. split; [|split; [|split; [|split; [reflexivity|]]]]; vm_compute; reflexivity.
Qed.
Print Assumptions C87_second_thought_refuted.

(** Going back through a page loses the place on that page. *)
Theorem C87_back_twice_refuted : exists ls t es,
  go ls = Ok (t, es) /\ settled t /\ t_url t = Some ub /\
  ls = visit 0 ua ++ visit 1 ub ++ [cmd (CScroll (0, 500)%Z)] ++ visit 2 uc ++
       [cmd CGoBack; cmd CGoBack; LEnd 3 (OSend RErr); LReceive] ++ page 4 ua ++
       [cmd (CGoForward None)] ++ page 5 ub ++ [LTick true] /\
  t_scroll t = (0, 0)%Z.
Proof.
  eexists _, _, _. split; [|split; [|split; [|split; [reflexivity|]]]]; vm_compute; reflexivity.
Qed.
Print Assumptions C87_back_twice_refuted.

(** C88: the title is the page's *)
Theorem C88_title_partial : forall parse place target_y ttl ls t es,
  run parse place target_y (new_tab ttl) ls = Ok (t, es) -> pages_titled ls ->
  forall d, t_doc t = Some d ->
  exists id k u x, t_tasks t !! id = Some k /\ loaded k u (Some x) d /\ t_title t = x.
Proof. exact titled_lemma. Qed.
Print Assumptions C88_title_partial.

Example C88_example : exists t es, go (visit 0 ua ++ visit 1 ub ++ [nav uc; LEnd 2 (OSend RErr); LReceive]) = Ok (t, es) /\
  t_doc t = Some 1 /\ t_title t = ub.
Proof. eexists _, _. split; [vm_compute; reflexivity|]. done. Qed.

(** A page without a title takes the title of the page before it, and is recorded in the
    visited places under it. *)
Theorem C88_untitled_refuted : exists ls t es k,
  go ls = Ok (t, es) /\ t_tasks t !! 1 = Some k /\ loaded k wb None 1 /\
  t_doc t = Some 1 /\ t_title t = ua /\ EVisit wb ua ∈ es.
Proof.
  exists [nav wa; LEnd 0 (OSend (ROk wa (Some ua) 0)); LReceive; nav wb; LEnd 1 (OSend (ROk wb None 1)); LReceive].
  eexists _, _, _. split; [vm_compute; reflexivity|]. split; [reflexivity|]. split; [reflexivity|].
  split; [reflexivity|]. split; [reflexivity|]. apply elem_of_list_lookup. by exists 5.
Qed.
Print Assumptions C88_untitled_refuted.

(** C89: navigating within a page loads nothing; elsewhere, it loads *)
Theorem C89_same_document : forall (parse : str -> option str) place target_y ttl ls t es b text cur u,
  run parse place target_y (new_tab ttl) ls = Ok (t, es) -> t_url t = Some cur -> t_loading t = false ->
  parse text = Some u -> strip cur = strip u ->
  exists t' s, step parse place target_y t (LCommand b (CNavigate text)) =
      Ok (t', [EStarted (length (t_tasks t)) u; EFinished (length (t_tasks t)) u; EHistory s]) /\
    t_doc t' = t_doc t /\ t_url t' = Some u /\ t_title t' = t_title t /\
    t_loading t' = false /\ t_error t' = t_error t /\ t_pending t' = t_pending t /\
    t_tasks t' = t_tasks t ++ [mk_task u Local] /\
    length (h_entries (t_hist t')) = S (length (h_entries (t_hist t))) /\
    h_current (t_hist t') = Some (length (h_entries (t_hist t))) /\
    parent_of (t_hist t') (length (h_entries (t_hist t))) = h_current (t_hist t) /\
    entry_url (t_hist t') = Some u.
Proof. exact same_document_lemma. Qed.
Print Assumptions C89_same_document.

Theorem C89_other_document : forall (parse : str -> option str) place target_y ttl ls t es text u,
  run parse place target_y (new_tab ttl) ls = Ok (t, es) -> parse text = Some u ->
  (forall cur, t_url t = Some cur -> t_loading t = false -> strip cur <> strip u) ->
  exists t', step parse place target_y t (LCommand true (CNavigate text)) = Ok (t', [EStarted (length (t_tasks t)) u]) /\
    t_doc t' = t_doc t /\ t_url t' = t_url t /\ t_loading t' = true /\
    t_tasks t' = t_tasks t ++ [mk_task u Running].
Proof. exact other_document_lemma. Qed.
Print Assumptions C89_other_document.

Theorem C89_reload : forall (parse : str -> option str) place target_y ttl ls t es cur u,
  run parse place target_y (new_tab ttl) ls = Ok (t, es) -> t_url t = Some cur -> parse cur = Some u ->
  exists t', step parse place target_y t (LCommand true CReload) = Ok (t', [EStarted (length (t_tasks t)) u]) /\
    t_doc t' = t_doc t /\ t_url t' = t_url t /\ t_loading t' = true /\
    t_tasks t' = t_tasks t ++ [mk_task u Running].
Proof. exact reload_lemma. Qed.
Print Assumptions C89_reload.

Example C89_example : exists t es t' es' t'' es'', go (visit 0 ua) = Ok (t, es) /\
  t_url t = Some ua /\ t_loading t = false /\ strip ua = strip uax /\
  go_from t [nav uax] = Ok (t', es') /\ t_url t' = Some uax /\ t_doc t' = Some 0 /\
  e_url <$> h_entries (t_hist t') = [ua; uax] /\
  go_from t' [cmd CReload] = Ok (t'', es'') /\ t_loading t'' = true /\ last (t_tasks t'') = Some (mk_task uax Running).
Proof.
  eexists _, _, _, _, _, _. split; [vm_compute; reflexivity|]. do 3 (split; [reflexivity|]).
  split; [vm_compute; reflexivity|]. do 3 (split; [reflexivity|]). split; [vm_compute; reflexivity|]. done.
Qed.
