(** Proofs for the navigations of a tab. *)
From Verif Require Import Base HistoryModel HistorySpec HistoryProofs TabModel TabSpec.

(** * The history under a tab *)
Definition tab_op (o : op) : Prop := match o with OSetNavigable _ _ => False | _ => True end.
Record good (h : history) : Prop := {
  good_reach : reachable h;
  good_nav : Forall (fun e => e_navigable e = true) (h_entries h);
}.

Lemma run_snoc h ops o h' rs h'' r :
  HistoryModel.run h ops = Ok (h', rs) -> HistoryModel.step h' o = Ok (h'', r) ->
  HistoryModel.run h (ops ++ [o]) = Ok (h'', rs ++ [r]).
Proof.
  revert h rs. induction ops as [|o' ops IH]; intros h rs; cbn [HistoryModel.run app].
  - intros [= <- <-] Hs. rewrite Hs. done.
  - destruct (HistoryModel.step h o') as [[h1 r1]| |]; [|done..]. cbn [rbind].
    destruct (HistoryModel.run h1 ops) as [[h2 rs2]| |] eqn:Hr; [|done..]. cbn [rbind].
    intros [= <- <-] Hs. rewrite (IH _ _ Hr Hs). done.
Qed.

Lemma reachable_step h o h' r : reachable h -> HistoryModel.step h o = Ok (h', r) -> reachable h'.
Proof. intros (ops & rs & Hr) Hs. exists (ops ++ [o]), (rs ++ [r]). by eapply run_snoc. Qed.

Lemma upd_Forall (P : entry -> Prop) es i f es' :
  upd es i f = Ok es' -> (forall e, P e -> P (f e)) -> Forall P es -> Forall P es'.
Proof.
  unfold upd. destruct (es !! i) as [e|] eqn:He; [|done]. intros [= <-] Hf Hall.
  apply Forall_insert; [done|]. apply Hf. by eapply Forall_lookup_1.
Qed.

Lemma upd_current_nav h f h' :
  upd_current h f = Ok h' -> (forall e, e_navigable e = true -> e_navigable (f e) = true) ->
  Forall (fun e => e_navigable e = true) (h_entries h) -> Forall (fun e => e_navigable e = true) (h_entries h').
Proof.
  unfold upd_current. destruct (h_current h) as [c|]; [|by intros [= <-]].
  destruct (upd (h_entries h) c f) as [es| |] eqn:Hu; [|done..]. intros [= <-] Hf Hall.
  by eapply upd_Forall.
Qed.

Lemma rbind_Ok {A B} (x : res A) (f : A -> res B) b : rbind x f = Ok b -> exists a, x = Ok a /\ f a = Ok b.
Proof. destruct x; [|done..]. cbn. eauto. Qed.

Lemma good_step h o h' r : good h -> tab_op o -> HistoryModel.step h o = Ok (h', r) -> good h'.
Proof.
  intros [Hr Hn] Ho Hs. split; [by eapply reachable_step|]. destruct o; cbn [HistoryModel.step] in Hs; [..|done].
  - unfold push in Hs. apply rbind_Ok in Hs as ((h1 & i) & Hp & Hs). injection Hs as <- <-.
    apply rbind_Ok in Hp as (es & Hu & Hp). injection Hp as <- <-. cbn [h_entries].
    assert (Forall (fun e => e_navigable e = true) (h_entries h ++ [mk_entry url title (0, 0)%Z true (h_current h) [] None])) as Hf.
    { apply Forall_app. split; [done|]. by repeat constructor. }
    destruct (h_current h) as [c|].
    + eapply upd_Forall; [exact Hu|done|done].
    + injection Hu as <-. done.
  - apply rbind_Ok in Hs as (h1 & Hu & Hs). injection Hs as <- <-. by eapply upd_current_nav.
  - apply rbind_Ok in Hs as (h1 & Hu & Hs). injection Hs as <- <-. by eapply upd_current_nav.
  - apply rbind_Ok in Hs as (h1 & Hu & Hs). injection Hs as <- <-. by eapply upd_current_nav.
  - unfold go_back in Hs. destruct (back_target h) as [[i|]| |]; [..|done|done]; injection Hs as <- <-; done.
  - assert (forall i, forward_to h i = Ok (h', r) -> Forall (fun e => e_navigable e = true) (h_entries h')) as Hf.
    { intros i Hi. apply rbind_Ok in Hi as (es & Hu & Hi). injection Hi as <- <-. cbn [h_entries]. destruct (h_current h).
      - by eapply upd_Forall.
      - injection Hu as <-. done. }
    unfold go_forward in Hs. destruct (forward_targets h) as [ts| |]; [|done..]. cbn [rbind] in Hs.
    destruct want as [i|].
    + destruct (decide (i ∈ ts)); [by eapply Hf|]. injection Hs as <- <-. done.
    + destruct ts; [injection Hs as <- <-; done|]. by eapply Hf.
  - unfold go_to in Hs. destruct (h_entries h !! id) as [e|]; [|injection Hs as <- <-; done].
    destruct (e_navigable e); [|injection Hs as <- <-; done].
    apply rbind_Ok in Hs as (es & Hu & Hs). injection Hs as <- <-. cbn [h_entries]. destruct (e_parent e).
    + by eapply upd_Forall.
    + injection Hu as <-. done.
Qed.

Lemma good_step_total h o : good h -> tab_op o -> exists h' r, HistoryModel.step h o = Ok (h', r) /\ good h'.
Proof.
  intros Hg Ho. destruct (reachable_inv h) as [log Hi]; [apply Hg|].
  destruct (step_inv log h o Hi) as (h' & r & Hs & _). exists h', r. split; [done|]. by eapply good_step.
Qed.

Lemma snapshot_total h : good h -> exists s, take_snapshot h = Ok s.
Proof.
  intros [(ops & rs & Hr) _]. destruct (C01_total_lemma ops) as (h' & rs' & Hr' & _ & _ & _ & _ & _ & Hs).
  rewrite Hr in Hr'. injection Hr' as <- <-. exact Hs.
Qed.

Lemma good_empty : good empty_history.
Proof. split; [by exists [], []|by constructor]. Qed.

(** ** The snapshot does not show scroll offsets *)
Definition unscrolled (e : entry) : entry := with_scroll e (0, 0)%Z.
Definition sim (h h' : history) : Prop :=
  h_current h' = h_current h /\ unscrolled <$> h_entries h' = unscrolled <$> h_entries h.

Lemma sim_lookup (es es' : list entry) (i : nat) :
  unscrolled <$> es' = unscrolled <$> es ->
  (es !! i = None /\ es' !! i = None) \/
  (exists e e', es !! i = Some e /\ es' !! i = Some e' /\ unscrolled e' = unscrolled e).
Proof.
  intros H. assert ((unscrolled <$> es') !! i = (unscrolled <$> es) !! i) as Hi by by rewrite H.
  rewrite !list_lookup_fmap in Hi. destruct (es !! i) as [e|] eqn:He, (es' !! i) as [e'|] eqn:He'; try done.
  - right. exists e, e'. split; [done|]. split; [done|]. by apply (inj Some) in Hi.
  - by left.
Qed.

Ltac sim_at i := match goal with
  H : unscrolled <$> ?es' = unscrolled <$> ?es |- _ =>
    destruct (sim_lookup es es' i H) as [[-> ->]|(? & ? & -> & -> & ?)]; [done|] end.

Lemma unscrolled_fields e e' : unscrolled e' = unscrolled e ->
  e_url e' = e_url e /\ e_title e' = e_title e /\ e_navigable e' = e_navigable e /\ e_parent e' = e_parent e /\
  e_children e' = e_children e /\ e_preferred e' = e_preferred e.
Proof. destruct e, e'. cbn. by intros [= -> -> -> -> -> ->]. Qed.

Lemma sim_back_loop fuel es es' n : unscrolled <$> es' = unscrolled <$> es ->
  back_loop fuel es' n = back_loop fuel es n.
Proof.
  intros H. revert n. induction fuel as [|fuel IH]; intros [i|]; try done. cbn [back_loop].
  sim_at i. destruct (unscrolled_fields _ _ H0) as (_ & _ & En & Ep & _). cbn [of_opt rbind].
  rewrite En, Ep. destruct (e_navigable x); [done|]. apply IH.
Qed.

Lemma sim_filter es es' cs : unscrolled <$> es' = unscrolled <$> es ->
  filter_navigable es' cs = filter_navigable es cs.
Proof.
  intros H. induction cs as [|c cs IH]; [done|]. cbn [filter_navigable]. sim_at c.
  destruct (unscrolled_fields _ _ H0) as (_ & _ & En & _). cbn [of_opt rbind]. rewrite IH, En. done.
Qed.

Lemma sim_summarise es es' l : unscrolled <$> es' = unscrolled <$> es ->
  rmap (summarise es') l = rmap (summarise es) l.
Proof.
  intros H. induction l as [|c cs IH]; [done|]. cbn [rmap]. rewrite IH. unfold summarise at 1 3. sim_at c.
  destruct (unscrolled_fields _ _ H0) as (Eu & Et & _ & Ep & _). cbn [of_opt rbind]. rewrite Eu, Et, Ep. done.
Qed.

Lemma sim_length (es es' : list entry) : unscrolled <$> es' = unscrolled <$> es -> length es' = length es.
Proof. intros H. apply (f_equal length) in H. by rewrite !fmap_length in H. Qed.

Lemma sim_back_target h h' : sim h h' -> back_target h' = back_target h.
Proof.
  intros [Hc H]. unfold back_target. rewrite Hc. destruct (h_current h) as [c|]; [|done].
  sim_at c. destruct (unscrolled_fields _ _ H0) as (_ & _ & _ & Ep & _). cbn [of_opt rbind].
  rewrite Ep, (sim_length _ _ H). by apply sim_back_loop.
Qed.

Lemma sim_forward_targets h h' : sim h h' -> forward_targets h' = forward_targets h.
Proof.
  intros [Hc H]. unfold forward_targets. rewrite Hc. destruct (h_current h) as [c|]; [|done].
  sim_at c. destruct (unscrolled_fields _ _ H0) as (_ & _ & _ & _ & Ec & Epr). cbn [of_opt rbind].
  rewrite Ec, Epr, (sim_filter _ _ _ H). done.
Qed.

Lemma sim_snapshot h h' : sim h h' -> take_snapshot h' = take_snapshot h.
Proof.
  intros Hs. unfold take_snapshot, can_go_back. rewrite (sim_back_target _ _ Hs), (sim_forward_targets _ _ Hs).
  destruct Hs as [Hc H]. rewrite Hc, (sim_length _ _ H), (sim_summarise _ _ _ H).
  destruct (back_target h); [|done..]. cbn [rbind]. destruct (forward_targets h); [|done..]. cbn [rbind].
  rewrite (sim_summarise _ _ _ H). done.
Qed.

Lemma sim_set_scroll h x y h' r : HistoryModel.step h (OSetScroll x y) = Ok (h', r) -> sim h h'.
Proof.
  cbn [HistoryModel.step]. unfold ret, set_current_scroll, upd_current, upd.
  destruct (h_current h) as [c|] eqn:Hc; [|intros [= <- <-]; done].
  destruct (h_entries h !! c) as [e|] eqn:He; [|done]. cbn [of_opt rbind]. intros [= <- <-]. split; [done|].
  cbn [h_entries]. rewrite list_fmap_insert. apply list_insert_id. rewrite list_lookup_fmap, He. done.
Qed.

(** * What a step does *)
(** The history events at the end of a traversal. *)
Definition tail_ok (h h' : history) (tl : list event) : Prop :=
  (tl = [] /\ take_snapshot h' = take_snapshot h) \/ (exists s, tl = [EHistory s] /\ take_snapshot h' = Ok s).

(** Everything but the address, flags, load, tasks, the pending result and the document
    may have changed. *)
Definition neutral (e : event) : Prop :=
  match e with EFailedUrl _ | EFailed None _ => True | _ => False end.

Inductive move (t : tab) : label -> tab -> list event -> Prop :=
| MIdle l t' es tl :
    t_doc t' = t_doc t -> t_url t' = t_url t -> t_loading t' = t_loading t -> t_error t' = t_error t ->
    t_load t' = t_load t -> t_pending t' = t_pending t -> t_tasks t' = t_tasks t ->
    (t_title t' = t_title t \/ exists b x, l = LCommand b (CSetTitle x)) ->
    good (t_hist t') -> Forall neutral es -> tail_ok (t_hist t) (t_hist t') tl ->
    move t l t' (es ++ tl)
| MCancel b t' : t' = with_load None t -> good (t_hist t') -> move t (LCommand b CCancel) t' []
| MLocal b c u t' s tl :
    is_same_document t u = true ->
    t_doc t' = t_doc t -> t_url t' = Some u -> t_loading t' = t_loading t -> t_error t' = t_error t ->
    t_load t' = t_load t -> t_pending t' = t_pending t -> t_tasks t' = t_tasks t ++ [mk_task u Local] ->
    t_title t' = t_title t ->
    good (t_hist t') -> take_snapshot (t_hist t') = Ok s -> (tl = [] \/ tl = [EHistory s]) ->
    move t (LCommand b c) t' ([EStarted (length (t_tasks t)) u; EFinished (length (t_tasks t)) u; EHistory s] ++ tl)
| MLoad b c u t' tl :
    t_doc t' = t_doc t -> t_url t' = t_url t -> t_loading t' = true -> t_error t' = false ->
    t_load t' = Some (length (t_tasks t), true) -> t_pending t' = t_pending t ->
    t_tasks t' = t_tasks t ++ [mk_task u Running] -> t_title t' = t_title t ->
    good (t_hist t') -> tail_ok (t_hist t) (t_hist t') tl ->
    move t (LCommand b c) t' (EStarted (length (t_tasks t)) u :: tl)
| MEnd id o u s es :
    t_tasks t !! id = Some (mk_task u Running) ->
    (s, es) = match o with OSend r => (Sent r, []) | OBlocked v => (Hung, [EFailed (Some id) v]) | ODrop => (Hung, []) end ->
    good (t_hist t) ->
    move t (LEnd id o) (set_task id s t) es
| MLost id u :
    t_pending t = Some id -> t_tasks t !! id = Some (mk_task u Hung) -> good (t_hist t) ->
    move t LReceive (set_task id Lost (with_pending None t)) []
| MDone id k u title d s t' vs :
    t_pending t = Some id -> t_tasks t !! id = Some (mk_task k (Sent (ROk u title d))) ->
    t_doc t' = Some d -> t_url t' = Some u -> t_loading t' = false -> t_error t' = false ->
    t_load t' = t_load t -> t_pending t' = None ->
    t_tasks t' = t_tasks (set_task id (Received (ROk u title d)) t) ->
    t_title t' = default (t_title t) title ->
    good (t_hist t') -> take_snapshot (t_hist t') = Ok s -> (vs = [] \/ vs = [EVisit u (t_title t')]) ->
    move t LReceive t' (vs ++ [EFinished id u; EHistory s])
| MOffer id k u :
    t_pending t = Some id -> t_tasks t !! id = Some (mk_task k (Sent (RDownload u))) -> good (t_hist t) ->
    move t LReceive (with_pending_url None (with_flags false false (set_task id (Received (RDownload u)) (with_pending None t))))
         [ECancelled id u; EDownload u]
| MFail id k u :
    t_pending t = Some id -> t_tasks t !! id = Some (mk_task k (Sent RErr)) -> good (t_hist t) ->
    move t LReceive (with_flags false true (set_task id (Received RErr) (with_pending None t))) [EFailed (Some id) u].

Section proofs.
Variable parse : str -> option str.
Variable place : option nat -> Z * Z -> Z * Z.
Variable target_y : option nat -> str -> option Z.
Local Notation navigate_to := (navigate_to parse place target_y).
Local Notation navigate_same_document := (navigate_same_document place target_y).
Local Notation handle := (handle parse place target_y).
Local Notation traverse_history := (traverse_history parse place target_y).
Local Notation step := (step parse place target_y).
Local Notation run := (run parse place target_y).

Lemma save_scroll_spec t : good (t_hist t) -> exists h, save_scroll t = Ok (with_hist h t) /\ good h /\ sim (t_hist t) h.
Proof.
  intros Hg. unfold save_scroll, hist.
  destruct (good_step_total (t_hist t) (OSetScroll (t_scroll t).1 (t_scroll t).2) Hg I) as (h & r & Hs & Hg').
  rewrite Hs. cbn [rbind]. exists h. split; [done|]. split; [done|]. by eapply sim_set_scroll.
Qed.

Lemma hist_spec t o : good (t_hist t) -> tab_op o ->
  exists h r, hist t o = Ok (with_hist h t, r) /\ good h /\ HistoryModel.step (t_hist t) o = Ok (h, r).
Proof.
  intros Hg Ho. unfold hist. destruct (good_step_total _ _ Hg Ho) as (h & r & Hs & Hg'). rewrite Hs.
  cbn [rbind]. eauto.
Qed.

Lemma changed_spec t : good (t_hist t) -> exists s, history_changed t = Ok (EHistory s) /\ take_snapshot (t_hist t) = Ok s.
Proof. intros Hg. destruct (snapshot_total _ Hg) as [s Hs]. exists s. unfold history_changed. by rewrite Hs. Qed.

Inductive went (t : tab) : tab -> list event -> Prop :=
| WIdle t' es :
    t_doc t' = t_doc t -> t_url t' = t_url t -> t_loading t' = t_loading t -> t_error t' = t_error t ->
    t_load t' = t_load t -> t_pending t' = t_pending t -> t_tasks t' = t_tasks t -> t_title t' = t_title t ->
    good (t_hist t') -> take_snapshot (t_hist t') = take_snapshot (t_hist t) -> Forall neutral es -> went t t' es
| WLocal u t' s :
    is_same_document t u = true ->
    t_doc t' = t_doc t -> t_url t' = Some u -> t_loading t' = t_loading t -> t_error t' = t_error t ->
    t_load t' = t_load t -> t_pending t' = t_pending t -> t_tasks t' = t_tasks t ++ [mk_task u Local] ->
    t_title t' = t_title t -> good (t_hist t') -> take_snapshot (t_hist t') = Ok s ->
    went t t' [EStarted (length (t_tasks t)) u; EFinished (length (t_tasks t)) u; EHistory s]
| WLoad u t' :
    t_doc t' = t_doc t -> t_url t' = t_url t -> t_loading t' = true -> t_error t' = false ->
    t_load t' = Some (length (t_tasks t), true) -> t_pending t' = t_pending t ->
    t_tasks t' = t_tasks t ++ [mk_task u Running] -> t_title t' = t_title t ->
    good (t_hist t') -> take_snapshot (t_hist t') = take_snapshot (t_hist t) ->
    went t t' [EStarted (length (t_tasks t)) u].

Lemma bind_went b t t1 u i :
  t_doc t1 = t_doc t -> t_url t1 = t_url t -> t_loading t1 = t_loading t -> t_error t1 = t_error t ->
  t_load t1 = t_load t -> t_pending t1 = t_pending t -> t_tasks t1 = t_tasks t -> t_title t1 = t_title t ->
  good (t_hist t1) -> take_snapshot (t_hist t1) = take_snapshot (t_hist t) ->
  went t (bind_and_load b t1 u i).1 (bind_and_load b t1 u i).2.
Proof.
  intros. unfold bind_and_load. destruct b; cbn [fst snd].
  - unfold start_load. cbn [fst snd]. rewrite H5. apply WLoad; cbn; try done; congruence.
  - apply WIdle; try done. by repeat constructor.
Qed.

Lemma same_document_went t u i : good (t_hist t) -> is_same_document t u = true ->
  exists t' es, navigate_same_document t u i = Ok (t', es) /\ went t t' es.
Proof.
  intros Hg Hd. unfold TabModel.navigate_same_document.
  set (t0 := with_tasks (t_tasks t ++ [mk_task u Local]) t).
  assert (exists h, match i with
    | Push => let* t := save_scroll t0 in let* (t, _) := hist t (OPush u (Some (t_title t))) in Ok t
    | Reload | Traverse _ => Ok t0 end = Ok (with_hist h t0) /\ good h) as (h & Hh & Hgh).
  { destruct i.
    - destruct (save_scroll_spec t0 Hg) as (h1 & -> & Hg1 & _). cbn [rbind].
      destruct (hist_spec (with_hist h1 t0) (OPush u (Some (t_title (with_hist h1 t0)))) Hg1 I) as (h2 & r & -> & Hg2 & _).
      cbn [rbind]. exists h2. split; [|done]. done.
    - exists (t_hist t0). split; [|done]. by destruct t.
    - exists (t_hist t0). split; [|done]. by destruct t. }
  rewrite Hh. cbn [rbind].
  set (target := match i with Traverse _ => _ | _ => _ end). set (t1 := with_url' (Some u) (with_hist h t0)).
  assert (good (t_hist (match target with Some s => apply_scroll place s t1 | None => t1 end))) as Hg1 by by destruct target.
  destruct (changed_spec _ Hg1) as (s & -> & Hs). cbn [rbind]. eexists _, _. split; [reflexivity|].
  apply WLocal; try done; by destruct target.
Qed.

Lemma navigate_went b t text i : good (t_hist t) ->
  exists t' es, navigate_to b t text i = Ok (t', es) /\ went t t' es.
Proof.
  intros Hg. unfold TabModel.navigate_to. destruct (parse text) as [u|].
  2:{ eexists _, _. split; [reflexivity|]. apply WIdle; try done. by repeat constructor. }
  destruct (negb (bool_decide (i = Reload)) && is_same_document t u) eqn:Hd.
  { apply andb_prop in Hd as [_ Hd]. by apply same_document_went. }
  assert (exists h, match i with Traverse _ => Ok t | _ => save_scroll t end = Ok (with_hist h t) /\ good h /\
     take_snapshot h = take_snapshot (t_hist t)) as (h & -> & Hgh & Hs).
  { destruct i.
    - destruct (save_scroll_spec t Hg) as (h & -> & ? & ?). exists h. split; [done|]. split; [done|]. by apply sim_snapshot.
    - destruct (save_scroll_spec t Hg) as (h & -> & ? & ?). exists h. split; [done|]. split; [done|]. by apply sim_snapshot.
    - exists (t_hist t). split; [by destruct t|done]. }
  cbn [rbind]. eexists _, _. split; [apply f_equal, surjective_pairing|]. by apply bind_went.
Qed.

Lemma load_html_went b t text : good (t_hist t) ->
  exists t' es, load_html parse b t text = Ok (t', es) /\ went t t' es.
Proof.
  intros Hg. unfold load_html. destruct (parse text) as [u|].
  2:{ eexists _, _. split; [reflexivity|]. apply WIdle; try done. by repeat constructor. }
  destruct (save_scroll_spec t Hg) as (h & -> & ? & ?). cbn [rbind].
  eexists _, _. split; [apply f_equal, surjective_pairing|]. apply bind_went; try done. by apply sim_snapshot.
Qed.

Lemma went_move b c t t' es : went t t' es -> move t (LCommand b c) t' es.
Proof.
  intros [? ? | ? ? ? | ? ?].
  - rewrite <- (app_nil_r es0). apply MIdle; try done; [by left|by left].
  - rewrite <- (app_nil_r [_; _; _]). eapply MLocal; try done. by left.
  - apply MLoad; try done. by left.
Qed.

(** A traversal: the history moved first. *)
Lemma went_traverse b c t h t' es s : went (with_hist h t) t' es -> take_snapshot (t_hist t') = Ok s ->
  move t (LCommand b c) t' (es ++ [EHistory s]).
Proof.
  intros Hw Hs. inversion Hw; subst.
  - apply MIdle; try done; [by left|]. right. by exists s.
  - rewrite H9 in Hs. injection Hs as ->. apply (MLocal t b c u t' s [EHistory s]); try done. by right.
  - apply (MLoad t b c u t' [EHistory s]); try done. right. by exists s.
Qed.

Lemma traverse_move b c t h e : good h -> good (t_hist t) ->
  (e = None -> take_snapshot h = take_snapshot (t_hist t)) ->
  (forall i, e = Some i -> exists x, h_entries h !! i = Some x) ->
  exists t' es, traverse_history b (with_hist h t) e = Ok (t', es) /\ move t (LCommand b c) t' es.
Proof.
  intros Hg Hg0 Hn Hx. unfold TabModel.traverse_history. destruct e as [e|].
  - destruct (Hx e eq_refl) as [x Hx']. cbn [t_hist with_hist]. rewrite Hx'.
    destruct (navigate_went b (with_hist h t) (e_url x) (Traverse e) Hg) as (t' & es & Hn' & Hw). rewrite Hn'.
    cbn [rbind]. assert (good (t_hist t')) as Hg' by by inversion Hw.
    destruct (changed_spec _ Hg') as (s & -> & Hs). cbn [rbind]. eexists _, _. split; [reflexivity|].
    by eapply went_traverse.
  - eexists _, _. split; [reflexivity|]. apply (MIdle t _ (with_hist h t) [] []); try done; [by left|].
    left. split; [done|]. by apply Hn.
Qed.

Lemma back_entry h h' r : good h -> HistoryModel.step h OBack = Ok (h', r) ->
  (r = None -> h' = h) /\ (forall i, r = Some i -> exists x, h_entries h' !! i = Some x).
Proof.
  intros Hg Hs. pose proof (good_step _ OBack _ _ Hg I Hs) as Hg'. cbn [HistoryModel.step] in Hs. unfold go_back in Hs.
  destruct (back_target h) as [[i|]| |]; [..|done|done]; cbn [rbind] in Hs; injection Hs as <- <-.
  - split; [done|]. intros j [= <-]. destruct (reachable_inv _ (good_reach _ Hg')) as [log Hi].
    pose proof (inv_cur _ _ Hi) as Hc. cbn [h_current] in Hc. by apply lookup_lt_is_Some_2.
  - done.
Qed.

Lemma forward_entry h w h' r : good h -> HistoryModel.step h (OForward w) = Ok (h', r) ->
  (r = None -> h' = h) /\ (forall i, r = Some i -> exists x, h_entries h' !! i = Some x).
Proof.
  intros Hg Hs. pose proof (good_step _ (OForward w) _ _ Hg I Hs) as Hg'.
  assert ((r = None /\ h' = h) \/ exists i, r = Some i /\ h_current h' = Some i) as Hr.
  { cbn [HistoryModel.step] in Hs. unfold go_forward in Hs. destruct (forward_targets h) as [ts| |]; [|done..].
    cbn [rbind] in Hs.
    assert (forall i, forward_to h i = Ok (h', r) -> exists i, r = Some i /\ h_current h' = Some i) as Hf.
    { intros i Hi. apply rbind_Ok in Hi as (es & _ & Hi). injection Hi as <- <-. eauto. }
    destruct w as [i|]; [destruct (decide (i ∈ ts))|destruct ts as [|i ts]];
      first [by right; eapply Hf|injection Hs as <- <-; eauto]. }
  destruct Hr as [[-> ->]|(i & -> & Hc)]; [done|]. split; [done|]. intros j [= <-].
  destruct (reachable_inv _ (good_reach _ Hg')) as [log Hi].
  pose proof (inv_cur _ _ Hi) as Hc'. rewrite Hc in Hc'. by apply lookup_lt_is_Some_2.
Qed.

Lemma goto_entry h w h' r : good h -> HistoryModel.step h (OGoTo w) = Ok (h', r) ->
  (r = None -> h' = h) /\ (forall i, r = Some i -> exists x, h_entries h' !! i = Some x).
Proof.
  intros Hg Hs. pose proof (good_step _ (OGoTo w) _ _ Hg I Hs) as Hg'.
  assert ((r = None /\ h' = h) \/ exists i, r = Some i /\ h_current h' = Some i) as Hr.
  { cbn [HistoryModel.step] in Hs. unfold go_to in Hs. destruct (h_entries h !! w) as [e|]; [|injection Hs as <- <-; eauto].
    destruct (e_navigable e); [|injection Hs as <- <-; eauto].
    apply rbind_Ok in Hs as (es & _ & Hs). injection Hs as <- <-. eauto. }
  destruct Hr as [[-> ->]|(i & -> & Hc)]; [done|]. split; [done|]. intros j [= <-].
  destruct (reachable_inv _ (good_reach _ Hg')) as [log Hi].
  pose proof (inv_cur _ _ Hi) as Hc'. rewrite Hc in Hc'. by apply lookup_lt_is_Some_2.
Qed.

Lemma with_hist_hist h h' t : with_hist h (with_hist h' t) = with_hist h t.
Proof. done. Qed.

Lemma traverse_cmd b c t o : good (t_hist t) ->
  (exists w, o = OBack \/ o = OForward w \/ exists e, o = OGoTo e) ->
  exists t' es, (let* t := save_scroll t in let* (t, e) := hist t o in traverse_history b t e) = Ok (t', es) /\
    move t (LCommand b c) t' es.
Proof.
  intros Hg Ho. destruct (save_scroll_spec t Hg) as (h1 & -> & Hg1 & Hsim). cbn [rbind].
  assert (tab_op o) as Hto by (destruct Ho as (w & [->|[->|[e ->]]]); done).
  destruct (hist_spec (with_hist h1 t) o Hg1 Hto) as (h2 & r & -> & Hg2 & Hs). cbn [rbind t_hist with_hist] in *.
  rewrite with_hist_hist.
  assert ((r = None -> h2 = h1) /\ (forall i, r = Some i -> exists x, h_entries h2 !! i = Some x)) as [Hn Hx].
  { destruct Ho as (w & [->|[->|[e ->]]]); [by apply (back_entry h1)|by apply (forward_entry h1 w)|by apply (goto_entry h1 e)]. }
  apply traverse_move; try done. intros Hr. rewrite (Hn Hr). by apply sim_snapshot.
Qed.

Lemma handle_move b t c : good (t_hist t) ->
  exists t' es, handle b t c = Ok (t', es) /\ move t (LCommand b c) t' es.
Proof.
  intros Hg. destruct c; cbn [TabModel.handle].
  - destruct (navigate_went b t text Push Hg) as (t' & es & -> & Hw). eexists _, _. split; [done|]. by apply went_move.
  - destruct (load_html_went b t base Hg) as (t' & es & -> & Hw). eexists _, _. split; [done|]. by apply went_move.
  - destruct (navigate_went b t (default about_blank (t_url t)) Reload Hg) as (t' & es & -> & Hw).
    eexists _, _. split; [done|]. by apply went_move.
  - apply traverse_cmd; [done|]. exists None. by left.
  - apply traverse_cmd; [done|]. exists e. right. by left.
  - case_bool_decide.
    + eexists _, _. split; [done|]. apply (MIdle t _ t [] []); try done; by left.
    + apply traverse_cmd; [done|]. exists None. right. right. by exists e.
  - eexists _, _. split; [done|]. by apply MCancel.
  - eexists _, _. split; [done|]. apply (MIdle t _ (with_title' x t) [] []); try done; [right; eauto|by left].
  - eexists _, _. split; [done|]. apply (MIdle t _ (with_scroll' s t) [] []); try done; by left.
Qed.

Lemma commit_spec t i u title : good (t_hist t) ->
  exists h restore, commit t i u title = Ok (with_hist h t, restore) /\ good h.
Proof.
  intros Hg. unfold commit. destruct i.
  - destruct (hist_spec t (OPush u title) Hg I) as (h & r & -> & Hh & _). cbn [rbind]. eauto.
  - destruct (hist_spec t (OReplaceUrl u) Hg I) as (h & r & -> & Hh & _). cbn [rbind].
    destruct (hist_spec (with_hist h t) (OSetTitle title) Hh I) as (h1 & r1 & -> & Hh1 & _). cbn [rbind].
    rewrite with_hist_hist. eauto.
  - destruct (hist_spec t (OReplaceUrl u) Hg I) as (h & r & -> & Hh & _). cbn [rbind].
    destruct (hist_spec (with_hist h t) (OSetTitle title) Hh I) as (h1 & r1 & -> & Hh1 & _). cbn [rbind].
    rewrite with_hist_hist. eauto.
Qed.

Lemma step_move t l : good (t_hist t) ->
  exists t1 t' es, step t l = Ok (t', es) /\ move t l t1 es /\
    (t' = sync t1 \/ (t' = t1 /\ t_pending t1 = t_pending t /\ t_load t1 = t_load t)).
Proof.
  intros Hg. assert (move t l t []) as Hidle.
  { apply (MIdle t _ t [] []); try done; by left. }
  destruct l as [b c|id o| |b]; cbn [TabModel.step].
  - destruct (handle_move b t c Hg) as (t' & es & -> & Hm). cbn [rbind]. eexists _, _, _. split; [done|]. split; [done|]. by left.
  - destruct (t_tasks t !! id) as [[u s]|] eqn:Hk; [|eauto 10].
    destruct s; [|by eauto 10..].
    destruct (match o with OSend r => _ | _ => _ end) as [t' es] eqn:Ho. eexists t', t', es. split; [done|].
    split; [|destruct o; injection Ho as <- <-; eauto].
    destruct o; injection Ho as <- <-; by eapply MEnd.
  - destruct (t_pending t) as [id|] eqn:Hp; [|eauto 10].
    destruct (t_tasks t !! id) as [[u s]|] eqn:Hk; [|eauto 10].
    destruct s as [|r| | | |]; [by eauto 10| | |by eauto 10..].
    + destruct r as [v title d| |v].
      * cbn [TabModel.on_nav_result].
        set (t0 := with_flags false false _).
        assert (good (t_hist t0)) as Hg0 by (unfold t0; by destruct title).
        destruct (commit_spec t0 (intent_of t0 id) v title Hg0) as (h & restore & -> & Hh). cbn [rbind].
        set (t1 := with_pscroll (landing restore v) (with_hist h t0)).
        destruct (changed_spec t1 Hh) as (sn & -> & Hsn). cbn [rbind].
        eexists t1, _, _. split; [reflexivity|]. split; [|by left].
        eapply MDone; try done; unfold t1, t0; try (by destruct title).
        destruct (is_web v); [by right|by left].
      * cbn [TabModel.on_nav_result rbind]. eexists _, _, _. split; [reflexivity|]. split; [|by left]. by eapply MFail.
      * cbn [TabModel.on_nav_result rbind]. eexists _, _, _. split; [reflexivity|]. split; [|by left]. by eapply MOffer.
    + eexists _, _, _. split; [reflexivity|]. split; [|by left]. by eapply MLost.
  - eexists (tick place target_y b t), _, _. split; [reflexivity|]. split; [|by left].
    assert (exists s p, tick place target_y b t = with_scroll' s (with_pscroll p t)) as (s & p & ->).
    { unfold tick. destruct b; [|exists (t_scroll t), (t_pscroll t); by destruct t].
      destruct (t_pscroll t) as [[x y|f]|].
      - eexists _, _. reflexivity.
      - cbn [t_doc with_pscroll]. destruct (target_y (t_doc t) f); eexists _, _; [reflexivity|].
        instantiate (1 := None). instantiate (1 := t_scroll t). by destruct t.
      - exists (t_scroll t), (t_pscroll t) ; by destruct t. }
    apply (MIdle t _ (with_scroll' s (with_pscroll p t)) [] []); try done; by left.
Qed.

(** * Invariants of all runs *)
Definition waiting (s : task_state) : Prop :=
  match s with Running | Sent _ | Hung => True | _ => False end.

(** Ends come after starts. *)
Fixpoint ordered (seen : list nat) (es : list event) : Prop :=
  match es with
  | [] => True
  | e :: es' =>
      (forall id, ended_id e = Some id -> id ∈ seen) /\
      ordered (match started_id e with Some id => seen ++ [id] | None => seen end) es'
  end.

Lemma ordered_app seen es es' :
  ordered seen (es ++ es') <-> ordered seen es /\ ordered (seen ++ omap started_id es) es'.
Proof.
  revert seen. induction es as [|e es IH]; intros seen.
  - cbn. rewrite app_nil_r. tauto.
  - cbn [ordered app omap list_omap]. rewrite IH.
    destruct (started_id e) as [i|]; cbn; [rewrite <- app_assoc|]; cbn; tauto.
Qed.

Record TI (t : tab) (es : list event) : Prop := {
  ti_good : good (t_hist t);
  ti_sync : t_pending t = None -> forall id, t_load t <> Some (id, true);
  ti_load : forall id, t_load t = Some (id, true) ->
    t_pending t <> Some id /\ exists k, t_tasks t !! id = Some k /\ waiting (k_state k);
  ti_pend : forall id, t_pending t = Some id -> exists k, t_tasks t !! id = Some k /\ waiting (k_state k);
  ti_ids : omap started_id es = seq 0 (length (t_tasks t));
  ti_count : forall id, match t_tasks t !! id with
                        | None => times_ended id es = 0
                        | Some k => match k_state k with
                                    | Running | Sent _ => times_ended id es = 0
                                    | Received _ | Local => times_ended id es = 1
                                    | Hung | Lost => times_ended id es <= 1
                                    end
                        end;
  ti_ordered : ordered [] es;
  ti_url : t_url t = last (omap finished_url es);
  ti_hist : match last (omap told_history es) with
            | Some s => take_snapshot (t_hist t) = Ok s
            | None => take_snapshot (t_hist t) = take_snapshot empty_history
            end;
}.

(** Everything but the first three facts is untouched by [sync]. *)
Lemma sync_cases t : sync t = t \/
  (exists id, t_pending t = None /\ t_load t = Some (id, true) /\
     sync t = with_pending (Some id) (with_load (Some (id, false)) t)).
Proof.
  unfold sync. destruct (t_pending t); [by left|]. destruct (t_load t) as [[id []]|]; [|by left..]. right. eauto.
Qed.

Lemma sync_TI t es :
  good (t_hist t) ->
  (forall id, t_load t = Some (id, true) ->
    t_pending t <> Some id /\ exists k, t_tasks t !! id = Some k /\ waiting (k_state k)) ->
  (forall id, t_pending t = Some id -> exists k, t_tasks t !! id = Some k /\ waiting (k_state k)) ->
  omap started_id es = seq 0 (length (t_tasks t)) ->
  (forall id, match t_tasks t !! id with
              | None => times_ended id es = 0
              | Some k => match k_state k with
                          | Running | Sent _ => times_ended id es = 0
                          | Received _ | Local => times_ended id es = 1
                          | Hung | Lost => times_ended id es <= 1
                          end
              end) ->
  ordered [] es -> t_url t = last (omap finished_url es) ->
  match last (omap told_history es) with
  | Some s => take_snapshot (t_hist t) = Ok s
  | None => take_snapshot (t_hist t) = take_snapshot empty_history
  end -> TI (sync t) es.
Proof.
  intros. destruct (sync_cases t) as [Hs|(id & Hp & Hl & ->)].
  - rewrite Hs. split; try done. intros Hp id Hl. unfold sync in Hs. rewrite Hp, Hl in Hs.
    apply (f_equal t_pending) in Hs. cbn in Hs. congruence.
  - split; try done; cbn [t_load t_pending t_tasks with_load with_pending].
    intros j [= <-]. by apply H0.
Qed.

Lemma seq_snoc n : seq 0 n ++ [n] = seq 0 (S n).
Proof. by rewrite seq_S. Qed.

Lemma times_app id es es' : times_ended id (es ++ es') = times_ended id es + times_ended id es'.
Proof. unfold times_ended. by rewrite filter_app, app_length. Qed.
Lemma times_cons id e es : times_ended id (e :: es) = (if decide (ended_id e = Some id) then 1 else 0) + times_ended id es.
Proof. unfold times_ended. rewrite filter_cons. by destruct (decide _). Qed.
Lemma times_nil id : times_ended id [] = 0.
Proof. done. Qed.

Lemma neutral_started es : Forall neutral es -> omap started_id es = [].
Proof. induction 1 as [|e es He _ IH]; [done|]. cbn. destruct e as [| |[]| | | | |]; try done. Qed.
Lemma neutral_finished es : Forall neutral es -> omap finished_url es = [].
Proof. induction 1 as [|e es He _ IH]; [done|]. cbn. destruct e as [| |[]| | | | |]; try done. Qed.
Lemma neutral_told es : Forall neutral es -> omap told_history es = [].
Proof. induction 1 as [|e es He _ IH]; [done|]. cbn. destruct e as [| |[]| | | | |]; try done. Qed.
Lemma neutral_times id es : Forall neutral es -> times_ended id es = 0.
Proof. induction 1 as [|e es He _ IH]; [done|]. rewrite times_cons, IH. destruct e as [| |[]| | | | |]; try done. Qed.
Lemma neutral_ordered seen es : Forall neutral es -> ordered seen es.
Proof. revert seen. induction 1 as [|e es He _ IH]; [done|]. cbn. destruct e as [| |[]| | | | |]; try done. Qed.

Lemma tail_times h h' tl id : tail_ok h h' tl -> times_ended id tl = 0.
Proof. by intros [[-> _]|(s & -> & _)]. Qed.
Lemma tail_started h h' tl : tail_ok h h' tl -> omap started_id tl = [].
Proof. by intros [[-> _]|(s & -> & _)]. Qed.
Lemma tail_finished h h' tl : tail_ok h h' tl -> omap finished_url tl = [].
Proof. by intros [[-> _]|(s & -> & _)]. Qed.
Lemma tail_ordered h h' tl seen : tail_ok h h' tl -> ordered seen tl.
Proof. by intros [[-> _]|(s & -> & _)]. Qed.

Lemma tail_hist h h' tl (l : list snapshot) : tail_ok h h' tl ->
  match last l with
  | Some s => take_snapshot h = Ok s
  | None => take_snapshot h = take_snapshot empty_history
  end ->
  match last (l ++ omap told_history tl) with
  | Some s => take_snapshot h' = Ok s
  | None => take_snapshot h' = take_snapshot empty_history
  end.
Proof.
  intros [[-> Hs]|(s & -> & Hs)].
  - cbn. rewrite app_nil_r, Hs. done.
  - cbn. rewrite last_snoc. done.
Qed.

Lemma lookup_alter_task t id s j :
  t_tasks (set_task id s t) !! j =
  if decide (j = id) then (fun k => mk_task (k_url k) s) <$> t_tasks t !! j else t_tasks t !! j.
Proof.
  unfold set_task. cbn [t_tasks with_tasks]. destruct (decide (j = id)) as [->|Hne].
  - by rewrite list_lookup_alter.
  - by rewrite list_lookup_alter_ne.
Qed.
Lemma length_set_task t id s : length (t_tasks (set_task id s t)) = length (t_tasks t).
Proof. unfold set_task. cbn [t_tasks with_tasks]. apply alter_length. Qed.

(** The state of task [id] changes from a waiting one. *)
Lemma count_set t es es' id s k :
  t_tasks t !! id = Some k ->
  (forall j, match t_tasks t !! j with
             | None => times_ended j es = 0
             | Some k => match k_state k with
                         | Running | Sent _ => times_ended j es = 0
                         | Received _ | Local => times_ended j es = 1
                         | Hung | Lost => times_ended j es <= 1
                         end
             end) ->
  (forall j, j <> id -> times_ended j es' = 0) ->
  match s with
  | Running | Sent _ => times_ended id (es ++ es') = 0
  | Received _ | Local => times_ended id (es ++ es') = 1
  | Hung | Lost => times_ended id (es ++ es') <= 1
  end ->
  forall j, match t_tasks (set_task id s t) !! j with
            | None => times_ended j (es ++ es') = 0
            | Some k => match k_state k with
                        | Running | Sent _ => times_ended j (es ++ es') = 0
                        | Received _ | Local => times_ended j (es ++ es') = 1
                        | Hung | Lost => times_ended j (es ++ es') <= 1
                        end
            end.
Proof.
  intros Hk Hc Hn Hs j. rewrite lookup_alter_task. destruct (decide (j = id)) as [->|Hne].
  - rewrite Hk. done.
  - rewrite times_app, (Hn j Hne), Nat.add_0_r. apply Hc.
Qed.

(** A task is added. *)
Lemma count_snoc (ts : list task) es es' u s :
  (forall j, match ts !! j with
             | None => times_ended j es = 0
             | Some k => match k_state k with
                         | Running | Sent _ => times_ended j es = 0
                         | Received _ | Local => times_ended j es = 1
                         | Hung | Lost => times_ended j es <= 1
                         end
             end) ->
  (forall j, j <> length ts -> times_ended j es' = 0) ->
  match s with
  | Running => times_ended (length ts) es' = 0
  | Local => times_ended (length ts) es' = 1
  | _ => False
  end ->
  forall j, match (ts ++ [mk_task u s]) !! j with
            | None => times_ended j (es ++ es') = 0
            | Some k => match k_state k with
                        | Running | Sent _ => times_ended j (es ++ es') = 0
                        | Received _ | Local => times_ended j (es ++ es') = 1
                        | Hung | Lost => times_ended j (es ++ es') <= 1
                        end
            end.
Proof.
  intros Hc Hn Hs j. rewrite times_app. destruct (decide (j = length ts)) as [->|Hne].
  - pose proof (Hc (length ts)) as H0. rewrite (lookup_ge_None_2 ts) in H0 by lia. rewrite H0.
    rewrite lookup_app_r by lia. rewrite Nat.sub_diag. cbn. destruct s; done.
  - rewrite (Hn j Hne), Nat.add_0_r. specialize (Hc j). destruct (ts !! j) as [k|] eqn:Hk.
    + rewrite lookup_app_l by (by eapply lookup_lt_Some). rewrite Hk. done.
    + rewrite lookup_ge_None in Hk. rewrite (lookup_ge_None_2 (ts ++ _)); [done|]. rewrite app_length. cbn. lia.
Qed.

Lemma task_app (ts : list task) k id k0 : ts !! id = Some k0 -> (ts ++ [k]) !! id = Some k0.
Proof. intros H. rewrite lookup_app_l; [done|]. by eapply lookup_lt_Some. Qed.

Lemma local_times j n u s tl : (tl = [] \/ tl = [EHistory s]) ->
  times_ended j ([EStarted n u; EFinished n u; EHistory s] ++ tl) = if decide (j = n) then 1 else 0.
Proof.
  intros Htl. cbn [app]. rewrite !times_cons. cbn [ended_id].
  replace (times_ended j tl) with 0 by (by destruct Htl as [->| ->]).
  rewrite (decide_False (P := None = Some j)) by done. destruct (decide (j = n)) as [->|].
  - by rewrite decide_True by done.
  - by rewrite decide_False by congruence.
Qed.

Lemma move_TI t l t1 es0 es : TI t es0 -> move t l t1 es ->
  TI (sync t1) (es0 ++ es).
Proof.
  intros HT Hm. destruct HT as [Hg Hsy Hl Hp Hi Hc Ho Hu Hh].
  assert (forall id s', t_pending t = Some id -> forall j, t_load t = Some (j, true) ->
      exists k, t_tasks (set_task id s' t) !! j = Some k /\ waiting (k_state k)) as Hld.
  { intros id s' Hpe j Hj. destruct (Hl j Hj) as [Hne (k & Hk' & Hwk)]. exists k.
    rewrite lookup_alter_task, decide_False by congruence. done. }
  inversion Hm; subst.
  - (* idle *)
    apply sync_TI; rewrite ?H, ?H0, ?H1, ?H2, ?H3, ?H4, ?H5; try done.
    + by rewrite !omap_app, (neutral_started _ H8), (tail_started _ _ _ H9), !app_nil_r.
    + intros id. rewrite !times_app, (neutral_times _ _ H8), (tail_times _ _ _ _ H9), !Nat.add_0_r. apply Hc.
    + apply ordered_app. split; [done|]. apply ordered_app. split; [by apply neutral_ordered|by eapply tail_ordered].
    + by rewrite !omap_app, (neutral_finished _ H8), (tail_finished _ _ _ H9), !app_nil_r.
    + rewrite omap_app, omap_app, (neutral_told _ H8). cbn [app]. by eapply tail_hist.
  - (* cancel *)
    rewrite app_nil_r. apply sync_TI; cbn [t_tasks with_load t_pending t_load t_hist]; done.
  - (* local *)
    assert (forall j, j <> length (t_tasks t) ->
      times_ended j ([EStarted (length (t_tasks t)) u; EFinished (length (t_tasks t)) u; EHistory s] ++ tl) = 0) as Hn0.
    { intros j Hj. by rewrite local_times, decide_False by done. }
    apply sync_TI; rewrite ?H0, ?H1, ?H2, ?H3, ?H4, ?H5, ?H6; try done.
    + intros id Hid. destruct (Hl id Hid) as [? (k & ? & ?)]. split; [done|]. exists k. split; [by apply task_app|done].
    + intros id Hid. destruct (Hp id Hid) as (k & ? & ?). exists k. split; [by apply task_app|done].
    + rewrite omap_app, Hi, app_length. cbn. replace (omap started_id tl) with (@nil nat) by (by destruct H10 as [->| ->]).
      rewrite seq_snoc. f_equal. lia.
    + apply count_snoc; [done|done|]. by rewrite local_times, decide_True by done.
    + apply ordered_app. split; [done|]. rewrite Hi. cbn. split; [done|]. split.
      { intros id [= <-]. apply elem_of_app. right. by apply elem_of_list_singleton. }
      split; [done|]. by destruct H10 as [->| ->].
    + rewrite omap_app. cbn. destruct H10 as [->| ->]; cbn; by rewrite last_snoc.
    + rewrite omap_app. cbn. destruct H10 as [->| ->]; cbn.
      * by rewrite last_snoc.
      * by rewrite (app_assoc _ [s] [s]), last_snoc.
  - (* load *)
    apply sync_TI; rewrite ?H, ?H0, ?H1, ?H2, ?H3, ?H4, ?H5, ?H6; try done.
    + intros id [= <-]. split.
      * intros Hpe. destruct (Hp _ Hpe) as (k & Hk & _). apply lookup_lt_Some in Hk. lia.
      * eexists. rewrite lookup_app_r, Nat.sub_diag by lia. done.
    + intros id Hid. destruct (Hp id Hid) as (k & ? & ?). exists k. split; [by apply task_app|done].
    + rewrite omap_app, Hi, app_length. cbn. rewrite (tail_started _ _ _ H8), seq_snoc. f_equal. lia.
    + apply count_snoc; [done|..].
      * intros j Hj. rewrite times_cons, (tail_times _ _ _ _ H8). done.
      * rewrite times_cons, (tail_times _ _ _ _ H8). done.
    + apply ordered_app. split; [done|]. cbn. split; [done|]. by eapply tail_ordered.
    + rewrite omap_app. cbn. by rewrite (tail_finished _ _ _ H8), app_nil_r.
    + rewrite omap_app. cbn. by eapply tail_hist.
  - (* end *)
    assert (waiting s) as Hw by (destruct o; injection H0 as -> ->; done).
    apply sync_TI; try done.
    + intros j Hj. destruct (Hl j Hj) as [? (k & Hk & Hwk)]. split; [done|]. rewrite lookup_alter_task.
      destruct (decide (j = id)) as [->|]; [|eauto]. rewrite H. eexists. split; [done|done].
    + intros j Hj. destruct (Hp j Hj) as (k & Hk & Hwk). rewrite lookup_alter_task.
      destruct (decide (j = id)) as [->|]; [|eauto]. rewrite H. eexists. split; [done|done].
    + rewrite length_set_task, omap_app, Hi. destruct o; injection H0 as -> ->; cbn; by rewrite app_nil_r.
    + pose proof (Hc id) as Hci. rewrite H in Hci. cbn in Hci. eapply count_set; [done|done|..].
      * intros j Hj. destruct o; injection H0 as -> ->; [done| |done]. rewrite times_cons. cbn [ended_id].
        rewrite decide_False by congruence. done.
      * destruct o; injection H0 as -> ->; rewrite times_app, Hci; [done| |cbn; lia]. rewrite times_cons. cbn [ended_id].
        rewrite decide_True by done. cbn. lia.
    + apply ordered_app. split; [done|]. rewrite Hi. cbn.
      destruct o; injection H0 as -> ->; [done| |done]. cbn. split; [|done]. intros j [= <-].
      apply elem_of_seq. apply lookup_lt_Some in H. lia.
    + rewrite omap_app. destruct o; injection H0 as -> ->; cbn; by rewrite app_nil_r.
    + rewrite omap_app. destruct o; injection H0 as -> ->; cbn; by rewrite app_nil_r.
  - (* lost *)
    rewrite app_nil_r. apply sync_TI; cbn [t_pending t_load t_hist t_url set_task with_tasks with_pending]; try done.
    + intros j Hj. split; [done|]. by eapply Hld.
    + by rewrite length_set_task.
    + rewrite <- (app_nil_r es0). eapply (count_set (with_pending None t)); [exact H0|done|done|].
      pose proof (Hc id) as Hci. rewrite H0 in Hci. by rewrite app_nil_r.
  - (* done *)
    assert (waiting (Sent (ROk u title d))) as Hw by done.
    apply sync_TI; rewrite ?H1, ?H2, ?H3, ?H4, ?H5, ?H6, ?H7; try done.
    + intros j Hj. split; [done|]. by eapply Hld.
    + rewrite length_set_task, !omap_app, Hi. destruct H11 as [->| ->]; cbn; by rewrite app_nil_r.
    + pose proof (Hc id) as Hci. rewrite H0 in Hci. cbn in Hci. eapply count_set; [done|done|..].
      * intros j Hj. rewrite times_app, !times_cons. cbn [ended_id]. rewrite decide_False by congruence.
        rewrite decide_False by done. destruct H11 as [->| ->]; done.
      * rewrite !times_app, Hci, !times_cons. cbn [ended_id]. rewrite decide_True by done.
        rewrite decide_False by done. destruct H11 as [->| ->]; done.
    + apply ordered_app. split; [done|]. rewrite Hi. apply ordered_app. split; [by destruct H11 as [->| ->]|].
      cbn. split; [|done]. intros j [= <-]. apply elem_of_app. left. apply elem_of_seq. apply lookup_lt_Some in H0. lia.
    + rewrite !omap_app. cbn. by rewrite app_assoc, last_snoc.
    + rewrite !omap_app. cbn. by rewrite app_assoc, last_snoc.
  - (* download *)
    apply sync_TI; cbn [t_pending t_load t_hist t_url set_task with_tasks with_pending with_flags with_pending_url]; try done.
    + intros j Hj. split; [done|]. by eapply Hld.
    + rewrite omap_app, Hi. cbn. rewrite app_nil_r. by rewrite alter_length.
    + pose proof (Hc id) as Hci. rewrite H0 in Hci. cbn in Hci.
      eapply (count_set (with_pending None t)); [done|done|..].
      * intros j Hj. rewrite !times_cons. cbn [ended_id]. rewrite decide_False by congruence. by rewrite decide_False by done.
      * rewrite times_app, Hci, !times_cons. cbn [ended_id]. rewrite decide_True by done. by rewrite decide_False by done.
    + apply ordered_app. split; [done|]. rewrite Hi. cbn. split; [|done]. intros j [= <-].
      apply elem_of_seq. apply lookup_lt_Some in H0. lia.
    + rewrite omap_app. cbn. by rewrite app_nil_r.
    + rewrite omap_app. cbn. by rewrite app_nil_r.
  - (* failure *)
    apply sync_TI; cbn [t_pending t_load t_hist t_url set_task with_tasks with_pending with_flags with_pending_url]; try done.
    + intros j Hj. split; [done|]. by eapply Hld.
    + rewrite omap_app, Hi. cbn. rewrite app_nil_r. by rewrite alter_length.
    + pose proof (Hc id) as Hci. rewrite H0 in Hci. cbn in Hci.
      eapply (count_set (with_pending None t)); [done|done|..].
      * intros j Hj. rewrite !times_cons. cbn [ended_id]. by rewrite decide_False by congruence.
      * rewrite times_app, Hci, !times_cons. cbn [ended_id]. by rewrite decide_True by done.
    + apply ordered_app. split; [done|]. rewrite Hi. cbn. split; [|done]. intros j [= <-].
      apply elem_of_seq. apply lookup_lt_Some in H0. lia.
    + rewrite omap_app. cbn. by rewrite app_nil_r.
    + rewrite omap_app. cbn. by rewrite app_nil_r.
Qed.

Lemma step_total t l es0 : TI t es0 ->
  exists t1 es, step t l = Ok (sync t1, es) /\ move t l t1 es.
Proof.
  intros HT. destruct (step_move t l (ti_good _ _ HT)) as (t1 & t' & es & Hs & Hm & [->|(-> & Hp & Hl)]); [by eauto|].
  exists t1, es. split; [|done]. rewrite Hs. do 2 f_equal. unfold sync. rewrite Hp, Hl.
  destruct (t_pending t) eqn:Hpe; [done|]. destruct (t_load t) as [[id []]|] eqn:Hle; [|done..].
  by destruct (ti_sync _ _ HT Hpe id).
Qed.

Lemma step_TI t l t' es0 es : TI t es0 -> step t l = Ok (t', es) ->
  TI t' (es0 ++ es) /\ exists t1, t' = sync t1 /\ move t l t1 es.
Proof.
  intros HT Hs. destruct (step_total t l es0 HT) as (t1 & es1 & Hs1 & Hm). rewrite Hs1 in Hs. injection Hs as <- <-.
  split; [by eapply move_TI|eauto].
Qed.

(** Any invariant that each step preserves. *)
Lemma run_ind (P : tab -> list label -> list event -> Prop) t0 :
  TI t0 [] -> P t0 [] [] ->
  (forall t ls es l t1 es1, TI t es -> P t ls es -> move t l t1 es1 -> TI (sync t1) (es ++ es1) ->
     P (sync t1) (ls ++ [l]) (es ++ es1)) ->
  forall ls, exists t es, run t0 ls = Ok (t, es) /\ TI t es /\ P t ls es.
Proof.
  intros HT0 HP0 Hstep ls.
  enough (forall ls0 t es0, TI t es0 -> P t ls0 es0 ->
    exists t' es, run t ls = Ok (t', es) /\ TI t' (es0 ++ es) /\ P t' (ls0 ++ ls) (es0 ++ es)) as H.
  { exact (H [] t0 [] HT0 HP0). }
  induction ls as [|l ls IH]; intros ls0 t es0 HT HP; cbn [TabModel.run].
  - exists t, []. rewrite !app_nil_r. done.
  - destruct (step_total t l es0 HT) as (t1 & es1 & -> & Hm). cbn [rbind].
    pose proof (move_TI t l t1 es0 es1 HT Hm) as HT1.
    destruct (IH (ls0 ++ [l]) (sync t1) (es0 ++ es1) HT1) as (t' & es & -> & HT' & HP'); [by eapply Hstep|].
    cbn [rbind]. eexists _, _. split; [done|]. rewrite !app_assoc. rewrite <- (app_assoc ls0) in HP'. done.
Qed.

Lemma new_TI ttl : TI (new_tab ttl) [].
Proof. split; try done. apply good_empty. Qed.

Lemma run_TI ttl ls t es : run (new_tab ttl) ls = Ok (t, es) -> TI t es.
Proof.
  intros Hr. destruct (run_ind (fun _ _ _ => True) (new_tab ttl) (new_TI ttl) I ltac:(done) ls) as (t' & es' & Hr' & HT & _).
  rewrite Hr in Hr'. injection Hr' as <- <-. done.
Qed.

Lemma run_P (P : tab -> list label -> list event -> Prop) ttl ls t es :
  run (new_tab ttl) ls = Ok (t, es) -> P (new_tab ttl) [] [] ->
  (forall t ls es l t1 es1, TI t es -> P t ls es -> move t l t1 es1 -> TI (sync t1) (es ++ es1) ->
     P (sync t1) (ls ++ [l]) (es ++ es1)) -> P t ls es.
Proof.
  intros Hr HP0 Hstep. destruct (run_ind P (new_tab ttl) (new_TI ttl) HP0 Hstep ls) as (t' & es' & Hr' & _ & HP).
  rewrite Hr in Hr'. injection Hr' as <- <-. done.
Qed.

Lemma run_total_lemma ttl ls : exists t es, run (new_tab ttl) ls = Ok (t, es) /\ reachable (t_hist t).
Proof.
  destruct (run_ind (fun _ _ _ => True) (new_tab ttl) (new_TI ttl) I ltac:(done) ls) as (t' & es' & Hr' & HT & _).
  exists t', es'. split; [done|]. apply good_reach. apply (ti_good _ _ HT).
Qed.

(** ** C82 *)
Lemma ordered_split es : ordered [] es -> forall es1 e es2 id, es = es1 ++ e :: es2 -> ended_id e = Some id ->
  id ∈ omap started_id es1.
Proof. intros Ho es1 e es2 id -> He. apply ordered_app in Ho as [_ [Ho _]]. by apply Ho. Qed.

Lemma reported_once_lemma ttl ls t es : run (new_tab ttl) ls = Ok (t, es) ->
  omap started_id es = seq 0 (length (t_tasks t)) /\
  (forall id, times_ended id es <= 1) /\
  (forall es1 e es2 id, es = es1 ++ e :: es2 -> ended_id e = Some id -> id ∈ omap started_id es1).
Proof.
  intros Hr. pose proof (run_TI _ _ _ _ Hr) as HT. split; [apply HT|]. split; [|apply ordered_split, HT].
  intros id. pose proof (ti_count _ _ HT id) as Hc. destruct (t_tasks t !! id) as [k|]; [|lia]. destruct (k_state k); lia.
Qed.

(** ** The latest load *)
Lemma latest_snoc_local t t1 u : t_tasks t1 = t_tasks t ++ [mk_task u Local] ->
  forall id k, latest t1 id k -> latest t id k /\ S id < length (t_tasks t1).
Proof.
  intros Ht id k (Hk & Hl & Hlast). rewrite Ht in *. destruct (decide (id = length (t_tasks t))) as [->|Hne].
  { rewrite lookup_app_r, Nat.sub_diag in Hk by lia. injection Hk as <-. by destruct Hl. }
  assert (id < length (t_tasks t)) as Hlt.
  { apply lookup_lt_Some in Hk. rewrite app_length in Hk. cbn in Hk. lia. }
  rewrite lookup_app_l in Hk by done. split; [|rewrite app_length; cbn; lia]. split; [done|]. split; [done|].
  intros j k' Hj Hk'. apply (Hlast j k' Hj). by apply task_app.
Qed.

Lemma latest_snoc_load t t1 u : t_tasks t1 = t_tasks t ++ [mk_task u Running] ->
  forall id k, latest t1 id k -> id = length (t_tasks t) /\ k = mk_task u Running.
Proof.
  intros Ht id k (Hk & Hl & Hlast). rewrite Ht in *. destruct (decide (id = length (t_tasks t))) as [->|Hne].
  { rewrite lookup_app_r, Nat.sub_diag in Hk by lia. by injection Hk as <-. }
  exfalso. assert (id < length (t_tasks t)) as Hlt.
  { apply lookup_lt_Some in Hk. rewrite app_length in Hk. cbn in Hk. lia. }
  apply (Hlast (length (t_tasks t)) (mk_task u Running)); [done|..]; [|done].
  rewrite lookup_app_r, Nat.sub_diag by lia. done.
Qed.

Lemma latest_set t j s u s0 : t_tasks t !! j = Some (mk_task u s0) -> s0 <> Local -> s <> Local ->
  forall t1, t_tasks t1 = t_tasks (set_task j s t) ->
  forall id k, latest t1 id k ->
    exists k0, latest t id k0 /\ k = if decide (id = j) then mk_task (k_url k0) s else k0.
Proof.
  intros Hj Hs0 Hs t1 Ht id k (Hk & Hl & Hlast). rewrite Ht in *. rewrite lookup_alter_task in Hk.
  destruct (decide (id = j)) as [->|Hne].
  - rewrite Hj in Hk. injection Hk as <-. exists (mk_task u s0). split; [|done]. split; [done|]. split; [done|].
    intros i k' Hi Hk'. apply (Hlast i k' Hi). rewrite lookup_alter_task, decide_False by lia. done.
  - exists k. split; [|done]. split; [done|]. split; [done|].
    intros i k' Hi Hk' Hloads. destruct (decide (i = j)) as [->|Hij].
    + apply (Hlast j (mk_task u s) Hi); [|done]. rewrite lookup_alter_task, decide_True, Hj by done. done.
    + apply (Hlast i k' Hi); [|done]. rewrite lookup_alter_task, decide_False by done. done.
Qed.

Definition settled_facts (t : tab) (id : nat) (k : task) : Prop :=
  match k_state k with
  | Received (ROk u title d) =>
      t_doc t = Some d /\ t_loading t = false /\ t_error t = false /\
      exists v, t_url t = Some v /\ strip v = strip u /\ (S id = length (t_tasks t) -> v = u)
  | Received RErr => t_loading t = false /\ t_error t = true
  | Received (RDownload _) => t_loading t = false /\ t_error t = false
  | Lost => True
  | _ => False
  end.

Definition KI (t : tab) : Prop :=
  (forall id k, latest t id k ->
    (t_load t = Some (id, true) /\ t_pending t <> Some id) \/
    (t_load t = Some (id, false) /\ t_pending t = Some id) \/
    (t_load t = Some (id, false) /\ t_pending t = None /\ settled_facts t id k)) /\
  ((forall id k, ~ latest t id k) -> t_loading t = false).

Lemma sync_KI t : KI t -> KI (sync t).
Proof.
  intros HK. destruct (sync_cases t) as [->|(id & Hp & Hl & ->)]; [done|]. destruct HK as [HK HN].
  split; [|exact HN]. intros j k Hj. destruct (HK j k Hj) as [[Hl' _]|[[Hl' _]|[Hl' _]]]; [|congruence..].
  rewrite Hl in Hl'. injection Hl' as ->. right. left. done.
Qed.

Global Instance loads_dec k : Decision (loads k).
Proof. unfold loads. destruct (k_state k); try (by left). right. tauto. Defined.

Lemma latest_exists t id k : t_tasks t !! id = Some k -> loads k -> exists id' k', latest t id' k'.
Proof.
  intros Hk Hl. remember (length (t_tasks t) - id) as n eqn:Hn. revert id k Hk Hl Hn.
  induction n as [n IH] using lt_wf_ind. intros id k Hk Hl Hn.
  destruct (decide (Exists loads (drop (S id) (t_tasks t)))) as [He|He].
  - apply Exists_exists in He as (k' & Hin & Hl'). apply elem_of_list_lookup_1 in Hin as [i Hi].
    rewrite lookup_drop in Hi. apply (IH (length (t_tasks t) - (S id + i))) with (S id + i) k'; [|done..].
    apply lookup_lt_Some in Hk, Hi. lia.
  - exists id, k. split; [done|]. split; [done|]. intros j k' Hj Hk' Hl'. apply He, Exists_exists.
    exists k'. split; [|done]. apply elem_of_list_lookup. exists (j - S id). rewrite lookup_drop.
    replace (S id + (j - S id)) with j by lia. done.
Qed.

Lemma settled_facts_same t t1 id k :
  t_doc t1 = t_doc t -> t_url t1 = t_url t -> t_loading t1 = t_loading t -> t_error t1 = t_error t ->
  length (t_tasks t1) = length (t_tasks t) -> settled_facts t id k -> settled_facts t1 id k.
Proof.
  intros Hd Hu Hl He Ht. unfold settled_facts. rewrite Hd, Hu, Hl, He, Ht. done.
Qed.

Lemma move_KI t l t1 es0 es : TI t es0 -> KI t -> (forall b, l <> LCommand b CCancel) -> move t l t1 es -> KI t1.
Proof.
  intros HT [HK HN] Hc Hm.
  (* a result is received for task j *)
  assert (forall j u s s' t2, t_pending t = Some j -> t_tasks t !! j = Some (mk_task u s) -> waiting s -> s' <> Local ->
    t_tasks t2 = t_tasks (set_task j s' t) -> t_load t2 = t_load t -> t_pending t2 = None ->
    (forall k, k_state k = s' -> settled_facts t2 j k) -> KI t2) as Hrecv.
  { intros j u s s' t2 Hp Hj Hw Hs' Ht Hl Hp2 Hfacts.
    assert (s <> Local) as Hs by (by intros ->).
    split.
    - intros id k Hid. destruct (latest_set t j s' u s Hj Hs Hs' t2 Ht id k Hid) as (k0 & Hid0 & Hk0).
      rewrite Hl, Hp2. destruct (HK id k0 Hid0) as [[Hl0 Hp0]|[[Hl0 Hp0]|(Hl0 & Hp0 & _)]].
      + left. done.
      + right. right. assert (id = j) as -> by congruence. split; [done|]. split; [done|]. apply Hfacts.
        rewrite Hk0, decide_True by done. done.
      + congruence.
    - intros Hno. exfalso. destruct (latest_exists t2 j (mk_task u s')) as (i & k & Hik); [|done|by eapply Hno].
      rewrite Ht, lookup_alter_task, decide_True, Hj by done. done. }
  inversion Hm; subst.
  - assert (forall id k, latest t1 id k <-> latest t id k) as Hlat by (intros; unfold latest; by rewrite H5).
    split.
    + intros id k Hid. apply Hlat in Hid. rewrite H3, H4. destruct (HK id k Hid) as [?|[?|(? & ? & ?)]]; [by left|by right; left|].
      right. right. split; [done|]. split; [done|]. apply (settled_facts_same t); try done. by rewrite H5.
    + intros Hno. rewrite H1. apply HN. intros id k Hid. by apply (Hno id k), Hlat.
  - by destruct (Hc b).
  - split.
    + intros id k Hid. destruct (latest_snoc_local t t1 u H6 id k Hid) as [Hid0 Hlt]. rewrite H4, H5.
      destruct (HK id k Hid0) as [?|[?|(? & ? & Hf)]]; [by left|by right; left|].
      right. right. split; [done|]. split; [done|]. unfold settled_facts in *.
      destruct (k_state k) as [| | |[v title d| |v]| |]; rewrite ?H0, ?H1, ?H2, ?H3; try done.
      destruct Hf as (Hd & Hlo & Her & w & Hw & Hst & _). split; [done|]. split; [done|]. split; [done|].
      exists u. split; [done|]. split; [|lia]. unfold is_same_document in H. rewrite Hw, Hlo in H.
      apply bool_decide_eq_true in H. congruence.
    + intros Hno. rewrite H2. apply HN. intros id k Hid.
      destruct Hid as (Hk & Hl & Hlast). destruct (latest_exists t1 id k) as (i & k' & Hi); [|done|by eapply Hno].
      rewrite H6. by apply task_app.
  - split.
    + intros id k Hid. destruct (latest_snoc_load t t1 u H5 id k Hid) as [-> ->]. left. rewrite H3, H4. split; [done|].
      intros Hp. destruct (ti_pend _ _ HT _ Hp) as (k & Hk & _). apply lookup_lt_Some in Hk. lia.
    + intros Hno. exfalso. destruct (latest_exists t1 (length (t_tasks t)) (mk_task u Running)) as (i & k & Hi); [|done|by eapply Hno].
      rewrite H5, lookup_app_r, Nat.sub_diag by lia. done.
  - assert (s <> Local) as Hs by (destruct o; injection H0 as -> ->; done).
    split.
    + intros i k Hi. destruct (latest_set t id s u Running H ltac:(done) Hs _ eq_refl i k Hi) as (k0 & Hi0 & Hk0).
      destruct (HK i k0 Hi0) as [?|[?|(? & ? & Hf)]]; [by left|by right; left|].
      right. right. split; [done|]. split; [done|].
      destruct (decide (i = id)) as [->|Hne].
      { destruct Hi0 as (Hk & _). rewrite H in Hk. injection Hk as <-. by cbn in Hf. }
      subst k. apply (settled_facts_same t); try done. apply length_set_task.
    + intros Hno. apply HN. intros i k (Hk & Hl & Hlast).
      destruct (decide (i = id)) as [->|Hne].
      * destruct (latest_exists (set_task id s t) id (mk_task u s)) as (i' & k' & Hi'); [|done|by eapply Hno].
        rewrite lookup_alter_task, decide_True, H by done. done.
      * destruct (latest_exists (set_task id s t) i k) as (i' & k' & Hi'); [|done|by eapply Hno].
        rewrite lookup_alter_task, decide_False by done. done.
  - eapply (Hrecv id u Hung Lost); try done. intros k Hk. unfold settled_facts. by rewrite Hk.
  - eapply (Hrecv id k _ (Received (ROk u title d))); try done. intros k' Hk'. unfold settled_facts. rewrite Hk'.
    split; [done|]. split; [done|]. split; [done|]. by exists u.
  - eapply (Hrecv id k _ (Received (RDownload u))); try done. intros k' Hk'. unfold settled_facts. by rewrite Hk'.
  - eapply (Hrecv id k _ (Received RErr)); try done. intros k' Hk'. unfold settled_facts. by rewrite Hk'.
Qed.

Lemma never_cancels_snoc ls l : never_cancels (ls ++ [l]) -> never_cancels ls /\ forall b, l <> LCommand b CCancel.
Proof.
  unfold never_cancels. rewrite Forall_app, Forall_singleton. intros [? Hl]. split; [done|]. intros b ->. done.
Qed.

Lemma run_KI ttl ls t es : run (new_tab ttl) ls = Ok (t, es) -> never_cancels ls -> KI t.
Proof.
  intros Hr. apply (run_P (fun t ls _ => never_cancels ls -> KI t) _ _ _ _ Hr).
  - intros _. split; [|done]. intros id k (Hk & _). done.
  - intros t0 ls0 es0 l t1 es1 HT HP Hm _ Hn. apply never_cancels_snoc in Hn as [Hn Hc].
    apply sync_KI. eapply move_KI; [done|by apply HP|done..].
Qed.

Lemma latest_wins_lemma ttl ls t es id k :
  run (new_tab ttl) ls = Ok (t, es) -> never_cancels ls -> settled t -> latest t id k -> settled_facts t id k.
Proof.
  intros Hr Hn Hs Hl. destruct (run_KI _ _ _ _ Hr Hn) as [HK _].
  destruct (HK id k Hl) as [[Hlo _]|[[_ Hp]|(_ & _ & Hf)]]; [|unfold settled in Hs; congruence|done].
  by destruct (ti_sync _ _ (run_TI _ _ _ _ Hr) Hs id).
Qed.

(** ** Loads that end without a word *)
Lemma never_silent_lemma ttl ls t es : run (new_tab ttl) ls = Ok (t, es) -> never_silent ls ->
  forall id k, t_tasks t !! id = Some k -> k_state k = Hung \/ k_state k = Lost -> times_ended id es = 1.
Proof.
  intros Hr. apply (run_P (fun t ls es => never_silent ls -> forall id k, t_tasks t !! id = Some k ->
    k_state k = Hung \/ k_state k = Lost -> times_ended id es = 1) _ _ _ _ Hr); [done|].
  clear. intros t ls es l t1 es1 HT HP Hm HT1 Hn id k Hk Hst. unfold never_silent in Hn. rewrite Forall_app, Forall_singleton in Hn.
  destruct Hn as [Hn Hlast]. specialize (HP Hn).
  assert (t_tasks (sync t1) = t_tasks t1) as Hts by (destruct (sync_cases t1) as [->|(? & _ & _ & ->)]; done).
  pose proof (ti_count _ _ HT1 id) as Hc. rewrite Hk in Hc. rewrite Hts in Hk. rewrite times_app in *.
  assert (times_ended id es + times_ended id es1 <= 1) as Hle by (destruct Hst as [->| ->] in Hc; done). clear Hc.
  enough (times_ended id es = 1 \/ times_ended id es1 = 1) by lia.
  assert (forall j s, t_tasks t1 = t_tasks (set_task j s t) -> s <> Hung -> (s = Lost -> exists u, t_tasks t !! j = Some (mk_task u Hung)) ->
    times_ended id es = 1) as Hset.
  { intros j s Ht Hs1 Hs2. rewrite Ht, lookup_alter_task in Hk. destruct (decide (id = j)) as [->|]; [|by eapply HP].
    destruct (t_tasks t !! j) as [k0|] eqn:Hk0; [|done]. injection Hk as <-. cbn [k_state] in Hst.
    destruct Hst as [->| ->]; [done|]. destruct (Hs2 eq_refl) as [u [= ->]]. apply (HP j _ Hk0). by left. }
  inversion Hm; subst.
  - left. rewrite H5 in Hk. by eapply HP.
  - left. by eapply HP.
  - left. rewrite H6 in Hk. apply lookup_app_Some in Hk as [Hk|[_ Hk]]; [by eapply HP|].
    apply list_lookup_singleton_Some in Hk as [_ <-]. by destruct Hst.
  - left. rewrite H5 in Hk. apply lookup_app_Some in Hk as [Hk|[_ Hk]]; [by eapply HP|].
    apply list_lookup_singleton_Some in Hk as [_ <-]. by destruct Hst.
  - rewrite lookup_alter_task in Hk. destruct (decide (id = id0)) as [->|]; [|left; by eapply HP].
    destruct o; injection H0 as -> ->.
    + rewrite H in Hk. injection Hk as <-. by destruct Hst.
    + right. rewrite times_cons, times_nil. cbn [ended_id]. by rewrite decide_True by done.
    + done.
  - left. eapply (Hset id0 Lost); [done..|]. eauto.
  - left. eapply (Hset id0); [done..|]. done.
  - left. eapply (Hset id0); [done..|]. done.
  - left. eapply (Hset id0); [done..|]. done.
Qed.

Lemma always_answers_lemma ttl ls t es : run (new_tab ttl) ls = Ok (t, es) -> always_answers ls ->
  forall id k, t_tasks t !! id = Some k -> k_state k <> Hung /\ k_state k <> Lost.
Proof.
  intros Hr. apply (run_P (fun t ls es => always_answers ls -> forall id k, t_tasks t !! id = Some k ->
    k_state k <> Hung /\ k_state k <> Lost) _ _ _ _ Hr); [done|].
  clear. intros t ls es l t1 es1 HT HP Hm _ Hn id k Hk. unfold always_answers in Hn. rewrite Forall_app, Forall_singleton in Hn.
  destruct Hn as [Hn Hlast]. specialize (HP Hn).
  replace (t_tasks (sync t1)) with (t_tasks t1) in Hk by (destruct (sync_cases t1) as [->|(? & _ & _ & ->)]; done).
  assert (forall j s, t_tasks t1 = t_tasks (set_task j s t) -> s <> Hung -> s <> Lost -> k_state k <> Hung /\ k_state k <> Lost) as Hset.
  { intros j s Ht Hs1 Hs2. rewrite Ht, lookup_alter_task in Hk. destruct (decide (id = j)) as [->|]; [|by eapply HP].
    destruct (t_tasks t !! j) as [k0|]; [|done]. injection Hk as <-. done. }
  inversion Hm; subst.
  - rewrite H5 in Hk. by eapply HP.
  - by eapply HP.
  - rewrite H6 in Hk. apply lookup_app_Some in Hk as [Hk|[_ Hk]]; [by eapply HP|].
    apply list_lookup_singleton_Some in Hk as [_ <-]. done.
  - rewrite H5 in Hk. apply lookup_app_Some in Hk as [Hk|[_ Hk]]; [by eapply HP|].
    apply list_lookup_singleton_Some in Hk as [_ <-]. done.
  - destruct o; injection H0 as -> ->; [|done..]. by eapply (Hset id0).
  - destruct (HP id0 _ H0) as [Hh _]. done.
  - by eapply (Hset id0).
  - by eapply (Hset id0).
  - by eapply (Hset id0).
Qed.

Lemma loading_ends_lemma ttl ls t es : run (new_tab ttl) ls = Ok (t, es) -> never_cancels ls -> always_answers ls ->
  settled t -> t_loading t = false.
Proof.
  intros Hr Hc Ha Hs. destruct (decide (Exists loads (t_tasks t))) as [He|He].
  - apply Exists_exists in He as (k & Hin & Hl). apply elem_of_list_lookup_1 in Hin as [i Hi].
    destruct (latest_exists t i k Hi Hl) as (id & k' & Hlat).
    pose proof (latest_wins_lemma _ _ _ _ _ _ Hr Hc Hs Hlat) as Hf. destruct Hlat as (Hk' & _).
    pose proof (always_answers_lemma _ _ _ _ Hr Ha _ _ Hk') as [_ Hlost]. unfold settled_facts in Hf.
    destruct (k_state k') as [| | |[| |]| |]; try done; tauto.
  - apply (run_KI _ _ _ _ Hr Hc). intros id k (Hk & Hl & _). apply He, Exists_exists. exists k.
    split; [|done]. by eapply elem_of_list_lookup_2.
Qed.

Lemma latest_reported_lemma ttl ls t es id k :
  run (new_tab ttl) ls = Ok (t, es) -> never_cancels ls -> never_silent ls -> settled t -> latest t id k ->
  times_ended id es = 1.
Proof.
  intros Hr Hc Hn Hs Hl. pose proof (latest_wins_lemma _ _ _ _ _ _ Hr Hc Hs Hl) as Hf. destruct Hl as (Hk & _).
  pose proof (ti_count _ _ (run_TI _ _ _ _ Hr) id) as Hcount. rewrite Hk in Hcount. unfold settled_facts in Hf.
  destruct (k_state k) eqn:Hst; try done. eapply never_silent_lemma; try done. by right.
Qed.

(** ** The address bar and the history an embedder shows *)
Lemma told_lemma ttl ls t es : run (new_tab ttl) ls = Ok (t, es) ->
  t_url t = last (omap finished_url es) /\
  match last (omap told_history es) with
  | Some s => take_snapshot (t_hist t) = Ok s
  | None => h_entries (t_hist t) = []
  end.
Proof.
  intros Hr. pose proof (run_TI _ _ _ _ Hr) as HT. split; [apply HT|]. pose proof (ti_hist _ _ HT) as Hh.
  destruct (last _); [done|]. cbn in Hh. unfold take_snapshot in Hh.
  destruct (can_go_back (t_hist t)); [|done..]. cbn [rbind] in Hh. destruct (forward_targets (t_hist t)); [|done..].
  cbn [rbind] in Hh. destruct (rmap _ a0); [|done..]. cbn [rbind] in Hh.
  destruct (h_entries (t_hist t)) as [|e es0]; [done|]. cbn [length seq rmap] in Hh. unfold summarise at 1 in Hh.
  cbn [lookup list_lookup of_opt rbind] in Hh. destruct (rmap _ (seq 1 _)); done.
Qed.

(** ** What a page change is *)
Lemma page_change_lemma ttl ls t es l t' es' :
  run (new_tab ttl) ls = Ok (t, es) -> step t l = Ok (t', es') -> t_doc t' <> t_doc t ->
  l = LReceive /\ exists id k u title d, t_pending t = Some id /\ t_tasks t !! id = Some k /\
    k_state k = Sent (ROk u title d) /\ t_doc t' = Some d /\ t_url t' = Some u /\ EFinished id u ∈ es'.
Proof.
  intros Hr Hs Hd. destruct (step_TI t l t' es es' (run_TI _ _ _ _ Hr) Hs) as (_ & t1 & -> & Hm).
  assert (t_doc (sync t1) = t_doc t1) as Hsd by (destruct (sync_cases t1) as [->|(? & _ & _ & ->)]; done).
  assert (t_url (sync t1) = t_url t1) as Hsu by (destruct (sync_cases t1) as [->|(? & _ & _ & ->)]; done).
  rewrite Hsd, Hsu in *. inversion Hm; subst; try (by destruct Hd).
  split; [done|]. exists id, (mk_task k (Sent (ROk u title d))), u, title, d. split; [done|]. split; [done|].
  split; [done|]. split; [done|]. split; [done|]. apply elem_of_app. right. left.
Qed.

(** ** Commits are filed under the current entry *)
Lemma upd_current_at h f h' c : upd_current h f = Ok h' -> h_current h = Some c ->
  exists e, h_entries h !! c = Some e /\ h_current h' = Some c /\ h_entries h' = <[c := f e]> (h_entries h).
Proof.
  unfold upd_current, upd. intros H Hc. rewrite Hc in H. destruct (h_entries h !! c) as [e|] eqn:He; [|done].
  cbn in H. injection H as <-. cbn. exists e. done.
Qed.

Lemma upd_current_none h f h' : upd_current h f = Ok h' -> h_current h = None -> h' = h.
Proof. unfold upd_current. intros H Hc. rewrite Hc in H. by injection H as <-. Qed.

Lemma commit_entry t i u title t' r : good (t_hist t) -> commit t i u title = Ok (t', r) ->
  h_entries (t_hist t') <> [] ->
  entry_url (t_hist t') = Some u /\ entry_title (t_hist t') = Some title.
Proof.
  intros Hg Hc Hne. destruct (reachable_inv _ (good_reach _ Hg)) as [log HI].
  assert (forall r', (let* (t, _) := hist t (OReplaceUrl u) in let* (t, _) := hist t (OSetTitle title) in Ok (t, r' t)) = Ok (t', r) ->
    entry_url (t_hist t') = Some u /\ entry_title (t_hist t') = Some title) as Hrep.
  { intros r' Hr. apply rbind_Ok in Hr as ([t1 x1] & H1 & Hr). apply rbind_Ok in Hr as ([t2 x2] & H2 & Hr).
    injection Hr as <- _. unfold hist in H1, H2.
    apply rbind_Ok in H1 as ([h1 y1] & H1 & E1). injection E1 as <- _. cbn [t_hist with_hist] in H2.
    apply rbind_Ok in H2 as ([h2 y2] & H2 & E2). injection E2 as <- _. cbn [t_hist with_hist] in *.
    apply rbind_Ok in H1 as (h1' & H1 & E1). injection E1 as <- _.
    apply rbind_Ok in H2 as (h2' & H2 & E2). injection E2 as <- _.
    destruct (h_current (t_hist t)) as [c|] eqn:Hcur.
    - destruct (upd_current_at _ _ _ _ H1 Hcur) as (e & He & Hc1 & Hes1).
      destruct (upd_current_at _ _ _ _ H2 Hc1) as (e2 & He2 & Hc2 & Hes2).
      rewrite Hes1, list_lookup_insert in He2 by (by eapply lookup_lt_Some). injection He2 as <-.
      unfold entry_url, entry_title. rewrite Hc2, Hes2, Hes1, list_lookup_insert; [done|].
      rewrite insert_length. by eapply lookup_lt_Some.
    - pose proof (inv_cur _ _ HI) as Hemp. rewrite Hcur in Hemp.
      pose proof (upd_current_none _ _ _ H1 Hcur) as ->. pose proof (upd_current_none _ _ _ H2 Hcur) as ->. done. }
  destruct i; cbn [commit] in Hc.
  - apply rbind_Ok in Hc as ([t1 x1] & H1 & Hc). injection Hc as <- _. unfold hist in H1.
    apply rbind_Ok in H1 as ([h1 y1] & H1 & E1). injection E1 as <- _. cbn [t_hist with_hist].
    destruct (push_shape log (t_hist t) u title HI) as (es' & Hp & _ & Hnew & _).
    cbn [HistoryModel.step] in H1. rewrite Hp in H1. injection H1 as <- _. unfold entry_url, entry_title.
    cbn [h_current h_entries]. rewrite Hnew. done.
  - apply (Hrep (fun t => e ← h_current (t_hist t); saved_scroll t e) Hc).
  - apply (Hrep (fun t => saved_scroll t e) Hc).
Qed.

Lemma commit_filed_lemma ttl ls t es t' es' id u :
  run (new_tab ttl) ls = Ok (t, es) -> step t LReceive = Ok (t', es') -> EFinished id u ∈ es' ->
  h_entries (t_hist t') <> [] ->
  exists k title d, t_tasks t !! id = Some k /\ k_state k = Sent (ROk u title d) /\
    entry_url (t_hist t') = Some u /\ entry_title (t_hist t') = Some title.
Proof.
  intros Hr Hs Hf Hne. pose proof (ti_good _ _ (run_TI _ _ _ _ Hr)) as Hg. cbn [TabModel.step] in Hs.
  destruct (t_pending t) as [j|] eqn:Hp; [|injection Hs as <- <-; by apply elem_of_nil in Hf].
  destruct (t_tasks t !! j) as [[v s]|] eqn:Hk; [|injection Hs as <- <-; by apply elem_of_nil in Hf].
  destruct s as [|r| | | |]; try (injection Hs as <- <-; by apply elem_of_nil in Hf).
  apply rbind_Ok in Hs as ([t1 es1] & H1 & Hs). injection Hs as <- <-.
  replace (t_hist (sync t1)) with (t_hist t1) in * by (destruct (sync_cases t1) as [->|(? & _ & _ & ->)]; done).
  destruct r as [w title d| |w]; cbn [on_nav_result] in H1.
  2:{ injection H1 as <- <-. apply elem_of_list_singleton in Hf. done. }
  2:{ injection H1 as <- <-. apply elem_of_cons in Hf as [Hf|Hf]; [done|]. apply elem_of_list_singleton in Hf. done. }
  apply rbind_Ok in H1 as ([t2 restore] & Hcm & H1). apply rbind_Ok in H1 as (h & Hh & H1). injection H1 as <- <-.
  assert (EFinished id u = EFinished j w) as [= -> ->].
  { apply elem_of_app in Hf as [Hf|Hf].
    - destruct (is_web w); [apply elem_of_list_singleton in Hf; done|by apply elem_of_nil in Hf].
    - apply elem_of_cons in Hf as [Hf|Hf]; [done|]. apply elem_of_list_singleton in Hf.
      unfold history_changed in Hh. apply rbind_Ok in Hh as (sn & _ & E). injection E as <-. done. }
  exists (mk_task v (Sent (ROk w title d))), title, d. split; [done|]. split; [done|].
  change (t_hist (with_pscroll (landing restore w) t2)) with (t_hist t2) in *.
  refine (commit_entry _ _ _ _ _ _ _ Hcm Hne). by destruct title.
Qed.

(** ** Titles *)
Lemma titled_lemma ttl ls t es : run (new_tab ttl) ls = Ok (t, es) -> pages_titled ls ->
  forall d, t_doc t = Some d ->
  exists id k u x, t_tasks t !! id = Some k /\ loaded k u (Some x) d /\ t_title t = x.
Proof.
  intros Hr. enough (pages_titled ls ->
      (forall id k u d, t_tasks t !! id = Some k -> k_state k <> Sent (ROk u None d)) /\
      forall d, t_doc t = Some d ->
        exists id k u x, t_tasks t !! id = Some k /\ loaded k u (Some x) d /\ t_title t = x) as H by (intros Hp; by apply H).
  apply (run_P (fun t ls es => pages_titled ls ->
      (forall id k u d, t_tasks t !! id = Some k -> k_state k <> Sent (ROk u None d)) /\
      forall d, t_doc t = Some d ->
        exists id k u x, t_tasks t !! id = Some k /\ loaded k u (Some x) d /\ t_title t = x) _ _ _ _ Hr); [done|].
  clear. intros t ls es l t1 es1 HT HP Hm _ Hn. unfold pages_titled in Hn. rewrite Forall_app, Forall_singleton in Hn.
  destruct Hn as [Hn Hlast]. destruct (HP Hn) as [HP1 HP2]. clear HP.
  replace (t_tasks (sync t1)) with (t_tasks t1) by (destruct (sync_cases t1) as [->|(? & _ & _ & ->)]; done).
  replace (t_doc (sync t1)) with (t_doc t1) by (destruct (sync_cases t1) as [->|(? & _ & _ & ->)]; done).
  replace (t_title (sync t1)) with (t_title t1) by (destruct (sync_cases t1) as [->|(? & _ & _ & ->)]; done).
  (* setting a waiting task keeps the loaded ones *)
  assert (forall j u0 s0 s, t_tasks t !! j = Some (mk_task u0 s0) -> waiting s0 ->
    forall d id k u x, t_tasks t !! id = Some k -> loaded k u (Some x) d ->
      t_tasks (set_task j s t) !! id = Some k) as Hkeep.
  { intros j u0 s0 s Hj Hw d id k u x Hk Hlo. rewrite lookup_alter_task, decide_False; [done|]. intros ->.
    rewrite Hj in Hk. injection Hk as <-. unfold loaded in Hlo. cbn in Hlo. by rewrite Hlo in Hw. }
  assert (forall j s, (forall u d, s <> Sent (ROk u None d)) ->
    forall id k u d, t_tasks (set_task j s t) !! id = Some k -> k_state k <> Sent (ROk u None d)) as Hsent.
  { intros j s Hs id k u d Hk. rewrite lookup_alter_task in Hk. destruct (decide (id = j)); [|by eapply HP1].
    destruct (t_tasks t !! id); [|done]. injection Hk as <-. apply Hs. }
  inversion Hm; subst.
  - rewrite H, H5. destruct H6 as [-> |(b & x & ->)]; [|done]. done.
  - done.
  - rewrite H0, H6, H7. split.
    + intros id k v d Hk. apply lookup_app_Some in Hk as [Hk|[_ Hk]]; [by eapply HP1|].
      apply list_lookup_singleton_Some in Hk as [_ <-]. done.
    + intros d Hd. destruct (HP2 d Hd) as (id & k & v & x & Hk & ? & ?). exists id, k, v, x. split; [by apply task_app|done].
  - rewrite H, H5, H6. split.
    + intros id k v d Hk. apply lookup_app_Some in Hk as [Hk|[_ Hk]]; [by eapply HP1|].
      apply list_lookup_singleton_Some in Hk as [_ <-]. done.
    + intros d Hd. destruct (HP2 d Hd) as (id & k & v & x & Hk & ? & ?). exists id, k, v, x. split; [by apply task_app|done].
  - split.
    + apply Hsent. intros v d ->. destruct o as [[w title d0| |w]|w|]; injection H0; try done. intros _ _ <- _. done.
    + intros d Hd. destruct (HP2 d Hd) as (i & k & v & x & Hk & ? & ?). exists i, k, v, x. split; [|done]. by eapply Hkeep.
  - split; [by apply Hsent|]. intros d Hd. destruct (HP2 d Hd) as (i & k & v & x & Hk & ? & ?). exists i, k, v, x.
    split; [|done]. by eapply (Hkeep id u Hung).
  - rewrite H7. split; [by apply Hsent|]. rewrite H1, H8. intros d0 [= <-]. destruct title as [x|].
    + exists id, (mk_task k (Received (ROk u (Some x) d))), u, x. split; [|done].
      rewrite lookup_alter_task, decide_True, H0 by done. done.
    + by destruct (HP1 id _ u d H0).
  - split; [by apply Hsent|]. intros d Hd. destruct (HP2 d Hd) as (i & k' & v & x & Hk & ? & ?). exists i, k', v, x.
    split; [|done]. by eapply (Hkeep id k _ (Received (RDownload u))).
  - split; [by apply Hsent|]. intros d Hd. destruct (HP2 d Hd) as (i & k' & v & x & Hk & ? & ?). exists i, k', v, x.
    split; [|done]. by eapply (Hkeep id k _ (Received RErr)).
Qed.

(** ** Navigating within the page *)
Lemma same_document_lemma ttl ls t es b text cur u :
  run (new_tab ttl) ls = Ok (t, es) -> t_url t = Some cur -> t_loading t = false ->
  parse text = Some u -> strip cur = strip u ->
  exists t' s, step t (LCommand b (CNavigate text)) =
      Ok (t', [EStarted (length (t_tasks t)) u; EFinished (length (t_tasks t)) u; EHistory s]) /\
    t_doc t' = t_doc t /\ t_url t' = Some u /\ t_title t' = t_title t /\
    t_loading t' = false /\ t_error t' = t_error t /\ t_pending t' = t_pending t /\
    t_tasks t' = t_tasks t ++ [mk_task u Local] /\
    length (h_entries (t_hist t')) = S (length (h_entries (t_hist t))) /\
    h_current (t_hist t') = Some (length (h_entries (t_hist t))) /\
    parent_of (t_hist t') (length (h_entries (t_hist t))) = h_current (t_hist t) /\
    entry_url (t_hist t') = Some u.
Proof.
  intros Hr Hu Hl Hp Hst. pose proof (run_TI _ _ _ _ Hr) as HT. pose proof (ti_good _ _ HT) as Hg.
  assert (is_same_document t u = true) as Hd.
  { unfold is_same_document. rewrite Hu, Hl. by apply bool_decide_eq_true. }
  cbn [TabModel.step TabModel.handle]. unfold TabModel.navigate_to. rewrite Hp, Hd.
  rewrite bool_decide_eq_false_2 by done. cbn [negb andb].
  unfold TabModel.navigate_same_document. set (t0 := with_tasks (t_tasks t ++ [mk_task u Local]) t).
  destruct (save_scroll_spec t0 Hg) as (h1 & -> & Hg1 & [Hsc Hse]). cbn [rbind].
  destruct (reachable_inv _ (good_reach _ Hg1)) as [log HI].
  destruct (push_shape log h1 u (Some (t_title (with_hist h1 t0))) HI) as (es' & Hpush & Hlen & Hnew & _).
  unfold hist. cbn [HistoryModel.step t_hist with_hist]. rewrite Hpush. cbn [rbind].
  set (h2 := mk_history es' (Some (length (h_entries h1)))).
  set (target := (f ← fragment u; _)). set (t1 := with_url' (Some u) _).
  assert (good h2) as Hg2.
  { eapply (good_step h1 (OPush u (Some (t_title (with_hist h1 t0))))); [done|done|].
    cbn [HistoryModel.step]. rewrite Hpush. done. }
  assert (good (t_hist (match target with Some s => apply_scroll place s t1 | None => t1 end))) as Hg3 by by destruct target.
  destruct (changed_spec _ Hg3) as (s & -> & Hs). cbn [rbind].
  set (t2 := match target with Some s => apply_scroll place s t1 | None => t1 end) in *.
  assert (t_hist t2 = h2 /\ t_doc t2 = t_doc t /\ t_url t2 = Some u /\ t_title t2 = t_title t /\ t_loading t2 = t_loading t /\
    t_error t2 = t_error t /\ t_pending t2 = t_pending t /\ t_load t2 = t_load t /\
    t_tasks t2 = t_tasks t ++ [mk_task u Local]) as (E1 & E2 & E3 & E4 & E5 & E6 & E7 & E8 & E9) by (unfold t2; by destruct target).
  assert (sync t2 = t2) as ->.
  { destruct (sync_cases t2) as [?|(id & Hpe & Hle & _)]; [done|]. rewrite E7 in Hpe. rewrite E8 in Hle.
    by destruct (ti_sync _ _ HT Hpe id). }
  eexists t2, s. split; [reflexivity|].
  apply sim_length in Hse. change (t_hist t0) with (t_hist t) in *. rewrite E1, E2, E3, E4, E5, E6, E7, E9.
  unfold h2, entry_url, parent_of. cbn [h_entries h_current]. rewrite Hlen, <- Hse, Hnew.
  cbn [e_parent e_url new_entry fmap option_fmap option_map]. by rewrite Hsc.
Qed.

(** Any other navigation fetches. *)
Lemma other_document_lemma ttl ls t es text u :
  run (new_tab ttl) ls = Ok (t, es) -> parse text = Some u ->
  (forall cur, t_url t = Some cur -> t_loading t = false -> strip cur <> strip u) ->
  exists t', step t (LCommand true (CNavigate text)) = Ok (t', [EStarted (length (t_tasks t)) u]) /\
    t_doc t' = t_doc t /\ t_url t' = t_url t /\ t_loading t' = true /\
    t_tasks t' = t_tasks t ++ [mk_task u Running].
Proof.
  intros Hr Hp Hst. pose proof (run_TI _ _ _ _ Hr) as HT. pose proof (ti_good _ _ HT) as Hg.
  assert (is_same_document t u = false) as Hd.
  { unfold is_same_document. destruct (t_url t) as [cur|]; [|done]. destruct (t_loading t); [done|].
    apply bool_decide_eq_false. by apply Hst. }
  cbn [TabModel.step TabModel.handle]. unfold TabModel.navigate_to. rewrite Hp, Hd, andb_false_r.
  destruct (save_scroll_spec t Hg) as (h1 & -> & Hg1 & _). cbn [rbind]. unfold bind_and_load, start_load.
  eexists. split; [reflexivity|].
  set (t2 := with_load _ _). destruct (sync_cases t2) as [->|(? & _ & _ & ->)]; done.
Qed.

(** Reloading fetches too. *)
Lemma reload_lemma ttl ls t es cur u :
  run (new_tab ttl) ls = Ok (t, es) -> t_url t = Some cur -> parse cur = Some u ->
  exists t', step t (LCommand true CReload) = Ok (t', [EStarted (length (t_tasks t)) u]) /\
    t_doc t' = t_doc t /\ t_url t' = t_url t /\ t_loading t' = true /\
    t_tasks t' = t_tasks t ++ [mk_task u Running].
Proof.
  intros Hr Hu Hp. pose proof (run_TI _ _ _ _ Hr) as HT. pose proof (ti_good _ _ HT) as Hg.
  cbn [TabModel.step TabModel.handle]. rewrite Hu. cbn [default id]. unfold TabModel.navigate_to. rewrite Hp.
  rewrite bool_decide_eq_true_2 by done. cbn [negb andb].
  destruct (save_scroll_spec t Hg) as (h1 & -> & Hg1 & _). cbn [rbind]. unfold bind_and_load, start_load.
  eexists. split; [reflexivity|].
  set (t2 := with_load _ _). destruct (sync_cases t2) as [->|(? & _ & _ & ->)]; done.
Qed.

(** ** Returning to where the user was *)
Lemma run_app_lemma t ls1 ls2 : run t (ls1 ++ ls2) =
  let* (t1, e1) := run t ls1 in let* (t2, e2) := run t1 ls2 in Ok (t2, e1 ++ e2).
Proof.
  revert t. induction ls1 as [|l ls1 IH]; intros t.
  - cbn [app TabModel.run rbind]. destruct (run t ls2) as [[t2 e2]| |]; done.
  - cbn [app TabModel.run]. destruct (step t l) as [[t1 e1]| |]; [|done..]. cbn [rbind]. rewrite IH.
    destruct (run t1 ls1) as [[t2 e2]| |]; [|done..]. cbn [rbind].
    destruct (run t2 ls2) as [[t3 e3]| |]; [|done..]. cbn [rbind]. by rewrite app_assoc.
Qed.

(** The parts of the tab that staying on a page leaves alone. *)
Definition kept (t t' : tab) : Prop :=
  t_doc t' = t_doc t /\ t_url t' = t_url t /\ t_loading t' = t_loading t /\ t_load t' = t_load t /\
  t_pending t' = t_pending t /\ t_tasks t' = t_tasks t /\ t_hist t' = t_hist t.

Lemma tick_shape b t : exists s p, tick place target_y b t = with_scroll' s (with_pscroll p t).
Proof.
  unfold tick. destruct b; [|exists (t_scroll t), (t_pscroll t); by destruct t].
  destruct (t_pscroll t) as [[x y|f]|].
  - eexists _, _. reflexivity.
  - cbn [t_doc with_pscroll]. destruct (target_y (t_doc t) f); [by eexists _, _|].
    exists (t_scroll t), None. by destruct t.
  - exists (t_scroll t), (t_pscroll t). by destruct t.
Qed.

Lemma sync_id t : (t_pending t = None -> forall id, t_load t <> Some (id, true)) -> sync t = t.
Proof. intros H. destruct (sync_cases t) as [?|(id & Hp & Hl & _)]; [done|]. by destruct (H Hp id). Qed.

Lemma stays_kept t es0 mid t' es : TI t es0 -> Forall stays mid -> run t mid = Ok (t', es) -> kept t t' /\ TI t' (es0 ++ es).
Proof.
  intros HT Hm. revert t es0 t' es HT. induction Hm as [|l mid Hl Hm IH]; intros t es0 t' es HT.
  - cbn. intros [= <- <-]. rewrite app_nil_r. split; [unfold kept; by repeat split|done].
  - cbn [TabModel.run]. intros Hr. apply rbind_Ok in Hr as ([t1 e1] & Hs & Hr). apply rbind_Ok in Hr as ([t2 e2] & Hr & E).
    injection E as <- <-. destruct (step_TI t l t1 es0 e1 HT Hs) as [HT1 _].
    destruct (IH t1 (es0 ++ e1) t2 e2 HT1 Hr) as [Hk HT2]. rewrite app_assoc. split; [|done].
    enough (kept t t1) as Hk1 by (unfold kept in *; naive_solver congruence).
    destruct l as [b []|? ?| |b]; try done; cbn [TabModel.step TabModel.handle rbind] in Hs; injection Hs as <- _.
    + rewrite sync_id by (apply HT). by repeat split.
    + destruct (tick_shape b t) as (s & p & ->). rewrite sync_id by (apply HT). by repeat split.
Qed.

Lemma hist_inv t o t' r : hist t o = Ok (t', r) -> exists h, HistoryModel.step (t_hist t) o = Ok (h, r) /\ t' = with_hist h t.
Proof. unfold hist. intros H. apply rbind_Ok in H as ([h x] & Hs & E). injection E as <- <-. eauto. Qed.
Lemma save_inv t t' : save_scroll t = Ok t' ->
  exists h r, HistoryModel.step (t_hist t) (OSetScroll (t_scroll t).1 (t_scroll t).2) = Ok (h, r) /\ t' = with_hist h t.
Proof. unfold save_scroll. intros H. apply rbind_Ok in H as ([t1 r] & Hh & E). injection E as <-. apply hist_inv in Hh as (h & ? & ->). eauto. Qed.

(** A load that is started and answered while nothing is awaited. *)
Lemma commit_only_hist t i u title t' restore : commit t i u title = Ok (t', restore) -> exists h, t' = with_hist h t.
Proof.
  intros Hcm. unfold commit in Hcm. destruct i.
  - apply rbind_Ok in Hcm as ([x y] & Hx & E). injection E as <- _. apply hist_inv in Hx as (h0 & _ & ->). eauto.
  - apply rbind_Ok in Hcm as ([x y] & Hx & E). apply rbind_Ok in E as ([x' y'] & Hx' & E). injection E as <- _.
    apply hist_inv in Hx as (h0 & _ & ->). apply hist_inv in Hx' as (h1 & _ & ->). rewrite with_hist_hist. eauto.
  - apply rbind_Ok in Hcm as ([x y] & Hx & E). apply rbind_Ok in E as ([x' y'] & Hx' & E). injection E as <- _.
    apply hist_inv in Hx as (h0 & _ & ->). apply hist_inv in Hx' as (h1 & _ & ->). rewrite with_hist_hist. eauto.
Qed.

Lemma ok_lemma t n u i a t' es title d :
  t_active t = Some a -> a_id a = n -> a_history a = i ->
  on_nav_result t n (ROk u title d) = Ok (t', es) ->
  exists t2 h2 restore,
    commit t2 i u title = Ok (with_hist h2 t2, restore) /\ t_hist t2 = t_hist t /\
    t_hist t' = h2 /\ t_doc t' = Some d /\ t_url t' = Some u /\ t_loading t' = false /\
    t_pending t' = t_pending t /\ t_tasks t' = t_tasks t /\ t_load t' = t_load t /\ t_pscroll t' = landing restore u.
Proof.
  intros Ha Hi Hh H. cbn [on_nav_result] in H. apply rbind_Ok in H as ([te restore] & Hcm & H).
  apply rbind_Ok in H as (h & _ & E). injection E as <- _.
  match type of Hcm with commit ?T _ _ _ = _ => set (t2 := T) in Hcm end.
  assert (t_active t2 = t_active t /\ t_hist t2 = t_hist t /\ t_doc t2 = Some d /\ t_url t2 = Some u /\ t_loading t2 = false /\
    t_pending t2 = t_pending t /\ t_tasks t2 = t_tasks t /\ t_load t2 = t_load t) as (E0 & E1 & E2 & E3 & E4 & E5 & E6 & E7).
  { unfold t2. by destruct title. }
  clearbody t2. unfold intent_of in Hcm. rewrite E0, Ha, Hi, Nat.eqb_refl, Hh in Hcm.
  destruct (commit_only_hist _ _ _ _ _ _ Hcm) as [h2 ->]. exists t2, h2, restore. by repeat split.
Qed.

Lemma receive_lemma t n u0 u i t' es title d :
  t_pending t = Some n -> t_tasks t !! n = Some (mk_task u0 (Sent (ROk u title d))) ->
  t_active t = Some (mk_active n u0 i) -> t_load t = Some (n, false) ->
  step t LReceive = Ok (t', es) ->
  exists t2 h2 restore,
    commit t2 i u title = Ok (with_hist h2 t2, restore) /\ t_hist t2 = t_hist t /\
    t_hist t' = h2 /\ t_doc t' = Some d /\ t_url t' = Some u /\ t_loading t' = false /\
    t_pending t' = None /\ length (t_tasks t') = length (t_tasks t) /\ t_pscroll t' = landing restore u.
Proof.
  intros Hp Hk Ha Hl H. cbn [TabModel.step] in H. rewrite Hp, Hk in H. apply rbind_Ok in H as ([t1 e1] & H & E).
  injection E as <- _.
  destruct (ok_lemma (set_task n (Received (ROk u title d)) (with_pending None t)) n u i (mk_active n u0 i) t1 e1 title d)
    as (t2 & h2 & rs & C0 & C1 & C2 & C3 & C4 & C5 & C6 & C7 & C8 & C9); [done..|].
  assert (t_load t1 = Some (n, false)) as Hl1. { rewrite C8. exact Hl. }
  rewrite sync_id. 2:{ rewrite Hl1. done. }
  exists t2, h2, rs. rewrite C7, length_set_task. split; [done|]. by repeat split.
Qed.

Lemma started_lemma t1 u0 i n : t_pending t1 = None -> length (t_tasks t1) = n ->
  sync (start_load t1 u0 i).1 = with_pending (Some n) (with_load (Some (n, false)) (start_load t1 u0 i).1).
Proof.
  intros Hp Hn. unfold sync, start_load. cbn [fst t_pending t_load with_load with_flags with_pending_url with_active with_tasks].
  rewrite Hp, Hn. done.
Qed.

Lemma answer_lemma t t1 n u0 i u title d t3 es :
  t_pending t1 = None -> length (t_tasks t1) = n ->
  t = sync (start_load t1 u0 i).1 ->
  run t [LEnd n (OSend (ROk u title d)); LReceive] = Ok (t3, es) ->
  exists t2 h2 restore,
    commit t2 i u title = Ok (with_hist h2 t2, restore) /\ t_hist t2 = t_hist t1 /\
    t_hist t3 = h2 /\ t_doc t3 = Some d /\ t_url t3 = Some u /\ t_loading t3 = false /\
    t_pending t3 = None /\ length (t_tasks t3) = S n /\ t_pscroll t3 = landing restore u.
Proof.
  intros Hp Hn Ht Hr. rewrite (started_lemma t1 u0 i n Hp Hn) in Ht.
  assert (t_pending t = Some n /\ t_tasks t = t_tasks t1 ++ [mk_task u0 Running] /\
    t_active t = Some (mk_active n u0 i) /\ t_load t = Some (n, false) /\ t_hist t = t_hist t1) as (P1 & P2 & P3 & P4 & P5).
  { rewrite Ht. unfold start_load. rewrite Hn. by repeat split. }
  clear Ht. cbn [TabModel.run] in Hr. apply rbind_Ok in Hr as ([ta ea] & H1 & Hr). apply rbind_Ok in Hr as ([tb eb] & H2 & E).
  injection E as <- _. apply rbind_Ok in H2 as ([tc ec] & H2 & E). injection E as <- _.
  cbn [TabModel.step] in H1. rewrite P2, lookup_app_r, Hn, Nat.sub_diag in H1 by lia. cbn [lookup list_lookup] in H1.
  injection H1 as <- _.
  destruct (receive_lemma (set_task n (Sent (ROk u title d)) t) n u0 u i tc ec title d)
    as (t2 & h2 & rs & C0 & C1 & C2 & C3 & C4 & C5 & C6 & C7 & C8).
  - exact P1.
  - rewrite lookup_alter_task, decide_True, P2, lookup_app_r, Hn, Nat.sub_diag by lia. done.
  - exact P3.
  - exact P4.
  - done.
  - exists t2, h2, rs. rewrite C7, length_set_task, P2, app_length, Hn. cbn [length].
    split; [done|]. split; [by rewrite C1, <- P5|]. repeat (split; [done|]). split; [lia|done].
Qed.

Lemma return_lemma ttl ls t es c e text u v title d mid w w' title' d' t' es' :
  run (new_tab ttl) ls = Ok (t, es) -> settled t ->
  h_current (t_hist t) = Some c -> h_entries (t_hist t) !! c = Some e ->
  t_scroll t <> (0, 0)%Z ->
  parse text = Some u -> (forall cur, t_url t = Some cur -> t_loading t = false -> strip cur <> strip u) ->
  parse (e_url e) = Some w -> strip v <> strip w ->
  Forall stays mid ->
  run t (leave_and_return (length (t_tasks t)) text (ROk v title d) mid (ROk w' title' d')) = Ok (t', es') ->
  t_doc t' = Some d' /\ t_url t' = Some w' /\ h_current (t_hist t') = Some c /\
  t_scroll t' = place (Some d') (t_scroll t).
Proof.
  intros Hr Hset Hcur Hent Hsc Hp1 Hst1 Hp2 Hst2 Hmid Hrun. pose proof (run_TI _ _ _ _ Hr) as HT. pose proof (ti_good _ _ HT) as Hg.
  destruct (reachable_inv _ (good_reach _ Hg)) as [log HI].
  unfold leave_and_return in Hrun. rewrite (run_app_lemma t) in Hrun.
  apply rbind_Ok in Hrun as ([t3 e3] & H3 & Hrun). rewrite run_app_lemma in Hrun.
  apply rbind_Ok in Hrun as ([tz ez] & H4 & E). injection E as -> _. apply rbind_Ok in H4 as ([t4 e4] & Hm & H4).
  apply rbind_Ok in H4 as ([ty ey] & H5 & E). injection E as -> _.
  (* leaving *)
  assert (TI t3 (es ++ e3)) as HT3.
  { apply (run_TI ttl (ls ++ [LCommand true (CNavigate text); LEnd (length (t_tasks t)) (OSend (ROk v title d)); LReceive])).
    rewrite run_app_lemma, Hr. cbn [rbind]. rewrite H3. done. }
  change [LCommand true (CNavigate text); LEnd (length (t_tasks t)) (OSend (ROk v title d)); LReceive]
    with ([LCommand true (CNavigate text)] ++ [LEnd (length (t_tasks t)) (OSend (ROk v title d)); LReceive]) in H3.
  rewrite run_app_lemma in H3. apply rbind_Ok in H3 as ([t1 e1] & H1 & H3). apply rbind_Ok in H3 as ([t3' e3'] & H3 & E).
  injection E as <- _. cbn [TabModel.run] in H1. apply rbind_Ok in H1 as ([t1' e1'] & H1 & E). injection E as <- _.
  assert (is_same_document t u = false) as Hd1.
  { unfold is_same_document. destruct (t_url t) as [cur|]; [|done]. destruct (t_loading t); [done|].
    apply bool_decide_eq_false. by apply Hst1. }
  cbn [TabModel.step TabModel.handle] in H1. unfold TabModel.navigate_to in H1. rewrite Hp1, Hd1, andb_false_r in H1.
  apply rbind_Ok in H1 as ([t1b e1b] & H1 & E). injection E as <- _. apply rbind_Ok in H1 as (t1a & Hsave & E).
  cbn [bind_and_load] in E. apply save_inv in Hsave as (h1 & r1 & Hs1 & ->).
  set (tl := cancel_current_nav _) in E. injection E as E _.
  destruct (answer_lemma (sync t1b) tl (length (t_tasks t)) u Push v title d t3' e3') as (t2 & h2 & rs2 & Hcm & Hh2 & E1 & E2 & E3 & E4 & E5 & E6 & _);
    [exact Hset|done|exact (f_equal sync (eq_sym E))|exact H3|].
  cbn [commit] in Hcm. apply rbind_Ok in Hcm as ([x y] & Hx & E'). injection E' as E' _. apply hist_inv in Hx as (hp & Hpush & ->).
  apply (f_equal t_hist) in E'. cbn [t_hist with_hist] in E'. subst hp. rewrite Hh2 in Hpush.
  change (t_hist tl) with h1 in Hpush.
  (* staying *)
  destruct (stays_kept t3' _ mid t4 e4 HT3 Hmid Hm) as [(K1 & K2 & K3 & K4 & K5 & K6 & K7) HT4].
  (* going back *)
  change [LCommand true CGoBack; LEnd (S (length (t_tasks t))) (OSend (ROk w' title' d')); LReceive; LTick true]
    with ([LCommand true CGoBack] ++ [LEnd (S (length (t_tasks t))) (OSend (ROk w' title' d')); LReceive] ++ [LTick true]) in H5.
  rewrite run_app_lemma in H5. apply rbind_Ok in H5 as ([t5 e5] & H5 & Hrest). rewrite run_app_lemma in Hrest.
  apply rbind_Ok in Hrest as ([t7 e7] & Hrest & E7). injection E7 as -> _.
  apply rbind_Ok in Hrest as ([t6 e6] & H6 & H7). apply rbind_Ok in H7 as ([t7' e7'] & H7 & E7). injection E7 as -> _.
  cbn [TabModel.run] in H5. apply rbind_Ok in H5 as ([t5' e5'] & H5 & E7). injection E7 as <- _.
  cbn [TabModel.step TabModel.handle] in H5. apply rbind_Ok in H5 as ([t5a e5a] & H5 & E7). injection E7 as <- _.
  apply rbind_Ok in H5 as (t5b & Hsave & H5). apply save_inv in Hsave as (h3 & r3 & Hs3 & ->).
  apply rbind_Ok in H5 as ([t5c r4] & Hback & H5). apply hist_inv in Hback as (h4 & Hs4 & ->).
  cbn [t_hist with_hist] in Hs4. rewrite with_hist_hist in H5. rewrite K7, E1 in Hs3.
  (* the histories *)
  assert (good h1) as G1 by (eapply good_step; [exact Hg| |exact Hs1]; exact I).
  assert (good h2) as G2 by (eapply good_step; [exact G1| |exact Hpush]; exact I).
  assert (good h3) as G3 by (eapply good_step; [exact G2| |exact Hs3]; exact I).
  assert (good h4) as G4 by (eapply good_step; [exact G3| |exact Hs4]; exact I).
  pose proof (sim_set_scroll _ _ _ _ _ Hs1) as [S1 S1e]. pose proof (sim_set_scroll _ _ _ _ _ Hs3) as [S3 S3e].
  set (m := length (h_entries h1)).
  assert (m = length (h_entries (t_hist t))) as Hm1 by (by apply sim_length).
  assert (c < m) as Hcm1 by (rewrite Hm1; by eapply lookup_lt_Some).
  destruct (reachable_inv _ (good_reach _ G1)) as [log1 HI1].
  destruct (push_shape log1 h1 v title HI1) as (es2 & Hp2' & Hlen2 & Hnew2 & Hold2).
  cbn [HistoryModel.step] in Hpush. rewrite Hp2' in Hpush. cbn [rbind] in Hpush. injection Hpush as Eh2 _.
  assert (h_current h3 = Some m) as Hcur3 by (by rewrite S3, <- Eh2).
  assert (parent_of h3 m = Some c) as Hpar3.
  { unfold parent_of. destruct (sim_lookup _ _ m S3e) as [[Hno _]|(x & x' & Hx & -> & Hxx)].
    - rewrite <- Eh2 in Hno. cbn [h_entries] in Hno. unfold m in Hno. by rewrite Hnew2 in Hno.
    - destruct (unscrolled_fields _ _ Hxx) as (_ & _ & _ & -> & _). rewrite <- Eh2 in Hx. cbn [h_entries] in Hx.
      unfold m in Hx. rewrite Hnew2 in Hx. injection Hx as <-. cbn. by rewrite S1. }
  assert (is_navigable h3 c) as Hnav3.
  { destruct (lookup_lt_is_Some_2 (h_entries h3) c) as [x Hx].
    - rewrite (sim_length _ _ S3e), <- Eh2. cbn [h_entries]. rewrite Hlen2. fold m. lia.
    - exists x. split; [done|]. by apply (Forall_lookup_1 _ _ _ _ (good_nav _ G3) Hx). }
  destruct (C02_back_lemma h3 (good_reach _ G3)) as (hb & rb & Hb & Hbe & Hbm). rewrite Hcur3 in Hbm. rewrite Hs4 in Hb.
  injection Hb as <- <-. destruct Hbm as [Hbg Hbc].
  assert (r4 = Some c) as ->. { eapply back_goes_to_fun; [exact Hbg|]. by apply BGhere. }
  (* the entry gone back to *)
  assert (agree (mk_ledger (h_current (t_hist t)) (page_of (t_hist t))) (t_hist t)) as A0 by done.
  assert (HistoryModel.step h1 (OPush v title) = Ok (h2, Some m)) as Hpush'.
  { cbn [HistoryModel.step]. rewrite Hp2'. cbn [rbind]. by rewrite <- Eh2. }
  destruct (reachable_inv _ (good_reach _ G3)) as [log3 HI3]. destruct (reachable_inv _ (good_reach _ G2)) as [log2 HI2].
  pose proof (step_agree _ _ _ _ _ _ HI A0 Hs1) as A1. pose proof (step_agree _ _ _ _ _ _ HI1 A1 Hpush') as A2.
  pose proof (step_agree _ _ _ _ _ _ HI2 A2 Hs3) as A3. pose proof (step_agree _ _ _ _ _ _ HI3 A3 Hs4) as A4.
  destruct (lookup_lt_is_Some_2 (h_entries h4) c) as [x Hx].
  { destruct (reachable_inv _ (good_reach _ G4)) as [log4 HI4]. pose proof (inv_cur _ _ HI4) as Hic. by rewrite Hbc in Hic. }
  assert (e_url x = e_url e /\ e_scroll x = t_scroll t) as [Hxu Hxs].
  { destruct A4 as [_ A4]. specialize (A4 c). unfold page_of at 2 in A4. rewrite Hx in A4.
    cbn [ledger_step lg_pages lg_cur on_cur] in A4. rewrite Hcur in A4.
    cbn [on_cur lg_cur lg_pages] in A4. unfold put in A4.
    rewrite (decide_False (P := c = m)) in A4 by lia. rewrite (decide_False (P := c = m)) in A4 by lia.
    rewrite (decide_True (P := c = c)) in A4 by done. unfold page_of in A4. rewrite Hent in A4. cbn in A4.
    injection A4 as -> _ <-. by destruct (t_scroll t). }
  unfold TabModel.traverse_history in H5. cbn [t_hist with_hist] in H5. rewrite Hx in H5.
  apply rbind_Ok in H5 as ([t5d e5d] & Hnv & H5). apply rbind_Ok in H5 as (hev & _ & E7). injection E7 as <- _.
  unfold TabModel.navigate_to in Hnv. rewrite Hxu, Hp2 in Hnv.
  assert (is_same_document (with_hist h4 t4) w = false) as Hd2.
  { unfold is_same_document. cbn [t_url t_loading with_hist]. rewrite K2, K3, E3, E4. by apply bool_decide_eq_false. }
  rewrite Hd2, andb_false_r in Hnv. cbn [rbind bind_and_load] in Hnv. set (tb := cancel_current_nav _) in Hnv.
  injection Hnv as Etb _.
  destruct (answer_lemma (sync t5d) tb (S (length (t_tasks t))) w (Traverse c) w' title' d' t6 e6)
    as (t8 & h8 & rs8 & Hcm8 & Hh8 & F1 & F2 & F3 & F4 & F5 & F6 & F7);
    [unfold tb; cbn; by rewrite K5|unfold tb; cbn; by rewrite K6|exact (f_equal sync (eq_sym Etb))|exact H6|].
  cbn [commit] in Hcm8. apply rbind_Ok in Hcm8 as ([x1 y1] & Hx1 & Hcm8). apply hist_inv in Hx1 as (h5 & Hs5 & ->).
  apply rbind_Ok in Hcm8 as ([x2 y2] & Hx2 & E'). apply hist_inv in Hx2 as (h6 & Hs6 & ->). injection E' as E' Ers.
  cbn [t_hist with_hist] in Hs6. rewrite Hh8 in Hs5. change (t_hist tb) with h4 in Hs5. subst h6.
  assert (good h5) as G5 by (eapply good_step; [exact G4| |exact Hs5]; exact I).
  destruct (reachable_inv _ (good_reach _ G4)) as [log4 HI4]. destruct (reachable_inv _ (good_reach _ G5)) as [log5 HI5].
  assert (h_current h8 = Some c /\ exists x8, h_entries h8 !! c = Some x8 /\ e_scroll x8 = t_scroll t) as [Hc8 (x8 & Hx8 & Hsc8)].
  { apply rbind_Ok in Hs5 as (h5' & U5 & E5'). injection E5' as -> _. apply rbind_Ok in Hs6 as (h8' & U8 & E8'). injection E8' as -> _.
    destruct (upd_current_at _ _ _ _ U5 Hbc) as (z & Hz & Hc5 & He5). rewrite Hx in Hz. injection Hz as <-.
    destruct (upd_current_at _ _ _ _ U8 Hc5) as (z & Hz & Hc8 & He8). split; [done|].
    rewrite He5, list_lookup_insert in Hz by (by eapply lookup_lt_Some). injection Hz as <-.
    eexists. rewrite He8, list_lookup_insert; [split; [done|exact Hxs]|]. rewrite He5, insert_length. by eapply lookup_lt_Some. }
  unfold saved_scroll in Ers. cbn [t_hist with_hist] in Ers. rewrite Hx8 in Ers. cbn in Ers. rewrite Hsc8 in Ers. subst rs8.
  (* the redraw *)
  cbn [TabModel.run TabModel.step rbind] in H7. injection H7 as <- _.
  unfold tick. rewrite F7. unfold landing. destruct (t_scroll t) as [sx sy] eqn:Hts.
  rewrite bool_decide_eq_false_2 by done.
  set (tf := apply_scroll _ _ _).
  destruct (sync_cases tf) as [->|(? & _ & _ & ->)]; unfold tf, apply_scroll;
    cbn [t_doc t_url t_hist t_scroll with_scroll' with_pscroll with_pending with_load]; rewrite F1, F2, F3; done.
Qed.
End proofs.
