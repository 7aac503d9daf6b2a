From stdpp Require Import gmap.
From Verif Require Import Text SettingsModel CookieModel CookieSpec CookieProofs CookieStoreModel CookieStoreSpec.

(** * Saving a file *)
Lemma rsplit_some c s a b : rsplit_once c s = Some (a, b) -> s = a ++ c :: b /\ c ∉ b.
Proof.
  unfold rsplit_once. destruct (split_once c (rev s)) as [[x y]|] eqn:E; [|done]. intros [= <- <-].
  assert (rev s = x ++ c :: y /\ c ∉ x) as [H1 H2].
  { revert x y E. induction (rev s) as [|d r IH]; intros x y E; simpl in E; [done|].
    destruct (N.eqb_spec d c) as [->|Hd].
    - injection E as <- <-. split; [done|apply not_elem_of_nil].
    - destruct (split_once c r) as [[x' y']|] eqn:E'; [|done]. injection E as <- <-.
      destruct (IH x' y' eq_refl) as [-> ?]. split; [done|]. rewrite not_elem_of_cons. done. }
  split.
  - rewrite <- (rev_involutive s), H1, rev_app_distr. simpl. by rewrite <- app_assoc.
  - by rewrite <- elem_of_list_In, <- in_rev, elem_of_list_In in H2 || (rewrite elem_of_list_In, <- in_rev, <- elem_of_list_In; done).
Qed.
Lemma rsplit_none c s : rsplit_once c s = None -> c ∉ s.
Proof.
  unfold rsplit_once. destruct (split_once c (rev s)) as [[x y]|] eqn:E; [done|]. intros _.
  assert (c ∉ rev s).
  { revert E. induction (rev s) as [|d r IH]; intros E; simpl in E; [apply not_elem_of_nil|].
    destruct (N.eqb_spec d c) as [->|Hd]; [done|]. destruct (split_once c r) as [[? ?]|]; [done|].
    rewrite not_elem_of_cons. split; [done|by apply IH]. }
  rewrite elem_of_list_In, in_rev, <- elem_of_list_In. done.
Qed.
Lemma split_last_unique (c : N) a b a' b' : c ∉ b -> c ∉ b' -> a ++ c :: b = a' ++ c :: b' -> a = a' /\ b = b'.
Proof.
  intros Hb Hb' H. revert a' H. induction a as [|x a IH]; intros [|x' a'] H; simpl in H.
  - by injection H as <-.
  - injection H as <- ->. destruct Hb. set_solver.
  - injection H as -> <-. destruct Hb'. set_solver.
  - injection H as <- H. destruct (IH a' H) as [-> ->]. done.
Qed.
Lemma file_name_app (d n : str) : slash ∉ n -> d = [] \/ last d = Some slash -> file_name (d ++ n) = (d, n).
Proof.
  intros Hn Hd. unfold file_name. destruct (rsplit_once slash (d ++ n)) as [[a b]|] eqn:E.
  - destruct (rsplit_some _ _ _ _ E) as [H1 H2]. destruct Hd as [->|Hd].
    + simpl in H1. subst n. destruct Hn. set_solver.
    + destruct (exists_last (l := d)) as (d0 & x & ->); [by intros ->|]. rewrite last_snoc in Hd. injection Hd as ->.
      rewrite <- app_assoc in H1. simpl in H1. by destruct (split_last_unique _ _ _ _ _ Hn H2 H1) as [-> ->].
  - apply rsplit_none in E. destruct Hd as [->|Hd]; [done|].
    destruct (exists_last (l := d)) as (d0 & x & ->); [by intros ->|]. rewrite last_snoc in Hd. injection Hd as ->. destruct E. set_solver.
Qed.
Lemma tmp_differs p : proper_path p -> tmp_of p <> p.
Proof.
  intros (d & n & -> & Hn & Hne & Hdd & Hd). unfold tmp_of, with_extension. rewrite file_name_app by done.
  rewrite !bool_decide_eq_false_2 by done. cbn [orb].
  assert (forall a b : str, a ++ b = a -> b = []) as Hself.
  { intros a b H. apply (f_equal length) in H. rewrite app_length in H. destruct b; simpl in H; [done|lia]. }
  destruct (rsplit_once dot n) as [[a b]|] eqn:E.
  - case_bool_decide.
    + intros H2. by apply Hself in H2.
    + destruct (rsplit_some _ _ _ _ E) as [-> Hb]. intros H2. apply app_inv_head in H2. apply app_inv_head in H2. injection H2 as <-.
      destruct Hb. unfold dot. vm_compute. set_solver.
  - intros H2. by apply Hself in H2.
Qed.

Lemma sound_create f p f' i : sound_fs f -> create f p = (f', i) ->
  sound_fs f' /\ names f' !! p = Some i /\ data f' !! i = Some [] /\
  (forall q, q <> p -> contents_of f' q = contents_of f q /\ names f' !! q = names f !! q).
Proof.
  intros [S1 S2] E. unfold create in E. destruct (names f !! p) as [j|] eqn:Ep; injection E as <- <-; simpl.
  - split; [|split; [done|split; [by rewrite lookup_insert|]]].
    + split; simpl.
      * intros q k Hq. destruct (S1 _ _ Hq) as [? ?]. split; [|done]. destruct (decide (k = j)) as [->|]; [by rewrite lookup_insert|by rewrite lookup_insert_ne].
      * exact S2.
    + intros q Hq. unfold contents_of. simpl. split; [|done]. destruct (names f !! q) as [k|] eqn:Eq; [|done]. simpl.
      rewrite lookup_insert_ne; [done|]. intros ->. by destruct Hq; apply (S2 _ _ k).
  - assert (forall q, names f !! q <> Some (fresh_ino f)) as Hfresh by (intros q Hq; destruct (S1 _ _ Hq); lia).
    split; [|split; [by rewrite lookup_insert|split; [by rewrite lookup_insert|]]].
    + split; simpl.
      * intros q k Hq. destruct (decide (q = p)) as [->|Hqp].
        -- rewrite lookup_insert in Hq. injection Hq as <-. rewrite lookup_insert. split; [done|lia].
        -- rewrite lookup_insert_ne in Hq by done. destruct (S1 _ _ Hq) as [? ?]. split; [|lia].
           rewrite lookup_insert_ne; [done|]. intros <-. by apply (Hfresh q).
      * intros q q' k Hq Hq'. destruct (decide (q = p)) as [->|Hqp], (decide (q' = p)) as [->|Hqp']; [done|..].
        -- rewrite lookup_insert in Hq. rewrite lookup_insert_ne in Hq' by done. injection Hq as <-. by destruct (Hfresh q').
        -- rewrite lookup_insert in Hq'. rewrite lookup_insert_ne in Hq by done. injection Hq' as <-. by destruct (Hfresh q).
        -- rewrite lookup_insert_ne in Hq by done. rewrite lookup_insert_ne in Hq' by done. by apply (S2 _ _ k).
    + intros q Hq. unfold contents_of. simpl. rewrite lookup_insert_ne by done. split; [|done].
      destruct (names f !! q) as [k|] eqn:Eq; [|done]. simpl. rewrite lookup_insert_ne; [done|]. intros <-. by destruct (Hfresh q).
Qed.
Lemma sound_write f i off b p : sound_fs f -> names f !! p = Some i ->
  sound_fs (write_at f i off b) /\ (forall q, names (write_at f i off b) !! q = names f !! q) /\
  (forall q, q <> p -> contents_of (write_at f i off b) q = contents_of f q).
Proof.
  intros [S1 S2] Hp. split; [|split; [done|]].
  - split; simpl.
    + intros q k Hq. destruct (S1 _ _ Hq) as [[d Hd] ?]. split; [|done]. destruct (decide (k = i)) as [->|].
      * rewrite lookup_alter, Hd. by eexists.
      * rewrite lookup_alter_ne by done. by eexists.
    + exact S2.
  - intros q Hq. unfold contents_of. simpl. destruct (names f !! q) as [k|] eqn:Eq; [|done]. simpl.
    rewrite lookup_alter_ne; [done|]. intros ->. by destruct Hq; apply (S2 _ _ k).
Qed.
Lemma overwrite_end d b : overwrite d (length d) b = d ++ b.
Proof. unfold overwrite. rewrite firstn_all, Nat.sub_diag, drop_ge by lia. simpl. by rewrite app_nil_r. Qed.

Definition saving_ok (p : str) (f0 : fsys) (new : list N) (f : fsys) (s : saving) : Prop :=
  sound_fs f /\ (forall q, q <> p -> q <> tmp_of p -> contents_of f q = contents_of f0 q) /\
  match s with
  | SStart b => b = new /\ contents_of f p = contents_of f0 p
  | SWriting i off rest => contents_of f p = contents_of f0 p /\ names f !! tmp_of p = Some i /\
      exists d, data f !! i = Some d /\ off = length d /\ d ++ rest = new
  | SDone => contents_of f p = contents_of f0 p \/ contents_of f p = Some new
  end.
Lemma save_step_ok p f0 new c f s : proper_path p -> saving_ok p f0 new f s ->
  let (f', s') := save_step p c f s in saving_ok p f0 new f' s'.
Proof.
  intros Hp (S & Ho & H). pose proof (tmp_differs p Hp) as Ht.
  destruct s as [b|i off rest|].
  - destruct H as [-> H]. destruct c as [|n]; simpl.
    + split; [done|]. split; [done|]. by left.
    + destruct (create f (tmp_of p)) as [f' i] eqn:E. destruct (sound_create _ _ _ _ S E) as (S' & Hn & Hd & Hq).
      split; [done|]. split.
      * intros q H1 H2. destruct (Hq q H2) as [-> _]. by apply Ho.
      * destruct (Hq p) as [-> _]; [done|]. split; [done|]. split; [done|]. by exists [].
  - destruct H as (H & Hn & d & Hd & -> & Hdr). destruct c as [|n].
    + destruct rest; (split; [done|]; split; [done|]; by left).
    + destruct rest as [|x r].
      * simpl. unfold rename. rewrite Hn. split; [|split].
        -- destruct S as [S1 S2]. split; simpl.
           ++ intros q k Hq. destruct (decide (q = p)) as [->|].
              ** rewrite lookup_insert in Hq. injection Hq as <-. by apply (S1 (tmp_of p)).
              ** rewrite lookup_insert_ne in Hq by done. apply lookup_delete_Some in Hq as [_ Hq]. by apply (S1 q).
           ++ intros q q' k Hq Hq'. destruct (decide (q = p)) as [->|], (decide (q' = p)) as [->|]; [done|..].
              ** rewrite lookup_insert in Hq. injection Hq as <-. rewrite lookup_insert_ne in Hq' by done. apply lookup_delete_Some in Hq' as [? Hq'].
                 by destruct H0; apply (S2 _ _ i).
              ** rewrite lookup_insert in Hq'. injection Hq' as <-. rewrite lookup_insert_ne in Hq by done. apply lookup_delete_Some in Hq as [? Hq].
                 by destruct H0; apply (S2 _ _ i).
              ** rewrite lookup_insert_ne in Hq by done. rewrite lookup_insert_ne in Hq' by done.
                 apply lookup_delete_Some in Hq as [_ Hq]. apply lookup_delete_Some in Hq' as [_ Hq']. by apply (S2 _ _ k).
        -- intros q H1 H2. rewrite <- (Ho q H1 H2). unfold contents_of. simpl. rewrite lookup_insert_ne by done. by rewrite lookup_delete_ne by done.
        -- right. unfold contents_of. simpl. rewrite lookup_insert. simpl. rewrite Hd. by rewrite app_nil_r in Hdr; subst.
      * cbn [save_step]. set (b := take (Datatypes.S n) (x :: r)). destruct (sound_write f i (length d) b (tmp_of p) S Hn) as (S' & Hn' & Hq).
        split; [done|]. split.
        -- intros q H1 H2. rewrite Hq by done. by apply Ho.
        -- rewrite Hq by done. split; [done|]. rewrite Hn'. split; [done|]. exists (d ++ b). split.
           ++ cbn [data write_at]. rewrite lookup_alter, Hd. simpl. by rewrite overwrite_end.
           ++ split; [by rewrite app_length|]. rewrite <- app_assoc. unfold b. by rewrite take_drop.
  - destruct c; simpl; (split; [done|]; split; [done|]; done).
Qed.
Lemma save_run_ok p f0 new cs f s : proper_path p -> saving_ok p f0 new f s ->
  let (f', s') := save_run p cs f s in saving_ok p f0 new f' s'.
Proof.
  intros Hp. revert f s. induction cs as [|c cs IH]; intros f s H; simpl; [done|].
  pose proof (save_step_ok p f0 new c f s Hp H) as H'. destruct (save_step p c f s) as [f' s']. by apply IH.
Qed.
Lemma crash_atomic p f new cs f' s' : proper_path p -> sound_fs f -> save_run p cs f (SStart new) = (f', s') ->
  sound_fs f' /\ (contents_of f' p = contents_of f p \/ contents_of f' p = Some new) /\
  (forall q, q <> p -> q <> tmp_of p -> contents_of f' q = contents_of f q).
Proof.
  intros Hp S H. pose proof (save_run_ok p f new cs f (SStart new) Hp) as K. rewrite H in K.
  destruct K as (S' & Ho & K); [by split; [|split]|]. split; [done|]. split; [|done].
  destruct s'; naive_solver.
Qed.
(** Without failures and with enough steps the save completes. *)
Lemma save_completes_go p cs f s :
  Forall (fun c => c <> Fail) cs ->
  match s with SStart b => (length b + 2 <= length cs) | SWriting _ _ r => (length r + 1 <= length cs) | SDone => True end ->
  (save_run p cs f s).2 = SDone.
Proof.
  revert f s. induction cs as [|c cs IH]; intros f s HF Hl; simpl.
  - destruct s; simpl in *; [lia..|done].
  - inversion HF; subst. destruct c as [|n]; [done|]. destruct s as [b|i off [|x r]|]; simpl in *.
    + destruct (create f (tmp_of p)) as [f' i]. apply IH; [done|lia].
    + destruct (rename f (tmp_of p) p); by apply IH.
    + apply IH; [done|]. rewrite drop_length. lia.
    + by apply IH.
Qed.
Definition saved_ok (p : str) (new : list N) (f : fsys) (s : saving) : Prop :=
  match s with SDone => contents_of f p = Some new | _ => True end.
Lemma save_nofail p f0 new cs f s : proper_path p -> Forall (fun c => c <> Fail) cs ->
  saving_ok p f0 new f s -> saved_ok p new f s ->
  let (f', s') := save_run p cs f s in saved_ok p new f' s'.
Proof.
  intros Hp. revert f s. induction cs as [|c cs IH]; intros f s HF H H'; simpl; [done|].
  inversion HF; subst. destruct c as [|n]; [done|].
  pose proof (save_step_ok p f0 new (Go n) f s Hp H) as K.
  assert (let (f', s') := save_step p (Go n) f s in saved_ok p new f' s') as K'.
  { destruct s as [b|i off [|x r]|]; simpl in *.
    - by destruct (create f (tmp_of p)).
    - destruct H as (_ & _ & _ & Hn & d & Hd & -> & Hdr). unfold rename. rewrite Hn. unfold saved_ok, contents_of. simpl. rewrite lookup_insert. simpl. rewrite Hd.
      by rewrite app_nil_r in Hdr; subst.
    - done.
    - done. }
  destruct (save_step p (Go n) f s) as [f' s']. by apply IH.
Qed.
Lemma save_completes p f new cs f' s' : proper_path p -> sound_fs f -> Forall (fun c => c <> Fail) cs ->
  length new + 2 <= length cs -> save_run p cs f (SStart new) = (f', s') -> s' = SDone /\ contents_of f' p = Some new.
Proof.
  intros Hp S HF Hl E. pose proof (save_completes_go p cs f (SStart new) HF Hl) as Hd. rewrite E in Hd. simpl in Hd. subst s'.
  split; [done|]. pose proof (save_nofail p f new cs f (SStart new) Hp HF) as K. rewrite E in K. apply K; [|done].
  split; [done|]. done.
Qed.

(** * Creating the file *)
Lemma creating_prefix p cs f b f' s' : sound_fs f -> create_run p cs f (NStart b) = (f', s') ->
  sound_fs f' /\ (contents_of f' p = contents_of f p \/ exists d rest, contents_of f' p = Some d /\ d ++ rest = b) /\
  (forall q, q <> p -> contents_of f' q = contents_of f q).
Proof.
  intros S E.
  cut (forall cs g s, sound_fs g -> (forall q, q <> p -> contents_of g q = contents_of f q) ->
    match s with
    | NStart b' => b' = b /\ contents_of g p = contents_of f p
    | NWriting i off rest => names g !! p = Some i /\ exists d, data g !! i = Some d /\ off = length d /\ d ++ rest = b
    | NDone => contents_of g p = contents_of f p \/ exists d rest, contents_of g p = Some d /\ d ++ rest = b
    end -> let (g', s') := create_run p cs g s in
    sound_fs g' /\ (contents_of g' p = contents_of f p \/ exists d rest, contents_of g' p = Some d /\ d ++ rest = b) /\
    (forall q, q <> p -> contents_of g' q = contents_of f q)).
  { intros K. specialize (K cs f (NStart b) S). rewrite E in K. by apply K. }
  clear. induction cs as [|c cs IH]; intros g s S Ho H; simpl.
  - split; [done|]. split; [|done]. destruct s as [b'|i off rest|].
    + by left; destruct H.
    + destruct H as (Hn & d & Hd & -> & Hr). right. exists d, rest. split; [|done]. unfold contents_of. rewrite Hn. done.
    + done.
  - assert (forall i off rest, names g !! p = Some i -> (exists d, data g !! i = Some d /\ off = length d /\ d ++ rest = b) ->
      contents_of g p = contents_of f p \/ exists d rest, contents_of g p = Some d /\ d ++ rest = b) as Hsome.
    { intros i off rest Hn (d & Hd & _ & Hr). right. exists d, rest. split; [|done]. unfold contents_of. rewrite Hn. done. }
    destruct s as [b'|i off rest|].
    + destruct H as [-> H]. destruct c as [|n]; simpl.
      * apply IH; [done..|]. by left.
      * destruct (create g p) as [g' i] eqn:Eg. destruct (sound_create _ _ _ _ S Eg) as (S' & Hn & Hd & Hq).
        apply IH; [done|..].
        -- intros q Hqp. destruct (Hq q Hqp) as [-> _]. by apply Ho.
        -- split; [done|]. by exists [].
    + destruct H as (Hn & Hd). destruct c as [|n].
      * destruct rest; simpl; apply IH; try done; by eapply Hsome.
      * destruct rest as [|x r].
        -- simpl. apply IH; [done..|]. by eapply Hsome.
        -- cbn [create_step]. set (bb := take (Datatypes.S n) (x :: r)). destruct (sound_write g i off bb p S Hn) as (S' & Hn' & Hq).
           destruct Hd as (d & Hd & -> & Hdr). apply IH; [done|..].
           ++ intros q Hqp. rewrite Hq by done. by apply Ho.
           ++ rewrite Hn'. split; [done|]. exists (d ++ bb). cbn [data write_at]. rewrite lookup_alter, Hd. simpl. rewrite overwrite_end.
              split; [done|]. split; [by rewrite app_length|]. rewrite <- app_assoc, <- Hdr. f_equal. exact (take_drop (Datatypes.S n) (x :: r)).
    + destruct c; simpl; by apply IH.
Qed.
(** * Shared stores *)
Section store.
  Context {J : Type} (empty : J) (reload : J -> J) (bk : backend).
  Notation state := (@state J).
  Notation pc := (@pc J).
  Notation event := (@event J).
  Notation act := (act empty reload bk).

  Definition lock_of (p : pc) : option N :=
    match p with Persisting o _ _ => o | Saving o _ _ _ => o | _ => None end.
  Definition todo_of (p : pc) : list (N * N) :=
    match p with AllJson l _ => l | AllSql l => l | _ => [] end.
  Definition holds_cache (p : pc) : bool := match p with AllJson _ _ | AllSql _ => true | _ => false end.

  Lemma cache_held_false (s : state) : cache_held s = false -> forall t p, threads s !! t = Some p -> holds_cache p = false.
  Proof.
    unfold cache_held. intros H t p Ht. destruct (holds_cache p) eqn:E; [|done].
    assert (existsb (fun tp : N * pc => match tp.2 with AllJson _ _ | AllSql _ => true | _ => false end) (map_to_list (threads s)) = true) as K; [|congruence].
    apply existsb_exists. exists (t, p). split; [by apply elem_of_list_In, elem_of_map_to_list|done].
  Qed.

  Definition local_ok (c : gmap N N) (hp : gmap N (N * J)) (p : pc) : Prop :=
    match p with
    | Persisting (Some h) z j => hp !! h = Some (z, j)
    | Saving (Some h) z oj _ => exists j, oj = Some j /\ hp !! h = Some (z, j)
    | Evicting z h => exists j, hp !! h = Some (z, j)
    | AllJson l _ | AllSql l => forall z h, (z, h) ∈ l -> c !! z = Some h
    | _ => True
    end.
  Record good (s : state) : Prop := {
    g_cache : forall z h, cache s !! z = Some h -> exists j, heap s !! h = Some (z, j);
    g_heap : forall h v, heap s !! h = Some v -> (h < next s)%N;
    g_locked : forall t p h, threads s !! t = Some p -> lock_of p = Some h -> h ∈ locked s;
    g_lock1 : forall t t' p p' h, threads s !! t = Some p -> threads s !! t' = Some p' -> lock_of p = Some h -> lock_of p' = Some h -> t = t';
    g_owner : forall h, h ∈ locked s -> exists t p, threads s !! t = Some p /\ lock_of p = Some h;
    g_local : forall t p, threads s !! t = Some p -> local_ok (cache s) (heap s) p }.

  Lemma good_init d : good (init d).
  Proof. split; simpl; intros; try (rewrite lookup_empty in *; done); set_solver. Qed.
  (** only disk and log differ *)
  Lemma good_same s s' : good s -> cache s' = cache s -> heap s' = heap s -> locked s' = locked s -> threads s' = threads s -> next s' = next s -> good s'.
  Proof. intros [] E1 E2 E3 E4 E5. split; rewrite ?E1, ?E2, ?E3, ?E4, ?E5; done. Qed.
  Lemma good_move s s' t p' : good s -> cache s' = cache s -> heap s' = heap s -> locked s' = locked s -> threads s' = <[t := p']> (threads s) -> next s' = next s ->
    lock_of p' = (threads s !! t ≫= lock_of) -> local_ok (cache s) (heap s) p' -> good s'.
  Proof.
    intros [G1 G2 G3 G4 G5 G6] E1 E2 E3 E4 E5 Hl Hok. split; rewrite ?E1, ?E2, ?E3, ?E4, ?E5; try done.
    - intros t0 p h H1 H2. destruct (decide (t0 = t)) as [->|].
      + rewrite lookup_insert in H1. injection H1 as <-. rewrite Hl in H2. destruct (threads s !! t) as [q|] eqn:Eq; [|done]. by apply (G3 t q).
      + rewrite lookup_insert_ne in H1 by done. by apply (G3 t0 p).
    - assert (forall t0 p h, <[t := p']> (threads s) !! t0 = Some p -> lock_of p = Some h -> exists q, threads s !! t0 = Some q /\ lock_of q = Some h) as K.
      { intros t0 p h H1 H2. destruct (decide (t0 = t)) as [->|].
        - rewrite lookup_insert in H1. injection H1 as <-. rewrite Hl in H2. destruct (threads s !! t) as [q|] eqn:Eq; [|done]. by exists q.
        - rewrite lookup_insert_ne in H1 by done. by exists p. }
      intros t0 t1 p q h H1 H2 H3 H4. destruct (K _ _ _ H1 H3) as (? & ? & ?), (K _ _ _ H2 H4) as (? & ? & ?). by eapply G4.
    - intros h H. destruct (G5 _ H) as (t0 & q & H1 & H2). exists t0. destruct (decide (t0 = t)) as [->|].
      + exists p'. rewrite lookup_insert. rewrite Hl, H1. done.
      + exists q. by rewrite lookup_insert_ne.
    - intros t0 p H. destruct (decide (t0 = t)) as [->|].
      + rewrite lookup_insert in H. by injection H as <-.
      + rewrite lookup_insert_ne in H by done. by apply (G6 t0).
  Qed.
  Lemma good_end s s' t p : good s -> cache s' = cache s -> heap s' = heap s -> threads s !! t = Some p ->
    locked s' = match lock_of p with Some h => locked s ∖ {[h]} | None => locked s end -> threads s' = delete t (threads s) -> next s' = next s -> good s'.
  Proof.
    intros [G1 G2 G3 G4 G5 G6] E1 E2 Hp E3 E4 E5. split; rewrite ?E1, ?E2, ?E4, ?E5; try done.
    - intros t0 q h H1 H2. apply lookup_delete_Some in H1 as [Hn H1]. rewrite E3. destruct (lock_of p) as [h'|] eqn:El; [|by eapply G3].
      assert (h ∈ locked s) by by eapply G3. assert (h <> h'); [|set_solver]. intros ->. by destruct Hn; eapply G4.
    - intros t0 t1 q q' h H1 H2. apply lookup_delete_Some in H1 as [_ H1]. apply lookup_delete_Some in H2 as [_ H2]. by eapply G4.
    - intros h H. rewrite E3 in H. assert (h ∈ locked s /\ lock_of p <> Some h) as [Hh Hne].
      { destruct (lock_of p); [set_solver|done]. }
      destruct (G5 _ Hh) as (t0 & q & H1 & H2). exists t0, q. rewrite lookup_delete_ne; [done|]. intros <-. rewrite Hp in H1. injection H1 as <-. done.
    - intros t0 q H. apply lookup_delete_Some in H as [_ H]. by apply (G6 t0).
  Qed.
  Lemma good_drop s s' z : good s -> (forall t p, threads s !! t = Some p -> holds_cache p = false) ->
    cache s' = delete z (cache s) -> heap s' = heap s -> locked s' = locked s -> threads s' = threads s -> next s' = next s -> good s'.
  Proof.
    intros [G1 G2 G3 G4 G5 G6] Hc E1 E2 E3 E4 E5. split; rewrite ?E1, ?E2, ?E3, ?E4, ?E5; try done.
    - intros z0 h H. apply lookup_delete_Some in H as [_ H]. by apply G1.
    - intros t p H. specialize (Hc t p H). specialize (G6 t p H). by destruct p.
  Qed.
  Lemma good_provision s s' z j : good s -> (forall t p, threads s !! t = Some p -> holds_cache p = false) ->
    cache s' = <[z := next s]> (cache s) -> heap s' = <[next s := (z, j)]> (heap s) -> locked s' = locked s -> threads s' = threads s -> next s' = (next s + 1)%N -> good s'.
  Proof.
    intros [G1 G2 G3 G4 G5 G6] Hc E1 E2 E3 E4 E5. split; rewrite ?E1, ?E2, ?E3, ?E4, ?E5; try done.
    - intros z0 h H. apply lookup_insert_Some in H as [[<- <-]|[Hn H]].
      + rewrite lookup_insert. by eexists.
      + destruct (G1 _ _ H) as [j' Hj]. exists j'. rewrite lookup_insert_ne; [done|]. apply G2 in Hj. lia.
    - intros h v H. apply lookup_insert_Some in H as [[<- <-]|[Hn H]]; [lia|]. apply G2 in H. lia.
    - intros t p H. specialize (Hc t p H). specialize (G6 t p H).
      assert (forall h v, heap s !! h = Some v -> <[next s := (z, j)]> (heap s) !! h = Some v) as K.
      { intros h v Hh. rewrite lookup_insert_ne; [done|]. apply G2 in Hh. lia. }
      destruct p as [| |[h|] ?|[h|] ?| | | |]; simpl in *; try done.
      + by apply K.
      + destruct G6 as (? & ? & ?). eauto.
      + destruct G6 as (? & ?). eauto.
  Qed.
  Lemma good_write s s' h z j j' : good s -> h ∉ locked s -> heap s !! h = Some (z, j) -> cache s' = cache s -> heap s' = <[h := (z, j')]> (heap s) ->
    locked s' = locked s -> threads s' = threads s -> next s' = next s -> good s'.
  Proof.
    intros [G1 G2 G3 G4 G5 G6] Hl Hh E1 E2 E3 E4 E5. split; rewrite ?E1, ?E2, ?E3, ?E4, ?E5; try done.
    - intros z0 h0 H. destruct (decide (h0 = h)) as [->|]; [rewrite lookup_insert|rewrite lookup_insert_ne by done; by apply G1].
      destruct (G1 _ _ H) as [? ?]. simplify_eq. by eexists.
    - intros h0 v H. apply lookup_insert_Some in H as [[<- <-]|[Hn H]]; by eapply G2.
    - intros t p H. pose proof (G6 t p H) as L. pose proof (fun h => G3 t p h H) as L'.
      destruct p as [| |[h0|] ?|[h0|] ?|z0 h0| | |]; simpl in *; try done.
      + specialize (L' h0 eq_refl). rewrite lookup_insert_ne; [done|]. by intros ->.
      + specialize (L' h0 eq_refl). rewrite lookup_insert_ne; [done|]. by intros ->.
      + destruct (decide (h0 = h)) as [->|]; [rewrite lookup_insert|rewrite lookup_insert_ne by done; done].
        destruct L. simplify_eq. by eexists.
  Qed.
  Lemma good_lock s s' t h p : good s -> h ∉ locked s -> threads s !! t = None -> lock_of p = Some h -> local_ok (cache s) (heap s) p ->
    cache s' = cache s -> heap s' = heap s -> locked s' = {[h]} ∪ locked s -> threads s' = <[t := p]> (threads s) -> next s' = next s -> good s'.
  Proof.
    intros [G1 G2 G3 G4 G5 G6] Hl Ht Hp Hok E1 E2 E3 E4 E5. split; rewrite ?E1, ?E2, ?E3, ?E4, ?E5; try done.
    - intros t0 q h0 H1 H2. apply lookup_insert_Some in H1 as [[<- <-]|[Hn H1]]; [set_solver|]. assert (h0 ∈ locked s) by by eapply G3. set_solver.
    - intros t0 t1 q q' h0 H1 H2 H3 H4.
      apply lookup_insert_Some in H1 as [[<- <-]|[Hn H1]], H2 as [[<- <-]|[Hn' H2]]; [done|..|by eapply G4].
      + destruct Hl. rewrite Hp in H3. injection H3 as <-. by eapply G3.
      + destruct Hl. rewrite Hp in H4. injection H4 as <-. by eapply G3.
    - intros h0 H. destruct (decide (h0 = h)) as [->|].
      + exists t, p. by rewrite lookup_insert.
      + destruct (G5 h0) as (t0 & q & ? & ?); [set_solver|]. exists t0, q. rewrite lookup_insert_ne; [done|]. by intros <-; simplify_eq.
    - intros t0 q H1. apply lookup_insert_Some in H1 as [[<- <-]|[Hn H1]]; [done|by eapply G6].
  Qed.

  Ltac inv_act H :=
    unfold CookieStoreModel.act, begin, advance in H; cbv zeta in H; repeat (case_match; try discriminate H); try discriminate H; apply (inj Some) in H; match type of H with _ = ?v => subst v end;
    repeat match goal with E : bool_decide _ = false |- _ => apply bool_decide_eq_false in E end.

  Lemma good_step s a s' : good s -> act s a = Some s' -> good s'.
  Proof.
    intros G H. destruct a as [t c|t]; inv_act H; try done;
    repeat match goal with E : cache_held s = false |- _ => pose proof (cache_held_false s E); clear E end.
    all: try (eapply good_same; [exact G|done..]).
    all: try (eapply good_drop; [exact G|done..]).
    all: try (eapply good_provision; [exact G|done..]).
    all: try (eapply good_write; [exact G|done|done|done..]).
    all: try match goal with
      | |- good (set_thread ?t (Some (Persisting (Some ?h) ?z ?j)) (lock_jar ?h ?s0)) =>
          apply (good_lock s0 _ t h (Persisting (Some h) z j)); [eapply good_write; [exact G|done|done|done..]|try done..]; cbn; by rewrite lookup_insert
      | G : good ?s |- good (set_thread ?t (Some ?p) (note ?e (set_cache ?c ?s0))) =>
          eapply (good_move (note e (set_cache c s0))); [eapply good_drop; [exact G|done..]|done|done|done|done|done|..]
      | |- good (set_thread ?t (Some _) _) => eapply good_move; [exact G|done|done|done|done|done|..]
      | |- good (set_thread ?t None (provision ?z ?j ?s0)) =>
          eapply (good_end (provision z j s0)); [eapply good_provision; [exact G|done..]|done..]
      | E : threads ?s !! ?t = Some ?p |- good (set_thread ?t None (unlock_jar ?lk _)) =>
          apply (good_end s _ t p); [exact G|by destruct lk..]
      | E : threads ?s !! ?t = Some ?p |- good (set_thread ?t None _) => apply (good_end s _ t p); [exact G|done..]
      end.
    all: cbn [cache heap locked threads next note set_cache].
    all: repeat match goal with E : threads ?s !! ?t = _ |- context [threads ?s !! ?t] => rewrite E end.
    all: try done.
    - by apply (g_cache _ G).
    - by apply (g_cache _ G).
    - intros z h. by rewrite elem_of_map_to_list.
    - intros z h. by rewrite elem_of_map_to_list.
    - destruct lk as [h|]; [|done]. exists j. split; [done|]. by apply (g_local _ G t (Persisting (Some h) z j)).
    - intros z h Hin. apply (g_local _ G t _ H0). by right.
    - intros z h Hin. apply (g_local _ G t _ H0). by right.
  Qed.

  (** ** What the log says *)
  Fixpoint cur (z : N) (l : list event) (o : option N) : option N :=
    match l with
    | [] => o
    | Got z' h :: r => cur z r (if (z' =? z)%N then Some h else o)
    | Gone z' :: r => cur z r (if (z' =? z)%N then None else o)
    | _ :: r => cur z r o
    end.
  Lemma cur_app z l1 l2 o : cur z (l1 ++ l2) o = cur z l2 (cur z l1 o).
  Proof. revert o. induction l1 as [|[]]; intros; simpl; auto. Qed.
  Lemma replay_app h l1 l2 (o : option J) : replay h (l1 ++ l2) o = replay h l2 (replay h l1 o).
  Proof. revert o. induction l1 as [|[]]; intros; simpl; auto. Qed.
  Lemma last_saved_app z l1 l2 (o : option J) : last_saved z (l1 ++ l2) o = last_saved z l2 (last_saved z l1 o).
  Proof. revert o. induction l1 as [|[]]; intros; simpl; auto. Qed.

  Record logged (d : gmap N J) (s : state) : Prop := {
    l_cur : forall z, cur z (log s) None = cache s !! z;
    l_coh : forall l1 l2 z h, log s = l1 ++ Got z h :: l2 -> cur z l1 None = None \/ cur z l1 None = Some h;
    l_got : forall z h, Got z h ∈ log s -> exists j, heap s !! h = Some (z, j);
    l_replay : forall h, replay h (log s) None = snd <$> heap s !! h;
    l_disk : bk <> Json -> forall z, disk s !! z = last_saved z (log s) (d !! z) }.
  Lemma logged_init d : logged d (init d).
  Proof.
    split; simpl; intros; rewrite ?lookup_empty in *; try done.
    - by destruct l1.
    - by apply elem_of_nil in H.
  Qed.
  (** How one step may change the state, as far as the log is concerned. *)
  Inductive effect (s : state) : state -> Prop :=
  | E_none s' : cache s' = cache s -> heap s' = heap s -> (disk s' = disk s \/ bk = Json) -> log s' = log s -> effect s s'
  | E_hit z h s' : cache s !! z = Some h -> cache s' = cache s -> heap s' = heap s -> disk s' = disk s -> log s' = log s ++ [Got z h] -> effect s s'
  | E_new z j s' : cache s !! z = None -> cache s' = <[z := next s]> (cache s) -> heap s' = <[next s := (z, j)]> (heap s) ->
      disk s' = disk s -> log s' = log s ++ [Made (next s) z j; Got z (next s)] -> effect s s'
  | E_write h z j f s' : heap s !! h = Some (z, j) -> cache s' = cache s -> heap s' = <[h := (z, f j)]> (heap s) ->
      disk s' = disk s -> log s' = log s ++ [Wrote h f] -> effect s s'
  | E_gone z s' : cache s' = delete z (cache s) -> heap s' = heap s -> disk s' = disk s -> log s' = log s ++ [Gone z] -> effect s s'
  | E_saved z j s' : cache s' = cache s -> heap s' = heap s -> (disk s' = <[z := j]> (disk s) \/ bk = Json) ->
      log s' = log s ++ [Saved z j] -> effect s s'
  | E_deleted z s' : cache s' = cache s -> heap s' = heap s -> (disk s' = delete z (disk s) \/ bk = Json) ->
      log s' = log s ++ [Deleted z] -> effect s s'.
  (** The JSON program counters occur with the JSON store only. *)
  Definition needs (p : pc) : option backend :=
    match p with Saving _ _ _ _ | AllJson _ _ => Some Json | AllSql _ => Some Sqlite | _ => None end.
  Definition json_only (s : state) : Prop := forall t p b, threads s !! t = Some p -> needs p = Some b -> bk = b.
  Lemma json_in_file s t p : json_only s -> threads s !! t = Some p -> in_file p -> bk = Json.
  Proof. intros G H Hp. apply (G t p); [done|]. by destruct p. Qed.
  Lemma json_only_step s a s' : json_only s -> act s a = Some s' -> json_only s'.
  Proof.
    intros G H. destruct a as [t c|t]; inv_act H; try done; intros t' p' b' H'; simpl in H'; try (destruct lk; simpl in H');
    try (apply lookup_insert_Some in H' as [[<- <-]|[Hn H']]); try (apply lookup_delete_Some in H' as [_ H']); try done; try (by apply (G t')).
    all: try (by intros [= <-]). all: try done. all: try (intros Hn'; eapply (G t); [eassumption|exact Hn']).
  Qed.
  Lemma act_effect s a s' : json_only s -> act s a = Some s' -> effect s s'.
  Proof.
    intros G H. destruct a as [t c|t]; inv_act H; try (by apply E_none; auto); try (by eapply E_hit; eauto).
    all: try (by eapply E_write; eauto).
    all: try (by eapply E_gone; eauto).
    all: try (by eapply E_new; eauto; simpl; rewrite <- app_assoc).
    all: try (destruct lk; by eapply E_saved; eauto).
    all: try (by eapply E_deleted; eauto).
    all: try (by eapply E_saved; eauto).
    all: assert (bk = Json) by (eapply (G t); [done|reflexivity]).
    all: first [apply E_none; [done|done|by right|done]
      |destruct lk; (eapply E_saved; [done|done|by right|reflexivity])
      |destruct lk; (eapply E_deleted; [done|done|by right|reflexivity])].
  Qed.
  Lemma coh_snoc (l : list event) e l1 l2 z h : l ++ [e] = l1 ++ Got z h :: l2 ->
    (e = Got z h /\ l1 = l /\ l2 = []) \/ exists l2', l = l1 ++ Got z h :: l2'.
  Proof.
    intros H. destruct (exists_last (l := Got z h :: l2)) as (l2' & x & E); [done|]. rewrite E, app_assoc in H.
    apply app_inj_tail in H as [H1 H2]. destruct l2' as [|y l2']; simpl in E; injection E as <- ->.
    - left. by rewrite app_nil_r in H1.
    - right. by exists l2'.
  Qed.
  Lemma logged_step d s s' : good s -> logged d s -> effect s s' -> logged d s'.
  Proof.
    intros G [L1 L2 L3 L4 L5] E.
    assert (forall l e z h l1 l2, log s' = l ++ [e] -> (forall l1 l2 z h, l = l1 ++ Got z h :: l2 -> cur z l1 None = None \/ cur z l1 None = Some h) ->
      (e = Got z h -> cur z l None = None \/ cur z l None = Some h) -> log s' = l1 ++ Got z h :: l2 -> cur z l1 None = None \/ cur z l1 None = Some h) as Hcoh.
    { intros l e z h l1 l2 -> Hl He H. apply coh_snoc in H as [(-> & -> & ->)|[l2' ->]]; [by apply He|by eapply Hl]. }
    destruct E as [s' E1 E2 E3 E4|z h s' Hc E1 E2 E3 E4|z j s' Hc E1 E2 E3 E4|h z j f s' Hh E1 E2 E3 E4|z s' E1 E2 E3 E4|z j s' E1 E2 E3 E4|z s' E1 E2 E3 E4].
    - split; rewrite ?E1, ?E2, ?E4; try done. intros Hb. destruct E3 as [->|]; [by apply L5|done].
    - split; rewrite ?E1, ?E2, ?E3, ?E4; intros *; rewrite ?cur_app, ?replay_app, ?last_saved_app; simpl; auto.
      + rewrite L1. by destruct (N.eqb_spec z z0) as [->|].
      + rewrite <- E4. eapply Hcoh; eauto. intros [= -> ->]. rewrite L1, Hc. by right.
      + rewrite elem_of_app, elem_of_list_singleton. intros [H|[= -> ->]]; [by apply L3|]. by apply (g_cache _ G).
      + intros. rewrite last_saved_app. by apply L5.
    - split; rewrite ?E1, ?E2, ?E3, ?E4; intros *; rewrite ?cur_app, ?replay_app, ?last_saved_app; simpl; auto.
      + rewrite L1. destruct (N.eqb_spec z z0) as [->|]; [by rewrite lookup_insert|by rewrite lookup_insert_ne].
      + rewrite <- E4. intros H. eapply (Hcoh (log s ++ [Made (next s) z j])); [by rewrite E4, <- app_assoc|..|exact H].
        * intros l1' l2' z' h' H'. apply coh_snoc in H' as [(? & _)|[? H']]; [done|by eapply L2].
        * intros [= -> ->]. rewrite cur_app. simpl. left. by rewrite L1.
      + rewrite elem_of_app, !elem_of_cons, elem_of_nil. intros [H|[H|[[= -> ->]|[]]]]; [|done|rewrite lookup_insert; by eexists].
        destruct (L3 _ _ H) as [j' Hj]. exists j'. rewrite lookup_insert_ne; [done|]. apply (g_heap _ G) in Hj. lia.
      + rewrite L4. destruct (N.eqb_spec (next s) h) as [->|]; [by rewrite lookup_insert|by rewrite lookup_insert_ne].
      + intros. rewrite last_saved_app. by apply L5.
    - split; rewrite ?E1, ?E2, ?E3, ?E4; intros *; rewrite ?cur_app, ?replay_app, ?last_saved_app; simpl; auto.
      + rewrite <- E4. eapply Hcoh; eauto. done.
      + rewrite elem_of_app, elem_of_list_singleton. intros [H|H]; [|done]. destruct (L3 _ _ H) as [j' Hj].
        destruct (decide (h0 = h)) as [->|]; [rewrite lookup_insert; simplify_eq; by eexists|exists j'; by rewrite lookup_insert_ne].
      + rewrite L4. destruct (N.eqb_spec h h0) as [->|]; [by rewrite lookup_insert, Hh|by rewrite lookup_insert_ne].
      + intros. rewrite last_saved_app. by apply L5.
    - split; rewrite ?E1, ?E2, ?E3, ?E4; intros *; rewrite ?cur_app, ?replay_app, ?last_saved_app; simpl; auto.
      + rewrite L1. destruct (N.eqb_spec z z0) as [->|]; [by rewrite lookup_delete|by rewrite lookup_delete_ne].
      + rewrite <- E4. eapply Hcoh; eauto. done.
      + rewrite elem_of_app, elem_of_list_singleton. intros [H|H]; [by apply L3|done].
      + intros. rewrite last_saved_app. by apply L5.
    - split; rewrite ?E1, ?E2, ?E4; intros *; rewrite ?cur_app, ?replay_app, ?last_saved_app; simpl; auto.
      + rewrite <- E4. eapply Hcoh; eauto. done.
      + rewrite elem_of_app, elem_of_list_singleton. intros [H|H]; [by apply L3|done].
      + intros Hb z0. destruct E3 as [->|]; [|done]. rewrite last_saved_app. simpl. rewrite <- L5 by done.
        destruct (N.eqb_spec z z0) as [->|]; [by rewrite lookup_insert|by rewrite lookup_insert_ne].
    - split; rewrite ?E1, ?E2, ?E4; intros *; rewrite ?cur_app, ?replay_app, ?last_saved_app; simpl; auto.
      + rewrite <- E4. eapply Hcoh; eauto. done.
      + rewrite elem_of_app, elem_of_list_singleton. intros [H|H]; [by apply L3|done].
      + intros Hb z0. destruct E3 as [->|]; [|done]. rewrite last_saved_app. simpl. rewrite <- L5 by done.
        destruct (N.eqb_spec z z0) as [->|]; [by rewrite lookup_delete|by rewrite lookup_delete_ne].
  Qed.
  Lemma reach_inv ok d s : reachable empty reload bk ok d s -> good s /\ logged d s /\ json_only s /\ ok s.
  Proof.
    induction 1 as [Hi|s a s' _ (G & L & Jo & _) Ha Hok].
    - split; [apply good_init|]. split; [apply logged_init|]. split; [|done]. intros t p b H. simpl in H. by rewrite lookup_empty in H.
    - pose proof (act_effect _ _ _ Jo Ha) as E. split; [by eapply good_step|]. split; [by eapply logged_step|]. split; [by eapply json_only_step|done].
  Qed.

  (** ** Saved *)
  Definition wrote (h : N) (s : state) : Prop := exists f, Wrote h f ∈ log s.
  Definition pcok (z : N) (s : state) (p : pc) : Prop :=
    match p with
    | Evicting z' _ | Removing z' | Persisting None z' _ => z' <> z
    | Saving l z' oj file => (l = None -> z' <> z) /\ file !! z = if (z' =? z)%N then oj else disk s !! z
    | AllJson todo file => forall h j, cache s !! z = Some h -> h ∉ locked s -> wrote h s -> heap s !! h = Some (z, j) -> (z, h) ∈ todo \/ file !! z = Some j
    | _ => True
    end.
  Record zinv (z : N) (s : state) : Prop := {
    z_one : forall h j, heap s !! h = Some (z, j) -> cache s !! z = Some h;
    z_pc : forall t p, threads s !! t = Some p -> pcok z s p;
    z_wrote : forall h, wrote h s -> (h < next s)%N;
    z_disk : forall h j, cache s !! z = Some h -> heap s !! h = Some (z, j) -> wrote h s -> h ∉ locked s -> disk s !! z = Some j }.
  Lemma log_grows s a s' : act s a = Some s' -> exists l, log s' = log s ++ l.
  Proof.
    intros H. destruct a as [t c|t]; inv_act H; try (destruct lk); simpl; rewrite <- ?app_assoc; simpl; eauto; exists []; by rewrite app_nil_r.
  Qed.
  (** nothing about [z] changes but one thread *)
  Lemma zinv_thread z s s' t po : zinv z s ->
    heap s' = heap s -> cache s' !! z = cache s !! z -> disk s' !! z = disk s !! z -> locked s' = locked s ->
    (forall h, wrote h s' -> wrote h s) ->
    next s' = next s -> threads s' = match po with Some p => <[t := p]> (threads s) | None => delete t (threads s) end ->
    (forall p, po = Some p -> pcok z s p) -> zinv z s'.
  Proof.
    intros [Z1 Z2 Zw Z3] E1 E2 E3 E4 Hw En E5 Hp.
    assert (forall p, pcok z s p -> pcok z s' p) as K.
    { intros p. unfold pcok. destruct p; rewrite ?E1, ?E2, ?E3, ?E4; auto. }
    split; rewrite ?E1, ?E2, ?E3, ?E4; [done| |intros; rewrite En; by apply Zw, Hw|intros; eapply Z3; eauto].
    - intros t' p Ht. apply K. rewrite E5 in Ht. destruct po as [p'|].
      + apply lookup_insert_Some in Ht as [[<- <-]|[_ Ht]]; [by apply Hp|by apply (Z2 t')].
      + apply lookup_delete_Some in Ht as [_ Ht]. by apply (Z2 t').
  Qed.
  Lemma wrote_note h e s s' : log s' = log s ++ [e] -> (forall h f, e <> Wrote h f) -> wrote h s' -> wrote h s.
  Proof. intros E He [f Hf]. rewrite E, elem_of_app, elem_of_list_singleton in Hf. destruct Hf as [Hf|Hf]; [by exists f|]. by destruct (He h f). Qed.
  Lemma zinv_write z s s' t h n j f p : zinv z s -> good s -> h ∉ locked s -> heap s !! h = Some (n, j) -> lock_of p = Some h -> ~ in_file p ->
    cache s' = cache s -> heap s' = <[h := (n, f j)]> (heap s) -> disk s' = disk s -> locked s' = {[h]} ∪ locked s ->
    threads s' = <[t := p]> (threads s) -> next s' = next s -> log s' = log s ++ [Wrote h f] -> zinv z s'.
  Proof.
    intros [Z1 Z2 Zw Z3] G Hl Hh Hp Hnf E1 E2 E3 E4 E5 E6 E7.
    assert (forall h', wrote h' s' -> h' = h \/ wrote h' s) as Hw.
    { intros h' [f' Hf']. rewrite E7, elem_of_app, elem_of_list_singleton in Hf'. destruct Hf' as [?|[= -> ->]]; [right; by exists f'|by left]. }
    split.
    - rewrite E1, E2. intros h' j' H. apply lookup_insert_Some in H as [[<- [= -> <-]]|[_ H]]; by eapply Z1.
    - intros t' p' Ht. rewrite E5 in Ht. apply lookup_insert_Some in Ht as [[<- <-]|[_ Ht]].
      + destruct p as [| |[|]| | | | |]; simpl in *; done.
      + specialize (Z2 t' p' Ht). destruct p'; simpl in *; rewrite ?E3; try done. rewrite E1, E4, E2.
        intros h' j' H1 H2 H3 H4. assert (h' <> h) by set_solver. rewrite lookup_insert_ne in H4 by done.
        destruct (Hw _ H3) as [?|H3']; [done|]. apply Z2; [done|set_solver|done..].
    - intros h' H. rewrite E6. destruct (Hw _ H) as [->|]; [by eapply (g_heap _ G)|by apply Zw].
    - rewrite E1, E2, E3, E4. intros h' j' H1 H2 H3 H4. assert (h' <> h) by set_solver. rewrite lookup_insert_ne in H2 by done.
      destruct (Hw _ H3) as [?|H3']; [done|]. eapply Z3; [done..|set_solver].
  Qed.
  Lemma zinv_done z s s' t p : zinv z s -> threads s !! t = Some p ->
    (forall t' p', threads s !! t' = Some p' -> t' <> t -> ~ in_file p') ->
    cache s' = cache s -> heap s' = heap s -> next s' = next s -> threads s' = delete t (threads s) -> (forall h, wrote h s' -> wrote h s) ->
    (forall h j, cache s !! z = Some h -> heap s !! h = Some (z, j) -> wrote h s -> h ∉ locked s' -> disk s' !! z = Some j) -> zinv z s'.
  Proof.
    intros [Z1 Z2 Zw Z3] Ht Hal E1 E2 E3 E4 Hw Hd. split.
    - by rewrite E1, E2.
    - intros t' p' Ht'. rewrite E4 in Ht'. apply lookup_delete_Some in Ht' as [Hn Ht']. specialize (Z2 _ _ Ht'). specialize (Hal _ _ Ht').
      destruct p'; simpl in *; try done; destruct Hal; done.
    - intros h H. rewrite E3. by apply Zw, Hw.
    - rewrite E1, E2. intros. eapply Hd; eauto.
  Qed.
  Lemma zinv_provision z s s' z0 j : zinv z s -> good s -> (forall t p, threads s !! t = Some p -> holds_cache p = false) -> cache s !! z0 = None ->
    cache s' = <[z0 := next s]> (cache s) -> heap s' = <[next s := (z0, j)]> (heap s) -> disk s' = disk s -> threads s' = threads s -> locked s' = locked s ->
    next s' = (next s + 1)%N -> (forall h, wrote h s' -> wrote h s) -> zinv z s'.
  Proof.
    intros [Z1 Z2 Zw Z3] G Hc Hz E1 E2 E3 E4 E5 E6 Hw. split.
    - rewrite E1, E2. intros h j' H. apply lookup_insert_Some in H as [[<- [= -> <-]]|[_ H]]; [by rewrite lookup_insert|].
      apply Z1 in H. rewrite lookup_insert_ne; [done|]. intros ->. congruence.
    - intros t p Ht. rewrite E4 in Ht. specialize (Z2 t p Ht). specialize (Hc t p Ht). destruct p; simpl in *; rewrite ?E3; done.
    - intros h H. rewrite E6. apply Hw, Zw in H. lia.
    - rewrite E1, E2, E3, E5. intros h j' H1 H2 H3 H4. pose proof (Zw _ (Hw _ H3)). rewrite lookup_insert_ne in H2 by lia.
      eapply Z3; [|done|by apply Hw|done]. by eapply Z1.
  Qed.
  Lemma zinv_step z s a s' : bk <> InMemory -> (bk = Json -> file_alone s /\ file_alone s') -> good s -> json_only s -> json_only s' ->
    zinv z s -> act s a = Some s' -> Gone z ∉ log s' -> zinv z s'.
  Proof.
    intros Hb Hf G Jo Jo' Z H Hg.
    assert (forall t t' p p', threads s !! t = Some p -> threads s !! t' = Some p' -> in_file p -> in_file p' -> t = t') as Hal.
    { intros t t' p p' H1 H2 H3 H4. assert (bk = Json) as Hj by exact (json_in_file _ _ _ Jo H1 H3). by eapply (proj1 (Hf Hj)). }
    clear Hf Jo'. destruct a as [t c|t]; inv_act H; try done;
    repeat match goal with E : cache_held s = false |- _ => pose proof (cache_held_false s E); clear E end.
    all: assert (threads s = delete t (threads s) \/ exists p, threads s !! t = Some p) as Hdel by (destruct (threads s !! t) eqn:Et; [by right; eexists|by left; rewrite delete_notin]).
    all: try (eapply (zinv_thread z s _ t (Some _)); [exact Z|done|done|done|done|by intros ?|done|reflexivity|]; intros ? [= <-]; try exact I).
    all: try (eapply (zinv_thread z s _ t None); [exact Z|done|done|done|done|by intros ?; eapply wrote_note|done|try reflexivity; destruct Hdel as [Hd|[? Hd]]; [exact Hd|congruence]|by intros ?]).
    1,2: apply (zinv_write z s _ t h n j f (Persisting (Some h) n (f j))); first [done|by intros []].
    1-5: assert (z0 <> z) as Hz by (intros ->; apply Hg; simpl; rewrite elem_of_app, elem_of_list_singleton; by right).
    1,2,4,5: eapply (zinv_thread z s _ t (Some _)); [exact Z|done|by simpl; rewrite lookup_delete_ne|done|done|by intros ?; eapply wrote_note|done|reflexivity|intros ? [= <-]; done].
    1: eapply (zinv_thread z s _ t None); [exact Z|done|by simpl; rewrite lookup_delete_ne|done|done|by intros ?; eapply wrote_note|done|destruct Hdel as [Hd|[? Hd]]; [exact Hd|congruence]|by intros ?].
    - (* persist_all reads the file *)
      intros h j H1' H2' H3' H4'. left. by apply elem_of_map_to_list.
    - eapply (zinv_thread z s _ t None); [exact Z|done|done|done|done|by intros ?; eapply wrote_note|done|done|by intros ?].
    - (* provision *)
      eapply (zinv_thread z (provision z0 j s) _ t None); try done.
      eapply zinv_provision; try done. intros h [f Hf]. exists f. simpl in Hf. set_solver.
    - (* JSON persist reads the file *)
      split.
      + intros ->. by apply (z_pc _ _ Z t _ H0).
      + destruct (N.eqb_spec z0 z) as [->|]; [by rewrite lookup_insert|by rewrite lookup_insert_ne].
    - (* SQLite persist *)
      assert (forall t' p', threads s !! t' = Some p' -> ~ in_file p') as Hnf by (intros t' p' Ht' Hin; pose proof (json_in_file _ _ _ Jo Ht' Hin); congruence).
      eapply (zinv_done z s _ t); [exact Z|done|by intros ? ? ? _; eapply Hnf|by destruct lk..| |].
      + destruct lk; intros h; by eapply wrote_note.
      + intros h j' H1' H2' H3' H4'. assert (disk (set_thread t None (unlock_jar lk (note (Saved z0 j) (set_disk (<[z0 := j]> (disk s)) s)))) = <[z0 := j]> (disk s)) as -> by by destruct lk.
        destruct (decide (z0 = z)) as [->|Hz].
        * rewrite lookup_insert. destruct lk as [h0|]; [|by destruct (z_pc _ _ Z t _ H0)].
          pose proof (g_local _ G t _ H0) as Hl. simpl in Hl. pose proof (z_one _ _ Z _ _ Hl). congruence.
        * rewrite lookup_insert_ne by done. eapply (z_disk _ _ Z); [done..|]. destruct lk as [h0|]; [|done].
          pose proof (g_local _ G t _ H0) as Hl. simpl in *. assert (h <> h0) by congruence. set_solver.
    - (* JSON save *)
      eapply (zinv_done z s _ t); [exact Z|done| |by destruct lk..| |].
      + intros t' p' Ht' Hn Hin. apply Hn. by eapply Hal.
      + destruct lk; intros h; by eapply wrote_note.
      + intros h j' H1' H2' H3' H4'. assert (disk (set_thread t None (unlock_jar lk (note (Saved z0 j0) (set_disk file s)))) = file) as -> by by destruct lk.
        destruct (z_pc _ _ Z t _ H0) as [Hlk Hfile]. rewrite Hfile.
        destruct (N.eqb_spec z0 z) as [->|Hz].
        * destruct lk as [h0|]; [|by destruct Hlk].
          pose proof (g_local _ G t _ H0) as (j1 & [= <-] & Hl). pose proof (z_one _ _ Z _ _ Hl). congruence.
        * eapply (z_disk _ _ Z); [done..|]. destruct lk as [h0|]; [|done].
          pose proof (g_local _ G t _ H0) as (j1 & [= <-] & Hl). simpl in *. assert (h <> h0) by congruence. set_solver.
    - (* JSON delete *)
      eapply (zinv_done z s _ t); [exact Z|done| |by destruct lk..| |].
      + intros t' p' Ht' Hn Hin. apply Hn. by eapply Hal.
      + destruct lk; intros h; by eapply wrote_note.
      + intros h j' H1' H2' H3' H4'. assert (disk (set_thread t None (unlock_jar lk (note (Deleted z0) (set_disk file s)))) = file) as -> by by destruct lk.
        destruct (z_pc _ _ Z t _ H0) as [Hlk Hfile]. rewrite Hfile.
        destruct lk as [h0|]; [by pose proof (g_local _ G t _ H0) as (j1 & [=] & Hl)|].
        rewrite (proj2 (N.eqb_neq z0 z)) by by apply Hlk. by eapply (z_disk _ _ Z).
    - exact (z_pc _ _ Z t _ H0).
    - pose proof (z_pc _ _ Z t _ H0) as Hz. simpl in Hz. split; [done|]. rewrite (proj2 (N.eqb_neq z0 z)) by done. by rewrite lookup_delete_ne.
    - pose proof (z_pc _ _ Z t _ H0) as Hz. simpl in Hz.
      eapply (zinv_thread z s _ t None); [exact Z|done|done|by simpl; rewrite lookup_delete_ne|done|by intros ?; eapply wrote_note|done|done|by intros ?].
    - (* persist_all replaces the file *)
      eapply (zinv_done z s _ t); [exact Z|done| |done..|by intros ?|].
      + intros t' p' Ht' Hn Hin. apply Hn. by eapply Hal.
      + intros h j' H1' H2' H3' H4'. destruct (z_pc _ _ Z t _ H0 h j') as [Hin|?]; [done..| |done]. by apply elem_of_nil in Hin.
    - (* persist_all reads a jar *)
      intros h0 j0 H1' H2' H3' H4'. destruct (decide (n = z)) as [->|Hz].
      + right. rewrite lookup_insert. pose proof (g_local _ G t _ H0 z n0) as Hl. rewrite Hl in H1' by by left. congruence.
      + rewrite lookup_insert_ne by done. destruct (z_pc _ _ Z t _ H0 h0 j0) as [Hin|?]; [done..| |by right].
        left. apply elem_of_cons in Hin as [[= -> ->]|]; done.
    - eapply (zinv_thread z s _ t None); done.
    - (* SQLite persist_all *)
      assert (forall t' p', threads s !! t' = Some p' -> ~ in_file p') as Hnf.
      { intros t' p' Ht' Hin. pose proof (json_in_file _ _ _ Jo Ht' Hin). assert (bk = Sqlite) by by eapply (Jo t). congruence. }
      pose proof (g_local _ G t _ H0) as Hl. simpl in Hl. pose proof Z as [Z1 Z2 Zw Z3]. split.
      + exact Z1.
      + intros t' p' Ht'. simpl in Ht'. apply lookup_insert_Some in Ht' as [[<- <-]|[_ Ht']]; [done|].
        specialize (Z2 _ _ Ht'). specialize (Hnf _ _ Ht'). destruct p'; simpl in *; try done; by destruct Hnf.
      + intros h Hw. apply Zw. eapply (wrote_note h (Saved n j) s); [| |exact Hw]; done.
      + intros h j' H1' H2' H3' H4'. simpl in *. destruct (decide (n = z)) as [->|].
        * rewrite lookup_insert. rewrite (Hl z n0) in H1' by by left. congruence.
        * rewrite lookup_insert_ne by done. eapply Z3; [done..| |done]. eapply (wrote_note h (Saved n j) s); [| |exact H3']; done.
  Qed.
  Lemma reach_zinv d s : bk <> InMemory -> forall ok : state -> Prop, (bk = Json -> forall s, ok s -> file_alone s) -> reachable empty reload bk ok d s ->
    forall z, Gone z ∉ log s -> zinv z s.
  Proof.
    intros Hb ok Hok. induction 1 as [Hi|s a s' Hr IH Ha Hs']; intros z Hg.
    - split; simpl; intros *; rewrite ?lookup_empty; try done. intros [f Hf]. by apply elem_of_nil in Hf.
    - destruct (reach_inv _ _ _ Hr) as (G & _ & Jo & Hs). pose proof (json_only_step _ _ _ Jo Ha).
      eapply zinv_step; try done.
      + intros Hj. split; by apply Hok.
      + apply IH. destruct (log_grows _ _ _ Ha) as [l El]. rewrite El in Hg. set_solver.
  Qed.
  (** Written and returned means saved. *)
  Lemma writes_saved d s (ok : state -> Prop) : bk <> InMemory -> (bk = Json -> forall s, ok s -> file_alone s) -> reachable empty reload bk ok d s ->
    quiet s -> forall z, Gone z ∉ log s -> zone_saved s z.
  Proof.
    intros Hb Hok Hr Hq z Hg h f j Hgot Hw Hh. pose proof (reach_zinv _ _ Hb _ Hok Hr z Hg) as Z.
    eapply (z_disk _ _ Z); [by eapply (z_one _ _ Z)|done|by exists f|].
    intros Hl. destruct (reach_inv _ _ _ Hr) as (G & _). destruct (g_owner _ G _ Hl) as (t & p & Ht & _). rewrite Hq in Ht. by rewrite lookup_empty in Ht.
  Qed.

  (** ** Same jar *)
  Lemma same_jar d s ok z l1 l2 l3 h1 h2 : reachable empty reload bk ok d s ->
    log s = l1 ++ Got z h1 :: l2 ++ Got z h2 :: l3 -> Gone z ∉ l2 -> h1 = h2.
  Proof.
    intros Hr El Hg. destruct (reach_inv _ _ _ Hr) as (_ & L & _). pose proof (l_coh _ _ L) as Hc.
    assert (forall l2 l3, log s = l1 ++ Got z h1 :: l2 ++ l3 -> Gone z ∉ l2 -> cur z (l1 ++ Got z h1 :: l2) None = Some h1) as K.
    { intros l. induction l as [|e l IH] using rev_ind; intros l3' E Hn.
      - rewrite cur_app. simpl. by rewrite N.eqb_refl.
      - replace (l1 ++ Got z h1 :: l ++ [e]) with ((l1 ++ Got z h1 :: l) ++ [e]) by by rewrite <- app_assoc.
        rewrite <- app_assoc in E. assert (cur z (l1 ++ Got z h1 :: l) None = Some h1) as Hcur by (eapply IH; [exact E|set_solver]).
        rewrite cur_app, Hcur. destruct e as [z' h'|h' z' j'|h' f'|z'|z' j'|z']; simpl; try done.
        + destruct (N.eqb_spec z' z) as [->|]; [|done]. destruct (Hc (l1 ++ Got z h1 :: l) l3' z h') as [H|H].
          * rewrite E. by rewrite <- app_assoc.
          * congruence.
          * congruence.
        + destruct (N.eqb_spec z' z) as [->|]; [|done]. set_solver. }
    destruct (Hc (l1 ++ Got z h1 :: l2) l3 z h2) as [H|H].
    - rewrite El. by rewrite <- app_assoc.
    - rewrite (K l2 _ El Hg) in H. done.
    - rewrite (K l2 _ El Hg) in H. by injection H.
  Qed.
  Lemma handle_contents d s ok : reachable empty reload bk ok d s ->
    (forall h, snd <$> heap s !! h = replay h (log s) None) /\
    (forall z z' h, Got z h ∈ log s -> Got z' h ∈ log s -> z = z').
  Proof.
    intros Hr. destruct (reach_inv _ _ _ Hr) as (_ & L & _). split; [intros h; symmetry; apply (l_replay _ _ L)|].
    intros z z' h H1 H2. destruct (l_got _ _ L _ _ H1), (l_got _ _ L _ _ H2). congruence.
  Qed.
  Lemma disk_by_zone d s ok : bk = Sqlite -> reachable empty reload bk ok d s -> forall z, disk s !! z = last_saved z (log s) (d !! z).
  Proof. intros Hb Hr. destruct (reach_inv _ _ _ Hr) as (_ & L & _). apply (l_disk _ _ L). by rewrite Hb. Qed.

End store.
Section quiet.
  Context {J : Type} (empty : J) (reload : J -> J) (bk : backend).
  Notation state := (@state J).
  Notation pc := (@pc J).
  (** ** Removing and releasing when nothing else is going on *)
  Lemma quiet_held (s : state) : quiet s -> cache_held s = false.
  Proof. intros H. unfold cache_held. rewrite H. by rewrite map_to_list_empty. Qed.
  Lemma held_two (s : state) t (p p' : pc) : quiet s -> holds_cache p' = false -> cache_held (set_thread t (Some p') (set_thread t (Some p) s)) = false.
  Proof.
    intros Hq Hp. unfold quiet in Hq. unfold cache_held, set_thread. simpl. rewrite Hq, insert_empty, insert_singleton, map_to_list_singleton. simpl. by destruct p'.
  Qed.
  Lemma exec_cons (s s1 s' : state) a r : act empty reload bk s a = Some s1 -> exec empty reload bk s1 r = Some s' ->
    exec empty reload bk s (a :: r) = Some s'.
  Proof. intros H1 H2. simpl. by rewrite H1. Qed.
  Lemma remove_quiet (s : state) t z : bk <> InMemory -> quiet s ->
    exists l s', exec empty reload bk s (Begin t (CRemove z) :: replicate l (Advance t)) = Some s' /\ quiet s' /\
      cache s' = delete z (cache s) /\ disk s' = delete z (disk s) /\ heap s' = heap s /\ next s' = next s /\ locked s' = locked s.
  Proof.
    intros Hb Hq. pose proof (quiet_held _ Hq) as Hh. pose proof Hq as Ht. unfold quiet in Ht.
    destruct (decide (bk = Json)) as [Ej|Ej]; [exists 2|exists 1].
    - eexists. split.
      + eapply exec_cons; [unfold act, begin; rewrite Ht, lookup_empty, Hh, Ej; reflexivity|].
        eapply exec_cons; [unfold act, advance; cbn [threads set_thread]; rewrite lookup_insert, Ej; reflexivity|].
        eapply exec_cons; [unfold act, advance; cbn [threads set_thread]; rewrite lookup_insert; reflexivity|]. reflexivity.
      + unfold quiet; cbn; rewrite Ht, insert_empty, ?insert_singleton, delete_singleton; done.
    - assert (bk = Sqlite) as Es by by destruct bk. eexists. split.
      + eapply exec_cons; [unfold act, begin; rewrite Ht, lookup_empty, Hh, Es; reflexivity|].
        eapply exec_cons; [unfold act, advance; cbn [threads set_thread]; rewrite lookup_insert, Es; reflexivity|]. reflexivity.
      + unfold quiet; cbn; rewrite Ht, insert_empty, ?insert_singleton, delete_singleton; done.
  Qed.
  Lemma get_quiet (s : state) t z : bk <> InMemory -> quiet s -> cache s !! z = None ->
    exists l s', exec empty reload bk s (Begin t (CGet z) :: replicate l (Advance t)) = Some s' /\ quiet s' /\
      cache s' = <[z := next s]> (cache s) /\ disk s' = disk s /\ locked s' = locked s /\
      heap s' = <[next s := (z, match disk s !! z with Some j => reload j | None => empty end)]> (heap s).
  Proof.
    intros Hb Hq Hz. pose proof Hq as Ht. unfold quiet in Ht.
    exists 2. eexists. split.
    - eapply (exec_cons _ (set_thread t (Some (Missed z)) s)); [unfold act, begin; rewrite Ht, lookup_empty, Hz; by destruct bk|].
      eapply exec_cons; [unfold act, advance; cbn [threads set_thread]; rewrite lookup_insert; reflexivity|].
      eapply exec_cons; [unfold act, advance; cbn [threads set_thread]; rewrite lookup_insert, held_two by done; cbn; rewrite Hz; reflexivity|].
      reflexivity.
    - unfold quiet; cbn. rewrite Ht, insert_empty, ?insert_singleton, delete_singleton. done.
  Qed.
  Lemma release_quiet (s : state) t z h j : bk <> InMemory -> quiet s -> good s -> cache s !! z = Some h -> heap s !! h = Some (z, j) ->
    exists l s', exec empty reload bk s (Begin t (CRelease z) :: replicate l (Advance t)) = Some s' /\ quiet s' /\
      cache s' = delete z (cache s) /\ disk s' = <[z := j]> (disk s) /\ heap s' = heap s /\ next s' = next s /\ locked s' = locked s.
  Proof.
    intros Hb Hq G Hc Hj. pose proof (quiet_held _ Hq) as Hh. pose proof Hq as Ht. unfold quiet in Ht.
    assert (h ∉ locked s) as Hl.
    { intros H. destruct (g_owner _ G _ H) as (t' & p & H1 & _). rewrite Ht in H1. by rewrite lookup_empty in H1. }
    destruct (decide (bk = Json)) as [Ej|Ej]; [exists 3|exists 2].
    - eexists. split.
      + eapply exec_cons; [unfold act, begin; rewrite Ht, lookup_empty, Hh, Hc, Ej; reflexivity|].
        eapply exec_cons; [unfold act, advance; cbn [threads set_thread]; rewrite lookup_insert; cbn; rewrite bool_decide_eq_false_2 by done; rewrite Hj; reflexivity|].
        eapply exec_cons; [unfold act, advance; cbn [threads set_thread]; rewrite lookup_insert, Ej; reflexivity|].
        eapply exec_cons; [unfold act, advance; cbn [threads set_thread]; rewrite lookup_insert; reflexivity|]. reflexivity.
      + unfold quiet; cbn; rewrite Ht, insert_empty, ?insert_singleton, delete_singleton; done.
    - assert (bk = Sqlite) as Es by by destruct bk. eexists. split.
      + eapply exec_cons; [unfold act, begin; rewrite Ht, lookup_empty, Hh, Hc, Es; reflexivity|].
        eapply exec_cons; [unfold act, advance; cbn [threads set_thread]; rewrite lookup_insert; cbn; rewrite bool_decide_eq_false_2 by done; rewrite Hj; reflexivity|].
        eapply exec_cons; [unfold act, advance; cbn [threads set_thread]; rewrite lookup_insert, Es; reflexivity|]. reflexivity.
      + unfold quiet; cbn; rewrite Ht, insert_empty, ?insert_singleton, delete_singleton; done.
  Qed.
  Lemma exec_app (s s1 : state) l1 l2 : exec empty reload bk s l1 = Some s1 -> exec empty reload bk s (l1 ++ l2) = exec empty reload bk s1 l2.
  Proof.
    revert s. induction l1 as [|a l1 IH]; intros s H; simpl in *; [by injection H as <-|]. destruct (act empty reload bk s a) as [s2|]; [|done]. by apply IH.
  Qed.
  Lemma exec_reachable d (s s' : state) l : reachable empty reload bk (fun _ => True) d s -> exec empty reload bk s l = Some s' ->
    reachable empty reload bk (fun _ => True) d s'.
  Proof.
    revert s. induction l as [|a l IH]; intros s Hr H; simpl in H; [by injection H as <-|].
    destruct (act empty reload bk s a) as [s1|] eqn:E; [|done]. eapply IH; [|done]. by eapply reach_step.
  Qed.
End quiet.

(** * SQLite rows *)
Lemma insert_rows_app t rs : NoDup (omap row_key (t ++ rs)) -> insert_rows t rs = Some (t ++ rs).
Proof.
  revert t. induction rs as [|r rs IH]; intros t H; simpl; [by rewrite app_nil_r|].
  rewrite bool_decide_eq_false_2.
  - rewrite IH; [by rewrite <- app_assoc|]. by rewrite <- app_assoc.
  - intros Hex. apply Exists_exists in Hex as (x & Hx & Hk & Hn). destruct (row_key r) as [k|] eqn:Ek; [|done].
    rewrite omap_app in H. simpl in H. rewrite Ek in H. apply NoDup_app in H as (_ & H & _).
    apply (H k); [|by left]. apply elem_of_list_omap. by exists x.
Qed.

Lemma save_zone_rows t z order : NoDup (omap row_key (filter (fun r : row => r.1.1 <> z) t ++ zone_rows z order)) ->
  save_zone t z order = filter (fun r => r.1.1 <> z) t ++ zone_rows z order.
Proof. intros H. unfold save_zone. by rewrite insert_rows_app. Qed.
Lemma zone_rows_zone z order r : r ∈ zone_rows z order -> r.1.1 = z.
Proof.
  unfold zone_rows. rewrite elem_of_list_In, in_flat_map. intros (b & _ & H). apply in_map_iff in H as (c & <- & _). done.
Qed.
Lemma NoDup_omap_filter {A B} (f : A -> option B) (P : A -> Prop) `{!forall x, Decision (P x)} l : NoDup (omap f l) -> NoDup (omap f (filter P l)).
Proof.
  induction l as [|x l IH]; [done|]. rewrite filter_cons. simpl. destruct (f x) as [y|] eqn:E; intros Hnd.
  - apply NoDup_cons in Hnd as [Hn Hnd]. destruct (decide (P x)); simpl; rewrite ?E; [|by apply IH]. constructor; [|by apply IH].
    intros Hy. apply Hn. apply elem_of_list_omap in Hy as (x' & Hx' & Ex'). apply elem_of_list_omap. exists x'. split; [|done].
    by apply elem_of_list_filter in Hx' as [_ ?].
  - destruct (decide (P x)); simpl; rewrite ?E; by apply IH.
Qed.
Lemma row_key_eq (r r' : row) k : row_key r = Some k -> row_key r' = Some k -> r.1 = r'.1 /\ key r.2 = key r'.2.
Proof.
  destruct r as [[z o] c], r' as [[z' o'] c']. unfold row_key, key. simpl. intros H1 H2.
  destruct (c_path c) as [p1|], (c_domain c) as [d1|]; try discriminate. destruct (c_path c') as [p2|], (c_domain c') as [d2|]; try discriminate.
  apply (inj Some) in H1, H2. subst k. injection H2 as -> -> -> -> ->. done.
Qed.
Lemma NoDup_bucket_keys z o (b : list cookie) : NoDup (map key b) -> NoDup (omap row_key (map (fun c => (z, o, c)) b)).
Proof.
  induction b as [|c b IH]; simpl; [constructor|]. intros H. apply NoDup_cons in H as [Hn H].
  destruct (row_key (z, o, c)) as [k|] eqn:Ek; [|by apply IH]. constructor; [|by apply IH].
  rewrite elem_of_list_omap. intros (r & Hr & Hk). apply elem_of_list_fmap in Hr as (c' & -> & Hc').
  apply Hn. apply elem_of_list_fmap. exists c'. split; [|done]. by destruct (row_key_eq _ _ _ Ek Hk).
Qed.
Lemma NoDup_zone_keys z order : NoDup (map fst order) -> Forall (fun b => NoDup (map key b.2)) order -> NoDup (omap row_key (zone_rows z order)).
Proof.
  induction order as [|[o b] order IH]; simpl; [constructor|]. intros Hd HF. apply NoDup_cons in Hd as [Hn Hd]. inversion HF; subst.
  unfold zone_rows. simpl. rewrite omap_app. apply NoDup_app. split; [by apply NoDup_bucket_keys|]. split; [|by apply IH].
  intros k Hk Hk'. apply elem_of_list_omap in Hk as (r & Hr & Er). apply elem_of_list_omap in Hk' as (r' & Hr' & Er').
  apply elem_of_list_fmap in Hr as (c & -> & Hc). rewrite elem_of_list_In, in_flat_map in Hr'. destruct Hr' as ([o' b'] & Hb' & Hr').
  apply in_map_iff in Hr' as (c' & <- & _). apply Hn. apply elem_of_list_fmap. exists (o', b'). simpl. split; [|by apply elem_of_list_In].
  destruct (row_key_eq _ _ _ Er Er') as [[= ->] _]. done.
Qed.
Lemma group_lookup rows m o : default [] (group rows m !! o) = default [] (m !! o) ++ map snd (filter (fun r : row => r.1.2 = o) rows).
Proof.
  revert m. induction rows as [|[[z o'] c] rows IH]; intros m; simpl; [by rewrite app_nil_r|].
  rewrite IH, filter_cons. simpl. destruct (decide (o' = o)) as [->|Hn].
  - rewrite lookup_insert. simpl. by rewrite <- app_assoc.
  - by rewrite lookup_insert_ne.
Qed.
Lemma zone_rows_origin z order o : NoDup (map fst order) ->
  map snd (filter (fun r : row => r.1.2 = o) (zone_rows z order)) = default [] ((list_to_map order : gmap str (list cookie)) !! o).
Proof.
  induction order as [|[o' b] order IH]; intros Hd; [done|]. simpl in Hd. apply NoDup_cons in Hd as [Hn Hd].
  unfold zone_rows. simpl. rewrite filter_app, map_app. fold (zone_rows z order).
  etransitivity; [apply (f_equal2 app); [reflexivity|exact (IH Hd)]|].
  destruct (decide (o' = o)) as [->|Hne].
  - rewrite lookup_insert. simpl. rewrite (not_elem_of_list_to_map_1 order o) by exact Hn. simpl. rewrite app_nil_r.
    rewrite filter_all; [by rewrite map_map, map_id|]. intros r Hr. apply elem_of_list_fmap in Hr as (c & -> & _). done.
  - rewrite lookup_insert_ne by done. rewrite filter_none; [done|]. intros r Hr. apply elem_of_list_fmap in Hr as (c & -> & _). done.
Qed.
Lemma purge_lookup j now o : default [] (entries (purge_expired j now) !! o) = filter (fun c => unexpired now c = true) (default [] (entries j !! o)).
Proof.
  unfold purge_expired. simpl. rewrite lookup_omap. destruct (entries j !! o) as [b|]; [|done]. simpl. unfold purge_bucket.
  by destruct (filter _ b).
Qed.
Lemma sql_roundtrip t z j order now rows :
  (forall o b, entries j !! o = Some b -> NoDup (map key b)) -> NoDup (omap row_key t) -> enumerates order j ->
  rows ≡ₚ filter (fun r => r.1.1 = z) (save_zone t z order) ->
  (forall o, default [] (entries (load_zone rows now) !! o) ≡ₚ filter (fun c => unexpired now c = true) (default [] (entries j !! o))) /\
  (forall z', z' <> z -> filter (fun r => r.1.1 = z') (save_zone t z order) = filter (fun r => r.1.1 = z') t) /\
  NoDup (omap row_key (save_zone t z order)).
Proof.
  intros Hu Ht He Hr.
  assert (NoDup (map fst order)) as Hd by (rewrite (fmap_Permutation fst _ _ He); apply NoDup_fst_map_to_list).
  assert (Forall (fun b => NoDup (map key b.2)) order) as HF.
  { apply Forall_forall. intros [o b] Hb. apply (Hu o). apply elem_of_map_to_list. by rewrite <- He. }
  assert (NoDup (omap row_key (filter (fun r : row => r.1.1 <> z) t ++ zone_rows z order))) as Hnd.
  { rewrite omap_app. apply NoDup_app. split; [by apply NoDup_omap_filter|]. split; [|by apply NoDup_zone_keys].
    intros k Hk Hk'. apply elem_of_list_omap in Hk as (r & Hr1 & Er). apply elem_of_list_omap in Hk' as (r' & Hr' & Er').
    apply elem_of_list_filter in Hr1 as [Hz _]. apply zone_rows_zone in Hr'. apply Hz. destruct (row_key_eq _ _ _ Er Er') as [-> _]. done. }
  rewrite (save_zone_rows _ _ _ Hnd) in *. split; [|split; [|done]].
  - intros o. unfold load_zone. rewrite purge_lookup. simpl. apply filter_Permutation. rewrite group_lookup, lookup_empty. simpl.
    assert (filter (fun r : row => r.1.1 = z) (filter (fun r : row => r.1.1 <> z) t ++ zone_rows z order) = zone_rows z order) as E.
    { rewrite filter_app. rewrite (filter_none _ (filter _ t)) by (intros r H; apply elem_of_list_filter in H as [H _]; done).
      apply filter_all. intros r H. by apply (zone_rows_zone _ order). }
    transitivity (map snd (filter (fun r : row => r.1.2 = o) (zone_rows z order))).
    { apply (fmap_Permutation snd), filter_Permutation. etransitivity; [exact Hr|]. exact (eq_ind_r (fun l => l ≡ₚ _) (reflexivity _) E). }
    rewrite zone_rows_origin by done.
    by rewrite (list_to_map_proper order (map_to_list (entries j)) Hd He), list_to_map_to_list.
  - intros z' Hz. rewrite filter_app. rewrite (filter_none _ (zone_rows z order)) by (intros r H ?; apply zone_rows_zone in H; congruence).
    rewrite app_nil_r, list_filter_filter. apply list_filter_iff. naive_solver.
Qed.

(** Any number of saves, each stopped or failing anywhere. *)
Lemma saves_atomic p saves f : proper_path p -> sound_fs f ->
  sound_fs (fold_left (fun f nc => (save_run p nc.2 f (SStart nc.1)).1) saves f) /\
  (contents_of (fold_left (fun f nc => (save_run p nc.2 f (SStart nc.1)).1) saves f) p = contents_of f p \/
   exists nc, nc ∈ saves /\ contents_of (fold_left (fun f nc => (save_run p nc.2 f (SStart nc.1)).1) saves f) p = Some nc.1).
Proof.
  intros Hp. revert f. induction saves as [|[new cs] saves IH]; intros f S; simpl; [by split; [|left]|].
  destruct (save_run p cs f (SStart new)) as [f1 s1] eqn:E. destruct (crash_atomic _ _ _ _ _ _ Hp S E) as (S1 & H1 & _). simpl.
  destruct (IH f1 S1) as [S2 H2]. split; [done|]. destruct H2 as [H2|(nc & Hin & H2)].
  - rewrite H2. destruct H1 as [H1|H1]; [by left|]. right. exists (new, cs). split; [by left|done].
  - right. exists nc. split; [by right|done].
Qed.
