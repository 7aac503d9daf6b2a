From stdpp Require Import sets.
From Verif Require Import Base Sorting PlacesModel PlacesSpec.

(** ** update_first *)
Lemma update_first_none {A} (p : A -> bool) f l :
  update_first p f l = None <-> Forall (fun x => p x = false) l.
Proof.
  induction l as [|x l IH]; simpl; [split; [constructor|done]|].
  destruct (p x) eqn:E.
  - split; [done|]. intros H. inversion H. congruence.
  - destruct (update_first p f l); simpl.
    + split; [done|]. intros H. inversion H; subst. by destruct IH as [_ IH]; specialize (IH H3).
    + split; [|done]. intros _. constructor; [done|]. by apply IH.
Qed.
Lemma update_first_some {A} (p : A -> bool) f l l' :
  update_first p f l = Some l' <->
  exists l1 x l2, l = l1 ++ x :: l2 /\ Forall (fun y => p y = false) l1 /\ p x = true /\ l' = l1 ++ f x :: l2.
Proof.
  revert l'. induction l as [|x l IH]; intros l'; simpl.
  - split; [done|]. intros (l1 & y & l2 & H & _). destruct l1; discriminate.
  - destruct (p x) eqn:E.
    + split.
      * intros [= <-]. exists [], x, l. repeat split; done || constructor.
      * intros (l1 & y & l2 & H & HF & Hy & ->). destruct l1 as [|z l1]; simpl in *.
        -- by injection H as <- <-.
        -- injection H as <- ->. inversion HF. congruence.
    + split.
      * destruct (update_first p f l) as [k|] eqn:U; [|done]. simpl. intros [= <-].
        destruct (proj1 (IH k) eq_refl) as (l1 & y & l2 & -> & HF & Hy & ->).
        exists (x :: l1), y, l2. repeat split; try done. by constructor.
      * intros (l1 & y & l2 & H & HF & Hy & ->). destruct l1 as [|z l1]; simpl in *.
        -- injection H as <- <-. congruence.
        -- injection H as <- ->. inversion HF; subst.
           rewrite (proj2 (IH (l1 ++ f y :: l2))); [done|]. by exists l1, y, l2.
Qed.

Lemma same_url_true u v : same_url u v = true <-> u = v.
Proof. unfold same_url. by rewrite bool_decide_eq_true. Qed.
Lemma same_url_false u v : same_url u v = false <-> u <> v.
Proof. unfold same_url. by rewrite bool_decide_eq_false. Qed.

(** ** History *)
Definition visit_inv (s : places) (f : str -> list (str * N)) : Prop :=
  NoDup (map p_url (visits s)) /\
  forall p, p ∈ visits s <->
    f (p_url p) <> [] /\ p_title p = latest_title (f (p_url p)) /\
    p_count p = N.of_nat (length (f (p_url p))) /\ p_last p = latest_time (f (p_url p)).

Lemma latest_title_snoc vs t n :
  latest_title (vs ++ [(t, n)]) = match t with [] => latest_title vs | _ => t end.
Proof.
  unfold latest_title. rewrite map_app, filter_app. simpl. rewrite filter_cons, filter_nil.
  destruct t as [|c t].
  - rewrite decide_False by (by intros H; apply H). by rewrite app_nil_r.
  - rewrite decide_True by done. by rewrite last_snoc.
Qed.
Lemma latest_time_snoc vs t n : latest_time (vs ++ [(t, n)]) = n.
Proof. unfold latest_time. by rewrite last_snoc. Qed.

Lemma visits_of_snoc url acc ops o :
  visits_of url acc (ops ++ [o]) = visits_of url (visits_of url acc ops) [o].
Proof. revert acc. induction ops as [|[[u t|u|u t|] n] ops IH]; intros acc; [done| | | | ]; apply IH. Qed.
Lemma bookmark_of_snoc url acc ops o :
  bookmark_of url acc (ops ++ [o]) = bookmark_of url (bookmark_of url acc ops) [o].
Proof. revert acc. induction ops as [|[[u t|u|u t|] n] ops IH]; intros acc; [done| | | | ]; apply IH. Qed.

Lemma record_visit_inv s f u t n :
  visit_inv s f ->
  visit_inv (record_visit s u t n) (fun url => if decide (u = url) then f url ++ [(t, n)] else f url).
Proof.
  intros [Hnd Hin]. unfold record_visit.
  set (g := fun v => mk_page _ _ _ _). destruct (update_first _ g (visits s)) as [vs|] eqn:U.
  - apply update_first_some in U as (l1 & x & l2 & Hl & HF & Hx & ->). apply same_url_true in Hx.
    assert (Hgu : p_url (g x) = p_url x) by done.
    assert (Hx1 : x ∈ visits s) by (rewrite Hl; set_solver).
    apply Hin in Hx1 as (Hne & Ht & Hc & Hlst).
    assert (Hnd' : NoDup (map p_url (l1 ++ g x :: l2))).
    { rewrite Hl in Hnd. rewrite !map_app in *. simpl in *. done. }
    assert (Huniq : forall y, y ∈ l1 ++ l2 -> p_url y <> u).
    { intros y Hy Hyu. rewrite Hl in Hnd. rewrite map_app in Hnd. simpl in Hnd.
      rewrite <- (Permutation_middle (map p_url l1) (map p_url l2) (p_url x)) in Hnd. apply NoDup_cons in Hnd as [Hn _].
      apply Hn. rewrite Hx, <- Hyu, <- map_app. by apply elem_of_list_fmap_1. }
    split; [exact Hnd'|]. intros p. simpl.
    assert (Hsplit : p ∈ l1 ++ g x :: l2 <-> p = g x \/ p ∈ l1 ++ l2) by set_solver.
    rewrite Hsplit. destruct (decide (u = p_url p)) as [He|He].
    + split.
      * intros [->|Hp]; [|by destruct (Huniq p Hp)]. rewrite latest_title_snoc, latest_time_snoc, app_length. simpl.
        rewrite <- Ht, Hc. repeat split; [|lia]. by destruct (f _).
      * rewrite latest_title_snoc, latest_time_snoc, app_length, <- He, <- Hx. simpl. rewrite <- Ht. intros (_ & H1 & H2 & H3). left.
        destruct p as [pu pt pc pl]; simpl in *. unfold g. rewrite H1, H2, H3, Hc. f_equal; [congruence|lia].
    + rewrite <- Hin, Hl. split.
      * intros [->|Hp]; [congruence|]. set_solver.
      * intros Hp. assert (p = x \/ p ∈ l1 ++ l2) as [->|] by set_solver; [congruence|by right].
  - apply update_first_none in U. assert (Hf : f u = []).
    { destruct (f u) as [|z r] eqn:E; [done|]. exfalso.
      assert (mk_page u (latest_title (f u)) (N.of_nat (length (f u))) (latest_time (f u)) ∈ visits s) as Hp.
      { apply Hin. simpl. rewrite E. done. }
      rewrite Forall_forall in U. apply U, same_url_false in Hp. done. }
    split; simpl.
    + rewrite map_app. apply NoDup_app. split; [done|]. split; [|apply NoDup_singleton].
      intros y Hy Hy'. apply elem_of_list_singleton in Hy'; simpl in Hy'. subst y.
      apply elem_of_list_fmap in Hy as (p & Hp1 & Hp2). rewrite Forall_forall in U.
      apply U, same_url_false in Hp2. done.
    + intros p. rewrite elem_of_app, elem_of_list_singleton. destruct (decide (u = p_url p)) as [He|He].
      * rewrite <- He, Hf. simpl. unfold latest_title, latest_time. simpl. split.
        -- intros [Hp| ->].
           ++ rewrite Forall_forall in U. apply U, same_url_false in Hp. congruence.
           ++ simpl. rewrite filter_cons, filter_nil. destruct t; [rewrite decide_False by (by intros H; apply H)|rewrite decide_True by done]; done.
        -- intros (_ & H1 & H2 & H3). right. destruct p as [pu pt pc pl]; simpl in *. subst.
           rewrite filter_cons, filter_nil. destruct t; [rewrite decide_False by (by intros H; apply H)|rewrite decide_True by done]; done.
      * rewrite <- Hin. split; [|tauto]. intros [?| ->]; [done|]. simpl in He. done.
Qed.

Lemma run_snoc ops o : run (ops ++ [o]) = step (run ops) o.
Proof. unfold run. by rewrite foldl_app. Qed.

Lemma add_bookmark_visits s u t n : visits (add_bookmark s u t n) = visits s.
Proof. unfold add_bookmark. by case_match. Qed.
Lemma record_visit_bookmarks s u t n : bookmarks (record_visit s u t n) = bookmarks s.
Proof. unfold record_visit. by case_match. Qed.

Lemma run_visit_inv ops : visit_inv (run ops) (fun url => visits_of url [] ops).
Proof.
  induction ops as [|[o n] ops IH] using rev_ind.
  - split; [constructor|]. intros p. simpl. split; [by intros H; apply elem_of_nil in H|]. tauto.
  - rewrite run_snoc. unfold step; simpl. destruct o as [u t|u|u t|].
    + destruct IH as [H1 H2]. split; [by rewrite add_bookmark_visits|]. intros p. rewrite add_bookmark_visits, visits_of_snoc. apply H2.
    + destruct IH as [H1 H2]. split; [done|]. intros p. rewrite visits_of_snoc. apply H2.
    + eapply record_visit_inv in IH. destruct IH as [H1 H2]. split; [exact H1|]. intros p. rewrite H2, visits_of_snoc. done.
    + split; [constructor|]. intros p. rewrite visits_of_snoc. simpl. split; [by intros H; apply elem_of_nil in H|]. tauto.
Qed.

(** ** Bookmarks *)
Definition bm_inv (s : places) (f : str -> option (str * N)) : Prop :=
  NoDup (map b_url (bookmarks s)) /\
  forall b, b ∈ bookmarks s <-> f (b_url b) = Some (b_title b, b_created b).

Lemma add_bookmark_inv s f u t n :
  bm_inv s f ->
  bm_inv (add_bookmark s u t n)
    (fun url => if decide (u = url) then Some (t, match f url with Some (_, c) => c | None => n end) else f url).
Proof.
  intros [Hnd Hin]. unfold add_bookmark.
  set (g := fun v => mk_bm _ _ _). destruct (update_first _ g (bookmarks s)) as [vs|] eqn:U.
  - apply update_first_some in U as (l1 & x & l2 & Hl & HF & Hx & ->). apply same_url_true in Hx.
    assert (Hgu : b_url (g x) = b_url x) by done.
    assert (Hx1 : x ∈ bookmarks s) by (rewrite Hl; set_solver).
    apply Hin in Hx1.
    assert (Huniq : forall y, y ∈ l1 ++ l2 -> b_url y <> u).
    { intros y Hy Hyu. rewrite Hl in Hnd. rewrite map_app in Hnd. simpl in Hnd.
      rewrite <- (Permutation_middle (map b_url l1) (map b_url l2) (b_url x)) in Hnd. apply NoDup_cons in Hnd as [Hn _].
      apply Hn. rewrite Hx, <- Hyu, <- map_app. by apply elem_of_list_fmap_1. }
    split; simpl.
    { rewrite Hl in Hnd. rewrite !map_app in *. simpl in *. done. }
    intros b. assert (Hsplit : b ∈ l1 ++ g x :: l2 <-> b = g x \/ b ∈ l1 ++ l2) by set_solver.
    rewrite Hsplit. destruct (decide (u = b_url b)) as [He|He].
    + rewrite <- He, <- Hx, Hx1. split.
      * intros [->|Hp]; [done|]. by destruct (Huniq b Hp).
      * intros [= H1 H2]. left. destruct b as [bu bt bc]; simpl in *. unfold g. congruence.
    + rewrite <- Hin, Hl. split.
      * intros [->|Hp]; [congruence|]. set_solver.
      * intros Hp. assert (b = x \/ b ∈ l1 ++ l2) as [->|] by set_solver; [congruence|by right].
  - apply update_first_none in U. rewrite Forall_forall in U. assert (Hf : f u = None).
    { destruct (f u) as [[t0 c]|] eqn:E; [|done]. exfalso.
      assert (mk_bm u t0 c ∈ bookmarks s) as Hp by by apply Hin.
      apply U, same_url_false in Hp. done. }
    split; simpl.
    + rewrite map_app. apply NoDup_app. split; [done|]. split; [|apply NoDup_singleton].
      intros y Hy Hy'. apply elem_of_list_singleton in Hy'; simpl in Hy'. subst y.
      apply elem_of_list_fmap in Hy as (p & Hp1 & Hp2).
      apply U, same_url_false in Hp2. done.
    + intros p. rewrite elem_of_app, elem_of_list_singleton. destruct (decide (u = b_url p)) as [He|He].
      * rewrite <- He, Hf. split.
        -- intros [Hp| ->]; [|done]. apply U, same_url_false in Hp. congruence.
        -- intros [= H1 H2]. right. destruct p; simpl in *. congruence.
      * rewrite <- Hin. split; [|tauto]. intros [?| ->]; [done|]. simpl in He. done.
Qed.

Lemma remove_bookmark_inv s f u :
  bm_inv s f -> bm_inv (remove_bookmark s u) (fun url => if decide (u = url) then None else f url).
Proof.
  intros [Hnd Hin]. split; simpl.
  - revert Hnd. generalize (bookmarks s). intros l. induction l as [|x l IH]; simpl; intros Hnd; [done|].
    apply NoDup_cons in Hnd as [Hn Hnd]. rewrite filter_cons. case_decide; [|by apply IH].
    simpl. apply NoDup_cons. split; [|by apply IH]. intros H2. apply Hn.
    apply elem_of_list_fmap in H2 as (y & Hy1 & Hy2). apply elem_of_list_filter in Hy2 as [_ Hy2].
    apply elem_of_list_fmap. by exists y.
  - intros b. rewrite elem_of_list_filter, same_url_false, Hin. case_decide; [|naive_solver].
    split; [|done]. intros [? _]. congruence.
Qed.

Lemma run_bm_inv ops : bm_inv (run ops) (fun url => bookmark_of url None ops).
Proof.
  induction ops as [|[o n] ops IH] using rev_ind.
  - split; [constructor|]. intros p. simpl. split; [by intros H; apply elem_of_nil in H|done].
  - rewrite run_snoc. unfold step; simpl. destruct o as [u t|u|u t|].
    + eapply add_bookmark_inv in IH. destruct IH as [H1 H2]. split; [exact H1|]. intros p. rewrite H2, bookmark_of_snoc. done.
    + eapply remove_bookmark_inv in IH. destruct IH as [H1 H2]. split; [exact H1|]. intros p. rewrite H2, bookmark_of_snoc. done.
    + destruct IH as [H1 H2]. split; [by rewrite record_visit_bookmarks|]. intros p. rewrite record_visit_bookmarks, bookmark_of_snoc. apply H2.
    + destruct IH as [H1 H2]. split; [done|]. intros p. rewrite bookmark_of_snoc. apply H2.
Qed.

Lemma is_bookmarked_spec ops u :
  is_bookmarked (run ops) u = true <-> exists b, bookmark_of u None ops = Some b.
Proof.
  destruct (run_bm_inv ops) as [_ H]. unfold is_bookmarked. rewrite existsb_exists. split.
  - intros (b & Hb & Hu). apply same_url_true in Hu. subst u. apply elem_of_list_In, H in Hb. by eexists.
  - intros [[t c] Hb]. exists (mk_bm u t c). split; [|by apply same_url_true]. apply elem_of_list_In, H. done.
Qed.

(** creation order *)
Lemma monotone_snoc ops o : monotone (ops ++ [o]) -> monotone ops /\ Forall (fun m => (m <= o.2)%N) (map snd ops).
Proof.
  unfold monotone. rewrite map_app. simpl. induction (map snd ops) as [|x l IH]; simpl; intros H.
  - split; constructor.
  - inversion H as [|? ? H1 H2]; subst. destruct (IH H1) as [H3 H4].
    apply Forall_app in H2 as [H2 H5]. inversion H5; subst. by split; constructor.
Qed.

Lemma sorted_snoc {A} (R : A -> A -> Prop) l x :
  StronglySorted R l -> Forall (fun y => R y x) l -> StronglySorted R (l ++ [x]).
Proof.
  induction 1 as [|y l Hs IH Hy]; intros HF; simpl; [repeat constructor|].
  inversion HF; subst. constructor; [by apply IH|]. apply Forall_app. split; [done|]. by repeat constructor.
Qed.
Lemma sorted_filter {A} (R : A -> A -> Prop) (P : A -> Prop) `{!forall x, Decision (P x)} l :
  StronglySorted R l -> StronglySorted R (filter P l).
Proof.
  induction 1 as [|y l Hs IH Hy]; [constructor|]. rewrite filter_cons. case_decide; [|done].
  constructor; [done|]. rewrite Forall_forall in *. intros z Hz. apply elem_of_list_filter in Hz as [_ Hz]. by apply Hy.
Qed.

Lemma bookmarks_oldest_first ops :
  monotone ops ->
  StronglySorted (fun a b => (b_created a <= b_created b)%N) (bookmarks (run ops)) /\
  Forall (fun b => b_created b ∈ map snd ops) (bookmarks (run ops)).
Proof.
  induction ops as [|[o n] ops IH] using rev_ind; intros Hm; [repeat constructor|].
  apply monotone_snoc in Hm as [Hm Hn]. destruct (IH Hm) as [IHs IHc]. clear IH. rewrite run_snoc, map_app. simpl in *.
  assert (IHc' : Forall (fun b => b_created b ∈ map snd ops ++ [n]) (bookmarks (run ops))).
  { eapply Forall_impl; [exact IHc|]. intros b Hb. by apply elem_of_app; left. }
  unfold step; simpl. destruct o as [u t|u|u t|]; simpl; try (by rewrite ?record_visit_bookmarks).
  - unfold add_bookmark. destruct (update_first _ _ _) as [bs|] eqn:U; simpl.
    + apply update_first_some in U as (l1 & x & l2 & Hl & _ & _ & ->). rewrite Hl in *.
      clear Hl IHc. split.
      * clear IHc'. induction l1 as [|y l1 IH]; simpl in *; inversion IHs as [|? ? H1 H2]; subst.
        -- constructor; done.
        -- constructor; [by apply IH|]. rewrite Forall_app in *. destruct H2 as [H2 H3]. split; [done|].
           inversion H3; subst. by constructor.
      * rewrite Forall_app in *. destruct IHc' as [? H3]. split; [done|]. inversion H3; subst. by constructor.
    + split.
      * apply sorted_snoc; [done|]. simpl. rewrite Forall_forall in IHc. apply Forall_forall. intros b Hb. pose proof Hn as Hn2. rewrite Forall_forall in Hn2. apply Hn2. by apply IHc.
      * apply Forall_app. split; [done|]. repeat constructor. simpl. set_solver.
  - split; [by apply sorted_filter|]. rewrite Forall_forall in *. intros b Hb. apply elem_of_list_filter in Hb as [_ Hb]. by apply IHc'.
Qed.

(** ** Query *)
Lemma starts_with_spec q s : starts_with q s = true <-> exists post, s = q ++ post.
Proof.
  revert s. induction q as [|a q IH]; intros s; simpl.
  - split; [by exists s|done].
  - destruct s as [|b s]; [split; [done|by intros [? ?]]|].
    rewrite andb_true_iff, N.eqb_eq, IH. split.
    + intros [-> [post ->]]. by exists post.
    + intros [post H]. injection H as -> ->. split; [done|by eexists].
Qed.
Lemma contains_spec s q : contains s q = true <-> occurs q s.
Proof.
  unfold occurs. induction s as [|a s IH]; cbn [contains]; rewrite orb_true_iff, starts_with_spec.
  - split.
    + intros [[post H]|H]; [|done]. by exists [], post.
    + intros (pre & post & H). left. exists post. destruct pre; [done|discriminate].
  - rewrite IH. split.
    + intros [[post H]|(pre & post & ->)]; [by exists [], post|]. by exists (a :: pre), post.
    + intros ([|b pre] & post & H); [left; by eexists|]. injection H as -> ->. right. by eexists _, _.
Qed.

Lemma page_leb_spec a b : page_leb a b = true <-> ranks_before a b.
Proof. unfold page_leb, ranks_before. rewrite orb_true_iff, andb_true_iff, N.ltb_lt, N.eqb_eq, N.leb_le. done. Qed.
Lemma page_leb_total a b : page_leb a b = true \/ page_leb b a = true.
Proof. rewrite !page_leb_spec. unfold ranks_before. lia. Qed.
Lemma page_leb_trans a b c : le page_leb a b -> le page_leb b c -> le page_leb a c.
Proof. unfold le. rewrite !page_leb_spec. unfold ranks_before. lia. Qed.

Lemma sorted_ranks l : StronglySorted (le page_leb) l -> StronglySorted ranks_before l.
Proof. induction 1; constructor; [done|]. eapply Forall_impl; [eassumption|]. intros x. apply page_leb_spec. Qed.

Lemma query_match_spec lower q v :
  (q = [] \/ q <> []) ->
  query_match lower q v = true <-> occurs q (lower (p_url v)) \/ occurs q (lower (p_title v)).
Proof.
  intros _. unfold query_match. destruct q as [|a q].
  - split; [|done]. intros _. left. exists [], (lower (p_url v)). done.
  - rewrite orb_true_iff, !contains_spec. done.
Qed.

Lemma query_full lower s q :
  exists full,
    (forall limit, query_visited lower s q limit = take limit full) /\
    full ≡ₚ filter (fun v => query_match lower (lower q) v = true) (visits s) /\
    StronglySorted (fun a b => page_leb a b = true) full.
Proof.
  exists (stable_sort page_leb (filter (fun v => query_match lower (lower q) v = true) (visits s))).
  split; [done|]. split; [apply stable_sort_perm|].
  apply (stable_sort_sorted page_leb); [apply page_leb_total|apply page_leb_trans].
Qed.

Lemma query_answers lower ops q :
  exists full,
    (forall limit, query_visited lower (run ops) q limit = take limit full) /\
    NoDup (map p_url full) /\
    StronglySorted ranks_before full /\
    forall p, p ∈ full <->
      visits_of (p_url p) [] ops <> [] /\
      p_title p = latest_title (visits_of (p_url p) [] ops) /\
      p_count p = N.of_nat (length (visits_of (p_url p) [] ops)) /\
      p_last p = latest_time (visits_of (p_url p) [] ops) /\
      (occurs (lower q) (lower (p_url p)) \/ occurs (lower q) (lower (p_title p))).
Proof.
  destruct (query_full lower (run ops) q) as (full & H1 & H2 & H3).
  destruct (run_visit_inv ops) as [Hnd Hin].
  exists full. split; [done|]. split.
  { rewrite H2. revert Hnd. generalize (visits (run ops)). clear. intros l.
    induction l as [|x l IH]; simpl; intros Hnd; [done|].
    apply NoDup_cons in Hnd as [Hn Hnd]. rewrite filter_cons. case_decide; [|by apply IH].
    simpl. apply NoDup_cons. split; [|by apply IH]. intros H2. apply Hn.
    apply elem_of_list_fmap in H2 as (y & Hy1 & Hy2). apply elem_of_list_filter in Hy2 as [_ Hy2].
    apply elem_of_list_fmap. by exists y. }
  split; [by apply sorted_ranks|]. intros p. rewrite H2, elem_of_list_filter, Hin, query_match_spec.
  - tauto.
  - destruct (lower q); [by left|by right].
Qed.

(** ** LIKE *)
Lemma like_eq_spec a b : like_eq a b = true <-> same_letter a b.
Proof.
  unfold like_eq, fold_ascii, same_letter. rewrite N.eqb_eq.
  destruct (N.leb_spec 65 a), (N.leb_spec a 90), (N.leb_spec 65 b), (N.leb_spec b 90); simpl; lia.
Qed.

Lemma parse_escape c r : like_parse (like_escape c ++ r) = Lit c :: like_parse r.
Proof.
  unfold like_escape. destruct ((c =? 92)%N) eqn:E1; [done|]. destruct ((c =? 37)%N) eqn:E2; [done|].
  destruct ((c =? 95)%N) eqn:E3; [done|]. cbn [orb app like_parse]. by rewrite E1, E2, E3.
Qed.
Lemma parse_pattern q : like_parse (like_pattern q) = Any :: map Lit q ++ [Any].
Proof.
  unfold like_pattern. change (like_parse ([37%N] ++ ?r)) with (Any :: like_parse r). f_equal.
  induction q as [|c q IH]; [done|]. cbn [flat_map]. rewrite <- app_assoc, parse_escape, IH. done.
Qed.

Lemma any_spec ts s : like_toks (Any :: ts) s = true <-> exists pre post, s = pre ++ post /\ like_toks ts post = true.
Proof.
  induction s as [|a s IH].
  - cbn. rewrite orb_false_r. split.
    + intros H. by exists [], [].
    + intros (pre & post & H & H2). symmetry in H. apply app_eq_nil in H as [-> ->]. done.
  - change (like_toks (Any :: ts) (a :: s)) with (like_toks ts (a :: s) || like_toks (Any :: ts) s).
    rewrite orb_true_iff, IH. split.
    + intros [H|(pre & post & -> & H)]; [by exists [], (a :: s)|by exists (a :: pre), post].
    + intros ([|b pre] & post & H & H2).
      * left. simpl in H. by subst.
      * injection H as -> ->. right. by exists pre, post.
Qed.
Lemma any_end s : like_toks [Any] s = true.
Proof. apply any_spec. exists s, []. by rewrite app_nil_r. Qed.
Lemma lits_spec q s : like_toks (map Lit q ++ [Any]) s = true <-> exists m post, s = m ++ post /\ Forall2 same_letter q m.
Proof.
  revert s. induction q as [|c q IH]; intros s.
  - cbn [map app]. rewrite any_end. split; [|done]. intros _. exists [], s. by split; [|constructor].
  - cbn [map app like_toks]. destruct s as [|d s].
    + split; [done|]. intros (m & post & H & HF). symmetry in H. apply app_eq_nil in H as [-> ->]. inversion HF.
    + rewrite andb_true_iff, like_eq_spec, IH. split.
      * intros [H1 (m & post & -> & HF)]. exists (d :: m), post. split; [done|by constructor].
      * intros (m & post & H & HF). inversion HF as [|? y ? m' Hy HF']; subst. injection H as -> ->. split; [done|]. by exists m', post.
Qed.
Lemma like_pattern_spec q s : like (like_pattern q) s = true <-> occurs_ignoring_case q s.
Proof.
  unfold like. rewrite parse_pattern, any_spec. setoid_rewrite lits_spec. unfold occurs_ignoring_case. split.
  - intros (pre & post & -> & m & post2 & -> & HF). by exists pre, m, post2.
  - intros (pre & m & post & -> & HF). exists pre, (m ++ post). split; [done|]. by exists m, post.
Qed.

(** ** The two backends *)
Lemma sql_length_pos t : 0%N ∉ t -> (0 <? sql_length t) = match t with [] => false | _ => true end.
Proof. destruct t as [|c t]; [done|]. intros H. simpl. destruct (N.eqb_spec c 0); [|done]. subst. set_solver. Qed.

Lemma update_first_ext {A} (p : A -> bool) f g l :
  (forall x, f x = g x) -> update_first p f l = update_first p g l.
Proof. intros H. induction l as [|x l IH]; simpl; [done|]. by rewrite H, IH. Qed.

Definition no_nul (o : op) : Prop := match o with OVisit _ t => 0%N ∉ t | _ => True end.

Lemma sql_run_same ops : Forall (fun o => no_nul o.1) ops -> sql_run ops = run ops.
Proof.
  intros HF. unfold sql_run, run. revert HF. generalize empty_places.
  induction ops as [|[o n] ops IH]; intros s HF; [done|]. inversion HF as [|? ? Ho HF']; subst. simpl in *.
  assert (sql_step s (o, n) = step s (o, n)) as ->; [|by apply IH].
  destruct o as [u t|u|u t|]; try done. unfold sql_step, step, sql_record_visit, record_visit; simpl in *.
  rewrite (update_first_ext _ _ (fun v => mk_page (p_url v) (match t with [] => p_title v | _ => t end) (p_count v + 1) n)); [done|].
  intros x. rewrite sql_length_pos by done. by destruct t.
Qed.

Lemma same_letter_fold a b : same_letter a b <-> fold_ascii a = fold_ascii b.
Proof. rewrite <- like_eq_spec. unfold like_eq. by rewrite N.eqb_eq. Qed.
Lemma occurs_fold q s : occurs_ignoring_case q s <-> occurs (map fold_ascii q) (map fold_ascii s).
Proof.
  unfold occurs_ignoring_case, occurs. split.
  - intros (pre & m & post & -> & HF). exists (map fold_ascii pre), (map fold_ascii post).
    rewrite !map_app. do 2 f_equal. induction HF as [|x y ? ? Hxy HF IH]; [done|]. simpl. rewrite IH. f_equal. by symmetry; apply same_letter_fold.
  - intros (pre & post & H). symmetry in H.
    assert (exists pre0 r, s = pre0 ++ r /\ map fold_ascii pre0 = pre /\ map fold_ascii r = map fold_ascii q ++ post) as (pre0 & r & -> & _ & Hr).
    { clear -H. revert pre H. induction s as [|c s IH]; intros pre H; simpl in H.
      - apply app_eq_nil in H as [-> H]. exists [], []. done.
      - destruct pre as [|x pre]; simpl in H.
        + exists [], (c :: s). done.
        + injection H as -> H. destruct (IH _ H) as (p & r & -> & <- & H2). by exists (c :: p), r. }
    clear H. assert (exists m post0, r = m ++ post0 /\ map fold_ascii m = map fold_ascii q) as (m & post0 & -> & Hm).
    { revert Hr. generalize (map fold_ascii q). intros k. revert r. induction k as [|x k IH]; intros r Hr.
      - by exists [], r.
      - destruct r as [|c r]; [done|]. simpl in Hr. injection Hr as Hc Hr. destruct (IH _ Hr) as (m & p0 & -> & H2).
        exists (c :: m), p0. split; [done|]. simpl. by rewrite Hc, H2. }
    exists pre0, m, post0. split; [done|]. clear -Hm. revert m Hm. induction q as [|c q IH]; intros [|d m] Hm; try done.
    simpl in Hm. injection Hm as H1 H2. constructor; [|by apply IH]. by apply same_letter_fold.
Qed.

Lemma sql_match_occurs q v :
  sql_match q v = true <-> occurs_ignoring_case q (p_url v) \/ occurs_ignoring_case q (p_title v).
Proof.
  unfold sql_match. rewrite !orb_true_iff, bool_decide_eq_true, !like_pattern_spec. split; [|tauto].
  intros [[H|H]|H]; [|tauto|tauto]. left. destruct q as [|c q].
  - exists [], [], (p_url v). split; [done|constructor].
  - exfalso. apply (f_equal length) in H. unfold like_pattern in H. rewrite !app_length in H. simpl in H.
    rewrite app_length in H. unfold like_escape in H. destruct (_ || _); simpl in H; lia.
Qed.

Lemma backends_agree (lower : str -> str) ops q limit :
  Forall (fun o => no_nul o.1) ops ->
  lower q = map fold_ascii q ->
  Forall (fun p => lower (p_url p) = map fold_ascii (p_url p) /\ lower (p_title p) = map fold_ascii (p_title p)) (visits (run ops)) ->
  sql_query_visited (sql_run ops) q limit (query_visited lower (run ops) q limit).
Proof.
  intros HF Hq Hv. rewrite sql_run_same by done. destruct (query_full lower (run ops) q) as (full & H1 & H2 & H3).
  exists full. split; [|done]. rewrite H2. clear -Hq Hv. rewrite Hq.
  induction Hv as [|p l [Hu Ht] Hv IH]; [done|].
  rewrite !filter_cons. assert (query_match lower (map fold_ascii q) p = true <-> sql_match q p = true) as Hiff.
  { rewrite query_match_spec by (destruct (map fold_ascii q); [by left|by right]). by rewrite sql_match_occurs, !occurs_fold, Hu, Ht. }
  destruct (decide (sql_match q p = true)) as [E|E].
  - rewrite decide_True by by apply Hiff. by rewrite IH.
  - rewrite decide_False by (by rewrite Hiff). exact IH.
Qed.
