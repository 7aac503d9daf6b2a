From stdpp Require Import gmap.
From Verif Require Import Text SettingsModel SettingsProofs Sorting CookieModel CookieSpec.

(** ** Texts *)
Lemma eqs_true a b : eqs a b = true <-> a = b.
Proof. unfold eqs. apply bool_decide_eq_true. Qed.
Lemma eqs_false a b : eqs a b = false <-> a <> b.
Proof. unfold eqs. apply bool_decide_eq_false. Qed.
Lemma starts_with_spec s p : starts_with s p = true <-> exists r, s = p ++ r.
Proof.
  revert s. induction p as [|c p IH]; intros s; simpl.
  - split; [by exists s|done].
  - destruct s as [|d s]; [split; [done|by intros [r H]]|]. cbn [starts_with]; rewrite andb_true_iff, N.eqb_eq, IH. split.
    + intros [-> [r ->]]. by exists r.
    + intros [r H]. injection H as -> ->. split; [done|by exists r].
Qed.
Lemma ends_with_spec s p : ends_with s p = true <-> exists r, s = r ++ p.
Proof.
  unfold ends_with. rewrite starts_with_spec. split.
  - intros [r H]. exists (rev r). rewrite <- (rev_involutive s), H, rev_app_distr. by rewrite rev_involutive.
  - intros [r ->]. exists (rev r). by rewrite rev_app_distr.
Qed.

Lemma host_lets_spec u o c :
  host_lets u o c = true <-> match c_domain c with Some d => domain_matches (u_host u) d | None => o = u_origin u end.
Proof.
  unfold host_lets, domain_matches. destruct (c_domain c) as [d|]; [|apply eqs_true].
  rewrite orb_true_iff, eqs_true, ends_with_spec. done.
Qed.
Lemma path_lets_spec u c :
  path_lets u c = true <-> match c_path c with Some p => path_matches (u_path u) p | None => True end.
Proof.
  unfold path_lets, path_matches. destruct (c_path c) as [p|]; [|done].
  rewrite orb_true_iff, andb_true_iff, orb_true_iff, eqs_true, starts_with_spec. split.
  - intros [H|[[r Hr] H]]; [by left|right]. exists r. split; [done|]. destruct H as [H|H].
    + left. apply ends_with_spec in H as [q ->]. by rewrite last_snoc.
    + right. rewrite Hr, drop_app in H. apply starts_with_spec in H as [q ->]. done.
  - intros [H|(r & Hr & H)]; [by left|right]. split; [by exists r|]. destruct H as [H|H].
    + left. apply last_Some in H as [q ->]. apply ends_with_spec. by exists q.
    + right. rewrite Hr, drop_app. destruct r as [|x r]; [done|]. injection H as ->. done.
Qed.

Section proofs.
  Context (psl_domain : str -> option str) (psl_known : str -> bool) (http_date : str -> option Z).
  Notation is_third_party := (is_third_party psl_domain).
  Notation eligible := (eligible psl_domain).
  Notation cross_site := (cross_site psl_domain).
  Notation get := (get_request_cookies psl_domain).
  Notation matching := (matching psl_domain).
  Notation attribute := (attribute psl_domain psl_known).
  Notation parse_set_cookie := (parse_set_cookie psl_domain psl_known).
  Notation store_one := (store_one psl_domain psl_known http_date).
  Notation store_all := (store_all psl_domain psl_known http_date).
  Notation store := (store_response_cookies psl_domain psl_known http_date).
  Notation step := (step psl_domain psl_known http_date).
  Notation run := (run psl_domain psl_known http_date).
  Notation acceptable := (acceptable psl_domain psl_known).

  Lemma third_party_spec u top : is_third_party u top = true <-> cross_site u top.
  Proof.
    unfold CookieModel.is_third_party, CookieSpec.cross_site. destruct top as [t|]; [|split; [done|by intros (? & ? & _)]].
    rewrite negb_true_iff. unfold same_site. split.
    - intros H. exists t. split; [done|]. destruct (psl_domain (u_host u)), (psl_domain (u_host t)); by apply eqs_false.
    - intros (? & [= <-] & H). destruct (psl_domain (u_host u)), (psl_domain (u_host t)); by apply eqs_false.
  Qed.

  (** ** Requests *)
  Lemma none_secure_spec c : none_and_secure c = true <-> is_none_secure c.
  Proof. unfold none_and_secure, is_none_secure. by rewrite andb_true_iff, bool_decide_eq_true. Qed.

  Lemma selected_spec pol u top ctx now oc :
    is_third_party u top && bool_decide (pol = Block) = false ->
    selected pol (is_third_party u top) ctx u now oc = true <-> eligible pol u top ctx now oc.
  Proof.
    intros Hb. unfold selected. rewrite !andb_true_iff, host_lets_spec, path_lets_spec.
    assert (unexpired now oc.2 = true <-> match c_expires oc.2 with Some e => (now < e)%Z | None => True end) as H1.
    { unfold unexpired. destruct (c_expires oc.2); [apply Z.ltb_lt|done]. }
    assert (policy_lets pol (is_third_party u top) oc.2 = true <->
       (cross_site u top -> match pol with Allow => True | Block => False | SameSiteNoneOnly => is_none_secure oc.2 end)) as H2.
    { clear H1. unfold policy_lets. rewrite <- third_party_spec. destruct (is_third_party u top); simpl in *.
      - destruct pol; simpl in *.
        + split; auto.
        + done.
        + rewrite none_secure_spec. split; [auto|]. intros H. by apply H.
      - split; [|done]. by intros _ H. }
    assert (same_site_lets ctx oc.2 = true <->
       (c_same_site oc.2 = Some (txt "Strict") -> ctx = SameSite) /\
       (c_same_site oc.2 = Some (txt "None") -> c_secure oc.2 = true) /\
       (c_same_site oc.2 <> Some (txt "Strict") -> c_same_site oc.2 <> Some (txt "None") -> ctx <> CrossSite)) as H3.
    { clear H1 H2. unfold same_site_lets. destruct (decide (c_same_site oc.2 = Some (txt "Strict"))) as [E|E].
      - rewrite bool_decide_eq_true_2 by done. rewrite bool_decide_eq_true, E. split.
        + intros ->. split; [done|]. split; [intros H; by vm_compute in H|done].
        + intros (H & _). by apply H.
      - rewrite bool_decide_eq_false_2 by done. destruct (decide (c_same_site oc.2 = Some (txt "None"))) as [E2|E2].
        + rewrite bool_decide_eq_true_2 by done. split; [|by intros (_ & H & _); apply H]. intros H. split; [done|]. split; done.
        + rewrite bool_decide_eq_false_2 by done. rewrite orb_true_iff, !bool_decide_eq_true. split.
          * intros H. split; [done|]. split; [done|]. intros _ _ ->. by destruct H.
          * intros (_ & _ & H). specialize (H E E2). destruct ctx; auto. by destruct H. }
    assert (secure_lets u oc.2 = true <-> (c_secure oc.2 = true -> u_scheme u = txt "https")) as H4.
    { clear H1 H2 H3. unfold secure_lets. rewrite orb_true_iff, negb_true_iff, eqs_true. unfold https. destruct (c_secure oc.2).
      - split; [intros [?|?]; done|]. intros H. right. by apply H.
      - split; [done|]. by left. }
    rewrite H1, H2, H3, H4. split.
    - intros [[[[[? ?] (? & ? & ?)] ?] ?] ?]. by constructor.
    - intros [? ? ? ? ? ? ? ?]. repeat split; assumption.
  Qed.

  Lemma pair_text_eq : pair_text = fun c => c_name c ++ txt "=" ++ c_value c.
  Proof. done. Qed.
  Lemma join_nonempty sep a l : a <> [] -> join sep (a :: l) <> [].
  Proof. destruct l; simpl; [done|]. by destruct a. Qed.
  Lemma header_eq l : match join (txt "; ") (map pair_text l) with [] => None | h => Some h end = header_of l.
  Proof.
    unfold header_of. destruct l as [|c l]; [done|]. rewrite pair_text_eq.
    assert (join (txt "; ") (map (fun c => c_name c ++ txt "=" ++ c_value c) (c :: l)) <> []) as H.
    { cbn [map]. apply join_nonempty. intros H. apply app_eq_nil in H as [_ H]. done. }
    assert (forall h : str, h <> [] -> match h with [] => None | n :: l0 => Some (n :: l0) end = Some h) as Hgen by by intros [].
    exact (Hgen _ H).
  Qed.

  Lemma before_total a b : before a b = true \/ before b a = true.
  Proof.
    unfold before. rewrite !orb_true_iff, !andb_true_iff, !N.ltb_lt, !N.eqb_eq, !Z.leb_le.
    destruct (N.lt_total (path_len a) (path_len b)) as [?|[?|?]]; [by right; left| |by left; left].
    destruct (Z.le_ge_cases (c_created a) (c_created b)); [left|right]; right; split; auto.
  Qed.
  Lemma before_spec a b : before a b = true <-> goes_before a b.
  Proof. unfold before, goes_before. by rewrite orb_true_iff, andb_true_iff, N.ltb_lt, N.eqb_eq, Z.leb_le. Qed.
  Lemma before_trans a b c : le before a b -> le before b c -> le before a c.
  Proof. unfold le. rewrite !before_spec. unfold goes_before. intros. lia. Qed.

  Lemma sublist_split {A} (P : A -> bool) (l : list A) :
    filter (fun x => P x = true) l ++ filter (fun x => P x = false) l ≡ₚ l.
  Proof.
    induction l as [|x l IH]; [done|]. rewrite !filter_cons. destruct (P x) eqn:E; simpl.
    - by rewrite IH.
    - rewrite <- Permutation_middle. by rewrite IH.
  Qed.

  Lemma perm_map_inv {A B} (f : A -> B) (l : list B) (m : list A) :
    l ≡ₚ map f m -> exists m', l = map f m' /\ m' ≡ₚ m.
  Proof. intros H. destruct (Permutation_map_inv f _ H) as (m' & -> & Hp). exists m'. split; [done|]. by symmetry. Qed.

  Lemma ssorted_weaken {A} (R S : A -> A -> Prop) : (forall a b, R a b -> S a b) -> forall l, StronglySorted R l -> StronglySorted S l.
  Proof. intros H l. induction 1 as [|x l HS IH HF]; constructor; [done|]. eapply Forall_impl; [exact HF|]. auto. Qed.
  Lemma request_spec pol order u top ctx now :
    exists sent rest,
      get pol order u top ctx now = header_of (map snd sent) /\
      sent ++ rest ≡ₚ contents order /\
      Forall (eligible pol u top ctx now) sent /\
      Forall (fun oc => ~ eligible pol u top ctx now oc) rest /\
      StronglySorted goes_before (map snd sent).
  Proof.
    unfold get_request_cookies. destruct (is_third_party u top && bool_decide (pol = Block)) eqn:Hb.
    - exists [], (contents order). split; [done|]. split; [done|]. split; [constructor|]. split; [|constructor].
      apply Forall_forall. intros oc _ He. apply andb_true_iff in Hb as [H1 H2]. apply third_party_spec in H1.
      apply bool_decide_eq_true in H2. subst pol. exact (el_policy _ _ _ _ _ _ _ He H1).
    - set (P := selected pol (is_third_party u top) ctx u now).
      set (m := filter (fun oc => P oc = true) (contents order)).
      destruct (perm_map_inv snd (matching pol order u top ctx now) m) as (sent & E & Hp).
      { unfold CookieModel.matching. rewrite stable_sort_perm. done. }
      exists sent, (filter (fun oc => P oc = false) (contents order)).
      rewrite header_eq, E. split; [done|]. split; [|split; [|split]].
      + rewrite Hp. apply sublist_split.
      + rewrite Hp. apply Forall_forall. intros oc Hoc. apply elem_of_list_filter in Hoc as [H _].
        by apply selected_spec in H.
      + apply Forall_forall. intros oc Hoc He. apply elem_of_list_filter in Hoc as [H _].
        apply selected_spec in He; [|done]. unfold P in H. congruence.
      + rewrite <- E. unfold CookieModel.matching.
        pose proof (stable_sort_sorted before (map snd m) before_total before_trans) as Hs.
        exact (ssorted_weaken _ _ (fun a b => proj1 (before_spec a b)) _ Hs).
  Qed.

  (** cookies that cannot be selected have no influence *)
  Lemma get_keep pol order u top ctx now P :
    (forall oc, oc ∈ contents order -> P oc.2 = false -> is_third_party u top && bool_decide (pol = Block) = false ->
       selected pol (is_third_party u top) ctx u now oc = false) ->
    get pol (keep P order) u top ctx now = get pol order u top ctx now.
  Proof.
    intros H. unfold get_request_cookies. destruct (is_third_party u top && bool_decide (pol = Block)) eqn:Hb; [done|].
    assert (matching pol (keep P order) u top ctx now = matching pol order u top ctx now) as ->; [|done].
    unfold CookieModel.matching. f_equal. f_equal.
    set (S := selected pol (is_third_party u top) ctx u now) in *.
    assert (forall oc, oc ∈ contents order -> P oc.2 = false -> S oc = false) as H' by (intros; by apply H).
    clear H. induction order as [|[o b] order IH]; [done|]. cbn [keep map flat_map]. simpl.
    rewrite !filter_app. f_equal.
    - assert (forall c, c ∈ b -> P c = false -> S (o, c) = false) as Hb'.
      { intros c Hc. apply (H' (o, c)). unfold contents. simpl. apply elem_of_app. left. apply elem_of_list_fmap. by exists c. }
      clear -Hb'. induction b as [|c b IH]; [done|]. rewrite filter_cons. cbn [map].
      assert (forall c, c ∈ b -> P c = false -> S (o, c) = false) as H1 by (intros; apply Hb'; [by right|done]).
      destruct (P c) eqn:Ec; simpl.
      + rewrite !filter_cons, IH by done. done.
      + rewrite (filter_cons _ (o, c)), decide_False; [by apply IH|]. rewrite Hb'; [done|by left|done].
    - apply IH. intros oc Hoc. apply H'. unfold contents. simpl. apply elem_of_app. by right.
  Qed.

  (** ** Storing *)
  Lemma same_key_spec a b : same_key a b = true <-> key a = key b.
  Proof.
    unfold same_key, key. rewrite !andb_true_iff, eqs_true, !bool_decide_eq_true.
    split; [intros [[-> ->] ->]; done|intros [= -> -> ->]; done].
  Qed.
  Lemma same_key_false a b : same_key a b = false <-> key a <> key b.
  Proof. rewrite <- same_key_spec. by rewrite not_true_iff_false. Qed.
  Lemma upsert_put c now_ms b : put_cookie b (upsert c now_ms b) (set_created (match find (fun x => same_key x c) b with Some x => c_created x | None => now_ms end) c) now_ms.
  Proof.
    induction b as [|x b IH]; simpl.
    - left. split; [apply not_elem_of_nil|done].
    - destruct (same_key x c) eqn:E.
      + right. exists [], x, b. apply same_key_spec in E. simpl. split; [done|]. split; [done|]. split; [apply not_elem_of_nil|done].
      + assert (key x <> key c) as Hne by by apply same_key_false.
        destruct IH as [(H1 & H2 & H3)|(l & old & r & H1 & H2 & H3 & H4 & H5)].
        * left. split; [|split; [done|by rewrite H3]]. simpl. apply not_elem_of_cons. split; [|done].
          change (key c <> key x). congruence.
        * right. exists (x :: l), old, r. split; [by rewrite H1|]. split; [done|]. split; [|split; [done|by rewrite H5]].
          simpl. apply not_elem_of_cons. split; [|done]. change (key c <> key x). congruence.
  Qed.

  Lemma put_keys b b' c now_ms : put_cookie b b' c now_ms -> NoDup (map key b) -> NoDup (map key b').
  Proof.
    intros [(H1 & _ & ->)|(l & old & r & -> & Hk & _ & _ & ->)].
    - intros H. rewrite map_app. apply NoDup_app. split; [done|]. split; [|apply NoDup_singleton].
      intros x Hx Hx2. apply elem_of_list_singleton in Hx2. by subst.
    - rewrite !map_app. simpl. by rewrite Hk.
  Qed.
  Lemma filter_map_NoDup {A B} (f : A -> B) (P : A -> Prop) `{!forall x, Decision (P x)} (l : list A) :
    NoDup (map f l) -> NoDup (map f (filter P l)).
  Proof.
    induction l as [|x l IH]; [done|]. simpl. intros [H1 H2]%NoDup_cons. rewrite filter_cons. case_decide; [|by apply IH].
    simpl. apply NoDup_cons. split; [|by apply IH]. intros Hin. apply H1. apply elem_of_list_fmap in Hin as (y & -> & Hy).
    apply elem_of_list_filter in Hy as [_ Hy]. apply elem_of_list_fmap. by exists y.
  Qed.

  (** the three outcomes of a header *)
  Lemma store_one_cases pol third u b h now now_ms b' :
    store_one pol third u b (h, (now, now_ms)) = Ok b' ->
    b' = b \/
    (exists hs st, h = Some hs /\ parse_set_cookie u hs = Some st /\ refused u st = false /\
       ((exists ma, p_max_age st = Some ma /\ (ma <= 0)%Z /\ b' = filter (fun x => same_key x (pc st) = false) b) \/
        (exists e, (third = true -> pol = SameSiteNoneOnly -> is_none_secure (set_expires e (pc st))) /\
           (forall ma, p_max_age st = Some ma -> (0 < ma)%Z /\ e = Some (now + ma)%Z) /\
           (p_max_age st = None -> e = match p_expires st with Some s => http_date s | None => None end) /\
           b' = upsert (set_expires e (pc st)) now_ms b))).
  Proof.
    unfold CookieModel.store_one. destruct h as [hs|]; [|intros [= <-]; by left].
    destruct (parse_set_cookie u hs) as [st|] eqn:Ep; [|intros [= <-]; by left].
    destruct (refused u st) eqn:Er; [intros [= <-]; by left|].
    assert (forall e, (if third && bool_decide (pol = SameSiteNoneOnly) && negb (none_and_secure (set_expires e (pc st)))
       then Ok b else Ok (upsert (set_expires e (pc st)) now_ms b)) = Ok b' ->
       b' = b \/ ((third = true -> pol = SameSiteNoneOnly -> is_none_secure (set_expires e (pc st))) /\ b' = upsert (set_expires e (pc st)) now_ms b)) as Hfin.
    { intros e. destruct (third && bool_decide (pol = SameSiteNoneOnly) && negb (none_and_secure (set_expires e (pc st)))) eqn:E.
      - intros [= <-]. by left.
      - intros [= <-]. right. split; [|done]. intros -> ->. rewrite bool_decide_eq_true_2 in E by done. simpl in E.
        apply negb_false_iff in E. by apply none_secure_spec. }
    destruct (p_max_age st) as [ma|] eqn:Em.
    - destruct (Z.leb_spec ma 0) as [Hm|Hm].
      + intros [= <-]. right. exists hs, st. repeat split; try done. left. by exists ma.
      + unfold add_i64. destruct (in_isize (now + ma)); [|done]. simpl. intros H. apply Hfin in H as [->|[H1 H2]]; [by left|].
        right. exists hs, st. repeat split; try done. right. exists (Some (now + ma)%Z).
        split; [done|]. split; [intros x; rewrite Em; by intros [= <-]|]. split; [by rewrite Em|done].
    - intros H. apply Hfin in H as [->|[H1 H2]]; [by left|].
      right. exists hs, st. repeat split; try done. right. eexists. split; [exact H1|]. split; [by rewrite Em|]. split; done.
  Qed.

  (** ** Parsing *)
  Record keeps (u : url) (name value : str) (st : parsing) : Prop := {
    k_name : c_name (pc st) = name;
    k_value : c_value (pc st) = value;
    k_domain : forall d, c_domain (pc st) = Some d -> is_valid_cookie_domain psl_domain psl_known (u_host u) d = true }.
  Lemma attribute_keeps u n v st part : keeps u n v st -> keeps u n v (attribute u st part).
  Proof.
    intros [H1 H2 H3]. unfold CookieModel.attribute.
    destruct (split_once eq_sign part) as [[k w]|].
    - destruct (eqs _ (txt "path")); [by constructor|].
      destruct (eqs _ (txt "domain")).
      { destruct (is_valid_cookie_domain _ _ _ _) eqn:E; [|by constructor]. constructor; try done. simpl. by intros d [= <-]. }
      destruct (eqs _ (txt "expires")); [by constructor|].
      destruct (eqs _ (txt "max-age")); [by constructor|].
      destruct (eqs _ (txt "samesite")); [by constructor|].
      destruct (eqs _ (txt "secure")); [by constructor|].
      destruct (eqs _ (txt "httponly")); by constructor.
    - destruct (eqs _ (txt "secure")); [by constructor|].
      destruct (eqs _ (txt "httponly")); by constructor.
  Qed.
  Lemma attributes_keep u n v st parts : keeps u n v st -> keeps u n v (foldl (attribute u) st parts).
  Proof. revert st. induction parts as [|p parts IH]; intros st H; [done|]. simpl. apply IH. by apply attribute_keeps. Qed.

  Lemma split_once_before c s a b : split_once c s = Some (a, b) -> s = a ++ c :: b /\ c ∉ a.
  Proof.
    revert a b. induction s as [|x s IH]; intros a b; simpl; [done|]. destruct (N.eqb_spec x c) as [->|Hx].
    - intros [= <- <-]. split; [done|apply not_elem_of_nil].
    - destruct (split_once c s) as [[a' b']|]; [|done]. intros [= <- <-]. destruct (IH a' b' eq_refl) as [-> H].
      split; [done|]. apply not_elem_of_cons. split; [congruence|done].
  Qed.
  Lemma split_once_app c a b : c ∉ a -> split_once c (a ++ c :: b) = Some (a, b).
  Proof.
    induction a as [|x a IH]; intros H; simpl; [by rewrite N.eqb_refl|]. apply not_elem_of_cons in H as [H1 H2].
    rewrite (proj2 (N.eqb_neq x c)) by congruence. by rewrite IH.
  Qed.
  Lemma split_once_none c s : c ∉ s -> split_once c s = None.
  Proof.
    induction s as [|x s IH]; intros H; simpl; [done|]. apply not_elem_of_cons in H as [H1 H2].
    rewrite (proj2 (N.eqb_neq x c)) by congruence. by rewrite IH.
  Qed.
  Lemma split_once_none_iff c s : split_once c s = None -> c ∉ s.
  Proof.
    induction s as [|x s IH]; simpl; [intros _; apply not_elem_of_nil|]. destruct (N.eqb_spec x c) as [->|Hx]; [done|].
    destruct (split_once c s) as [[]|]; [done|]. intros _. apply not_elem_of_cons. split; [congruence|by apply IH].
  Qed.
  Lemma trim_subset s c : c ∈ trim s -> c ∈ s.
  Proof.
    intros Hin. unfold trim in Hin. apply elem_of_list_In, in_rev in Hin. rewrite <- elem_of_list_In in Hin.
    assert (forall t c, c ∈ trim_start t -> c ∈ t) as Hsub.
    { intros t d Hc. destruct (trim_start_spec t) as (w & Hw & _). rewrite Hw. set_solver. }
    apply Hsub, elem_of_list_In, in_rev in Hin. rewrite <- elem_of_list_In in Hin. by apply Hsub.
  Qed.

  Lemma parse_facts u h st : parse_set_cookie u h = Some st ->
    c_name (pc st) <> [] /\ semi ∉ c_name (pc st) /\ eq_sign ∉ c_name (pc st) /\ semi ∉ c_value (pc st) /\
    c_path (pc st) <> None /\
    (forall d, c_domain (pc st) = Some d -> is_valid_cookie_domain psl_domain psl_known (u_host u) d = true).
  Proof.
    unfold CookieModel.parse_set_cookie. destruct (split_once eq_sign h) as [[name rest]|] eqn:Es; [|done].
    apply split_once_before in Es as [_ Hne].
    destruct (bool_decide (trim name = [])) eqn:E1; [done|]. destruct (bool_decide (semi ∈ trim name)) eqn:E2; [done|]. simpl.
    apply bool_decide_eq_false in E1, E2.
    destruct (map trim (split semi rest)) as [|value attrs] eqn:Em; [done|]. intros [= <-].
    assert (semi ∉ value) as Hv.
    { assert (value ∈ map trim (split semi rest)) as Hin by (rewrite Em; by left).
      apply elem_of_list_fmap in Hin as (w & -> & Hw). intros H. apply trim_subset in H.
      pose proof (split_elems semi rest) as HF. rewrite Forall_forall in HF. by apply (HF w). }
    set (st0 := mk_parsing _ None None false). assert (keeps u (trim name) value st0) as Hk0 by by constructor.
    pose proof (attributes_keep u _ _ _ attrs Hk0) as [H1 H2 H3]. set (st1 := foldl _ _ _) in *.
    assert (eq_sign ∉ trim name) as Hn by (intros H; by apply trim_subset in H).
    destruct (c_path (pc st1)) eqn:Ep; simpl; rewrite H1, H2, ?Ep; repeat split; try done.
  Qed.

  Lemma valid_domain_spec h d : is_valid_cookie_domain psl_domain psl_known h d = true ->
    domain_matches h d /\ ~ (psl_domain d = None /\ psl_known d = true).
  Proof.
    unfold is_valid_cookie_domain. destruct (negb (eqs (lower h) (lower d)) && negb (ends_with (lower h) (dot :: lower d))) eqn:E; [done|].
    destruct (bool_decide (psl_domain d = None) && psl_known d) eqn:E2; [done|]. intros _. split.
    - apply andb_false_iff in E as [E|E]; apply negb_false_iff in E.
      + left. by apply eqs_true.
      + right. apply ends_with_spec in E as [r Hr]. by exists r.
    - intros [H1 H2]. rewrite bool_decide_eq_true_2, H2 in E2 by done. done.
  Qed.

  Lemma accepted u h st e t : parse_set_cookie u h = Some st -> refused u st = false ->
    acceptable u (set_created t (set_expires e (pc st))).
  Proof.
    intros Hp Hr. destruct (parse_facts _ _ _ Hp) as (H1 & H2 & H3 & H4 & H5 & H6).
    unfold refused in Hr. rewrite !orb_false_iff in Hr. destruct Hr as [[[R0 R1] R2] R3].
    constructor; simpl; try done.
    - intros Hs. rewrite Hs in R1. simpl in R1. apply negb_false_iff, eqs_true in R1. done.
    - intros [r Hn]. assert (starts_with (c_name (pc st)) (txt "__Secure-") = true) as E by (apply starts_with_spec; by exists r).
      rewrite E in R2. simpl in R2. by apply negb_false_iff in R2.
    - intros [r Hn]. assert (starts_with (c_name (pc st)) (txt "__Host-") = true) as E by (apply starts_with_spec; by exists r).
      rewrite E in R3. simpl in R3. rewrite !orb_false_iff, !negb_false_iff in R3. destruct R3 as [[A B] C].
      apply bool_decide_eq_false in B. apply bool_decide_eq_true in C. repeat split; try done. by destruct (c_domain (pc st)); [destruct B|].
    - intros d Hd. apply valid_domain_spec. by apply H6.
  Qed.

  (** every element of the new bucket was there or is acceptable *)
  Lemma upsert_elem c t b x : x ∈ upsert c t b -> x ∈ b \/ exists t', x = set_created t' c.
  Proof.
    induction b as [|y b IH]; simpl.
    - intros ->%elem_of_list_singleton. right. by eexists.
    - destruct (same_key y c).
      + intros [->|H]%elem_of_cons; [right; by eexists|left; by right].
      + intros [->|H]%elem_of_cons; [left; by left|]. destruct (IH H); [left; by right|by right].
  Qed.
  Lemma store_one_elem pol third u b h b' x :
    store_one pol third u b h = Ok b' -> x ∈ b' ->
    x ∈ b \/ (acceptable u x /\ (third = true -> pol = SameSiteNoneOnly -> is_none_secure x)).
  Proof.
    destruct h as [h [now now_ms]]. intros H Hx. apply store_one_cases in H as [->|(hs & st & _ & Hp & Hr & Hc)]; [by left|].
    destruct Hc as [(ma & _ & _ & ->)|(e & Hn & _ & _ & ->)].
    - left. by apply elem_of_list_filter in Hx as [_ Hx].
    - apply upsert_elem in Hx as [Hx|[t ->]]; [by left|right]. split; [by eapply accepted|exact Hn].
  Qed.
  Lemma store_all_elem pol third u hs : forall b b' x,
    store_all pol third u b hs = Ok b' -> x ∈ b' ->
    x ∈ b \/ (acceptable u x /\ (third = true -> pol = SameSiteNoneOnly -> is_none_secure x)).
  Proof.
    induction hs as [|h hs IH]; intros b b' x; cbn [CookieModel.store_all].
    - intros [= <-]. by left.
    - destruct (store_one pol third u b h) as [b1| |] eqn:E; cbn [rbind]; try done. intros H Hx.
      destruct (IH _ _ _ H Hx) as [H1|H1]; [|by right]. by eapply store_one_elem.
  Qed.

  Lemma store_cases j u hs top j' : store j u hs top = Ok j' ->
    (j' = j /\ is_third_party u top = true /\ jar_policy j = Block) \/
    (exists b, store_all (jar_policy j) (is_third_party u top) u (default [] (entries j !! u_origin u)) hs = Ok b /\
       j' = mk_jar (<[u_origin u := b]> (entries j)) (jar_policy j) /\
       (is_third_party u top = true -> jar_policy j <> Block)).
  Proof.
    unfold store_response_cookies. destruct (is_third_party u top && bool_decide (jar_policy j = Block)) eqn:E.
    - intros [= <-]. left. apply andb_true_iff in E as [E1 E2]. by apply bool_decide_eq_true in E2.
    - destruct (store_all _ _ _ _ hs) as [b| |] eqn:Es; simpl; try done. intros [= <-]. right. exists b.
      split; [done|]. split; [done|]. intros Ht. rewrite Ht in E. simpl in E. by apply bool_decide_eq_false in E.
  Qed.
  Lemma stored_default j o c : c ∈ default [] (entries j !! o) <-> stored j o c.
  Proof.
    unfold stored. destruct (entries j !! o) as [b|]; simpl.
    - split; [by exists b|]. by intros (? & [= <-] & H).
    - split; [by intros H%elem_of_nil|by intros (? & ? & _)].
  Qed.
  Lemma stored_insert m p o b o' c :
    stored (mk_jar (<[o := b]> m) p) o' c <-> (o = o' /\ c ∈ b) \/ (o <> o' /\ stored (mk_jar m p) o' c).
  Proof.
    unfold stored. simpl. destruct (decide (o = o')) as [->|Hne].
    - rewrite lookup_insert. naive_solver.
    - rewrite lookup_insert_ne by done. naive_solver.
  Qed.

  Lemma store_elem j u hs top j' o c : store j u hs top = Ok j' -> stored j' o c ->
    stored j o c \/ (o = u_origin u /\ acceptable u c /\
       (cross_site u top -> jar_policy j <> Block /\ (jar_policy j = SameSiteNoneOnly -> is_none_secure c))).
  Proof.
    intros H Hs. apply store_cases in H as [(-> & _)|(b & Hb & -> & Hnb)]; [by left|].
    apply stored_insert in Hs as [[<- Hc]|[Hne Hc]]; [|by left].
    destruct (store_all_elem _ _ _ _ _ _ _ Hb Hc) as [H|[Hb1 Hb2]]; [left; by apply stored_default|].
    right. split; [done|]. split; [done|]. intros Ht%third_party_spec. split; auto.
  Qed.

  (** ** Invariants *)
  Lemma step_policy j o j' : step j o = Ok j' -> jar_policy j' = jar_policy j.
  Proof.
    destruct o; simpl.
    - intros H. apply store_cases in H as [(-> & _)|(b & _ & -> & _)]; done.
    - intros [= <-]. unfold remove_cookie. by destruct (entries j !! u_origin u).
    - by intros [= <-].
    - by intros [= <-].
    - by intros [= <-].
  Qed.
  Lemma run_snoc j ops o : run j (ops ++ [o]) = let* j' := run j ops in step j' o.
  Proof.
    revert j. induction ops as [|x ops IH]; intros j; cbn [app CookieModel.run].
    - cbn [rbind]. by destruct (step j o).
    - destruct (step j x); cbn [rbind]; [apply IH|done..].
  Qed.
  Lemma run_inv (I : list op -> jar -> Prop) p :
    I [] (new_jar p) ->
    (forall ops o j j', I ops j -> step j o = Ok j' -> I (ops ++ [o]) j') ->
    forall ops j, run (new_jar p) ops = Ok j -> I ops j.
  Proof.
    intros H0 Hs ops. induction ops as [|o ops IH] using rev_ind; intros j.
    - simpl. by intros [= <-].
    - rewrite run_snoc. destruct (run (new_jar p) ops) as [j1| |] eqn:E; simpl; try done. intros H. eapply Hs; [|exact H]. by apply IH.
  Qed.

  (** removal operations only remove *)
  Lemma purge_stored j now o c : stored (purge_expired j now) o c <-> stored j o c /\ unexpired now c = true.
  Proof.
    unfold stored, purge_expired. simpl. rewrite lookup_omap. unfold purge_bucket. split.
    - intros (b & Hb & Hc). destruct (entries j !! o) as [b0|] eqn:E; [|done]. simpl in Hb.
      destruct (filter _ b0) as [|y r] eqn:Ef; [done|]. injection Hb as <-. rewrite <- Ef in Hc.
      apply elem_of_list_filter in Hc as [H1 H2]. split; [by exists b0|done].
    - intros [(b0 & Hb & Hc) H]. rewrite Hb. simpl.
      assert (c ∈ filter (fun c => unexpired now c = true) b0) as Hin by by apply elem_of_list_filter.
      destruct (filter _ b0) as [|y r] eqn:Ef; [by apply elem_of_nil in Hin|]. by eexists.
  Qed.
  Lemma remove_stored j u n o c : stored (remove_cookie j u n) o c <-> stored j o c /\ ~ (o = u_origin u /\ c_name c = n).
  Proof.
    unfold remove_cookie. destruct (entries j !! u_origin u) as [b|] eqn:E.
    - rewrite stored_insert, elem_of_list_filter. destruct j as [m p]. split.
      + intros [[<- [H1 H2]]|[H1 H2]]; [|naive_solver]. split; [by exists b|naive_solver].
      + intros [H1 H2]. destruct (decide (u_origin u = o)) as [<-|Hne]; [left|by right].
        destruct H1 as (b' & Hb' & Hc). simpl in *. rewrite E in Hb'. injection Hb' as <-. naive_solver.
    - split; [|by intros [? _]]. intros H. split; [done|]. intros [-> _]. destruct H as (b & Hb & _). congruence.
  Qed.
  Lemma remove_url_stored j u o c : stored (remove_cookies_for_url j u) o c <-> stored j o c /\ o <> u_origin u.
  Proof.
    unfold stored, remove_cookies_for_url. simpl. destruct (decide (u_origin u = o)) as [<-|Hne].
    - rewrite lookup_delete. naive_solver.
    - rewrite lookup_delete_ne by done. naive_solver.
  Qed.
  Lemma clear_stored j o c : ~ stored (clear j) o c.
  Proof. intros (b & Hb & _). simpl in Hb. by rewrite lookup_empty in Hb. Qed.

  (** where cookies come from *)
  Lemma provenance p ops j o c : run (new_jar p) ops = Ok j -> stored j o c ->
    exists u hs top, OStore u hs top ∈ ops /\ u_origin u = o /\ acceptable u c /\
      (cross_site u top -> p <> Block /\ (p = SameSiteNoneOnly -> is_none_secure c)).
  Proof.
    intros Hr Hs.
    assert (jar_policy j = p /\ forall o c, stored j o c -> exists u hs top, OStore u hs top ∈ ops /\ u_origin u = o /\ acceptable u c /\
      (cross_site u top -> p <> Block /\ (p = SameSiteNoneOnly -> is_none_secure c))) as [_ H]; [|by apply H].
    revert ops j Hr Hs. intros ops j Hr _. revert ops j Hr. apply run_inv.
    - split; [done|]. intros o' c' (b & Hb & _). simpl in Hb. by rewrite lookup_empty in Hb.
    - intros ops x j j' [Hp IH] Hst. split; [rewrite <- Hp; by apply (step_policy _ _ _ Hst)|]. intros o' c' Hs.
      assert (stored j o' c' -> exists u hs top, OStore u hs top ∈ ops ++ [x] /\ u_origin u = o' /\ acceptable u c' /\
        (cross_site u top -> p <> Block /\ (p = SameSiteNoneOnly -> is_none_secure c'))) as Hold.
      { intros Ho. destruct (IH _ _ Ho) as (u & hs & top & H1 & H2). exists u, hs, top. split; [set_solver|done]. }
      destruct x as [u hs top|u n|u|now|]; simpl in Hst.
      + destruct (store_elem _ _ _ _ _ _ _ Hst Hs) as [H|(-> & H1 & H2)]; [by apply Hold|].
        exists u, hs, top. split; [set_solver|]. rewrite Hp in H2. done.
      + injection Hst as <-. apply remove_stored in Hs as [Hs _]. by apply Hold.
      + injection Hst as <-. apply remove_url_stored in Hs as [Hs _]. by apply Hold.
      + injection Hst as <-. apply purge_stored in Hs as [Hs _]. by apply Hold.
      + injection Hst as <-. by apply clear_stored in Hs.
  Qed.

  (** uniqueness *)
  Definition unique (j : jar) : Prop := forall o b, entries j !! o = Some b -> NoDup (map key b).
  Lemma store_one_unique pol third u b h b' : store_one pol third u b h = Ok b' -> NoDup (map key b) -> NoDup (map key b').
  Proof.
    destruct h as [h [now now_ms]]. intros H Hn. apply store_one_cases in H as [->|(hs & st & _ & _ & _ & [(ma & _ & _ & ->)|(e & _ & _ & _ & ->)])]; [done| |].
    - by apply filter_map_NoDup.
    - eapply put_keys; [apply upsert_put|done].
  Qed.
  Lemma store_all_unique pol third u hs : forall b b', store_all pol third u b hs = Ok b' -> NoDup (map key b) -> NoDup (map key b').
  Proof.
    induction hs as [|h hs IH]; intros b b'; cbn [CookieModel.store_all]; [by intros [= <-]|].
    destruct (store_one pol third u b h) as [b1| |] eqn:E; cbn [rbind]; try done. intros H Hn.
    eapply IH; [exact H|]. by eapply store_one_unique.
  Qed.
  Lemma step_unique j o j' : unique j -> step j o = Ok j' -> unique j'.
  Proof.
    intros Hu. destruct o as [u hs top|u n|u|now|]; simpl.
    - intros H. apply store_cases in H as [(-> & _)|(b & Hb & -> & _)]; [done|]. intros o b' Hb'. simpl in Hb'.
      destruct (decide (u_origin u = o)) as [<-|Hne].
      + rewrite lookup_insert in Hb'. injection Hb' as <-. eapply store_all_unique; [exact Hb|].
        destruct (entries j !! u_origin u) eqn:E; simpl; [by eapply Hu|constructor].
      + rewrite lookup_insert_ne in Hb' by done. by eapply Hu.
    - intros [= <-]. unfold remove_cookie. destruct (entries j !! u_origin u) eqn:E; [|done]. intros o b' Hb'. simpl in Hb'.
      destruct (decide (u_origin u = o)) as [<-|Hne].
      + rewrite lookup_insert in Hb'. injection Hb' as <-. apply filter_map_NoDup. by eapply Hu.
      + rewrite lookup_insert_ne in Hb' by done. by eapply Hu.
    - intros [= <-] o b' Hb'. simpl in Hb'. apply lookup_delete_Some in Hb' as [_ Hb']. by eapply Hu.
    - intros [= <-] o b' Hb'. simpl in Hb'. rewrite lookup_omap in Hb'. destruct (entries j !! o) as [b|] eqn:E; [|done].
      simpl in Hb'. unfold purge_bucket in Hb'. destruct (filter _ b) eqn:Ef; [done|]. injection Hb' as <-. rewrite <- Ef.
      apply filter_map_NoDup. by eapply Hu.
    - intros [= <-] o b' Hb'. simpl in Hb'. by rewrite lookup_empty in Hb'.
  Qed.
  Lemma run_unique p ops j : run (new_jar p) ops = Ok j -> unique j.
  Proof.
    revert ops j. apply (run_inv (fun _ => unique)).
    - intros o b Hb. simpl in Hb. by rewrite lookup_empty in Hb.
    - intros _ o j j' H Hs. by eapply step_unique.
  Qed.

  (** one header, seen from outside *)
  Lemma one_header j u h now now_ms top j' :
    store j u [(h, (now, now_ms))] top = Ok j' ->
    (forall o, o <> u_origin u -> entries j' !! o = entries j !! o) /\
    let b := default [] (entries j !! u_origin u) in
    let b' := default [] (entries j' !! u_origin u) in
    b' = b \/ (exists k, removed_key b b' k) \/ (exists c, acceptable u c /\ put_cookie b b' c now_ms).
  Proof.
    intros H. apply store_cases in H as [(-> & _)|(b & Hb & -> & _)]; [split; [done|by left]|].
    split; [intros o Ho; simpl; by rewrite lookup_insert_ne|]. simpl. rewrite lookup_insert. simpl.
    cbn [CookieModel.store_all] in Hb. destruct (store_one _ _ _ _ _) as [b1| |] eqn:E; cbn [rbind] in Hb; try done. injection Hb as ->.
    apply store_one_cases in E as [->|(hs & st & _ & Hp & Hr & Hc)]; [by left|]. right.
    destruct Hc as [(ma & _ & _ & ->)|(e & Hn & _ & _ & ->)].
    - left. exists (key (pc st)). unfold removed_key. apply list_filter_iff. intros x. apply same_key_false.
    - right. eexists. split; [|apply upsert_put]. by eapply accepted.
  Qed.

  (** ** Deleting with Max-Age *)
  Lemma split_app c a b : split c (a ++ c :: b) = split c a ++ split c b.
  Proof.
    induction a as [|x a IH]; cbn [app].
    - cbn [split]. by rewrite N.eqb_refl.
    - cbn [split]. destruct (x =? c)%N; [by rewrite IH|]. rewrite IH.
      pose proof (split_nonempty c a). by destruct (split c a).
  Qed.
  Lemma map_trim_split_nonempty s : map trim (split semi s) <> [].
  Proof. pose proof (split_nonempty semi s). by destruct (split semi s). Qed.

  Definition with_max_age (st : parsing) (z : Z) : parsing := mk_parsing (pc st) (Some z) (p_expires st) (p_rejected st).
  Lemma parse_max_age u h st z : (imin <= z <= imax)%Z ->
    parse_set_cookie u h = Some st ->
    parse_set_cookie u (h ++ txt "; Max-Age=" ++ show_Z z) = Some (with_max_age st z).
  Proof.
    intros Hz. unfold CookieModel.parse_set_cookie. destruct (split_once eq_sign h) as [[name rest]|] eqn:Es; [|done].
    apply split_once_before in Es as [-> Hne].
    assert ((name ++ eq_sign :: rest) ++ txt "; Max-Age=" ++ show_Z z = name ++ eq_sign :: (rest ++ semi :: (txt " Max-Age=" ++ show_Z z))) as ->.
    { rewrite <- app_assoc. done. }
    rewrite split_once_app by done.
    destruct (bool_decide (trim name = []) || bool_decide (semi ∈ trim name)); [done|].
    rewrite split_app, map_app.
    assert (map trim (split semi (txt " Max-Age=" ++ show_Z z)) = [txt "Max-Age=" ++ show_Z z]) as Hlast.
    { rewrite split_no_sep.
      - cbn [map]. f_equal. change (txt " Max-Age=" ++ show_Z z) with (32%N :: (txt "Max-Age=" ++ show_Z z)).
        change (trim (32%N :: (txt "Max-Age=" ++ show_Z z))) with (trim (txt "Max-Age=" ++ show_Z z)). apply trim_id.
        destruct (show_Z_chars z) as [HF Hn]. split; [done|].
        destruct (exists_last Hn) as (l & x & E). rewrite E in HF |- *. rewrite app_assoc, last_snoc.
        apply num_not_space. apply Forall_app in HF as [_ HF]. by inversion HF.
      - intros H. apply elem_of_app in H as [H|H]; [by vm_compute in H; set_solver|].
        destruct (show_Z_chars z) as [HF _]. rewrite Forall_forall in HF. apply HF in H as [H|H]; [|done]. unfold is_digit, semi in H. lia. }
    rewrite Hlast. destruct (map trim (split semi rest)) as [|value attrs] eqn:Em; [done|]. cbn [app].
    intros [= <-]. rewrite foldl_app. cbn [foldl].
    set (st1 := foldl _ _ attrs).
    assert (attribute u st1 (txt "Max-Age=" ++ show_Z z) = with_max_age st1 z) as ->.
    { unfold CookieModel.attribute. change (txt "Max-Age=" ++ show_Z z) with (txt "Max-Age" ++ eq_sign :: show_Z z).
      rewrite split_once_app by (vm_compute; set_solver).
      change (lower (trim (txt "Max-Age"))) with (txt "max-age"). change (eqs (txt "max-age") (txt "path")) with false.
      change (eqs (txt "max-age") (txt "domain")) with false. change (eqs (txt "max-age") (txt "expires")) with false.
      change (eqs (txt "max-age") (txt "max-age")) with true. cbn iota. unfold with_max_age. f_equal.
      rewrite trim_id; [by apply parse_show_Z|]. destruct (show_Z_chars z) as [HF Hn]. by destruct (num_good _ HF Hn) as (_ & _ & ?). }
    simpl. destruct (c_path (pc st1)); done.
  Qed.

  Lemma refused_max_age u st z : refused u (with_max_age st z) = refused u st.
  Proof. done. Qed.

  Lemma delete_header pol u h clock c z j j' top clock' :
    store (new_jar pol) u [(Some h, clock)] None = Ok j -> stored j (u_origin u) c ->
    (imin <= z <= 0)%Z -> (is_third_party u top = true -> jar_policy j' <> Block) ->
    exists j'', store j' u [(Some (h ++ txt "; Max-Age=" ++ show_Z z), clock')] top = Ok j'' /\
      forall o x, stored j'' o x <-> stored j' o x /\ ~ (o = u_origin u /\ key x = key c).
  Proof.
    intros Hs Hc Hz Hb. destruct clock as [n1 n2], clock' as [n3 n4].
    apply store_cases in Hs as [(_ & H & _)|(b & Hst & -> & _)]; [done|].
    assert (exists st, parse_set_cookie u h = Some st /\ refused u st = false /\ key (pc st) = key c) as (st & Hp & Hr & Hk).
    { cbn [CookieModel.store_all] in Hst. destruct (store_one _ _ _ _ _) as [b1| |] eqn:E; cbn [rbind] in Hst; try done. injection Hst as ->.
      cbn [entries new_jar] in E. rewrite lookup_empty in E. cbn [default] in E. apply stored_insert in Hc as [[_ Hc]|[? _]]; [|done].
      apply store_one_cases in E as [->|(hs & st & [= <-] & Hp & Hr & Hcs)]; [by apply elem_of_nil in Hc|].
      exists st. split; [done|]. split; [done|]. destruct Hcs as [(ma & _ & _ & ->)|(e & _ & _ & _ & ->)].
      - by apply elem_of_nil in Hc.
      - simpl in Hc. apply elem_of_list_singleton in Hc as ->. done. }
    assert (imin <= z <= imax)%Z as Hz' by (unfold imax; lia).
    pose proof (parse_max_age u h st z Hz' Hp) as Hpz.
    set (b' := filter (fun x => same_key x (pc st) = false) (default [] (entries j' !! u_origin u))).
    exists (mk_jar (<[u_origin u := b']> (entries j')) (jar_policy j')). split.
    - unfold store_response_cookies. destruct (is_third_party u top && bool_decide (jar_policy j' = Block)) eqn:E.
      { apply andb_true_iff in E as [E1 E2]. apply bool_decide_eq_true in E2. by destruct (Hb E1). }
      cbn [CookieModel.store_all]. unfold CookieModel.store_one. rewrite Hpz, refused_max_age, Hr.
      cbn [p_max_age with_max_age]. rewrite (proj2 (Z.leb_le z 0)) by lia. cbn [rbind]. done.
    - intros o x. rewrite stored_insert. unfold b'. rewrite elem_of_list_filter, stored_default, same_key_false, Hk.
      destruct j' as [m p]. simpl. clear. destruct (decide (u_origin u = o)) as [<-|Hne].
      + split; [intros [(_ & H1 & H2)|[H _]]; [|done]; split; [done|]; by intros [_ H]|]. intros [H1 H2]. left. split; [done|]. split; [|done]. intros H. by apply H2.
      + split; [intros [(H & _)|[_ H]]; [done|]; split; [done|]; by intros [H1 _]|]. intros [H1 _]. by right.
  Qed.

  (** ** Purging *)
  Lemma unexpired_later now now' c : (now <= now')%Z -> unexpired now c = false -> unexpired now' c = false.
  Proof. unfold unexpired. destruct (c_expires c); [|done]. rewrite !Z.ltb_ge. lia. Qed.
  Lemma keep_unobservable pol order u top ctx now now' : (now <= now')%Z ->
    get pol (keep (unexpired now) order) u top ctx now' = get pol order u top ctx now'.
  Proof.
    intros Hle. apply get_keep. intros oc _ H _. unfold selected. by rewrite (unexpired_later now now' oc.2 Hle H).
  Qed.
  Lemma get_skip_empty pol order u top ctx now :
    get pol (filter (fun b => b.2 <> []) order) u top ctx now = get pol order u top ctx now.
  Proof.
    unfold get_request_cookies, CookieModel.matching. 
    assert (flat_map (fun b : str * list cookie => map (pair b.1) b.2) (filter (fun b => b.2 <> []) order) =
      flat_map (fun b => map (pair b.1) b.2) order) as ->; [|done].
    induction order as [|[o b] order IH]; [done|]. rewrite filter_cons. case_decide as H; simpl in *; rewrite IH; [done|].
    destruct b; [done|discriminate H].
  Qed.
  Lemma purge_enum order j now : enumerates order j ->
    enumerates (filter (fun b => b.2 <> []) (keep (unexpired now) order)) (purge_expired j now).
  Proof.
    unfold enumerates. intros H.
    assert (filter (fun b => b.2 <> []) (keep (unexpired now) order) ≡ₚ filter (fun b => b.2 <> []) (keep (unexpired now) (map_to_list (entries j)))) as ->.
    { apply filter_Permutation. unfold keep. by rewrite H. }
    apply NoDup_Permutation.
    - apply NoDup_fmap_1 with (f := fst). pose proof (NoDup_fst_map_to_list (entries j)) as Hn.
      assert (fst <$> keep (unexpired now) (map_to_list (entries j)) = fst <$> map_to_list (entries j)) as E.
      { unfold keep. rewrite <- list_fmap_compose. apply list_fmap_ext. by intros ? []. }
      rewrite <- E in Hn. by apply filter_map_NoDup.
    - apply NoDup_map_to_list.
    - intros [o b]. rewrite elem_of_list_filter, elem_of_map_to_list. unfold keep, purge_expired. simpl. rewrite lookup_omap.
      rewrite elem_of_list_fmap. unfold purge_bucket. split.
      + intros [Hne ([o' b'] & E & Hin)]. injection E as -> ->. apply elem_of_map_to_list in Hin. rewrite Hin. simpl.
        by destruct (filter _ b').
      + intros Hb. destruct (entries j !! o) as [b0|] eqn:E; [|done]. simpl in Hb.
        destruct (filter _ b0) as [|y r] eqn:Ef; [done|]. injection Hb as <-. split; [done|]. exists (o, b0).
        simpl. rewrite Ef. split; [done|]. by apply elem_of_map_to_list.
  Qed.
  Lemma purge_unobservable_inv j now order' : enumerates order' (purge_expired j now) ->
    exists order, enumerates order j /\
      forall now' pol u top ctx, (now <= now')%Z -> get pol order' u top ctx now' = get pol order u top ctx now'.
  Proof.
    intros H.
    set (live := map (fun b => (b.1, default [] (entries j !! b.1))) order').
    set (dead := filter (fun b : str * list cookie => purge_bucket now b.2 = None) (map_to_list (entries j))).
    assert (forall o b, (o, b) ∈ order' -> exists b0, entries j !! o = Some b0 /\ purge_bucket now b0 = Some b) as Hin.
    { intros o b Hb. rewrite H, elem_of_map_to_list in Hb. unfold purge_expired in Hb. simpl in Hb. rewrite lookup_omap in Hb.
      destruct (entries j !! o) as [b0|]; [|done]. by exists b0. }
    assert (NoDup (map fst order')) as Hnd.
    { rewrite H. apply (NoDup_fst_map_to_list (purge_expired j now).(entries)). }
    exists (live ++ dead). split.
    - unfold enumerates. apply NoDup_Permutation.
      + apply NoDup_fmap_1 with (f := fst). rewrite fmap_app. apply NoDup_app. split; [|split].
        * unfold live. rewrite <- list_fmap_compose. exact Hnd.
        * intros o Ho1 Ho2. apply elem_of_list_fmap in Ho1 as ([o1 b1] & -> & Hb1). apply elem_of_list_fmap in Hb1 as ([o2 b2] & E & Hb2).
          injection E as -> ->. apply elem_of_list_fmap in Ho2 as ([o3 b3] & E3 & Hb3). simpl in E3. subst o3.
          apply elem_of_list_filter in Hb3 as [Hn Hb3]. apply elem_of_map_to_list in Hb3. destruct (Hin _ _ Hb2) as (b0 & Hb0 & Hp).
          simpl in *. congruence.
        * unfold dead. apply filter_map_NoDup. apply NoDup_fst_map_to_list.
      + apply NoDup_map_to_list.
      + intros [o b]. rewrite elem_of_app, elem_of_map_to_list. unfold live, dead. rewrite elem_of_list_fmap, elem_of_list_filter, elem_of_map_to_list. split.
        * intros [([o1 b1] & E & Hb1)|[_ Hb]]; [|done]. injection E as -> ->. destruct (Hin _ _ Hb1) as (b0 & Hb0 & _). simpl. by rewrite Hb0.
        * intros Hb. simpl. destruct (purge_bucket now b) as [b'|] eqn:E; [left|by right].
          exists (o, b'). simpl. rewrite Hb. split; [done|]. rewrite H, elem_of_map_to_list. unfold purge_expired. simpl.
          by rewrite lookup_omap, Hb.
    - intros now' pol u top ctx Hle. rewrite <- (keep_unobservable pol (live ++ dead) u top ctx now now' Hle).
      rewrite <- (get_skip_empty pol (keep (unexpired now) (live ++ dead))).
      assert (filter (fun b : str * list cookie => b.2 <> []) (keep (unexpired now) (live ++ dead)) = order') as ->; [|done].
      unfold keep. rewrite map_app, filter_app.
      assert (filter (fun b : str * list cookie => b.2 <> []) (map (fun b : str * list cookie => (b.1, filter (fun c => unexpired now c = true) b.2)) dead) = []) as ->.
      { apply filter_none. intros [o b] Hb. apply elem_of_list_fmap in Hb as ([o1 b1] & E & Hb1). injection E as -> ->.
        apply elem_of_list_filter in Hb1 as [Hn _]. simpl in *. unfold purge_bucket in Hn. destruct (filter _ b1); [naive_solver|done]. }
      rewrite app_nil_r. unfold live. rewrite map_map. clear -Hin. induction order' as [|[o b] l IH]; [done|].
      cbn [map]. destruct (Hin o b) as (b0 & Hb0 & Hp); [by left|]. cbn [fst snd]. rewrite Hb0. simpl. unfold purge_bucket in Hp.
      destruct (filter _ b0) as [|y r] eqn:E; [done|]. injection Hp as <-. rewrite filter_cons, decide_True by done. f_equal.
      apply IH. intros o' b' H'. apply Hin. by right.
  Qed.

  (** ** The header is unambiguous *)
  Lemma split_pieces (l : list str) : forall p, 59%N ∉ p -> Forall (fun q => 59%N ∉ q) l ->
    split 59 (join (txt "; ") (p :: l)) = p :: map (cons 32%N) l.
  Proof.
    induction l as [|q l IH]; intros p Hp HF.
    - by apply split_no_sep.
    - inversion HF as [|? ? Hq HF']; subst.
      change (join (txt "; ") (p :: q :: l)) with (p ++ 59%N :: (32%N :: join (txt "; ") (q :: l))).
      rewrite split_app_sep by done. cbn [map]. f_equal.
      assert (forall t, split 59 (32%N :: t) = match split 59 t with a :: l => (32%N :: a) :: l | [] => [[32%N]] end) as Hs by done.
      rewrite Hs, IH by done. done.
  Qed.
  Lemma server_view_join cs :
    cs <> [] -> Forall (fun c => 59%N ∉ c_name c /\ 61%N ∉ c_name c /\ 59%N ∉ c_value c) cs ->
    server_view (join (txt "; ") (map (fun c => c_name c ++ txt "=" ++ c_value c) cs)) = map (fun c => Some (c_name c, c_value c)) cs.
  Proof.
    intros Hne HF.
    assert (forall c, 59%N ∉ c_name c /\ 61%N ∉ c_name c /\ 59%N ∉ c_value c ->
       59%N ∉ c_name c ++ txt "=" ++ c_value c /\ split_once 61 (c_name c ++ txt "=" ++ c_value c) = Some (c_name c, c_value c)) as Hone.
    { intros c (H1 & H2 & H3). split; [|by apply split_once_app]. rewrite !not_elem_of_app. repeat split; try done. vm_compute. set_solver. }
    destruct cs as [|c cs]; [done|]. inversion HF as [|? ? Hc HF']; subst. cbn [map]. unfold server_view.
    rewrite (split_pieces (map (fun c => c_name c ++ txt "=" ++ c_value c) cs)).
    - f_equal; [by apply Hone|]. rewrite !map_map. clear -HF' Hone. induction HF' as [|x l Hx HF IH]; [done|]. cbn [map]. f_equal; [|exact IH].
      cbn [drop_blank]. by apply Hone.
    - by apply Hone.
    - apply Forall_forall. intros x Hx. apply elem_of_list_fmap in Hx as (y & -> & Hy). apply Hone. rewrite Forall_forall in HF'. by apply HF'.
  Qed.

  Lemma contents_stored order j oc : enumerates order j -> oc ∈ contents order <-> stored j oc.1 oc.2.
  Proof.
    intros H. unfold contents, stored. rewrite elem_of_list_In, in_flat_map. setoid_rewrite <- elem_of_list_In. split.
    - intros ([o b] & Hb & Hoc). apply elem_of_list_fmap in Hoc as (c & -> & Hc). rewrite H in Hb. apply elem_of_map_to_list in Hb. by exists b.
    - intros (b & Hb & Hc). destruct oc as [o c]. simpl in *. exists (o, b). split; [rewrite H; by apply elem_of_map_to_list|].
      apply elem_of_list_fmap. by exists c.
  Qed.

  Lemma unambiguous p ops j order u top ctx now : run (new_jar p) ops = Ok j -> enumerates order j ->
    exists sent, get p order u top ctx now = header_of sent /\
      Forall (fun c => exists o, stored j o c) sent /\
      forall h, get p order u top ctx now = Some h -> server_view h = map (fun c => Some (c_name c, c_value c)) sent.
  Proof.
    intros Hr He. destruct (request_spec p order u top ctx now) as (sent & rest & Hg & Hp & _).
    assert (forall oc, oc ∈ sent -> stored j oc.1 oc.2) as Hst.
    { intros oc Hoc. apply (contents_stored order j oc He). rewrite <- Hp. set_solver. }
    exists (map snd sent). split; [done|]. split.
    { apply Forall_forall. intros c Hc. apply elem_of_list_fmap in Hc as (oc & -> & Hoc). exists oc.1. by apply Hst. }
    intros h Hh. rewrite Hg in Hh. unfold header_of in Hh. destruct (map snd sent) as [|c l] eqn:E; [done|]. apply (inj Some) in Hh. rewrite <- Hh.
    apply server_view_join; [done|]. rewrite <- E. apply Forall_forall. intros x Hx. apply elem_of_list_fmap in Hx as (oc & -> & Hoc).
    apply Hst in Hoc. destruct (provenance _ _ _ _ _ Hr Hoc) as (v & hs & tp & _ & _ & Ha & _).
    destruct (ac_name _ _ _ _ Ha) as (_ & H1 & H2). pose proof (ac_value _ _ _ _ Ha). done.
  Qed.

  (** ** Totality *)
  Lemma attribute_max_age u st part ma : p_max_age (attribute u st part) = Some ma ->
    p_max_age st = Some ma \/
    exists k v, split_once eq_sign part = Some (k, v) /\ lower (trim k) = txt "max-age" /\ parse_isize (trim v) = Some ma.
  Proof.
    unfold CookieModel.attribute. destruct (split_once eq_sign part) as [[k w]|].
    - destruct (eqs _ (txt "path")); [by left|].
      destruct (eqs _ (txt "domain")); [destruct (is_valid_cookie_domain _ _ _ _); by left|].
      destruct (eqs _ (txt "expires")); [by left|].
      destruct (eqs _ (txt "max-age")) eqn:E.
      { intros H. right. exists k, w. by apply eqs_true in E. }
      destruct (eqs _ (txt "samesite")); [by left|].
      destruct (eqs _ (txt "secure")); [by left|].
      destruct (eqs _ (txt "httponly")); by left.
    - destruct (eqs _ (txt "secure")); [by left|].
      destruct (eqs _ (txt "httponly")); by left.
  Qed.
  Lemma attributes_max_age u parts : forall st ma, p_max_age (foldl (attribute u) st parts) = Some ma ->
    p_max_age st = Some ma \/ exists part, part ∈ parts /\
      exists k v, split_once eq_sign part = Some (k, v) /\ lower (trim k) = txt "max-age" /\ parse_isize (trim v) = Some ma.
  Proof.
    induction parts as [|x parts IH]; intros st ma; [by left|]. simpl. intros H. apply IH in H as [H|(y & Hy & H)].
    - apply attribute_max_age in H as [H|H]; [by left|]. right. exists x. split; [by left|done].
    - right. exists y. split; [by right|done].
  Qed.
  Lemma split_prefix c a b : c ∉ a -> split c (a ++ b) = match split c b with p :: l => (a ++ p) :: l | [] => [a] end.
  Proof.
    induction a as [|x a IH]; intros H; cbn [app].
    - pose proof (split_nonempty c b). by destruct (split c b).
    - apply not_elem_of_cons in H as [H1 H2]. cbn [split]. rewrite (proj2 (N.eqb_neq x c)) by congruence. rewrite IH by done.
      pose proof (split_nonempty c b). by destruct (split c b).
  Qed.
  Lemma trim_semi s : semi ∈ s <-> semi ∈ trim s.
  Proof.
    split; [|apply trim_subset].
    assert (forall t, semi ∈ t -> semi ∈ trim_start t) as Hs.
    { intros t Ht. destruct (trim_start_spec t) as (w & Hw & HF). rewrite Hw in Ht. apply elem_of_app in Ht as [Ht|Ht]; [|done].
      rewrite Forall_forall in HF. by apply HF in Ht. }
    intros H. unfold trim. apply Hs in H. apply elem_of_list_In, in_rev. rewrite rev_involutive, <- elem_of_list_In. apply Hs.
    apply elem_of_list_In, in_rev. rewrite rev_involutive. by apply elem_of_list_In.
  Qed.
  Lemma parse_max_age_piece u hs st ma : parse_set_cookie u hs = Some st -> p_max_age st = Some ma -> asks_max_age hs ma.
  Proof.
    unfold CookieModel.parse_set_cookie. destruct (split_once eq_sign hs) as [[name rest]|] eqn:Es; [|done].
    apply split_once_before in Es as [-> Hne].
    destruct (bool_decide (trim name = []) || bool_decide (semi ∈ trim name)) eqn:Er; [done|]. apply orb_false_iff in Er as [_ Er].
    apply bool_decide_eq_false in Er. rewrite <- trim_semi in Er.
    destruct (split semi rest) as [|v0 attrs] eqn:Em; [done|]. cbn [map]. intros [= <-] H.
    set (st1 := foldl _ _ _) in H. assert (p_max_age st1 = Some ma) as H1 by by destruct (c_path (pc st1)).
    apply attributes_max_age in H1 as [H1|(part & Hin & k & v & H1)]; [done|].
    apply elem_of_list_fmap in Hin as (q & -> & Hq). exists q, k, v. split; [|done].
    change (name ++ eq_sign :: rest) with (name ++ [eq_sign] ++ rest). rewrite app_assoc, split_prefix.
    - change 59%N with semi. rewrite Em. by right.
    - apply not_elem_of_app. split; [done|]. by apply not_elem_of_cons; split; [|apply not_elem_of_nil].
  Qed.

  Definition fits (h : option str * (Z * Z)) : Prop :=
    (imin <= h.2.1)%Z /\ forall hs z, h.1 = Some hs -> asks_max_age hs z -> (h.2.1 + z <= imax)%Z.
  Lemma store_one_total pol third u b h : fits h -> exists b', store_one pol third u b h = Ok b'.
  Proof.
    intros [Hn Hf]. destruct h as [[hs|] [now now_ms]]; [|by eexists]. unfold CookieModel.store_one.
    destruct (parse_set_cookie u hs) as [st|] eqn:Ep; [|by eexists]. destruct (refused u st); [by eexists|].
    destruct (p_max_age st) as [ma|] eqn:Em.
    - destruct (Z.leb_spec ma 0); [by eexists|]. unfold add_i64. simpl in *. 
      rewrite in_isize_true by (pose proof (Hf hs ma eq_refl (parse_max_age_piece _ _ _ _ Ep Em)); lia). simpl.
      destruct (_ && _); by eexists.
    - destruct (_ && _); by eexists.
  Qed.
  Lemma store_total j u hs top : Forall fits hs -> exists j', store j u hs top = Ok j'.
  Proof.
    intros HF. unfold store_response_cookies. destruct (_ && _); [by eexists|].
    assert (forall b, exists b', store_all (jar_policy j) (is_third_party u top) u b hs = Ok b') as H.
    { induction HF as [|h hs Hh HF IH]; intros b; [by eexists|]. cbn [CookieModel.store_all].
      destruct (store_one_total (jar_policy j) (is_third_party u top) u b h Hh) as [b1 ->]. cbn [rbind]. apply IH. }
    destruct (H (default [] (entries j !! u_origin u))) as [b ->]. by eexists.
  Qed.

  (** ** Reading attributes *)
  Lemma lower_char_space c : is_space (lower_char c) = false -> is_space c = false.
  Proof.
    unfold lower_char. destruct ((65 <=? c)%N && (c <=? 90)%N) eqn:E; [|done]. intros _.
    apply andb_true_iff in E as [E1 E2]. apply N.leb_le in E1, E2. unfold is_space.
    repeat (rewrite orb_false_iff || rewrite andb_false_iff || rewrite N.eqb_neq || rewrite N.leb_gt). lia.
  Qed.
  Lemma lower_plain k x : lower k = x -> Forall (fun c => is_space c = false /\ c <> 61%N /\ c <> 59%N) x ->
    no_outer_space k /\ 61%N ∉ k /\ 59%N ∉ k.
  Proof.
    intros <- HF.
    assert (Forall (fun c => is_space c = false /\ c <> 61%N /\ c <> 59%N) k) as HF'.
    { unfold lower in HF. rewrite Forall_map in HF. eapply Forall_impl; [exact HF|]. simpl. intros c (H1 & H2 & H3).
      split; [by apply lower_char_space|]. split; intros ->; done. }
    split; [|split; intros H; rewrite Forall_forall in HF'; apply HF' in H; tauto].
    split; [destruct HF' as [|? ? [] _]; done|]. destruct (last k) as [c|] eqn:E; [|done]. apply last_Some in E as [l ->].
    apply Forall_app in HF' as [_ HF']. inversion HF'. tauto.
  Qed.
  Ltac plain := repeat constructor; by vm_compute.

  Definition on_cookie (a : attr) : cookie -> cookie :=
    match a with
    | APath p => set_path (Some p) | ADomain d => set_domain (Some (lower d)) | ASameSite s => set_same_site (Some s)
    | ASecure => set_secure | AHttpOnly => set_http_only | AMaxAge _ | AExpires _ => fun c => c
    end.
  Definition upd {A} (x acc : option A) : option A := match x with Some _ => x | None => acc end.
  Lemma valid_domain_conv h d : domain_matches h d -> ~ (psl_domain d = None /\ psl_known d = true) ->
    is_valid_cookie_domain psl_domain psl_known h d = true.
  Proof.
    intros Hm Hn. unfold is_valid_cookie_domain.
    assert (negb (eqs (lower h) (lower d)) && negb (ends_with (lower h) (dot :: lower d)) = false) as ->.
    { apply andb_false_iff. rewrite !negb_false_iff, eqs_true, ends_with_spec. exact Hm. }
    destruct (bool_decide (psl_domain d = None) && psl_known d) eqn:E; [|done].
    apply andb_true_iff in E as [E1 E2]. apply bool_decide_eq_true in E1. by destruct Hn.
  Qed.
  Lemma trim_start_char_id c s : head s <> Some c -> trim_start_char c s = s.
  Proof. destruct s as [|x s]; [done|]. simpl. intros H. rewrite (proj2 (N.eqb_neq x c)); [done|]. congruence. Qed.
  Lemma trim_matches_id c s : head s <> Some c -> last s <> Some c -> trim_matches c s = s.
  Proof.
    intros H1 H2. unfold trim_matches. rewrite (trim_start_char_id c s) by done. rewrite trim_start_char_id; [apply rev_involutive|].
    rewrite <- reverse_rev || idtac. destruct s as [|x s] using rev_ind; [done|]. rewrite rev_app_distr. simpl. rewrite last_snoc in H2. done.
  Qed.
  Lemma written_attribute u st t a : written t a -> (forall d, a = ADomain d -> may_name psl_domain psl_known u (lower d)) ->
    attribute u st t = mk_parsing (on_cookie a (pc st)) (upd (get_max_age a) (p_max_age st)) (upd (get_expires a) (p_expires st)) (p_rejected st).
  Proof.
    destruct st as [c m e r]. intros Hw Hd. cbn [pc p_max_age p_expires p_rejected].
    assert (forall k v x, lower k = x -> Forall (fun c => is_space c = false /\ c <> 61%N /\ c <> 59%N) x ->
      split_once eq_sign (k ++ txt "=" ++ v) = Some (k, v) /\ lower (trim k) = x) as Hso.
    { intros k v x Hk HF. destruct (lower_plain k x Hk HF) as (H1 & H2 & _). split; [by apply split_once_app|]. by rewrite trim_id. }
    assert (forall k d, lower k = txt "domain" -> head d <> Some 46%N -> tidy d -> may_name psl_domain psl_known u (lower d) ->
      forall v, trim v = v -> lower (trim_start_char dot v) = lower d ->
      attribute u (mk_parsing c m e r) (k ++ txt "=" ++ v) = mk_parsing (set_domain (Some (lower d)) c) m e r) as Hdom.
    { intros k d Hk Hh Ht [Ha Hb] v Hv Hl. unfold CookieModel.attribute.
      destruct (Hso k v _ Hk) as [-> E]; [plain|]. cbv zeta. rewrite E.
      change (eqs (txt "domain") (txt "path")) with false. change (eqs (txt "domain") (txt "domain")) with true. cbn iota.
      rewrite Hv, Hl, valid_domain_conv by done. done. }
    destruct Hw as [k p Hk Hp1 Hp2 Hp3 Ht|k d Hk Hp1 Hp2 Ht|k d Hk Hne Hp1 Hp2 Ht|k z Hk Hz|k d Hk Hp2 Ht|k v s Hk Hs Hv|t Ht|t Ht].
    - unfold CookieModel.attribute. destruct (Hso k p _ Hk) as [-> E]; [plain|]. cbv zeta. rewrite E.
      change (eqs (txt "path") (txt "path")) with true. cbn iota. rewrite (trim_id p Ht).
      assert (head p <> Some quote) by (rewrite Hp1; done). rewrite trim_matches_id by done.
      destruct p as [|x p]; [done|]. injection Hp1 as ->. done.
    - apply Hdom with (d := d); try done; [by apply Hd|by apply trim_id|by rewrite trim_start_char_id].
    - change (k ++ txt "=." ++ d) with (k ++ txt "=" ++ (txt "." ++ d)). apply Hdom with (d := d); try done; [by apply Hd| |].
      + apply trim_id. destruct Ht as [_ Ht]. split; [done|]. destruct d as [|x d]; [done|]. exact Ht.
      + change (trim_start_char dot (txt "." ++ d)) with (trim_start_char dot d). by rewrite trim_start_char_id.
    - unfold CookieModel.attribute. destruct (Hso k (show_Z z) _ Hk) as [-> E]; [plain|]. cbv zeta. rewrite E.
      change (eqs (txt "max-age") (txt "path")) with false. change (eqs (txt "max-age") (txt "domain")) with false.
      change (eqs (txt "max-age") (txt "expires")) with false. change (eqs (txt "max-age") (txt "max-age")) with true. cbn iota.
      rewrite trim_id; [by rewrite parse_show_Z|]. destruct (show_Z_chars z) as [HF Hn]. by destruct (num_good _ HF Hn) as (_ & _ & ?).
    - unfold CookieModel.attribute. destruct (Hso k d _ Hk) as [-> E]; [plain|]. cbv zeta. rewrite E.
      change (eqs (txt "expires") (txt "path")) with false. change (eqs (txt "expires") (txt "domain")) with false.
      change (eqs (txt "expires") (txt "expires")) with true. done.
    - unfold CookieModel.attribute. destruct (Hso k v _ Hk) as [-> E]; [plain|]. cbv zeta. rewrite E.
      change (eqs (txt "samesite") (txt "path")) with false. change (eqs (txt "samesite") (txt "domain")) with false.
      change (eqs (txt "samesite") (txt "expires")) with false. change (eqs (txt "samesite") (txt "max-age")) with false.
      change (eqs (txt "samesite") (txt "samesite")) with true. cbn iota. unfold with_cookie. cbn [pc p_max_age p_expires p_rejected on_cookie].
      assert (canon_same_site (trim v) = s) as ->; [|done].
      rewrite trim_id.
      2:{ apply (lower_plain v (lower s)); [done|]. rewrite !elem_of_cons in Hs. destruct Hs as [->|[->|[->|Hs]]]; [plain..|]. by apply elem_of_nil in Hs. }
      unfold canon_same_site. rewrite Hv. rewrite !elem_of_cons in Hs. destruct Hs as [->|[->|[->|Hs]]]; [by vm_compute..|]. by apply elem_of_nil in Hs.
    - assert (61%N ∉ t) as Hn by (apply (lower_plain t _ Ht); plain).
      unfold CookieModel.attribute. rewrite split_once_none by done. rewrite Ht. done.
    - assert (61%N ∉ t) as Hn by (apply (lower_plain t _ Ht); plain).
      unfold CookieModel.attribute. rewrite split_once_none by done. rewrite Ht. done.
  Qed.

  Lemma written_tidy t a : written t a -> tidy t /\ 59%N ∉ t.
  Proof.
    assert (forall k v x, lower k = x -> x <> [] -> Forall (fun c => is_space c = false /\ c <> 61%N /\ c <> 59%N) x ->
      59%N ∉ v -> match last v with Some c => is_space c = false | None => True end ->
      tidy (k ++ txt "=" ++ v) /\ 59%N ∉ k ++ txt "=" ++ v) as Hg.
    { intros k v x Hk Hx HF Hs Hl. destruct (lower_plain k x Hk HF) as ([H1 _] & H2 & H3). split.
      - split; [destruct k; [by subst x|exact H1]|]. destruct v as [|y v] using rev_ind.
        + change (txt "=" ++ []) with [61%N]. by rewrite last_snoc.
        + rewrite app_assoc, app_assoc, last_snoc. by rewrite last_snoc in Hl.
      - rewrite !not_elem_of_app. split; [done|]. split; [|done]. vm_compute. set_solver. }
    intros Hw. destruct Hw as [k p Hk Hp1 Hp2 Hp3 Ht|k d Hk Hp1 Hp2 Ht|k d Hk Hne Hp1 Hp2 Ht|k z Hk Hz|k d Hk Hp2 Ht|k v s Hk Hs Hv|t Ht|t Ht].
    - eapply Hg; [exact Hk|done|plain|done|apply Ht].
    - eapply Hg; [exact Hk|done|plain|done|apply Ht].
    - change (k ++ txt "=." ++ d) with (k ++ txt "=" ++ (txt "." ++ d)). eapply Hg; [exact Hk|done|plain| |].
      + apply not_elem_of_app. split; [vm_compute; set_solver|done].
      + destruct d; [done|]. apply Ht.
    - destruct (show_Z_chars z) as [HF Hn]. eapply Hg; [exact Hk|done|plain| |].
      + intros H. rewrite Forall_forall in HF. apply HF in H as [H|H]; [|done]. unfold is_digit in H. lia.
      + destruct (num_good _ HF Hn) as (_ & _ & _ & ?). done.
    - eapply Hg; [exact Hk|done|plain|done|apply Ht].
    - destruct (lower_plain v (lower s) Hv) as ([_ H1] & _ & H2).
      { rewrite !elem_of_cons in Hs. destruct Hs as [->|[->|[->|Hs]]]; [plain..|]. by apply elem_of_nil in Hs. }
      eapply Hg; [exact Hk|done|plain|done|done].
    - destruct (lower_plain t _ Ht) as (H1 & _ & H2); [plain|]. done.
    - destruct (lower_plain t _ Ht) as (H1 & _ & H2); [plain|]. done.
  Qed.

  Lemma pieces v ts : 59%N ∉ v -> tidy v -> Forall (fun t => tidy t /\ 59%N ∉ t) ts ->
    map trim (split semi (v ++ flat_map (fun t => txt "; " ++ t) ts)) = v :: ts.
  Proof.
    intros Hs Ht HF. revert v Hs Ht. induction HF as [|t ts [Ht1 Ht2] HF IH]; intros v Hs Ht.
    - cbn [flat_map]. rewrite app_nil_r, split_no_sep by done. cbn [map]. by rewrite trim_id.
    - cbn [flat_map]. rewrite <- app_assoc.
      change (v ++ txt "; " ++ t ++ flat_map (fun t => txt "; " ++ t) ts) with (v ++ semi :: ([32%N] ++ (t ++ flat_map (fun t => txt "; " ++ t) ts))).
      rewrite split_app_sep by done. cbn [map]. rewrite trim_id by done. f_equal.
      rewrite split_prefix by (vm_compute; set_solver).
      specialize (IH t Ht2 Ht1). destruct (split semi (t ++ flat_map (fun t => txt "; " ++ t) ts)) as [|q l]; [done|].
      cbn [map] in IH |- *. rewrite <- IH. done.
  Qed.

  Lemma fold_written u ts l st : Forall2 written ts l -> (forall d, ADomain d ∈ l -> may_name psl_domain psl_known u (lower d)) ->
    foldl (attribute u) st ts =
      mk_parsing (foldl (fun c a => on_cookie a c) (pc st) l) (foldl (fun acc a => upd (get_max_age a) acc) (p_max_age st) l)
        (foldl (fun acc a => upd (get_expires a) acc) (p_expires st) l) (p_rejected st).
  Proof.
    intros HF. revert st. induction HF as [|t a ts l Hw HF IH]; intros st Hd; [by destruct st|]. cbn [foldl].
    rewrite (written_attribute u st t a Hw) by (intros d ->; apply Hd; by left).
    rewrite IH by (intros d H; apply Hd; by right). done.
  Qed.
  Lemma fold_upd {A} (f : attr -> option A) l : forall acc,
    foldl (fun acc a => upd (f a) acc) acc l = upd (last_of f l) acc.
  Proof.
    unfold last_of.
    assert (forall acc, foldl (fun acc a => upd (f a) acc) acc l = upd (foldl (fun acc a => match f a with Some x => Some x | None => acc end) None l) acc) as H; [|done].
    induction l as [|a l IH] using rev_ind; intros acc; [done|]. rewrite !foldl_app. cbn [foldl]. rewrite IH.
    unfold upd. by destruct (f a).
  Qed.
  Lemma last_of_snoc {A} (f : attr -> option A) l a : last_of f (l ++ [a]) = upd (f a) (last_of f l).
  Proof. unfold last_of, upd. rewrite foldl_app. cbn [foldl]. by destruct (f a). Qed.
  Lemma fold_cookie n v l : let c := foldl (fun c a => on_cookie a c) (mk_cookie n v None None false None None false 0) l in
    c_name c = n /\ c_value c = v /\ c_path c = last_of get_path l /\ c_domain c = last_of get_domain l /\
    (c_secure c = true <-> ASecure ∈ l) /\ (c_http_only c = true <-> AHttpOnly ∈ l) /\ c_same_site c = last_of get_same_site l.
  Proof.
    cbv zeta. induction l as [|a l (H1 & H2 & H3 & H4 & H5 & H6 & H7)] using rev_ind.
    - cbn. repeat split; try done; intros H; by apply elem_of_nil in H.
    - rewrite foldl_app. cbn [foldl]. set (c := foldl _ _ l) in *. rewrite !last_of_snoc, !elem_of_app, !elem_of_list_singleton.
      destruct a; simpl; unfold upd; simpl; rewrite ?H1, ?H2, ?H3, ?H4, ?H5, ?H6, ?H7;
        (repeat split; try done; try naive_solver).
  Qed.

  Lemma default_path_directory u : directory (u_path u) (default_path u).
  Proof.
    unfold default_path, rsplit_once, directory. destruct (split_once slash (rev (u_path u))) as [[a b]|] eqn:E.
    - apply split_once_before in E as [E Hn]. left. exists (rev b), (rev a).
      split; [rewrite <- (rev_involutive (u_path u)), E, rev_app_distr; simpl; by rewrite <- app_assoc|].
      split; [intros H; apply Hn; by apply elem_of_list_In, in_rev, elem_of_list_In in H|]. done.
    - right. split; [|done]. intros H. apply split_once_none_iff in E. apply E.
      apply elem_of_list_In, in_rev. rewrite rev_involutive. by apply elem_of_list_In.
  Qed.

  Lemma parse_header u n v ts l : n <> [] -> tidy n -> 59%N ∉ n -> 61%N ∉ n -> tidy v -> 59%N ∉ v ->
    Forall2 written ts l -> (forall d, ADomain d ∈ l -> may_name psl_domain psl_known u (lower d)) ->
    exists st, parse_set_cookie u (header_text n v ts) = Some st /\ describes u n v l (pc st) /\
      p_max_age st = last_of get_max_age l /\ p_expires st = last_of get_expires l /\ p_rejected st = false.
  Proof.
    intros Hn1 Hn2 Hn3 Hn4 Hv1 Hv2 HF Hd.
    unfold CookieModel.parse_set_cookie, header_text. change (n ++ txt "=" ++ ?x) with (n ++ eq_sign :: x).
    rewrite split_once_app, (trim_id n) by done. rewrite !bool_decide_eq_false_2 by done. cbn [orb].
    rewrite pieces; [|done|done|].
    2:{ clear -HF psl_domain psl_known http_date. induction HF as [|t a ts l Hw HF IH]; [apply List.Forall_nil|apply List.Forall_cons; [by eapply written_tidy|done]]. }
    set (st0 := mk_parsing _ None None false). rewrite (fold_written u ts l st0 HF Hd). unfold st0. cbn [pc p_max_age p_expires p_rejected].
    rewrite !fold_upd. set (c := foldl _ _ l).
    pose proof (fold_cookie n v l) as Hc. cbv zeta in Hc. fold c in Hc. destruct Hc as (H1 & H2 & H3 & H4 & H5 & H6 & H7).
    assert (forall A (x : option A), upd x None = x) as Hu by by intros ? [].
    rewrite !Hu. eexists. split; [reflexivity|]. rewrite H3.
    destruct (last_of get_path l) as [p|] eqn:E; simpl.
    - repeat split; try done; try apply H5; try apply H6. by rewrite E.
    - repeat split; try done; try apply H5; try apply H6. rewrite E. exists (default_path u). split; [apply default_path_directory|done].
  Qed.

  Lemma acceptable_not_refused u st : p_rejected st = false -> acceptable u (pc st) -> refused u st = false.
  Proof.
    intros Hr Ha. unfold refused. rewrite Hr. cbn [orb].
    assert (c_secure (pc st) && negb (eqs (u_scheme u) https) = false) as ->.
    { destruct (c_secure (pc st)) eqn:E; [|done]. cbn [andb]. apply negb_false_iff, eqs_true. by apply (ac_secure _ _ _ _ Ha). }
    assert (starts_with (c_name (pc st)) (txt "__Secure-") && negb (c_secure (pc st)) = false) as ->.
    { destruct (starts_with _ _) eqn:E; [|done]. apply starts_with_spec in E. cbn [andb]. by rewrite (ac_secure_prefix _ _ _ _ Ha E). }
    destruct (starts_with _ (txt "__Host-")) eqn:E; [|done]. apply starts_with_spec in E. cbn [andb orb].
    destruct (ac_host_prefix _ _ _ _ Ha E) as (-> & -> & ->). by vm_compute.
  Qed.
  Lemma describes_times u n v l c e t : describes u n v l c -> describes u n v l (set_created t (set_expires e c)).
  Proof. intros [? ? ? ? ? ? ?]. by constructor. Qed.
  Lemma describes_key u n v l c c' : describes u n v l c -> describes u n v l c' -> key c = key c'.
  Proof.
    intros [A1 A2 A3 A4 _ _ _] [B1 B2 B3 B4 _ _ _]. unfold key. rewrite A1, A4, B1, B4. f_equal.
    destruct (last_of get_path l); [by rewrite A3, B3|]. destruct A3 as (p & Hp & ->), B3 as (q & Hq & ->). f_equal.
    destruct Hp as [(a & b & E & Hb & ->)|[Hn ->]], Hq as [(a' & b' & E' & Hb' & ->)|[Hn' ->]]; [|exfalso..|done].
    - rewrite E in E'. assert (a = a') as ->; [|done]. clear -E' Hb Hb'. revert a' E'. induction a as [|x a IH]; intros [|y a']; cbn [app].
      + done.
      + intros H. exfalso. change (txt "/" ++ b) with (47%N :: b) in H. injection H as _ H. apply Hb. rewrite H. apply elem_of_app; right; by left.
      + intros H. exfalso. change (txt "/" ++ b') with (47%N :: b') in H. injection H as _ H. apply Hb'. rewrite <- H. apply elem_of_app; right; by left.
      + intros [= -> H]. f_equal. by apply IH.
    - apply Hn'. rewrite E. set_solver.
    - apply Hn. rewrite E'. set_solver.
  Qed.
  Lemma acceptable_ext u n v l c c' : describes u n v l c -> describes u n v l c' -> acceptable u c -> acceptable u c'.
  Proof.
    intros D D' [X1 X2 X3 X4 X5 X6 X7]. pose proof (describes_key _ _ _ _ _ _ D D') as Hk. unfold key in Hk. injection Hk as K1 K2 K3.
    assert (c_secure c = true <-> c_secure c' = true) as Hs by by rewrite (de_secure _ _ _ _ _ D), (de_secure _ _ _ _ _ D').
    constructor; rewrite <- ?K1, <- ?K2, <- ?K3, <- ?Hs; try done.
    rewrite (de_value _ _ _ _ _ D'), <- (de_value _ _ _ _ _ D). done.
  Qed.
  Lemma not_blocked pol u top c : policy_accepts psl_domain pol u top c -> is_third_party u top && bool_decide (pol = Block) = false.
  Proof.
    intros H. destruct (is_third_party u top) eqn:E; [|done]. apply third_party_spec, H in E. by destruct pol.
  Qed.

  Lemma header_sets j u n v ts l c now now_ms top :
    n <> [] -> tidy n -> 59%N ∉ n -> 61%N ∉ n -> tidy v -> 59%N ∉ v ->
    Forall2 written ts l -> (forall d, ADomain d ∈ l -> may_name psl_domain psl_known u (lower d)) ->
    describes u n v l c -> acceptable u c -> policy_accepts psl_domain (jar_policy j) u top c ->
    (forall z, last_of get_max_age l = Some z -> (0 < z)%Z /\ (imin <= now + z <= imax)%Z) ->
    exists b' c', store j u [(Some (header_text n v ts), (now, now_ms))] top = Ok (mk_jar (<[u_origin u := b']> (entries j)) (jar_policy j)) /\
      describes u n v l c' /\ c_expires c' = expiry http_date now l /\
      put_cookie (default [] (entries j !! u_origin u)) b' c' now_ms.
  Proof.
    intros Hn1 Hn2 Hn3 Hn4 Hv1 Hv2 HF Hd Hc Ha Hp Hm.
    destruct (parse_header u n v ts l Hn1 Hn2 Hn3 Hn4 Hv1 Hv2 HF Hd) as (st & Ep & Hst & E1 & E2 & E3).
    set (b := default [] (entries j !! u_origin u)). set (e := expiry http_date now l).
    set (c2 := set_expires e (pc st)).
    assert (refused u st = false) as Er by (apply acceptable_not_refused; [done|]; exact (acceptable_ext _ _ _ _ _ _ Hc Hst Ha)).
    assert (none_and_secure c2 = true \/ is_third_party u top && bool_decide (jar_policy j = SameSiteNoneOnly) = false) as Hns.
    { destruct (is_third_party u top) eqn:Et; [|by right]. destruct (jar_policy j) eqn:Ej; [by right|by right|left].
      apply third_party_spec in Et. unfold policy_accepts in Hp. specialize (Hp Et) as [P1 P2].
      apply none_secure_spec. split; simpl.
      - rewrite (de_same_site _ _ _ _ _ Hst), <- (de_same_site _ _ _ _ _ Hc). done.
      - apply (de_secure _ _ _ _ _ Hst), (de_secure _ _ _ _ _ Hc). done. }
    assert (store_one (jar_policy j) (is_third_party u top) u b (Some (header_text n v ts), (now, now_ms)) = Ok (upsert c2 now_ms b)) as Hs.
    { unfold CookieModel.store_one. rewrite Ep, Er, E1. cbv zeta.
      assert ((if is_third_party u top && bool_decide (jar_policy j = SameSiteNoneOnly) && negb (none_and_secure c2)
        then Ok b else Ok (upsert c2 now_ms b)) = Ok (upsert c2 now_ms b)) as Hfin.
      { destruct Hns as [-> | ->]; [by rewrite andb_false_r|done]. }
      unfold c2, e, expiry in *. destruct (last_of get_max_age l) as [z|] eqn:Ez.
      - destruct (Hm z eq_refl) as [Z1 Z2]. rewrite (proj2 (Z.leb_gt z 0)) by done. unfold add_i64. rewrite in_isize_true by done.
        cbn [rbind]. exact Hfin.
      - rewrite E2. exact Hfin. }
    exists (upsert c2 now_ms b).
    eexists. split; [|split; [|split]].
    - unfold store_response_cookies. rewrite (not_blocked _ _ _ _ Hp). cbn [CookieModel.store_all]. fold b. rewrite Hs. done.
    - apply describes_times. exact Hst.
    - done.
    - apply upsert_put.
  Qed.

  Lemma header_deletes j u n v ts l c now now_ms top z :
    n <> [] -> tidy n -> 59%N ∉ n -> 61%N ∉ n -> tidy v -> 59%N ∉ v ->
    Forall2 written ts l -> (forall d, ADomain d ∈ l -> may_name psl_domain psl_known u (lower d)) ->
    describes u n v l c -> acceptable u c -> policy_accepts psl_domain (jar_policy j) u top c ->
    last_of get_max_age l = Some z -> (z <= 0)%Z ->
    exists j', store j u [(Some (header_text n v ts), (now, now_ms))] top = Ok j' /\
      forall o x, stored j' o x <-> stored j o x /\ ~ (o = u_origin u /\ key x = key c).
  Proof.
    intros Hn1 Hn2 Hn3 Hn4 Hv1 Hv2 HF Hd Hc Ha Hp Hm Hz.
    destruct (parse_header u n v ts l Hn1 Hn2 Hn3 Hn4 Hv1 Hv2 HF Hd) as (st & Ep & Hst & E1 & E2 & E3).
    assert (refused u st = false) as Er by (apply acceptable_not_refused; [done|]; exact (acceptable_ext _ _ _ _ _ _ Hc Hst Ha)).
    eexists. split.
    - unfold store_response_cookies. rewrite (not_blocked _ _ _ _ Hp). cbn [CookieModel.store_all]. unfold CookieModel.store_one.
      rewrite Ep, Er, E1, Hm. rewrite (proj2 (Z.leb_le z 0)) by lia. cbn [rbind]. done.
    - intros o x. rewrite stored_insert, elem_of_list_filter, stored_default, same_key_false, (describes_key _ _ _ _ _ _ Hst Hc).
      destruct j as [m p]. simpl. clear. destruct (decide (u_origin u = o)) as [<-|Hne].
      + split; [intros [(_ & H1 & H2)|[H _]]; [|done]; split; [done|]; by intros [_ H]|]. intros [H1 H2]. left. split; [done|]. split; [|done]. intros H. by apply H2.
      + split; [intros [(H & _)|[_ H]]; [done|]; split; [done|]; by intros [H1 _]|]. intros [H1 _]. by right.
  Qed.

  (** a cookie stored already expired acts as a deletion *)
  Lemma put_expired j u b' c now now_ms p : unique j ->
    put_cookie (default [] (entries j !! u_origin u)) b' c now_ms -> unexpired now c = false ->
    forall o x, stored (purge_expired (mk_jar (<[u_origin u := b']> (entries j)) p) now) o x <->
      stored (purge_expired j now) o x /\ ~ (o = u_origin u /\ key x = key c).
  Proof.
    intros Hu Hput He o x. rewrite !purge_stored, stored_insert. destruct j as [m pj]. simpl in *.
    destruct (decide (u_origin u = o)) as [<-|Hne].
    2:{ split; [intros [[[H _]|[_ H]] H2]; [done|]|].
        - split; [done|]. by intros [H3 _].
        - intros [[H1 H2] _]. split; [by right|done]. }
    change (m !! u_origin u) with (entries (mk_jar m pj) !! u_origin u) in Hput.
    assert (forall x, stored (mk_jar m p) (u_origin u) x <-> x ∈ default [] (entries (mk_jar m pj) !! u_origin u)) as Hsd.
    { intros y. rewrite stored_default. done. }
    assert (stored (mk_jar m pj) (u_origin u) x <-> x ∈ default [] (entries (mk_jar m pj) !! u_origin u)) as Hsd' by by rewrite stored_default.
    rewrite Hsd'. clear Hsd Hsd'.
    assert (NoDup (map key (default [] (entries (mk_jar m pj) !! u_origin u)))) as Hnd.
    { destruct (entries (mk_jar m pj) !! u_origin u) eqn:E; simpl; [by eapply Hu|constructor]. }
    set (b := default [] (entries (mk_jar m pj) !! u_origin u)) in *. clearbody b.
    assert (x ∈ b' /\ unexpired now x = true <-> (x ∈ b /\ unexpired now x = true) /\ key x <> key c) as Hmain.
    { destruct Hput as [(H1 & _ & ->)|(l & old & r & -> & Hk & Hl & _ & ->)].
      - rewrite elem_of_app, elem_of_list_singleton. split.
        + intros [[H| ->] H2]; [|congruence]. split; [done|]. intros E. apply H1. rewrite <- E. apply elem_of_list_fmap. by exists x.
        + intros [[H H2] _]. split; [by left|done].
      - rewrite !map_app in Hnd. cbn [map] in Hnd. apply NoDup_app in Hnd as (_ & _ & Hnd). apply NoDup_cons in Hnd as [Hr _].
        rewrite !elem_of_app, !elem_of_cons. split.
        + intros [[H|[->|H]] H2]; [|congruence|].
          * split; [split; [by left|done]|]. intros E. apply Hl. rewrite <- E. apply elem_of_list_fmap. by exists x.
          * split; [split; [by right; right|done]|]. intros E. apply Hr. rewrite Hk, <- E. apply elem_of_list_fmap. by exists x.
        + intros [[[H|[->|H]] H2] H3]; [split; [by left|done]|by destruct H3|split; [by right; right|done]]. }
    split.
    - intros [[[_ H]|[H _]] H2]; [|done]. destruct (proj1 Hmain (conj H H2)) as [H3 H4]. split; [done|]. by intros [_ H5].
    - intros [H1 H2]. destruct (proj2 Hmain) as [H3 H4]; [split; [done|]; intros H; by apply H2|]. split; [by left|done].
  Qed.

  (** ** Insecure origins cannot touch secure cookies *)
  Lemma insecure_store p ops j u hs top j' o c :
    (forall v hs' tp, OStore v hs' tp ∈ ops -> u_origin v = u_origin u -> u_scheme v = u_scheme u) ->
    u_scheme u <> txt "https" -> run (new_jar p) ops = Ok j -> store j u hs top = Ok j' -> c_secure c = true ->
    (stored j' o c <-> stored j o c).
  Proof.
    intros Ho Hs Hr Hst Hc. split.
    - intros H. destruct (store_elem _ _ _ _ _ _ _ Hst H) as [?|(_ & Ha & _)]; [done|]. by destruct (ac_secure _ _ _ _ Ha Hc).
    - intros H. destruct (provenance _ _ _ _ _ Hr H) as (v & hs' & tp & Hin & Hov & Ha & _).
      assert (o <> u_origin u) as Hne.
      { intros ->. pose proof (ac_secure _ _ _ _ Ha Hc) as E. rewrite (Ho _ _ _ Hin Hov) in E. done. }
      apply store_cases in Hst as [(-> & _)|(b & _ & -> & _)]; [done|]. apply stored_insert. right. split; [congruence|]. by destruct j.
  Qed.

  (** ** Sites *)
  (** Coherence of the public suffix list: the registrable domain of a name is that of every
      name below it. *)
  Definition coherent : Prop :=
    forall h d r, domain_matches h d -> psl_domain d = Some r -> psl_domain h = Some r.
  Lemma same_site_cookie p ops j order u ctx now : coherent ->
    run (new_jar p) ops = Ok j -> enumerates order j ->
    exists sent rest, get p order u None ctx now = header_of (map snd sent) /\ sent ++ rest ≡ₚ contents order /\
      Forall (fun oc => exists v hs tp, OStore v hs tp ∈ ops /\ u_origin v = oc.1 /\
        (c_domain oc.2 = None -> u_origin v = u_origin u) /\
        (forall d, c_domain oc.2 = Some d -> is_Some (psl_domain d) -> same_site psl_domain (u_host v) (u_host u) = true)) sent.
  Proof.
    intros Hco Hr He. destruct (request_spec p order u None ctx now) as (sent & rest & Hg & Hp & Hel & _).
    exists sent, rest. split; [done|]. split; [done|]. rewrite Forall_forall in Hel |- *. intros oc Hoc.
    assert (stored j oc.1 oc.2) as Hst by (apply (contents_stored order j oc He); rewrite <- Hp; set_solver).
    destruct (provenance _ _ _ _ _ Hr Hst) as (v & hs & tp & Hin & Ho & Ha & _). exists v, hs, tp.
    pose proof (el_host _ _ _ _ _ _ _ (Hel _ Hoc)) as Hh. split; [done|]. split; [done|]. split.
    - intros Hd. rewrite Hd in Hh. congruence.
    - intros d Hd [r Hpd]. rewrite Hd in Hh. destruct (ac_domain _ _ _ _ Ha d Hd) as [Hm _].
      unfold same_site. rewrite (Hco _ _ _ Hm Hpd), (Hco _ _ _ Hh Hpd). by apply eqs_true.
  Qed.

  Lemma stays_on_site p ops j order u ctx now : coherent ->
    run (new_jar p) ops = Ok j -> enumerates order j ->
    exists sent rest, get p order u None ctx now = header_of (map snd sent) /\ sent ++ rest ≡ₚ contents order /\
      Forall (fun oc => exists v hs tp, OStore v hs tp ∈ ops /\ u_origin v = oc.1 /\
        (c_domain oc.2 = None -> u_origin v = u_origin u) /\
        (forall d, c_domain oc.2 = Some d -> is_Some (psl_domain d) -> ~ cross_site u (Some v))) sent.
  Proof.
    intros H1 H2 H3. destruct (same_site_cookie p ops j order u ctx now H1 H2 H3) as (s & r & A & B & C).
    exists s, r. split; [done|]. split; [done|]. eapply Forall_impl; [exact C|]. cbv beta.
    intros oc (v & hs & tp & X1 & X2 & X3 & X4). exists v, hs, tp. split; [done|]. split; [done|]. split; [done|].
    intros d Hd Hs Hc. specialize (X4 d Hd Hs). apply third_party_spec in Hc. unfold CookieModel.is_third_party in Hc.
    apply negb_true_iff in Hc. unfold same_site in *. destruct (psl_domain (u_host u)), (psl_domain (u_host v)); apply eqs_true in X4; apply eqs_false in Hc; congruence.
  Qed.

  Lemma forget_url j u order top ctx now : enumerates order (remove_cookies_for_url j u) ->
    exists sent, get (jar_policy j) order u top ctx now = header_of (map snd sent) /\
      Forall (fun oc => stored j oc.1 oc.2 /\ oc.1 <> u_origin u /\ c_domain oc.2 <> None) sent.
  Proof.
    intros He. destruct (request_spec (jar_policy j) order u top ctx now) as (sent & rest & Hg & Hp & Hel & _).
    exists sent. split; [done|]. rewrite Forall_forall in Hel |- *. intros oc Hoc.
    assert (stored (remove_cookies_for_url j u) oc.1 oc.2) as Hst by (apply (contents_stored order _ oc He); rewrite <- Hp; set_solver).
    apply remove_url_stored in Hst as [H1 H2]. split; [done|]. split; [done|]. intros Hd.
    pose proof (el_host _ _ _ _ _ _ _ (Hel _ Hoc)) as Hh. by rewrite Hd in Hh.
  Qed.

  Lemma past_date_deletes p ops j u n v ts l c now now_ms top t e :
    run (new_jar p) ops = Ok j ->
    n <> [] -> tidy n -> 59%N ∉ n -> 61%N ∉ n -> tidy v -> 59%N ∉ v ->
    Forall2 written ts l -> (forall d, ADomain d ∈ l -> may_name psl_domain psl_known u (lower d)) ->
    describes u n v l c -> acceptable u c -> policy_accepts psl_domain (jar_policy j) u top c ->
    last_of get_max_age l = None -> last_of get_expires l = Some t -> http_date t = Some e -> (e <= now)%Z ->
    exists j', store j u [(Some (header_text n v ts), (now, now_ms))] top = Ok j' /\
      forall later o x, (now <= later)%Z ->
        stored (purge_expired j' later) o x <->
        stored (purge_expired j later) o x /\ ~ (o = u_origin u /\ key x = key c).
  Proof.
    intros Hr Hn1 Hn2 Hn3 Hn4 Hv1 Hv2 HF Hd Hc Ha Hp Hm Ht Hh He.
    destruct (header_sets j u n v ts l c now now_ms top Hn1 Hn2 Hn3 Hn4 Hv1 Hv2 HF Hd Hc Ha Hp) as (b' & c' & Hs & Hc' & Hx & Hput).
    { intros z Hz. congruence. }
    eexists. split; [exact Hs|]. intros later o x Hl. rewrite (put_expired j u b' c' later now_ms (jar_policy j)).
    - by rewrite (describes_key _ _ _ _ _ _ Hc Hc').
    - exact (run_unique _ _ _ Hr).
    - exact Hput.
    - unfold unexpired. rewrite Hx. unfold expiry. rewrite Hm, Ht, Hh. apply Z.ltb_ge. lia.
  Qed.

  Lemma purge_observations j now :
    (forall order, enumerates order j -> exists order', enumerates order' (purge_expired j now) /\
       forall now' pol u top ctx, (now <= now')%Z -> get pol order' u top ctx now' = get pol order u top ctx now') /\
    (forall order', enumerates order' (purge_expired j now) -> exists order, enumerates order j /\
       forall now' pol u top ctx, (now <= now')%Z -> get pol order' u top ctx now' = get pol order u top ctx now').
  Proof.
    split.
    - intros order H. eexists. split; [by apply purge_enum|]. intros now' pol u top ctx Hle. by rewrite get_skip_empty, keep_unobservable.
    - exact (purge_unobservable_inv j now).
  Qed.
End proofs.
