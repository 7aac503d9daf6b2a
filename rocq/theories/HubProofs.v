(** Decisions, reference registry and reference counts: lemmas. *)
From stdpp Require Import gmap.
From Verif Require Import Base HubModel HubSpec.

Section machine.
  Context {S C E : Type} (step : S -> C -> option (S * list E)).
  Lemma follow_snoc s l c : follow step s (l ++ [c]) =
    ('(s1, e1) ← follow step s l; '(s2, e2) ← step s1 c; Some (s2, e1 ++ e2)).
  Proof.
    revert s. induction l as [|d l IH]; intros s; cbn [follow app].
    - simpl. destruct (step s c) as [[s2 e2]|]; simpl; [|done]. by rewrite app_nil_r.
    - destruct (step s d) as [[s1 e1]|]; simpl; [|done]. rewrite IH.
      destruct (follow step s1 l) as [[s2 e2]|]; simpl; [|done].
      destruct (step s2 c) as [[s3 e3]|]; simpl; [|done]. by rewrite app_assoc.
  Qed.
  Lemma follow_ind s0 (P : list C -> S -> list E -> Prop) : P [] s0 [] ->
    (forall l s h c s' e, follow step s0 l = Some (s, h) -> P l s h -> step s c = Some (s', e) -> P (l ++ [c]) s' (h ++ e)) ->
    forall l s h, follow step s0 l = Some (s, h) -> P l s h.
  Proof.
    intros H0 HS l. induction l as [|c l IH] using rev_ind; intros s h.
    - simpl. by intros [= <- <-].
    - rewrite follow_snoc. destruct (follow step s0 l) as [[s1 e1]|] eqn:E1; simpl; [|done].
      destruct (step s1 c) as [[s2 e2]|] eqn:E2; simpl; [|done]. intros [= <- <-]. by eapply HS; [|apply IH|].
  Qed.
End machine.

Lemma lookup_snoc_old {T} (h : list T) e i x : i < length h -> (h ++ [e]) !! i = Some x <-> h !! i = Some x.
Proof. intros H. by rewrite lookup_app_l. Qed.
Lemma lookup_snoc {T} (h : list T) e i x : (h ++ [e]) !! i = Some x <-> h !! i = Some x \/ (i = length h /\ e = x).
Proof.
  destruct (decide (i < length h)).
  - rewrite lookup_app_l by done. split; [by left|intros [?|[? _]]; [done|lia]].
  - rewrite lookup_app_r by lia. rewrite (lookup_ge_None_2 h) by lia.
    destruct (decide (i = length h)) as [->|]; [rewrite Nat.sub_diag; simpl|rewrite lookup_ge_None_2 by (simpl; lia)].
    + split; [intros [= ->]; by right|intros [?|[_ ->]]; done].
    + split; [done|intros [?|[? _]]; done].
Qed.

(** ** Decisions *)
Section hub.
  Context {A : Type}.
  Implicit Types (h : list (hub_event A)) (s : hub A).

  (** What a record says of a token: whose it is and its first answer. *)
  Definition answer_step (k : N) (o : option (nat * option A)) (e : hub_event A) : option (nat * option A) :=
    match e with
    | Registered k' ch => if bool_decide (k = k') then Some (ch, None) else o
    | Fulfilled k' a => if bool_decide (k = k') then match o with Some (ch, None) => Some (ch, Some a) | o => o end else o
    | Received _ _ => o
    end.
  Definition answer h k : option (nat * option A) := fold_left (answer_step k) h None.
  Lemma answer_snoc h e k : answer (h ++ [e]) k = answer_step k (answer h k) e.
  Proof. unfold answer. by rewrite fold_left_app. Qed.

  Lemma answer_none h k : answer h k = None <-> forall i c, h !! i <> Some (Registered k c).
  Proof.
    induction h as [|e h IH] using rev_ind; [done|]. rewrite answer_snoc. split.
    - intros H i c Hi. apply lookup_snoc in Hi as [Hi|[-> ->]].
      + destruct (answer h k) as [[ch o]|]; [|by destruct (proj1 IH eq_refl i c)].
        destruct e as [k' ?|k' ?|? ?]; simpl in H; try case_bool_decide; try done. by destruct o.
      + simpl in H. by rewrite bool_decide_eq_true_2 in H.
    - intros H. assert (answer h k = None) as ->.
      { apply IH. intros i c Hi. apply (H i c). apply lookup_snoc. by left. }
      destruct e as [k' c|k' ?|? ?]; simpl; try done; case_bool_decide as E; try done. subst k'.
      destruct (H (length h) c). apply lookup_snoc. by right.
  Qed.
  Lemma answer_some h k ch o : answer h k = Some (ch, o) ->
    exists i, h !! i = Some (Registered k ch) /\ (forall j c, i < j -> h !! j <> Some (Registered k c)) /\
      match o with None => forall m a, i < m -> h !! m <> Some (Fulfilled k a) | Some a => exists m, first_answer h k i m a end.
  Proof.
    revert ch o. induction h as [|e h IH] using rev_ind; intros ch o; [done|]. rewrite answer_snoc.
    assert (answer h k = Some (ch, o) ->
      (forall c, e <> Registered k c) -> (o = None -> forall a, e <> Fulfilled k a) ->
      exists i, (h ++ [e]) !! i = Some (Registered k ch) /\ (forall j c, i < j -> (h ++ [e]) !! j <> Some (Registered k c)) /\
      match o with None => forall m a, i < m -> (h ++ [e]) !! m <> Some (Fulfilled k a) | Some a => exists m, first_answer (h ++ [e]) k i m a end) as Old.
    { intros Ho Hc Ha. destruct (IH _ _ Ho) as (i & Hi & Hl & Hm). exists i. split_and!.
      - apply lookup_snoc. by left.
      - intros j c Hj [Hx|[-> ->]]%lookup_snoc; [by eapply Hl|by apply (Hc c)].
      - destruct o as [a|].
        + destruct Hm as (m & Hlt & Hm & Hf). exists m. split_and!; [done|apply lookup_snoc; by left|].
          intros x b Hx [Hb|[-> _]]%lookup_snoc; [by eapply Hf|]. apply lookup_lt_Some in Hm. lia.
        + intros m a Hlt [Hb|[-> ->]]%lookup_snoc; [by eapply Hm|]. by apply (Ha eq_refl a). }
    destruct e as [k' c|k' a|c r]; simpl.
    - case_bool_decide as E.
      + intros [= -> <-]. subst k'. exists (length h). split_and!.
        * apply lookup_snoc. by right.
        * intros j c Hj Hx. apply lookup_lt_Some in Hx. rewrite app_length in Hx. simpl in Hx. lia.
        * intros j c Hj Hx. apply lookup_lt_Some in Hx. rewrite app_length in Hx. simpl in Hx. lia.
      + intros Ho. apply Old; [done| |done]. intros c' [= ]. congruence.
    - case_bool_decide as E.
      + subst k'. destruct (answer h k) as [[ch' [b|]]|] eqn:Eo; [..|done].
        * intros [= <- <-]. by apply Old.
        * intros [= <- <-]. destruct (IH _ _ eq_refl) as (i & Hi & Hl & Hm). exists i. split_and!.
          -- apply lookup_snoc. by left.
          -- intros j c Hj [Hx|[-> Hx]]%lookup_snoc; [by eapply Hl|done].
          -- exists (length h). split_and!; [by eapply lookup_lt_Some|apply lookup_snoc; by right|].
             intros x b Hx [Hb|[-> _]]%lookup_snoc; [by eapply Hm; [|exact Hb]; lia|lia].
      + intros Ho. apply Old; [done..|]. intros _ b [= ]. congruence.
    - intros Ho. by apply Old.
  Qed.

  (** The invariant, for what is known of each token. *)
  Record hub_inv (f : N -> option (nat * option A)) s : Prop := {
    hi_wait : forall k ch, waiters s !! k = Some ch <-> f k = Some (ch, None);
    hi_bound : forall k ch o, f k = Some (ch, o) -> ch < length (chans s);
    hi_inj : forall k k' ch o o', f k = Some (ch, o) -> f k' = Some (ch, o') -> k = k';
    hi_send : forall t ch a, sending s !! t = Some (Some (ch, a)) -> exists k, f k = Some (ch, Some a);
    hi_one : forall t t' ch a a', sending s !! t = Some (Some (ch, a)) -> sending s !! t' = Some (Some (ch, a')) -> t = t';
    hi_chan : forall ch c, chans s !! ch = Some c ->
      match c with
      | Waiting => (exists k, f k = Some (ch, None)) \/ exists k a t, f k = Some (ch, Some a) /\ sending s !! t = Some (Some (ch, a))
      | Sent a => exists k, f k = Some (ch, Some a)
      | Closed => False
      | Taken _ | Dropped => True
      end }.
  Lemma hub_inv_ext f g s : (forall k, f k = g k) -> hub_inv f s -> hub_inv g s.
  Proof.
    intros E [H1 H2 H3 H4 H5 H6]. split.
    - intros. rewrite <-E. apply H1.
    - intros *. rewrite <-E. apply H2.
    - intros *. rewrite <-!E. apply H3.
    - intros t ch a Ht. destruct (H4 t ch a Ht) as [k Hk]. exists k. by rewrite <-E.
    - exact H5.
    - intros ch c Hc. specialize (H6 ch c Hc). destruct c; try done.
      + destruct H6 as [[k Hk]|(k & a & t & Hk & Ht)]; [left; exists k; by rewrite <-E|].
        right. exists k, a, t. by rewrite <-E.
      + destruct H6 as [k Hk]. exists k. by rewrite <-E.
  Qed.

  Lemma fresh_prefix h e : fresh_tokens (h ++ e) -> fresh_tokens h.
  Proof. intros H i j k c d Hi Hj. eapply H; by apply lookup_app_l_Some. Qed.
  Lemma fresh_new h k ch : fresh_tokens (h ++ [Registered k ch]) -> answer h k = None.
  Proof.
    intros H. apply answer_none. intros i c Hi. assert (i = length h) as ->.
    { eapply (H i (length h) k); apply lookup_snoc; [by left|by right]. }
    apply lookup_lt_Some in Hi. lia.
  Qed.

  Lemma hub_inv_register f g s k : hub_inv f s -> f k = None ->
    (forall k', g k' = if bool_decide (k' = k) then Some (length (chans s), None) else f k') ->
    hub_inv g (mk_hub (<[k := length (chans s)]> (waiters s)) (chans s ++ [Waiting]) (sending s)).
  Proof.
    intros Hs Hk G.
    assert (forall k' x, g k' = Some x <-> (k' = k /\ x = (length (chans s), None)) \/ f k' = Some x) as An.
    { intros k' x. rewrite G. case_bool_decide as E.
      - subst k'. split; [intros [= <-]; by left|intros [[_ ->]|H]; [done|congruence]].
      - split; [by right|intros [[? _]|?]; done]. }
    split; cbn [waiters chans sending].
    - intros k' ch. rewrite An. destruct (decide (k' = k)) as [->|Hne].
      + rewrite lookup_insert. split; [intros [= <-]; by left|intros [[_ [= ->]]|H]; [done|congruence]].
      + rewrite lookup_insert_ne by done. rewrite (hi_wait _ _ Hs). split; [by right|intros [[? _]|?]; done].
    - intros k' ch o [[-> [= -> ->]]|H]%An; rewrite app_length; simpl; [lia|]. apply (hi_bound _ _ Hs) in H. lia.
    - intros k1 k2 ch o o' [[-> [= -> ->]]|H1]%An [[-> H]|H2]%An; [done|..].
      + apply (hi_bound _ _ Hs) in H2. lia.
      + injection H as -> ->. apply (hi_bound _ _ Hs) in H1. lia.
      + by eapply (hi_inj _ _ Hs).
    - intros t ch a H. destruct (hi_send _ _ Hs t ch a H) as [k' Hk']. exists k'. apply An. by right.
    - apply (hi_one _ _ Hs).
    - intros ch c [H|[-> <-]]%lookup_snoc; [|left; exists k; apply An; by left].
      pose proof (hi_chan _ _ Hs ch c H) as Hc. destruct c; try done.
      + destruct Hc as [[k' Hk']|(k' & b & t & Hk' & Ht)]; [left; exists k'; apply An; by right|].
        right. exists k', b, t. split; [apply An; by right|done].
      + destruct Hc as [k' Hk']. exists k'. apply An. by right.
  Qed.
  Lemma hub_inv_fulfill f g s t k ch a : hub_inv f s -> sending s !! t = Some None -> waiters s !! k = Some ch ->
    (forall k', g k' = if bool_decide (k' = k) then Some (ch, Some a) else f k') ->
    hub_inv g (mk_hub (delete k (waiters s)) (chans s) (<[t := Some (ch, a)]> (sending s))).
  Proof.
    intros Hs Et Ek G. pose proof (proj1 (hi_wait _ _ Hs _ _) Ek) as Hk.
    assert (forall k' x, g k' = Some x <-> (k' = k /\ x = (ch, Some a)) \/ (k' <> k /\ f k' = Some x)) as An.
    { intros k' x. rewrite G. case_bool_decide as E.
      - subst k'. split; [intros [= <-]; by left|intros [[_ ->]|[? _]]; done].
      - split; [by right|intros [[? _]|[_ ?]]; done]. }
    assert (forall t' b, sending s !! t' <> Some (Some (ch, b))) as Nb.
    { intros t' b Hb. destruct (hi_send _ _ Hs _ _ _ Hb) as [k' Hk']. pose proof (hi_inj _ _ Hs _ _ _ _ _ Hk Hk'). subst. congruence. }
    assert (t < length (sending s)) as Hl by (by eapply lookup_lt_Some).
    split; cbn [waiters chans sending].
    - intros k' c. rewrite An. destruct (decide (k' = k)) as [->|Hne].
      + rewrite lookup_delete. split; [done|intros [[_ ?]|[? _]]; done].
      + rewrite lookup_delete_ne by done. rewrite (hi_wait _ _ Hs). split; [by right|intros [[? _]|[_ ?]]; done].
    - intros k' c o [[-> [= -> ->]]|[_ H]]%An; by eapply (hi_bound _ _ Hs).
    - intros k1 k2 c o o' [[-> [= -> ->]]|[N1 H1]]%An [[-> H]|[N2 H2]]%An; [done|..].
      + by eapply (hi_inj _ _ Hs).
      + injection H as -> ->. by eapply (hi_inj _ _ Hs).
      + by eapply (hi_inj _ _ Hs).
    - intros t' c b. destruct (decide (t' = t)) as [->|Hne].
      + rewrite list_lookup_insert by done. intros [= <- <-]. exists k. apply An. by left.
      + rewrite list_lookup_insert_ne by done. intros H. destruct (hi_send _ _ Hs _ _ _ H) as [k' Hk'].
        exists k'. apply An. right. split; [|done]. intros ->. congruence.
    - intros t1 t2 c a1 a2. destruct (decide (t1 = t)) as [->|H1], (decide (t2 = t)) as [->|H2]; [done|..].
      + rewrite list_lookup_insert, list_lookup_insert_ne by done. intros [= <- <-] H. by apply Nb in H.
      + rewrite list_lookup_insert_ne, list_lookup_insert by done. intros H [= <- <-]. by apply Nb in H.
      + rewrite !list_lookup_insert_ne by done. apply (hi_one _ _ Hs).
    - intros c x H. pose proof (hi_chan _ _ Hs c x H) as Hc. destruct x; try done.
      + destruct Hc as [[k' Hk']|(k' & b & t' & Hk' & Ht)].
        * destruct (decide (k' = k)) as [->|Hne]; [rewrite Hk in Hk'; injection Hk' as ->|].
          -- right. exists k, a, t. split; [apply An; by left|]. by rewrite list_lookup_insert by done.
          -- left. exists k'. apply An. by right.
        * right. exists k', b, t'. split; [apply An; right; split; [intros ->; congruence|done]|].
          rewrite list_lookup_insert_ne; [done|]. intros ->. congruence.
      + destruct Hc as [k' Hk']. exists k'. apply An. right. split; [intros ->; congruence|done].
  Qed.
  Lemma hub_inv_send f s t ch a : hub_inv f s -> sending s !! t = Some (Some (ch, a)) ->
    hub_inv f (mk_hub (waiters s) (alter (send a) ch (chans s)) (<[t := None]> (sending s))).
  Proof.
    intros Hs Et. destruct (hi_send _ _ Hs _ _ _ Et) as [k Hk].
    assert (t < length (sending s)) as Hl by (by eapply lookup_lt_Some).
    assert (forall t' x, <[t := None]> (sending s) !! t' = Some (Some x) -> t' <> t /\ sending s !! t' = Some (Some x)) as Old.
    { intros t' x. destruct (decide (t' = t)) as [->|]; [by rewrite list_lookup_insert|by rewrite list_lookup_insert_ne]. }
    split; cbn [waiters chans sending].
    - apply (hi_wait _ _ Hs).
    - intros *. rewrite alter_length. apply (hi_bound _ _ Hs).
    - apply (hi_inj _ _ Hs).
    - intros t' c b [_ H]%Old. by eapply (hi_send _ _ Hs).
    - intros t1 t2 c a1 a2 [_ H1]%Old [_ H2]%Old. by eapply (hi_one _ _ Hs).
    - intros c x Hx. destruct (decide (c = ch)) as [->|Hne].
      + rewrite list_lookup_alter in Hx. destruct (chans s !! ch) as [y|] eqn:Ey; [|done]. simpl in Hx. injection Hx as <-.
        pose proof (hi_chan _ _ Hs ch y Ey) as Hc. destruct y; simpl; try done. by exists k.
      + rewrite list_lookup_alter_ne in Hx by done. pose proof (hi_chan _ _ Hs c x Hx) as Hc. destruct x; try done.
        destruct Hc as [Hc|(k' & b & t' & Hk' & Ht)]; [by left|right]. exists k', b, t'. split; [done|].
        rewrite list_lookup_insert_ne; [done|]. intros <-. rewrite Et in Ht. by injection Ht as ->.
  Qed.
  Lemma hub_inv_end f s ch c : hub_inv f s -> (match c with Taken _ | Dropped => True | _ => False end) ->
    hub_inv f (mk_hub (waiters s) (<[ch := c]> (chans s)) (sending s)).
  Proof.
    intros Hs Hc. split; cbn [waiters chans sending].
    - apply (hi_wait _ _ Hs).
    - intros *. rewrite insert_length. apply (hi_bound _ _ Hs).
    - apply (hi_inj _ _ Hs).
    - apply (hi_send _ _ Hs).
    - apply (hi_one _ _ Hs).
    - intros c' x Hx. destruct (decide (c' = ch)) as [->|Hne]; [|rewrite list_lookup_insert_ne in Hx by done; by apply (hi_chan _ _ Hs)].
      rewrite list_lookup_insert in Hx by (apply lookup_lt_Some in Hx; by rewrite insert_length in Hx). injection Hx as <-. by destruct c.
  Qed.

  Lemma hub_inv_step h s c s' e : hub_inv (answer h) s -> fresh_tokens (h ++ e) -> hub_step s c = Some (s', e) ->
    hub_inv (answer (h ++ e)) s'.
  Proof.
    intros Hs Hf. destruct c as [k|t k a|t|ch|ch]; simpl.
    - intros [= <- <-]. pose proof (fresh_new _ _ _ Hf) as Hk.
      assert (waiters s !! k = None) as Hw.
      { destruct (waiters s !! k) as [c|] eqn:E; [|done]. apply (hi_wait _ _ Hs) in E. congruence. }
      rewrite Hw. eapply hub_inv_register; [done|done|]. intros k'. by rewrite answer_snoc.
    - destruct (sending s !! t) as [[|]|] eqn:Et; try done.
      destruct (waiters s !! k) as [ch|] eqn:Ek; intros [= <- <-].
      + eapply hub_inv_fulfill; [done..|]. intros k'. rewrite answer_snoc. simpl. case_bool_decide; [|done]. subst.
        apply (hi_wait _ _ Hs) in Ek. by rewrite Ek.
      + eapply hub_inv_ext; [|exact Hs]. intros k'. rewrite answer_snoc. simpl. case_bool_decide as E; [|done]. subst k'.
        destruct (answer h k) as [[ch [b|]]|] eqn:Eo; try done. apply (hi_wait _ _ Hs) in Eo. congruence.
    - destruct (sending s !! t) as [[[ch a]|]|] eqn:Et; try done. intros [= <- <-]. rewrite app_nil_r. by apply hub_inv_send.
    - destruct (chans s !! ch) as [[| | | |]|] eqn:Ec; try done; intros [= <- <-];
        (eapply hub_inv_ext; [intros k; symmetry; apply answer_snoc|]; by apply hub_inv_end).
    - destruct (chans s !! ch) as [[| | | |]|] eqn:Ec; try done; intros [= <- <-]; rewrite app_nil_r; by apply hub_inv_end.
  Qed.
  Lemma hub_inv_run n l s h : follow hub_step (new_hub n) l = Some (s, h) -> fresh_tokens h -> hub_inv (answer h) s.
  Proof.
    intros H. pattern l, s, h. eapply (follow_ind hub_step (new_hub n)); [..|exact H].
    - intros _. split; cbn; try done.
      + intros t ch a [? _]%lookup_replicate. done.
      + intros t t' ch a a' [? _]%lookup_replicate. done.
    - intros l' s1 h1 c s2 e _ IH Hc Hf. eapply hub_inv_step; [|done..]. apply IH. by eapply fresh_prefix.
  Qed.

  (** What was received was answered before. *)
  Lemma first_answer_app h e k i m a : first_answer h k i m a -> first_answer (h ++ e) k i m a.
  Proof.
    intros (Hl & Hm & Hf). pose proof (lookup_lt_Some _ _ _ Hm). split_and!; [done|by apply lookup_app_l_Some|].
    intros x b Hx. rewrite lookup_app_l by lia. by apply Hf.
  Qed.
  Lemma delivered_run n l s h : follow hub_step (new_hub n) l = Some (s, h) -> fresh_tokens h ->
    forall j ch o, h !! j = Some (Received ch o) ->
      exists a k i m, o = Some a /\ h !! i = Some (Registered k ch) /\ first_answer h k i m a /\ m < j.
  Proof.
    intros H. pattern l, s, h. eapply (follow_ind hub_step (new_hub n)); [done| |exact H].
    intros l' s1 h1 c s2 e Hr IH Hc Hf j ch o Hj. pose proof (fresh_prefix _ _ Hf) as Hf1.
    apply lookup_app_Some in Hj as [Hj|[Hle Hj]].
    - destruct (IH Hf1 j ch o Hj) as (a & k & i & m & Ho & Hi & Ha & Hm). exists a, k, i, m.
      split_and!; [done|by apply lookup_app_l_Some|by apply first_answer_app|done].
    - pose proof (hub_inv_run _ _ _ _ Hr Hf1) as Hs. destruct c as [k|t k a|t|c|c]; simpl in Hc.
      + injection Hc as _ <-. by apply list_lookup_singleton_Some in Hj as [_ ?].
      + destruct (sending s1 !! t) as [[|]|]; try done.
        destruct (waiters s1 !! k); injection Hc as _ <-; by apply list_lookup_singleton_Some in Hj as [_ ?].
      + destruct (sending s1 !! t) as [[[]|]|]; try done. by injection Hc as _ <-.
      + destruct (chans s1 !! c) as [[|a| | |]|] eqn:Ec; try done; injection Hc as _ <-;
          apply list_lookup_singleton_Some in Hj as [_ Hj]; injection Hj as -> <-;
          pose proof (hi_chan _ _ Hs _ _ Ec) as Hx; simpl in Hx; [|done].
        destruct Hx as [k Hk]. destruct (answer_some _ _ _ _ Hk) as (i & Hi & _ & m & Hm).
        exists a, k, i, m. split_and!; [done|by apply lookup_app_l_Some|by apply first_answer_app|].
        destruct Hm as (_ & Hm & _). apply lookup_lt_Some in Hm. lia.
      + destruct (chans s1 !! c) as [[| | | |]|]; try done; by injection Hc as _ <-.
  Qed.

  (** Channels: where they end, and that each is used once. *)
  Definition ended (c : chan A) : Prop := match c with Taken _ | Dropped => True | _ => False end.
  Definition over (l : list (hub_choice A)) h ch : Prop := DropReceiver ch ∈ l \/ exists i r, h !! i = Some (Received ch r).
  Lemma over_app l h ch l' e : over l h ch -> over (l ++ l') (h ++ e) ch.
  Proof. intros [Hl|(i & r & Hi)]; [left; apply elem_of_app; by left|right; exists i, r; by apply lookup_app_l_Some]. Qed.
  Record chan_inv (l : list (hub_choice A)) s h : Prop := {
    ci_reg : forall i k ch, h !! i = Some (Registered k ch) -> ch < length (chans s);
    ci_reg_once : forall i j k k' ch, h !! i = Some (Registered k ch) -> h !! j = Some (Registered k' ch) -> i = j;
    ci_recv : forall i ch r, h !! i = Some (Received ch r) -> exists c, chans s !! ch = Some c /\ ended c;
    ci_recv_once : forall i j ch r r', h !! i = Some (Received ch r) -> h !! j = Some (Received ch r') -> i = j;
    ci_ends : forall ch c, chans s !! ch = Some c -> ended c -> over l h ch }.
  Lemma chan_inv_run n l s h : follow hub_step (new_hub n) l = Some (s, h) -> chan_inv l s h.
  Proof.
    intros H. pattern l, s, h. eapply (follow_ind hub_step (new_hub n)); [..|exact H].
    - by split.
    - intros l1 s1 h1 c s2 e _ [H1 H2 H3 H4 H5] Hc.
      destruct c as [k|t k a|t|c|c]; simpl in Hc.
      + injection Hc as <- <-.
        assert (forall ch x, match waiters s1 !! k with Some o => alter drop_sender o (chans s1) | None => chans s1 end !! ch = Some x ->
          exists y, chans s1 !! ch = Some y /\ (x = y \/ x = drop_sender y)) as Old.
        { intros ch x. destruct (waiters s1 !! k) as [o|]; [|intros ?; exists x; by auto].
          intros Hx. destruct (decide (o = ch)) as [->|].
          - rewrite list_lookup_alter in Hx. destruct (chans s1 !! ch) as [y|]; [|done]. exists y. injection Hx as <-. by auto.
          - rewrite list_lookup_alter_ne in Hx by done. exists x. by auto. }
        assert (length (match waiters s1 !! k with Some o => alter drop_sender o (chans s1) | None => chans s1 end) = length (chans s1)) as Hl.
        { destruct (waiters s1 !! k); [by rewrite alter_length|done]. }
        split; cbn [chans].
        * intros i k' ch. rewrite app_length, Hl. simpl. intros [Hi|[_ [= <- <-]]]%lookup_snoc; [apply H1 in Hi|]; lia.
        * intros i j k1 k2 ch [Hi|[-> Hi]]%lookup_snoc [Hj|[-> Hj]]%lookup_snoc; [by eapply H2|..|done].
          -- injection Hj as <- <-. apply H1 in Hi. lia.
          -- injection Hi as <- <-. apply H1 in Hj. lia.
        * intros i ch r [Hi|[_ ?]]%lookup_snoc; [|done]. destruct (H3 i ch r Hi) as (x & Hx & Hd).
          assert (ch < length (chans s1)) by (by eapply lookup_lt_Some).
          destruct (match waiters s1 !! k with Some o => alter drop_sender o (chans s1) | None => chans s1 end !! ch) as [y|] eqn:Ey;
            [|apply lookup_ge_None_1 in Ey; lia].
          exists y. split; [by apply lookup_app_l_Some|]. destruct (Old _ _ Ey) as (z & Hz & [-> | ->]);
            rewrite Hx in Hz; injection Hz as <-; [done|by destruct x].
        * intros i j ch r r' [Hi|[_ ?]]%lookup_snoc [Hj|[_ ?]]%lookup_snoc; [by eapply H4|done..].
        * intros ch x [Hx|[_ <-]]%lookup_snoc; [|done]. destruct (Old _ _ Hx) as (y & Hy & Hxy).
          intros Hd. apply over_app, (H5 ch y Hy). by destruct Hxy as [-> | ->], y.
      + destruct (sending s1 !! t) as [[|]|]; try done.
        assert (e = [Fulfilled k a] /\ chans s2 = chans s1) as [-> Hs2] by (by destruct (waiters s1 !! k); injection Hc as <- <-).
        split; rewrite ?Hs2.
        * intros i k' ch [Hi|[_ ?]]%lookup_snoc; [by eapply H1|done].
        * intros i j k1 k2 ch [Hi|[_ ?]]%lookup_snoc [Hj|[_ ?]]%lookup_snoc; [by eapply H2|done..].
        * intros i ch r [Hi|[_ ?]]%lookup_snoc; [by eapply H3|done].
        * intros i j ch r r' [Hi|[_ ?]]%lookup_snoc [Hj|[_ ?]]%lookup_snoc; [by eapply H4|done..].
        * intros ch x Hx Hd. by eapply over_app, H5.
      + destruct (sending s1 !! t) as [[[o a]|]|]; try done. injection Hc as <- <-. rewrite app_nil_r in *.
        assert (forall ch x, alter (send a) o (chans s1) !! ch = Some x -> exists y, chans s1 !! ch = Some y /\ (x = y \/ x = send a y)) as Old.
        { intros ch x Hx. destruct (decide (o = ch)) as [->|].
          - rewrite list_lookup_alter in Hx. destruct (chans s1 !! ch) as [y|]; [|done]. exists y. injection Hx as <-. by auto.
          - rewrite list_lookup_alter_ne in Hx by done. exists x. by auto. }
        split; cbn [chans]; rewrite ?alter_length; try done.
        * intros i ch r Hi. destruct (H3 i ch r Hi) as (x & Hx & Hd).
          assert (ch < length (chans s1)) by (by eapply lookup_lt_Some).
          destruct (alter (send a) o (chans s1) !! ch) as [y|] eqn:Ey; [|apply lookup_ge_None_1 in Ey; rewrite alter_length in Ey; lia].
          exists y. split; [done|]. destruct (Old _ _ Ey) as (z & Hz & [-> | ->]); rewrite Hx in Hz; injection Hz as <-; [done|by destruct x].
        * intros ch x Hx. destruct (Old _ _ Hx) as (y & Hy & Hxy). intros Hd. rewrite <-(app_nil_r h1). apply over_app, (H5 ch y Hy). by destruct Hxy as [-> | ->], y.
      + assert (exists r d, e = [Received c r] /\ chans s2 = <[c := d]> (chans s1) /\ c < length (chans s1) /\ ended d /\
          (exists x, chans s1 !! c = Some x /\ ~ ended x)) as (r & d & -> & Hs2 & Hlt & Hd & Hx0).
        { destruct (chans s1 !! c) as [[|a| | |]|] eqn:Ec; try done; injection Hc as <- <-; pose proof (lookup_lt_Some _ _ _ Ec).
          - exists (Some a), (Taken a). split_and!; try done. eexists. split; [done|]. by intros [].
          - exists None, Dropped. split_and!; try done. eexists. split; [done|]. by intros []. }
        assert (forall i r', h1 !! i <> Some (Received c r')) as Not.
        { intros i r' Hi. destruct (H3 i c r' Hi) as (x & Hx & Hd'). destruct Hx0 as (y & Hy & Hd0). rewrite Hx in Hy. injection Hy as ->. done. }
        split; rewrite ?Hs2, ?insert_length.
        * intros i k' ch [Hi|[_ ?]]%lookup_snoc; [by eapply H1|done].
        * intros i j k1 k2 ch [Hi|[_ ?]]%lookup_snoc [Hj|[_ ?]]%lookup_snoc; [by eapply H2|done..].
        * intros i ch r' Hi. destruct (decide (ch = c)) as [->|Hne].
          -- exists d. by rewrite list_lookup_insert.
          -- rewrite list_lookup_insert_ne by done. apply lookup_snoc in Hi as [Hi|[_ Hi]]; [by eapply H3|congruence].
        * intros i j ch r1 r2 [Hi|[-> Hi]]%lookup_snoc [Hj|[-> Hj]]%lookup_snoc; [by eapply H4|..|done].
          -- injection Hj as -> ->. by destruct (Not i r1).
          -- injection Hi as -> ->. by destruct (Not j r2).
        * intros ch x Hx. destruct (decide (ch = c)) as [->|Hne].
          -- rewrite list_lookup_insert in Hx by done. intros _. right. exists (length h1), r. apply lookup_snoc. by right.
          -- rewrite list_lookup_insert_ne in Hx by done. intros ?. by eapply over_app, H5.
      + assert (e = [] /\ chans s2 = <[c := Dropped]> (chans s1) /\ c < length (chans s1)) as (-> & Hs2 & Hlt).
        { destruct (chans s1 !! c) as [[|a| | |]|] eqn:Ec; try done; injection Hc as <- <-; pose proof (lookup_lt_Some _ _ _ Ec); done. }
        rewrite app_nil_r in *. split; rewrite ?Hs2, ?insert_length; try done.
        * intros i ch r' Hi. destruct (decide (ch = c)) as [->|Hne]; [exists Dropped; by rewrite list_lookup_insert|].
          rewrite list_lookup_insert_ne by done. by eapply H3.
        * intros ch x Hx. destruct (decide (ch = c)) as [->|Hne].
          -- intros _. left. apply elem_of_app. right. by left.
          -- rewrite list_lookup_insert_ne in Hx by done. intros ?. rewrite <-(app_nil_r h1). by eapply over_app, H5.
  Qed.

  Lemma hub_unknown n l s h t k a s' e : follow hub_step (new_hub n) l = Some (s, h) -> fresh_tokens h -> not_waiting h k ->
    hub_step s (FulfillStart t k a) = Some (s', e) -> s' = s.
  Proof.
    intros Hr Hf Hn. pose proof (hub_inv_run _ _ _ _ Hr Hf) as Hs. simpl. destruct (sending s !! t) as [[|]|]; try done.
    destruct (waiters s !! k) as [ch|] eqn:Ek; [|by intros [= <- <-]].
    apply (hi_wait _ _ Hs) in Ek. destruct (answer_some _ _ _ _ Ek) as (i & Hi & _ & Hm).
    destruct (Hn i ch Hi) as (m & b & Hlt & Hb). by destruct (Hm m b Hlt).
  Qed.
  Lemma hub_arrives n l s h i m k ch a : follow hub_step (new_hub n) l = Some (s, h) -> fresh_tokens h ->
    h !! i = Some (Registered k ch) -> first_answer h k i m a ->
    Forall (fun x => x = None) (sending s) -> DropReceiver ch ∉ l -> (forall j r, h !! j <> Some (Received ch r)) ->
    exists s', hub_step s (Receive ch) = Some (s', [Received ch (Some a)]).
  Proof.
    intros Hr Hf Hi (Hlt & Hm & Hfst) Hq Hd Hn. pose proof (hub_inv_run _ _ _ _ Hr Hf) as Hs. pose proof (chan_inv_run _ _ _ _ Hr) as Hc.
    destruct (answer h k) as [[ch' o]|] eqn:Ek; [|by destruct (proj1 (answer_none h k) Ek i ch)].
    destruct (answer_some _ _ _ _ Ek) as (i' & Hi' & _ & Ho). pose proof (Hf _ _ _ _ _ Hi Hi') as <-. rewrite Hi in Hi'. injection Hi' as <-.
    destruct o as [b|]; [|by destruct (Ho m a Hlt)]. destruct Ho as (m' & Hlt' & Hm' & Hfst').
    assert (a = b) as <-.
    { destruct (lt_eq_lt_dec m m') as [[Hl| ->]|Hl]; [by destruct (Hfst' m a)|congruence|by destruct (Hfst m' b)]. }
    pose proof (hi_bound _ _ Hs _ _ _ Ek) as Hb. apply lookup_lt_is_Some in Hb as [c Hx]. simpl. rewrite Hx.
    pose proof (hi_chan _ _ Hs _ _ Hx) as Hc1. pose proof (ci_ends _ _ _ Hc _ _ Hx) as Hc2.
    destruct c as [|b| |b|].
    - destruct Hc1 as [[k' Hk']|(k' & b & t & Hk' & Ht)]; [pose proof (hi_inj _ _ Hs _ _ _ _ _ Ek Hk'); congruence|].
      eapply Forall_lookup in Hq; [|exact Ht]. done.
    - destruct Hc1 as [k' Hk']. pose proof (hi_inj _ _ Hs _ _ _ _ _ Ek Hk'). assert (a = b) as <- by congruence. by eexists.
    - done.
    - destruct (Hc2 Logic.I) as [?|(j & r & Hj)]; [done|by edestruct Hn].
    - destruct (Hc2 Logic.I) as [?|(j & r & Hj)]; [done|by edestruct Hn].
  Qed.
End hub.

(** ** Registry *)
Section registry.
  Context {M : Type}.
  Implicit Types (h : list (registry_event M)) (g : registry M).

  Record reg_inv g : Prop := {
    ri_next : forall id r, reverse g !! id = Some r -> (id < next_id g)%N;
    ri_drawn : forall t r id, interning g !! t = Some (IDrawn r id) -> (id < next_id g)%N /\ reverse g !! id = None;
    ri_drawn_one : forall t t' r r' id, interning g !! t = Some (IDrawn r id) -> interning g !! t' = Some (IDrawn r' id) -> t = t';
    ri_reversed : forall t r id, interning g !! t = Some (IReversed r id) -> reverse g !! id = Some r;
    ri_fwd : forall r id, forward g !! r = Some id -> reverse g !! id = Some r;
    ri_vacant : forall t r p, interning g !! t = Some p -> holds r p = true -> forward g !! r = None;
    ri_lock : forall t t' r p p', interning g !! t = Some p -> interning g !! t' = Some p' -> holds r p = true -> holds r p' = true -> t = t' }.

  Lemma reg_inv_init n : reg_inv (new_registry n).
  Proof.
    split; cbn; try done.
    - intros t r id [? _]%lookup_replicate. done.
    - intros t t' r r' id [? _]%lookup_replicate. done.
    - intros t r id [? _]%lookup_replicate. done.
    - intros t t' r p p' [-> _]%lookup_replicate. done.
  Qed.
  Lemma holds_refl r : bool_decide (r = r :> reference) = true.
  Proof. by apply bool_decide_eq_true. Qed.

  Lemma reg_inv_step g c g' e : reg_inv g -> registry_step g c = Some (g', e) -> reg_inv g'.
  Proof.
    intros Hg. destruct c as [t r|t|nr|id m|id|id]; cbn [registry_step].
    - destruct (interning g !! t) as [[]|] eqn:Et; try done.
      destruct (existsb (holds r) (interning g)) eqn:Ex; [done|].
      destruct (forward g !! r) as [id|] eqn:Ef; intros [= <- <-]; [done|].
      assert (t < length (interning g)) as Hl by (by eapply lookup_lt_Some).
      assert (forall t' p, interning g !! t' = Some p -> holds r p = false) as Free.
      { intros t' p Hp. destruct (holds r p) eqn:E; [|done]. assert (existsb (holds r) (interning g) = true); [|congruence].
        apply existsb_exists. exists p. split; [|done]. by apply elem_of_list_In, elem_of_list_lookup; eexists. }
      assert (forall t' p, <[t := IVacant r]> (interning g) !! t' = Some p -> (t' = t /\ p = IVacant r) \/ (t' <> t /\ interning g !! t' = Some p)) as Old.
      { intros t' p. destruct (decide (t' = t)) as [->|]; [rewrite list_lookup_insert by done; intros [= <-]; by left|rewrite list_lookup_insert_ne by done; by right]. }
      split; cbn [forward reverse next_id interning].
      + apply Hg.
      + intros t' r' id [[_ ?]|[_ H]]%Old; [done|by eapply (ri_drawn _ Hg)].
      + intros t1 t2 r1 r2 id [[_ ?]|[_ H1]]%Old [[_ ?]|[_ H2]]%Old; try done. by eapply (ri_drawn_one _ Hg).
      + intros t' r' id [[_ ?]|[_ H]]%Old; [done|by eapply (ri_reversed _ Hg)].
      + apply Hg.
      + intros t' r' p [[_ ->]|[_ H]]%Old; cbn [holds]; [|by eapply (ri_vacant _ Hg)]. intros ->%bool_decide_eq_true. done.
      + intros t1 t2 r' p1 p2 [[-> ->]|[N1 H1]]%Old [[-> ->]|[N2 H2]]%Old; cbn [holds]; try done.
        * intros ->%bool_decide_eq_true Hh. by rewrite (Free _ _ H2) in Hh.
        * intros Hh ->%bool_decide_eq_true. by rewrite (Free _ _ H1) in Hh.
        * by eapply (ri_lock _ Hg).
    - destruct (interning g !! t) as [[|r|r id|r id]|] eqn:Et; try done; intros [= <- <-];
        assert (t < length (interning g)) as Hl by (by eapply lookup_lt_Some).
      + set (id := next_id g).
        assert (forall t' p, <[t := IDrawn r id]> (interning g) !! t' = Some p -> (t' = t /\ p = IDrawn r id) \/ (t' <> t /\ interning g !! t' = Some p)) as Old.
        { intros t' p. destruct (decide (t' = t)) as [->|]; [rewrite list_lookup_insert by done; intros [= <-]; by left|rewrite list_lookup_insert_ne by done; by right]. }
        split; cbn [forward reverse next_id interning].
        * intros id' r' H. apply (ri_next _ Hg) in H. lia.
        * intros t' r' id' [[_ [= -> ->]]|[_ H]]%Old; [|apply (ri_drawn _ Hg) in H as [H1 H2]; split; [lia|done]].
          split; [lia|]. destruct (reverse g !! id) as [x|] eqn:E; [|done]. apply (ri_next _ Hg) in E. lia.
        * intros t1 t2 r1 r2 id' [[-> H1]|[_ H1]]%Old [[-> H2]|[_ H2]]%Old; try done.
          -- injection H1 as -> ->. apply (ri_drawn _ Hg) in H2 as [? _]. lia.
          -- injection H2 as -> ->. apply (ri_drawn _ Hg) in H1 as [? _]. lia.
          -- by eapply (ri_drawn_one _ Hg).
        * intros t' r' id' [[_ ?]|[_ H]]%Old; [done|by eapply (ri_reversed _ Hg)].
        * apply Hg.
        * intros t' r' p [[_ ->]|[_ H]]%Old; [|by eapply (ri_vacant _ Hg)]. by eapply (ri_vacant _ Hg t r' (IVacant r)).
        * intros t1 t2 r' p1 p2 [[-> ->]|[N1 H1]]%Old [[-> ->]|[N2 H2]]%Old; try done.
          -- by eapply (ri_lock _ Hg t t2 r' (IVacant r)).
          -- intros. by eapply (ri_lock _ Hg t1 t r' p1 (IVacant r)).
          -- by eapply (ri_lock _ Hg).
      + destruct (ri_drawn _ Hg _ _ _ Et) as [Hid Hnone].
        assert (forall t' p, <[t := IReversed r id]> (interning g) !! t' = Some p -> (t' = t /\ p = IReversed r id) \/ (t' <> t /\ interning g !! t' = Some p)) as Old.
        { intros t' p. destruct (decide (t' = t)) as [->|]; [rewrite list_lookup_insert by done; intros [= <-]; by left|rewrite list_lookup_insert_ne by done; by right]. }
        assert (forall id' r', reverse g !! id' = Some r' -> <[id := r]> (reverse g) !! id' = Some r') as Keep.
        { intros id' r' H. rewrite lookup_insert_ne; [done|congruence]. }
        split; cbn [forward reverse next_id interning].
        * intros id' r' [[<- <-]|[_ H]]%lookup_insert_Some; [done|]. by eapply (ri_next _ Hg).
        * intros t' r' id' [[_ ?]|[Hne H]]%Old; [done|]. destruct (ri_drawn _ Hg _ _ _ H) as [H1 H2]. split; [done|].
          rewrite lookup_insert_ne; [done|]. intros <-. by apply Hne, (ri_drawn_one _ Hg _ _ _ _ _ H Et).
        * intros t1 t2 r1 r2 id' [[_ ?]|[_ H1]]%Old [[_ ?]|[_ H2]]%Old; try done. by eapply (ri_drawn_one _ Hg).
        * intros t' r' id' [[_ [= -> ->]]|[_ H]]%Old; [by rewrite lookup_insert|]. apply Keep. by eapply (ri_reversed _ Hg).
        * intros r' id' H. apply Keep. by eapply (ri_fwd _ Hg).
        * intros t' r' p [[_ ->]|[_ H]]%Old; [|by eapply (ri_vacant _ Hg)]. by eapply (ri_vacant _ Hg t r' (IDrawn r id)).
        * intros t1 t2 r' p1 p2 [[-> ->]|[N1 H1]]%Old [[-> ->]|[N2 H2]]%Old; try done.
          -- by eapply (ri_lock _ Hg t t2 r' (IDrawn r id)).
          -- intros. by eapply (ri_lock _ Hg t1 t r' p1 (IDrawn r id)).
          -- by eapply (ri_lock _ Hg).
      + assert (forall t' p, <[t := IIdle]> (interning g) !! t' = Some p -> (t' = t /\ p = IIdle) \/ (t' <> t /\ interning g !! t' = Some p)) as Old.
        { intros t' p. destruct (decide (t' = t)) as [->|]; [rewrite list_lookup_insert by done; intros [= <-]; by left|rewrite list_lookup_insert_ne by done; by right]. }
        split; cbn [forward reverse next_id interning].
        * apply Hg.
        * intros t' r' id' [[_ ?]|[Hne H]]%Old; [done|]. by eapply (ri_drawn _ Hg).
        * intros t1 t2 r1 r2 id' [[_ ?]|[_ H1]]%Old [[_ ?]|[_ H2]]%Old; try done. by eapply (ri_drawn_one _ Hg).
        * intros t' r' id' [[_ ?]|[_ H]]%Old; [done|]. by eapply (ri_reversed _ Hg).
        * intros r' id' [[<- <-]|[_ H]]%lookup_insert_Some; [by eapply (ri_reversed _ Hg)|by eapply (ri_fwd _ Hg)].
        * intros t' r' p [[_ ->]|[Hne H]]%Old; [done|]. intros Hh. rewrite lookup_insert_ne; [by eapply (ri_vacant _ Hg)|].
          intros <-. apply Hne. eapply (ri_lock _ Hg t' t r p (IReversed r id)); [done..|apply holds_refl].
        * intros t1 t2 r' p1 p2 [[-> ->]|[N1 H1]]%Old [[-> ->]|[N2 H2]]%Old; try done. by eapply (ri_lock _ Hg).
    - by intros [= <- <-].
    - intros [= <- <-]. by destruct Hg.
    - intros [= <- <-]. by destruct Hg.
    - by intros [= <- <-].
  Qed.

  (** Interned pairs stay. *)
  Lemma forward_keeps g c g' e r id : reg_inv g -> registry_step g c = Some (g', e) -> forward g !! r = Some id -> forward g' !! r = Some id.
  Proof.
    intros Hg. destruct c as [t r'|t|nr|id' m|id'|id']; cbn [registry_step].
    - destruct (interning g !! t) as [[]|]; try done. destruct (existsb _ _); [done|].
      destruct (forward g !! r'); by intros [= <- <-].
    - destruct (interning g !! t) as [[|r'|r' id'|r' id']|] eqn:Et; try done; intros [= <- <-]; cbn [forward]; try done.
      intros H. rewrite lookup_insert_ne; [done|]. intros ->.
      pose proof (ri_vacant _ Hg t r (IReversed r id') Et (holds_refl r)). congruence.
    - by intros [= <- <-].
    - by intros [= <- <-].
    - by intros [= <- <-].
    - by intros [= <- <-].
  Qed.

  Record reg_record (l : list (registry_choice M)) g h : Prop := {
    rr_inv : reg_inv g;
    rr_to : forall i r n, h !! i = Some (ToNet r n) -> exists id, n = Tagged id /\ forward g !! r = Some id;
    rr_from : forall i j r n x, i < j -> h !! i = Some (ToNet r n) -> h !! j = Some (FromNet n x) -> x = Some r;
    rr_known : forall id r, reverse g !! id = Some r -> exists t, ToNetStart t r ∈ l;
    rr_busy : forall t r p, interning g !! t = Some p -> holds r p = true -> exists t, ToNetStart t r ∈ l;
    rr_sound : forall j id r, h !! j = Some (FromNet (Tagged id) (Some r)) -> exists t, ToNetStart t r ∈ l }.
  Lemma start_app (l : list (registry_choice M)) l' r : (exists t, ToNetStart t r ∈ l) -> exists t, ToNetStart t r ∈ l ++ l'.
  Proof. intros [t H]. exists t. apply elem_of_app. by left. Qed.

  Lemma reg_record_run n l g h : follow registry_step (new_registry n) l = Some (g, h) -> reg_record l g h.
  Proof.
    intros H. pattern l, g, h. eapply (follow_ind registry_step (new_registry n)); [..|exact H].
    - split; try done; [apply reg_inv_init|]. cbn. intros t r p [-> _]%lookup_replicate. done.
    - intros l1 g1 h1 c g2 e _ [H0 H1 H2 H3 H4 H5] Hc.
      pose proof (reg_inv_step _ _ _ _ H0 Hc) as H0'.
      assert (forall r id, forward g1 !! r = Some id -> forward g2 !! r = Some id) as Fw by (intros r id; by eapply forward_keeps).
      assert (H3' : forall id r, reverse g2 !! id = Some r -> exists t, ToNetStart t r ∈ l1 ++ [c]).
      { intros id r Hr. destruct c as [t r'|t|nr|id' m|id'|id']; cbn [registry_step] in Hc; try (injection Hc as <- <-; by eapply start_app, H3).
        - destruct (interning g1 !! t) as [[]|]; try done. destruct (existsb _ _); [done|].
          destruct (forward g1 !! r'); injection Hc as <- <-; by eapply start_app, H3.
        - destruct (interning g1 !! t) as [[|r'|r' id'|r' id']|] eqn:Et; try done; injection Hc as <- <-; cbn [reverse] in Hr; try by eapply start_app, H3.
          apply lookup_insert_Some in Hr as [[<- <-]|[_ Hr]]; [|by eapply start_app, H3]. eapply start_app, H4; [done|apply holds_refl]. }
      assert (H4' : forall t r p, interning g2 !! t = Some p -> holds r p = true -> exists t, ToNetStart t r ∈ l1 ++ [c]).
      { intros t0 r p Hp Hh. destruct c as [t r'|t|nr|id' m|id'|id']; cbn [registry_step] in Hc; try (injection Hc as <- <-; by eapply start_app, H4).
        - destruct (interning g1 !! t) as [[]|] eqn:Et; try done. destruct (existsb _ _); [done|].
          destruct (forward g1 !! r'); injection Hc as <- <-; [by eapply start_app, H4|]. cbn [interning] in Hp.
          destruct (decide (t0 = t)) as [->|]; [|rewrite list_lookup_insert_ne in Hp by done; by eapply start_app, H4].
          rewrite list_lookup_insert in Hp by (by eapply lookup_lt_Some). injection Hp as <-. apply bool_decide_eq_true in Hh as ->.
          exists t. apply elem_of_app. right. by left.
        - assert (Hx : exists p', interning g1 !! t = Some p' /\ p' <> IIdle) by (destruct (interning g1 !! t) as [[]|]; try done; by eexists).
          destruct Hx as (p' & Et & _). rewrite Et in Hc. assert (t < length (interning g1)) as Hl by (by eapply lookup_lt_Some).
          destruct (decide (t0 = t)) as [->|Hne].
          + eapply start_app, (H4 t r p'); [done|].
            destruct p'; try done; injection Hc as <- <-; cbn [interning] in Hp; rewrite list_lookup_insert in Hp by done; by injection Hp as <-.
          + eapply start_app, (H4 t0 r p); [|done].
            destruct p'; try done; injection Hc as <- <-; cbn [interning] in Hp; by rewrite list_lookup_insert_ne in Hp by done. }
      assert (He : e = [] \/ exists x, e = [x]).
      { destruct c as [t r'|t|nr|id' m|id'|id']; cbn [registry_step] in Hc; try (injection Hc as <- <-; right; by eexists).
        - destruct (interning g1 !! t) as [[]|] eqn:Et; try done. destruct (existsb _ _); [done|].
          destruct (forward g1 !! r'); injection Hc as <- <-; [right; by eexists|by left].
        - destruct (interning g1 !! t) as [[]|] eqn:Et; try done; injection Hc as <- <-; [by left|by left|right; by eexists]. }
      destruct He as [->|[x ->]].
      { rewrite app_nil_r. split; [done| |done..|].
        - intros i r n' Hi. destruct (H1 i r n' Hi) as (id & -> & Hf). exists id. split; [done|by apply Fw].
        - intros j id r Hj. by eapply start_app, H5. }
      assert (Hto : forall r n', x = ToNet r n' -> exists id, n' = Tagged id /\ forward g2 !! r = Some id).
      { intros r n' ->. destruct c as [t r'|t|nr|id' m|id'|id']; cbn [registry_step] in Hc; try done.
        - destruct (interning g1 !! t) as [[]|] eqn:Et; try done. destruct (existsb _ _); [done|].
          destruct (forward g1 !! r') eqn:Ef; [|done]. injection Hc as <- -> <-. by eexists.
        - destruct (interning g1 !! t) as [[]|] eqn:Et; try done. injection Hc as <- -> <-. eexists. split; [done|]. cbn [forward]. by rewrite lookup_insert. }
      assert (Hfr : forall n' y, x = FromNet n' y -> y = match n' with Tagged id => reverse g1 !! id | NetBackground id => Some (Background, id) end).
      { intros n' y ->. destruct c as [t r'|t|nr|id' m|id'|id']; cbn [registry_step] in Hc; try done.
        - destruct (interning g1 !! t) as [[]|] eqn:Et; try done. destruct (existsb _ _); [done|].
          destruct (forward g1 !! r') eqn:Ef; done.
        - destruct (interning g1 !! t) as [[]|] eqn:Et; done.
        - by injection Hc as _ -> <-. }
      split; [done| | |done|done|].
      + intros i r n' [Hi|[_ Hi]]%lookup_snoc; [|by apply Hto]. destruct (H1 i r n' Hi) as (id & -> & Hf). exists id. split; [done|by apply Fw].
      + intros i j r n' y Hlt [Hi|[-> Hi]]%lookup_snoc [Hj|[-> Hj]]%lookup_snoc.
        * by eapply H2.
        * apply Hfr in Hj. destruct (H1 i r n' Hi) as (id & -> & Hf). rewrite Hj. by apply (ri_fwd _ H0).
        * apply lookup_lt_Some in Hj. lia.
        * lia.
      + intros j id r [Hj|[_ Hj]]%lookup_snoc; [by eapply start_app, H5|]. apply Hfr in Hj. by eapply start_app, H3.
  Qed.

  Lemma last_meta_app h e j id m : j <= length h -> last_meta (h ++ e) j id m <-> last_meta h j id m.
  Proof.
    intros Hj. split; intros (i & Hi & Hx & Hl); exists i; (split; [done|]).
    - rewrite lookup_app_l in Hx by lia. split; [done|]. intros x Hlt. specialize (Hl x Hlt). by rewrite lookup_app_l in Hl by lia.
    - rewrite lookup_app_l by lia. split; [done|]. intros x Hlt. rewrite lookup_app_l by lia. by apply Hl.
  Qed.
  Lemma last_meta_snoc h e id m : last_meta (h ++ [e]) (S (length h)) id m <->
    e = MetaSet id m \/ (last_meta h (length h) id m /\ e <> MetaForgotten id /\ forall m', e <> MetaSet id m').
  Proof.
    split.
    - intros (i & Hi & Hx & Hl). apply lookup_snoc in Hx as [Hx|[-> ->]]; [right|by left].
      pose proof (lookup_lt_Some _ _ _ Hx) as Hlt. split.
      + exists i. split_and!; [done..|]. intros x Hxl. specialize (Hl x ltac:(lia)). by rewrite lookup_app_l in Hl by lia.
      + destruct (Hl (length h) ltac:(lia)) as [N1 N2]. split.
        * intros ->. apply N1. apply lookup_snoc. by right.
        * intros m' ->. apply (N2 m'). apply lookup_snoc. by right.
    - intros [->|((i & Hi & Hx & Hl) & N1 & N2)].
      + exists (length h). split_and!; [lia|apply lookup_snoc; by right|lia].
      + exists i. split_and!; [lia|apply lookup_snoc; by left|]. intros x Hxl. destruct (decide (x = length h)) as [->|].
        * split; [intros [Hb|[_ ?]]%lookup_snoc; [apply lookup_lt_Some in Hb; lia|done]|].
          intros m' [Hb|[_ Hb]]%lookup_snoc; [apply lookup_lt_Some in Hb; lia|by apply (N2 m')].
        * rewrite lookup_app_l by lia. apply Hl. lia.
  Qed.
  Lemma metas_run n l g h : follow registry_step (new_registry n) l = Some (g, h) ->
    (forall id m, request_metas g !! id = Some m <-> last_meta h (length h) id m) /\
    forall j id x, h !! j = Some (MetaRead id x) -> forall m, x = Some m <-> last_meta h j id m.
  Proof.
    intros H. pattern l, g, h. eapply (follow_ind registry_step (new_registry n)); [..|exact H].
    - split; [|done]. intros id m. split; [done|]. intros (i & Hi & _). simpl in Hi. lia.
    - intros l1 g1 h1 c g2 e _ [H1 H2] Hc.
      assert (forall x, e = [x] -> (forall id m, request_metas g2 !! id = Some m <-> x = MetaSet id m \/ (request_metas g1 !! id = Some m /\ x <> MetaForgotten id /\ forall m', x <> MetaSet id m')) ->
        (forall id y, x = MetaRead id y -> y = request_metas g1 !! id) ->
        (forall id m, request_metas g2 !! id = Some m <-> last_meta (h1 ++ e) (length (h1 ++ e)) id m) /\
        forall j id x, (h1 ++ e) !! j = Some (MetaRead id x) -> forall m, x = Some m <-> last_meta (h1 ++ e) j id m) as One.
      { intros x -> Hm Hr. split.
        - intros id m. rewrite app_length, Nat.add_1_r. rewrite last_meta_snoc, Hm, H1. done.
        - intros j id y [Hj|[-> Hj]]%lookup_snoc m.
          + rewrite last_meta_app by (apply lookup_lt_Some in Hj; lia). by eapply H2.
          + rewrite last_meta_app by done. rewrite (Hr _ _ Hj). apply H1. }
      assert (forall x, e = [x] -> request_metas g2 = request_metas g1 -> (forall id m, x <> MetaSet id m) -> (forall id, x <> MetaForgotten id) ->
        (forall id y, x = MetaRead id y -> y = request_metas g1 !! id) ->
        (forall id m, request_metas g2 !! id = Some m <-> last_meta (h1 ++ e) (length (h1 ++ e)) id m) /\
        forall j id x, (h1 ++ e) !! j = Some (MetaRead id x) -> forall m, x = Some m <-> last_meta (h1 ++ e) j id m) as Same.
      { intros x -> Hg N1 N2 Hr. apply (One x); [done| |done]. intros id m. rewrite Hg. split; [right; split_and!; [done|by apply N2|apply N1]|].
        intros [Hx|[? _]]; [by edestruct N1|done]. }
      assert (e = [] -> request_metas g2 = request_metas g1 ->
        (forall id m, request_metas g2 !! id = Some m <-> last_meta (h1 ++ e) (length (h1 ++ e)) id m) /\
        forall j id x, (h1 ++ e) !! j = Some (MetaRead id x) -> forall m, x = Some m <-> last_meta (h1 ++ e) j id m) as Nil.
      { intros -> Hg. rewrite app_nil_r, Hg. done. }
      destruct c as [t r'|t|nr|id' m|id'|id']; cbn [registry_step] in Hc.
      + destruct (interning g1 !! t) as [[]|] eqn:Et; try done. destruct (existsb _ _); [done|].
        destruct (forward g1 !! r') eqn:Ef; injection Hc as <- <-; [by eapply Same|by apply Nil].
      + destruct (interning g1 !! t) as [[]|] eqn:Et; try done; injection Hc as <- <-; [by apply Nil|by apply Nil|by eapply Same].
      + injection Hc as <- <-. by eapply Same.
      + injection Hc as <- <-. eapply One; [done| |done]. intros id m'. cbn [request_metas]. destruct (decide (id = id')) as [->|Hne].
        * rewrite lookup_insert. split; [intros [= ->]; by left|intros [[= ->]|(_ & _ & Hx)]; [done|by destruct (Hx m)]].
        * rewrite lookup_insert_ne by done. split; [right; split_and!; [done..|]; intros ? [= ]; congruence|intros [[= ]|[? _]]; [congruence|done]].
      + injection Hc as <- <-. eapply One; [done| |done]. intros id m'. cbn [request_metas]. destruct (decide (id = id')) as [->|Hne].
        * rewrite lookup_delete. split; [done|intros [?|(_ & Hx & _)]; done].
        * rewrite lookup_delete_ne by done. split; [right; split_and!; [done| |done]; intros [= ]; congruence|intros [?|[? _]]; done].
      + injection Hc as <- <-. eapply Same; [done..|]. by intros id y [= -> <-].
  Qed.
End registry.

(** ** Reference counts *)
Section counts.
  Context (tso : bool) (r : reference).
  Implicit Types (h : list count_event) (s : counts).

  Lemma incs_snoc h e : incs (h ++ [e]) r = incs h r + if decide (e = EInc r) then 1 else 0.
  Proof. unfold incs. rewrite filter_app, app_length. simpl. unfold filter at 2. simpl. by destruct (decide (e = EInc r)). Qed.
  Lemma decs_snoc h e : decs (h ++ [e]) r = decs h r + if decide (e = EDec r) then 1 else 0.
  Proof. unfold decs. rewrite filter_app, app_length. simpl. unfold filter at 2. simpl. by destruct (decide (e = EDec r)). Qed.
  Lemma orderly_prefix h e : orderly (h ++ e) r -> orderly h r.
  Proof.
    intros [H1 H2]. split.
    - intros i Hi. pose proof (lookup_lt_Some _ _ _ Hi). specialize (H1 i (lookup_app_l_Some _ _ _ _ Hi)).
      by rewrite take_app_le in H1 by lia.
    - intros i j Hi Hlt. pose proof (H2 i j (lookup_app_l_Some _ _ _ _ Hi) Hlt) as [N1 N2]. split.
      + intros Hj. by apply N1, lookup_app_l_Some.
      + intros tab Hj. by eapply N2, lookup_app_l_Some.
  Qed.
  Lemma orderly_dec h : orderly (h ++ [EDec r]) r -> decs h r < incs h r.
  Proof. intros [H1 _]. specialize (H1 (length h) ltac:(apply lookup_snoc; by right)). by rewrite take_app in H1. Qed.
  Lemma orderly_open h e : orderly (h ++ [e]) r -> e = EInc r \/ (exists tab, e = EName r tab) -> ~ finalized h r.
  Proof.
    intros [_ H2] He [i Hi]%elem_of_list_lookup. pose proof (lookup_lt_Some _ _ _ Hi).
    destruct (H2 i (length h) (lookup_app_l_Some _ _ _ _ Hi) ltac:(lia)) as [N1 N2].
    destruct He as [->|[tab ->]]; [apply N1|apply (N2 tab)]; apply lookup_snoc; by right.
  Qed.
  Lemma orderly_decs h : orderly h r -> decs h r <= incs h r.
  Proof.
    induction h as [|e h IH] using rev_ind; [done|]. intros Ho. specialize (IH (orderly_prefix _ _ Ho)).
    rewrite decs_snoc, incs_snoc. destruct (decide (e = EDec r)) as [->|]; [|lia]. apply orderly_dec in Ho. lia.
  Qed.

  Definition got (p : count_pc) : bool := match p with DGot r' => bool_decide (r = r') | _ => false end.
  Definition gots (l : list count_pc) : nat := length (List.filter got l).
  Lemma gots_insert l t p q : l !! t = Some p -> gots (<[t := q]> l) + (if got p then 1 else 0) = gots l + (if got q then 1 else 0).
  Proof.
    unfold gots. revert t. induction l as [|x l IH]; intros t; [done|]. destruct t as [|t]; simpl.
    - intros [= ->]. destruct (got p), (got q); simpl; lia.
    - intros H. specialize (IH t H). destruct (got x); simpl; lia.
  Qed.
  Lemma gots_pos l t p : l !! t = Some p -> got p = true -> 1 <= gots l.
  Proof. intros H Hp. pose proof (gots_insert l t p CIdle H) as E. rewrite Hp in E. simpl in E. lia. Qed.

  (** What holds of a call under way, from the number [z] of requests still to be counted down, and
      whether the group was closed and has a name. *)
  Definition call_ok (z : nat) (fin : Prop) (nm : option N) (p : count_pc) : Prop :=
    match p with
    | CIdle | DGot _ => True
    | DSub r' prev => r' = r -> (1 <= prev)%N /\ ((prev <= 1)%N -> z = 0)
    | DNames r' | FNone r' | FNames r' => r' = r -> z = 0 /\ fin
    | DInner r' | FInner r' => r' = r -> z = 0 /\ fin /\ nm = None
    | FGot r' => r' = r -> fin
    | FStored r' late => r' = r -> fin /\ (late = true -> tso = true)
    | FLoaded r' now late => r' = r -> fin /\ (now = 0%N -> z = 0) /\ (late = true -> tso = true)
    end.
  Lemma call_ok_mono z z' (fin fin' : Prop) nm nm' p : (z = 0 -> z' = 0) -> (fin -> fin') -> (nm = None -> nm' = None) ->
    call_ok z fin nm p -> call_ok z' fin' nm' p.
  Proof. destruct p; simpl; naive_solver. Qed.
  (** Calls that may still set the flag, and calls that will clean up. *)
  Definition setting (p : count_pc) : bool :=
    match p with FGot r' | FStored r' true | FLoaded r' _ true => bool_decide (r = r') | _ => false end.
  Definition cleaning (p : count_pc) : bool :=
    match p with
    | DSub r' prev => bool_decide (r = r') && (prev <=? 1)%N
    | FStored r' false => bool_decide (r = r')
    | FLoaded r' now false => bool_decide (r = r') && (now =? 0)%N
    | DNames r' | DInner r' | FNames r' | FInner r' => bool_decide (r = r')
    | _ => false
    end.

  Record count_inv h s : Prop := {
    co_none : inner s !! r = None -> active h r = 0 /\ forall t p, calls s !! t = Some p -> guards r p = false;
    co_count : forall c f, inner s !! r = Some (c, f) -> c = N.of_nat (active h r + gots (calls s)) /\ (f = true -> finalized h r);
    co_call : forall t p, calls s !! t = Some p -> call_ok (active h r + gots (calls s)) (finalized h r) (names s !! r) p;
    co_named : forall tab, named h r tab -> active h r > 0 \/ ~ finalized h r -> names s !! r = Some tab;
    co_gone : finalized h r -> inner s !! r = None -> names s !! r = None \/ exists t, calls s !! t = Some (FNone r);
    co_set : forall c, finalized h r -> inner s !! r = Some (c, false) -> exists t p, calls s !! t = Some p /\ setting p = true;
    co_clean : tso = false -> inner s !! r = Some (0%N, true) -> exists t p, calls s !! t = Some p /\ cleaning p = true }.

  Lemma gots_guards l : (forall t p, l !! t = Some p -> guards r p = false) -> gots l = 0.
  Proof.
    unfold gots. induction l as [|x l IH]; intros H; [done|]. simpl.
    assert (got x = false) as ->. { specialize (H 0 x eq_refl). destruct x; try done. }
    apply IH. intros t p Hp. by apply (H (S t)).
  Qed.
  Lemma free_calls l t p : negb (existsb (guards r) l) = true -> l !! t = Some p -> guards r p = false.
  Proof.
    intros Hf Hp. destruct (guards r p) eqn:E; [|done]. apply negb_true_iff in Hf.
    assert (existsb (guards r) l = true); [|congruence]. apply existsb_exists. exists p. split; [|done].
    apply elem_of_list_In, elem_of_list_lookup. by eexists.
  Qed.
  Lemma named_snoc h e tab : named (h ++ [e]) r tab -> e = EName r tab \/ (named h r tab /\ forall tab', e <> EName r tab').
  Proof.
    intros (i & Hi & Hl). apply lookup_snoc in Hi as [Hi|[-> ->]]; [right|by left]. pose proof (lookup_lt_Some _ _ _ Hi). split.
    - exists i. split; [done|]. intros j tab' Hj Hx. apply (Hl j tab' Hj). by apply lookup_app_l_Some.
    - intros tab' ->. apply (Hl (length h) tab'); [lia|]. apply lookup_snoc. by right.
  Qed.
  Lemma finalized_snoc h e : finalized (h ++ [e]) r <-> finalized h r \/ e = EFinalize r.
  Proof.
    unfold finalized. rewrite elem_of_app, elem_of_list_singleton. split; intros [?|?]; auto.
  Qed.

  (** A step of a call that is about another reference, or that does not touch ours. *)
  Lemma count_inv_move h s s' t p q : count_inv h s -> calls s !! t = Some p -> calls s' = <[t := q]> (calls s) ->
    inner s' !! r = inner s !! r -> names s' !! r = names s !! r -> gots (calls s') = gots (calls s) ->
    call_ok (active h r + gots (calls s)) (finalized h r) (names s !! r) q ->
    (guards r p = false -> guards r q = false) ->
    (p = FNone r -> False) -> (setting p = true -> setting q = true) -> (cleaning p = true -> inner s !! r = Some (0%N, true) -> cleaning q = true) ->
    count_inv h s'.
  Proof.
    intros Hs Ht Hc Hi Hn Hg Hq Hgu Hfn Hse Hcl.
    assert (t < length (calls s)) as Hl by (by eapply lookup_lt_Some).
    assert (forall t' x, calls s' !! t' = Some x -> (t' = t /\ x = q) \/ (t' <> t /\ calls s !! t' = Some x)) as Old.
    { intros t' x. rewrite Hc. destruct (decide (t' = t)) as [->|]; [rewrite list_lookup_insert by done; intros [= <-]; by left|rewrite list_lookup_insert_ne by done; by right]. }
    assert (forall (P : count_pc -> Prop), (P p -> P q) -> (exists t x, calls s !! t = Some x /\ P x) -> exists t x, calls s' !! t = Some x /\ P x) as Keep.
    { intros P HP (t' & x & Hx & Hp). rewrite Hc. destruct (decide (t' = t)) as [->|].
      - exists t, q. rewrite list_lookup_insert by done. split; [done|]. apply HP. congruence.
      - exists t', x. rewrite list_lookup_insert_ne by done. done. }
    split; rewrite ?Hi, ?Hn, ?Hg.
    - intros H. destruct (co_none _ _ Hs H) as [Ha Hgs]. split; [done|].
      intros t' x [[-> ->]|[_ Hx]]%Old; [apply Hgu|]; by eapply Hgs.
    - apply (co_count _ _ Hs).
    - intros t' x [[-> ->]|[_ Hx]]%Old; [done|by eapply (co_call _ _ Hs)].
    - apply (co_named _ _ Hs).
    - intros Hf H. destruct (co_gone _ _ Hs Hf H) as [?|[t' Ht']]; [by left|right]. exists t'. rewrite Hc, list_lookup_insert_ne; [done|].
      intros <-. apply Hfn. congruence.
    - intros c Hf H. destruct (co_set _ _ Hs c Hf H) as (t' & x & Hx). eapply (Keep (fun x => setting x = true)); [done|by eexists _, _].
    - intros Hso H. eapply (Keep (fun x => cleaning x = true)); [intros; by apply Hcl|]. by apply (co_clean _ _ Hs).
  Qed.

  (** The record grows by something that is not about our reference. *)
  Lemma count_inv_other h e s : count_inv h s -> e <> EInc r -> e <> EDec r -> e <> EFinalize r -> (forall tab, e <> EName r tab) ->
    count_inv (h ++ [e]) s.
  Proof.
    intros Hs N1 N2 N3 N4.
    assert (active (h ++ [e]) r = active h r) as Ea.
    { unfold active. rewrite incs_snoc, decs_snoc, decide_False, decide_False by done. lia. }
    assert (finalized (h ++ [e]) r <-> finalized h r) as Ef by (rewrite finalized_snoc; naive_solver).
    split; rewrite ?Ea.
    - apply (co_none _ _ Hs).
    - intros c f H. rewrite Ef. by apply (co_count _ _ Hs).
    - intros t p Hp. eapply call_ok_mono; [done|by apply Ef|done|]. by eapply (co_call _ _ Hs).
    - intros tab [->|[H _]]%named_snoc; [by destruct (N4 tab)|]. rewrite Ef. by apply (co_named _ _ Hs).
    - rewrite Ef. apply (co_gone _ _ Hs).
    - intros c. rewrite Ef. apply (co_set _ _ Hs).
    - apply (co_clean _ _ Hs).
  Qed.

  (** Setting the flag, at once or when the store buffer is emptied. *)
  Definition late (p : count_pc) : option (reference * count_pc) :=
    match p with
    | FStored r' true => Some (r', FStored r' false)
    | FLoaded r' now true => Some (r', FLoaded r' now false)
    | _ => None
    end.
  Lemma count_inv_flag h s t p r' q : count_inv h s -> calls s !! t = Some p ->
    late p = Some (r', q) \/ (p = FGot r' /\ q = FStored r' false) ->
    count_inv h (mk_counts (alter (fun x => (x.1, true)) r' (inner s)) (names s) (<[t := q]> (calls s))).
  Proof.
    intros Hs Et Hq. pose proof (co_call _ _ Hs _ _ Et) as Hp.
    assert (got p = false /\ got q = false /\ setting q = false /\ guards r p = bool_decide (r = r') /\ guards r q = bool_decide (r = r') /\ p <> FNone r) as (G1 & G2 & G3 & G4 & G5 & G6).
    { destruct Hq as [Hq|[-> ->]]; [|done]. destruct p as [| | | | | | |? []|? ? []| |]; try done; injection Hq as -> <-; done. }
    pose proof (gots_insert _ t _ q Et) as Eg. rewrite G1, G2 in Eg. assert (gots (<[t := q]> (calls s)) = gots (calls s)) as Eg' by lia. clear Eg.
    assert (t < length (calls s)) as Hl by (by eapply lookup_lt_Some).
    destruct (decide (r' = r)) as [->|Hne].
    - assert (finalized h r) as Hf.
      { destruct Hq as [Hq|[-> _]]; [|by apply Hp]. destruct p as [| | | | | | |? []|? ? []| |]; try done; injection Hq as -> <-; by apply Hp. }
      assert (call_ok (active h r + gots (calls s)) (finalized h r) (names s !! r) q) as Hqok.
      { destruct Hq as [Hq|[_ ->]]; [|done]. destruct p as [| | | | | | |? []|? ? []| |]; try done; injection Hq as -> <-; simpl in *; intros H; destruct (Hp H) as [Hp1 Hp2]; split; [done| |done|];
          [done|]. split; [by apply Hp2|done]. }
      assert (forall t' x, <[t := q]> (calls s) !! t' = Some x -> (t' = t /\ x = q) \/ (t' <> t /\ calls s !! t' = Some x)) as Old.
      { intros t' x. destruct (decide (t' = t)) as [->|]; [rewrite list_lookup_insert by done; intros [= <-]; by left|rewrite list_lookup_insert_ne by done; by right]. }
      destruct (inner s !! r) as [[n f]|] eqn:Ei.
      2:{ destruct (co_none _ _ Hs Ei) as [_ Hg]. specialize (Hg t p Et). by rewrite G4, holds_refl in Hg. }
      split; cbn [inner names calls]; rewrite ?lookup_alter, ?Ei, ?Eg'; simpl; try done.
      + intros c f' [= <- <-]. split; [by apply (co_count _ _ Hs _ _ Ei)|done].
      + intros t' x [[-> ->]|[_ Hx]]%Old; [done|by eapply (co_call _ _ Hs)].
      + apply (co_named _ _ Hs).
      + intros Hso [= ->]. exists t, q. split; [by rewrite list_lookup_insert|]. destruct Hq as [Hq|[_ ->]]; [|apply holds_refl].
        destruct p as [| | | | | | |? []|? ? []| |]; try done; injection Hq as -> <-; simpl in Hp; destruct (Hp eq_refl) as [_ Hx]; exfalso;
          assert (tso = true) by (first [exact (Hx eq_refl)|exact (proj2 Hx eq_refl)]); congruence.
    - eapply count_inv_move; [exact Hs|exact Et|done|cbn; by rewrite lookup_alter_ne by done|done|done|..].
      + destruct q; simpl; try done; destruct Hq as [Hq|[-> [= ->]]]; try done; destruct p as [| | | | | | |? []|? ? []| |]; try done; simpl in Hq; intros ->; congruence.
      + rewrite G4, G5. done.
      + done.
      + intros Hse. exfalso. apply Hne. symmetry. destruct Hq as [Hq|[-> _]]; [|by apply bool_decide_eq_true in Hse].
        destruct p as [| | | | | | |? []|? ? []| |]; try done; injection Hq as -> <-; by apply bool_decide_eq_true in Hse.
      + intros Hcl. exfalso. destruct Hq as [Hq|[-> _]]; [|done]. destruct p as [| | | | | | |? []|? ? []| |]; done.
  Qed.
  (** Taking the name out. *)
  Lemma count_inv_names h s t p r' q : count_inv h s -> calls s !! t = Some p ->
    (p = DNames r' /\ q = DInner r') \/ (p = FNone r' /\ q = CIdle) \/ (p = FNames r' /\ q = FInner r') ->
    count_inv h (mk_counts (inner s) (delete r' (names s)) (<[t := q]> (calls s))).
  Proof.
    intros Hs Et Hq. pose proof (co_call _ _ Hs _ _ Et) as Hp.
    assert (got p = false /\ got q = false /\ guards r q = false /\ setting p = false /\ (cleaning p = true -> cleaning q = true) /\ (r' = r -> active h r + gots (calls s) = 0 /\ finalized h r))
      as (G1 & G2 & G3 & G4 & G5 & G6) by (destruct Hq as [[-> ->]|[[-> ->]|[-> ->]]]; by split_and!).
    pose proof (gots_insert _ t _ q Et) as Eg. rewrite G1, G2 in Eg. assert (gots (<[t := q]> (calls s)) = gots (calls s)) as Eg' by lia. clear Eg.
    assert (t < length (calls s)) as Hl by (by eapply lookup_lt_Some).
    destruct (decide (r' = r)) as [->|Hne].
    - destruct (G6 eq_refl) as [Hz Hf].
      assert (forall t' x, <[t := q]> (calls s) !! t' = Some x -> (t' = t /\ x = q) \/ (t' <> t /\ calls s !! t' = Some x)) as Old.
      { intros t' x. destruct (decide (t' = t)) as [->|]; [rewrite list_lookup_insert by done; intros [= <-]; by left|rewrite list_lookup_insert_ne by done; by right]. }
      assert (forall (P : count_pc -> Prop), (P p -> P q) -> (exists t x, calls s !! t = Some x /\ P x) -> exists t' x, <[t := q]> (calls s) !! t' = Some x /\ P x) as Keep.
      { intros P HP (t' & x & Hx & Hpx). destruct (decide (t' = t)) as [->|].
        - exists t, q. rewrite list_lookup_insert by done. split; [done|]. apply HP. congruence.
        - exists t', x. rewrite list_lookup_insert_ne by done. done. }
      split; cbn [inner names calls]; rewrite ?Eg', ?lookup_delete.
      + intros H. destruct (co_none _ _ Hs H) as [Ha Hg]. split; [done|]. intros t' x [[-> ->]|[_ Hx]]%Old; [done|by eapply Hg].
      + apply (co_count _ _ Hs).
      + intros t' x [[-> ->]|[_ Hx]]%Old; [destruct Hq as [[_ ->]|[[_ ->]|[_ ->]]]; simpl; done|].
        eapply call_ok_mono; [..|by eapply (co_call _ _ Hs)]; done.
      + intros tab _ [Ha|Hn]; [lia|done].
      + by left.
      + intros c _ H. apply (Keep (fun x => setting x = true)); [congruence|]. by eapply (co_set _ _ Hs).
      + intros Hso H. apply (Keep (fun x => cleaning x = true)); [done|]. by eapply (co_clean _ _ Hs).
    - eapply count_inv_move; [exact Hs|exact Et|done|done|cbn; by rewrite lookup_delete_ne by done|done|..]; try done.
      + destruct Hq as [[_ ->]|[[_ ->]|[_ ->]]]; simpl; done.
      + intros ->. destruct Hq as [[? _]|[[[= ->] _]|[? _]]]; done.
      + by rewrite G4.
      + intros Hcl _. by apply G5.
  Qed.
  (** Taking the count out. *)
  Lemma count_inv_delete h s t p r' : count_inv h s -> calls s !! t = Some p -> p = DInner r' \/ p = FInner r' ->
    negb (existsb (guards r') (calls s)) = true ->
    count_inv h (mk_counts (delete r' (inner s)) (names s) (<[t := CIdle]> (calls s))).
  Proof.
    intros Hs Et Hq Hfree. pose proof (co_call _ _ Hs _ _ Et) as Hp.
    assert (got p = false /\ setting p = false /\ (r' = r -> active h r + gots (calls s) = 0 /\ finalized h r /\ names s !! r = None) /\ (cleaning p = true -> r' = r))
      as (G1 & G2 & G3 & G4).
    { destruct Hq as [-> | ->]; split_and!; try done; simpl; by intros ->%bool_decide_eq_true. }
    pose proof (gots_insert _ t _ CIdle Et) as Eg. rewrite G1 in Eg. simpl in Eg. assert (gots (<[t := CIdle]> (calls s)) = gots (calls s)) as Eg' by lia. clear Eg.
    assert (t < length (calls s)) as Hl by (by eapply lookup_lt_Some).
    destruct (decide (r' = r)) as [->|Hne].
    - destruct (G3 eq_refl) as (Hz & Hf & Hn).
      assert (forall t' x, <[t := CIdle]> (calls s) !! t' = Some x -> (t' = t /\ x = CIdle) \/ (t' <> t /\ calls s !! t' = Some x)) as Old.
      { intros t' x. destruct (decide (t' = t)) as [->|]; [rewrite list_lookup_insert by done; intros [= <-]; by left|rewrite list_lookup_insert_ne by done; by right]. }
      split; cbn [inner names calls]; rewrite ?Eg', ?lookup_delete; try done.
      + intros _. split; [lia|]. intros t' x [[-> ->]|[_ Hx]]%Old; [done|by eapply free_calls].
      + intros t' x [[-> ->]|[_ Hx]]%Old; [done|by eapply (co_call _ _ Hs)].
      + apply (co_named _ _ Hs).
      + by left.
    - eapply count_inv_move; [exact Hs|exact Et|done|cbn; by rewrite lookup_delete_ne by done|done|done|..]; try done.
      + intros ->. by destruct Hq.
      + by rewrite G2.
      + intros Hcl. by destruct (Hne (G4 Hcl)).
  Qed.

  Lemma count_inv_step h s c s' e : count_inv h s -> orderly (h ++ e) r -> count_step tso s c = Some (s', e) ->
    count_inv (h ++ e) s'.
  Proof.
    intros Hs Ho. pose proof (orderly_decs _ (orderly_prefix _ _ Ho)) as Hd. destruct c as [r' tab|r'|t r'|t r'|t|t]; cbn [count_step].
    - (* Name *)
      intros [= <- <-]. destruct (decide (r' = r)) as [->|Hne].
      + pose proof (orderly_open _ _ Ho ltac:(right; by eexists)) as Hf.
        assert (active (h ++ [EName r tab]) r = active h r) as Ea.
        { unfold active. rewrite incs_snoc, decs_snoc, decide_False, decide_False by done. lia. }
        assert (~ finalized (h ++ [EName r tab]) r) as Hf' by (rewrite finalized_snoc; naive_solver).
        split; cbn [inner names calls]; rewrite ?Ea, ?lookup_insert; try done.
        * apply (co_none _ _ Hs).
        * intros c f H. destruct (co_count _ _ Hs c f H) as [H1 H2]. split; [done|]. intros ->. destruct (Hf (H2 eq_refl)).
        * intros t p Hp. pose proof (co_call _ _ Hs t p Hp) as Hk. destruct p; simpl in *; naive_solver.
        * intros tab' [[= ->]|[_ H]]%named_snoc _; [done|by destruct (H tab)].
        * apply (co_clean _ _ Hs).
      + apply count_inv_other; try done; [|intros tab' [= ]; congruence].
        destruct Hs as [H1 H2 H3 H4 H5 H6 H7]. by split; cbn [inner names calls]; rewrite ?lookup_insert_ne by done.
    - (* Inc *)
      destruct (negb _) eqn:Hfree; [|done]. intros [= <- <-]. destruct (decide (r' = r)) as [->|Hne].
      + pose proof (orderly_open _ _ Ho ltac:(by left)) as Hf.
        assert (forall t p, calls s !! t = Some p -> guards r p = false) as Hg by (intros; by eapply free_calls).
        assert (active (h ++ [EInc r]) r = active h r + 1) as Ea.
        { unfold active. rewrite incs_snoc, decs_snoc, decide_True, decide_False by done. lia. }
        assert (~ finalized (h ++ [EInc r]) r) as Hf' by (rewrite finalized_snoc; naive_solver).
        pose proof (gots_guards _ Hg) as Hz.
        split; cbn [inner names calls]; rewrite ?Ea, ?lookup_insert; try done.
        * destruct (inner s !! r) as [[n f]|] eqn:Ei; intros c f' [= <- <-].
          -- destruct (co_count _ _ Hs n f Ei) as [-> H2]. split; [lia|]. intros ->. destruct (Hf (H2 eq_refl)).
          -- destruct (co_none _ _ Hs Ei) as [-> _]. rewrite Hz. done.
        * intros t p Hp. pose proof (co_call _ _ Hs t p Hp) as Hk. specialize (Hg t p Hp).
          destruct p; simpl in *; try (by naive_solver); intros ->; by rewrite holds_refl in Hg.
        * intros tab [?|[H _]]%named_snoc _; [done|]. apply (co_named _ _ Hs tab H). by right.
        * destruct (inner s !! r) as [[n f]|]; intros _ [= H _]; lia.
      + apply count_inv_other; try done; [|intros [= ]; congruence].
        destruct Hs as [H1 H2 H3 H4 H5 H6 H7]. by split; cbn [inner names calls]; rewrite ?lookup_insert_ne by done.
    - (* Dec *)
      destruct (calls s !! t) as [p|] eqn:Et; [|done]. destruct p; try done. intros [= <- <-].
      destruct (decide (r' = r)) as [->|Hne].
      + pose proof (orderly_dec _ Ho) as Hlt.
        assert (active h r = active (h ++ [EDec r]) r + 1) as Ea.
        { unfold active. rewrite incs_snoc, decs_snoc, decide_False, decide_True by done. lia. }
        assert (finalized (h ++ [EDec r]) r <-> finalized h r) as Ef by (rewrite finalized_snoc; naive_solver).
        destruct (inner s !! r) as [[n f]|] eqn:Ei; [|destruct (co_none _ _ Hs Ei); lia].
        pose proof (gots_insert _ t _ (DGot r) Et) as Eg. cbn [got] in Eg. rewrite holds_refl in Eg. simpl in Eg.
        assert (t < length (calls s)) as Hl by (by eapply lookup_lt_Some).
        assert (forall t' x, <[t := DGot r]> (calls s) !! t' = Some x -> (t' = t /\ x = DGot r) \/ (t' <> t /\ calls s !! t' = Some x)) as Old.
        { intros t' x. destruct (decide (t' = t)) as [->|]; [rewrite list_lookup_insert by done; intros [= <-]; by left|rewrite list_lookup_insert_ne by done; by right]. }
        assert (forall t' x, calls s !! t' = Some x -> x <> CIdle -> <[t := DGot r]> (calls s) !! t' = Some x) as Keep.
        { intros t' x Hx Hn. rewrite list_lookup_insert_ne; [done|]. intros <-. congruence. }
        split; cbn [inner names calls].
        * congruence.
        * intros c f' H. rewrite Ei in H. injection H as <- <-. destruct (co_count _ _ Hs n f Ei) as [-> H2]. rewrite Ef. split; [lia|done].
        * intros t' x [[-> ->]|[_ Hx]]%Old; [done|]. eapply call_ok_mono; [..|by eapply (co_call _ _ Hs)]; [lia|by apply Ef|done].
        * intros tab [?|[H _]]%named_snoc Hor; [done|]. apply (co_named _ _ Hs tab H). rewrite Ef in Hor. destruct Hor; [left; lia|by right].
        * congruence.
        * intros c Hf H. apply Ef in Hf. destruct (co_set _ _ Hs c Hf H) as (t' & x & Hx & Hsx). exists t', x. split; [|done]. apply Keep; [done|]. by intros ->.
        * intros Hso H. destruct (co_clean _ _ Hs Hso H) as (t' & x & Hx & Hsx). exists t', x. split; [|done]. apply Keep; [done|]. by intros ->.
      + apply count_inv_other; try done; [|intros [= ]; congruence].
        destruct (inner s !! r') as [x|]; [|done].
        eapply count_inv_move; [exact Hs|exact Et|done..| | | | | |]; try done.
        * pose proof (gots_insert _ t _ (DGot r') Et) as Eg. cbn [got] in Eg. rewrite bool_decide_eq_false_2 in Eg by done. cbn [calls]. lia.
        * intros _. by apply bool_decide_eq_false.
    - (* Finalize *)
      destruct (calls s !! t) as [p|] eqn:Et; [|done]. destruct p; try done. intros [= <- <-].
      destruct (decide (r' = r)) as [->|Hne].
      + assert (active (h ++ [EFinalize r]) r = active h r) as Ea.
        { unfold active. rewrite incs_snoc, decs_snoc, decide_False, decide_False by done. lia. }
        assert (finalized (h ++ [EFinalize r]) r) as Hf by (apply finalized_snoc; by right).
        set (q := match inner s !! r with Some _ => FGot r | None => FNone r end).
        pose proof (gots_insert _ t _ q Et) as Eg. assert (got q = false) as Hq by (unfold q; by destruct (inner s !! r)). rewrite Hq in Eg. simpl in Eg.
        assert (gots (<[t := q]> (calls s)) = gots (calls s)) as Eg' by lia. clear Eg.
        assert (t < length (calls s)) as Hl by (by eapply lookup_lt_Some).
        assert (forall t' x, <[t := q]> (calls s) !! t' = Some x -> (t' = t /\ x = q) \/ (t' <> t /\ calls s !! t' = Some x)) as Old.
        { intros t' x. destruct (decide (t' = t)) as [->|]; [rewrite list_lookup_insert by done; intros [= <-]; by left|rewrite list_lookup_insert_ne by done; by right]. }
        assert (forall t' x, calls s !! t' = Some x -> x <> CIdle -> <[t := q]> (calls s) !! t' = Some x) as Keep.
        { intros t' x Hx Hn. rewrite list_lookup_insert_ne; [done|]. intros <-. congruence. }
        assert (Hat : <[t := q]> (calls s) !! t = Some q) by (by rewrite list_lookup_insert).
        split; cbn [inner names calls]; rewrite ?Ea, ?Eg'.
        * intros H. destruct (co_none _ _ Hs H) as [Ha Hg]. split; [done|]. intros t' x [[-> ->]|[_ Hx]]%Old; [|by eapply Hg]. unfold q. by rewrite H.
        * intros c f H. destruct (co_count _ _ Hs c f H) as [H1 H2]. done.
        * intros t' x [[-> ->]|[_ Hx]]%Old.
          -- unfold q. destruct (inner s !! r) eqn:Ei; [by simpl; intros _|]. simpl. intros _. destruct (co_none _ _ Hs Ei) as [-> Hg]. by rewrite (gots_guards _ Hg).
          -- eapply call_ok_mono; [..|by eapply (co_call _ _ Hs)]; [done| |done]. intros ?. done.
        * intros tab [?|[H _]]%named_snoc Hor; [done|]. apply (co_named _ _ Hs tab H). destruct Hor; [by left|done].
        * intros _ H. right. exists t. rewrite Hat. unfold q. by rewrite H.
        * intros c _ H. exists t, q. split; [done|]. unfold q. rewrite H. simpl. apply holds_refl.
        * intros Hso H. destruct (co_clean _ _ Hs Hso H) as (t' & x & Hx & Hsx). exists t', x. split; [|done]. apply Keep; [done|]. by intros ->.
      + apply count_inv_other; try done; [|intros [= ]; congruence].
        set (q := match inner s !! r' with Some _ => FGot r' | None => FNone r' end).
        assert (q = FGot r' \/ q = FNone r') as Hq by (unfold q; destruct (inner s !! r'); by auto).
        eapply count_inv_move; [exact Hs|exact Et|done..| | | | | |]; try done.
        * pose proof (gots_insert _ t _ q Et) as Eg. cbn [calls]. destruct Hq as [Hq|Hq]; rewrite Hq in *; cbn [got] in Eg; lia.
        * destruct Hq as [-> | ->]; simpl; done.
        * intros _. destruct Hq as [-> | ->]; [by apply bool_decide_eq_false|done].
    - (* Flush *)
      destruct (calls s !! t) as [p|] eqn:Et; [|done].
      assert (forall r' q, count_step tso s (Flush t) = Some (s', e) -> late p = Some (r', q) ->
        s' = mk_counts (alter (fun x => (x.1, true)) r' (inner s)) (names s) (<[t := q]> (calls s)) /\ e = []) as Sh.
      { intros r' q. cbn [count_step]. rewrite Et. destruct p as [| | | | | | |? []|? ? []| |]; try done; simpl; intros [= <- <-] [= -> <-]; done. }
      cbn [count_step] in Sh. rewrite Et in Sh.
      destruct (late p) as [[r' q]|] eqn:El; [|by destruct p as [| | | | | | |? []|? ? []| |]].
      intros Hc. destruct (Sh _ _ Hc eq_refl) as [-> ->]. rewrite app_nil_r. clear Sh Hc.
      eapply count_inv_flag; [done..|by left].
    - (* Next *)
      destruct (calls s !! t) as [p|] eqn:Et; [|done]. pose proof (co_call _ _ Hs _ _ Et) as Hp.
      assert (forall q, got p = false -> got q = false -> gots (<[t := q]> (calls s)) = gots (calls s)) as Eg.
      { intros q H1 H2. pose proof (gots_insert _ t p q Et) as E. rewrite H1, H2 in E. lia. }
      assert (forall r', r' <> r -> bool_decide (r = r') = false) as Nb by (intros; by apply bool_decide_eq_false).
      destruct p as [|r'|r' prev|r'|r'|r'|r'|r' late|r' now late|r'|r']; try done.
      + (* DGot *)
        destruct (inner s !! r') as [[n f]|] eqn:Ei; [|done]. intros [= <- <-]. rewrite app_nil_r.
        destruct (decide (r' = r)) as [->|Hne].
        * destruct (co_count _ _ Hs _ _ Ei) as [Hn Hff]. pose proof (gots_pos _ _ _ Et (holds_refl r)) as Hpos.
          pose proof (gots_insert _ t _ (DSub r n) Et) as E. cbn [got] in E. rewrite holds_refl in E.
          assert (sub1 n = N.of_nat (active h r + gots (<[t := DSub r n]> (calls s)))) as Hn'.
          { unfold sub1. destruct (N.eqb_spec n 0); lia. }
          assert (t < length (calls s)) as Hl by (by eapply lookup_lt_Some).
          assert (forall t' x, <[t := DSub r n]> (calls s) !! t' = Some x -> (t' = t /\ x = DSub r n) \/ (t' <> t /\ calls s !! t' = Some x)) as Old.
          { intros t' x. destruct (decide (t' = t)) as [->|]; [rewrite list_lookup_insert by done; intros [= <-]; by left|rewrite list_lookup_insert_ne by done; by right]. }
          assert (forall t' x, calls s !! t' = Some x -> x <> DGot r -> <[t := DSub r n]> (calls s) !! t' = Some x) as Keep.
          { intros t' x Hx Hn0. rewrite list_lookup_insert_ne; [done|]. intros <-. congruence. }
          split; cbn [inner names calls]; rewrite ?lookup_insert; try done.
          -- intros c f' [= <- <-]. done.
          -- intros t' x [[-> ->]|[_ Hx]]%Old; [simpl; intros _; lia|].
             eapply call_ok_mono; [..|by eapply (co_call _ _ Hs)]; [lia|done..].
          -- apply (co_named _ _ Hs).
          -- intros c Hf [= <- ->]. destruct (co_set _ _ Hs n Hf Ei) as (t' & x & Hx & Hsx). exists t', x. split; [|done]. apply Keep; [done|]. by intros ->.
          -- intros Hso [= H0 ->]. exists t, (DSub r n). split; [by rewrite list_lookup_insert|]. simpl. rewrite holds_refl. simpl.
             apply N.leb_le. unfold sub1 in H0. destruct (N.eqb_spec n 0); lia.
        * eapply count_inv_move; [exact Hs|exact Et|done|cbn; by rewrite lookup_insert_ne by done|done|..]; cbn [calls];
            try (by rewrite Eg by (cbn; by auto)); simpl; rewrite ?Nb by done; done.
      + (* DSub *)
        destruct (inner s !! r') as [[n f]|] eqn:Ei; [|done]. intros [= <- <-]. rewrite app_nil_r.
        set (q := if (prev <=? 1)%N && f then DNames r' else CIdle).
        assert ((q = DNames r' /\ (prev <= 1)%N /\ f = true) \/ (q = CIdle /\ ((1 < prev)%N \/ f = false))) as Hq.
        { unfold q. destruct (N.leb_spec prev 1), f; simpl; auto. }
        eapply count_inv_move; [exact Hs|exact Et|done..| | | | | |]; cbn [calls].
        * apply Eg; [done|]. by destruct Hq as [[-> _]|[-> _]].
        * destruct Hq as [(-> & Hle & ->)|[-> _]]; [|done]. simpl. intros ->. split; [by apply Hp|]. by apply (co_count _ _ Hs _ _ Ei).
        * by destruct Hq as [[-> _]|[-> _]].
        * done.
        * done.
        * simpl. intros [He Hle]%andb_true_iff Hi0. apply bool_decide_eq_true in He as <-. apply N.leb_le in Hle.
          rewrite Ei in Hi0. injection Hi0 as -> ->.
          destruct Hq as [[-> _]|[_ [?|?]]]; [apply holds_refl|lia|done].
      + (* DNames *) intros [= <- <-]. rewrite app_nil_r. eapply count_inv_names; [done..|by auto].
      + (* DInner *) destruct (negb _) eqn:Hfree; [|done]. intros [= <- <-]. rewrite app_nil_r. eapply count_inv_delete; [done..|by auto|done].
      + (* FNone *) intros [= <- <-]. rewrite app_nil_r. eapply count_inv_names; [done..|by auto].
      + (* FGot *)
        destruct tso eqn:Etso; intros [= <- <-]; rewrite app_nil_r.
        * eapply count_inv_move; [exact Hs|exact Et|done..| | | | | |]; cbn [calls]; try done; [by rewrite Eg by done|].
          simpl. intros Hr. split; [by apply Hp|done].
        * eapply count_inv_flag; [done..|by right].
      + (* FStored *)
        destruct (inner s !! r') as [[n f]|] eqn:Ei; [|done]. intros [= <- <-]. rewrite app_nil_r.
        eapply count_inv_move; [exact Hs|exact Et|done..| | | | | |]; cbn [calls]; try done.
        * by rewrite Eg by done.
        * simpl. intros ->. destruct (Hp eq_refl) as [H1 H2]. split_and!; [done| |done]. destruct (co_count _ _ Hs _ _ Ei) as [-> _]. lia.
        * destruct late; [done|]. simpl. intros He Hi0. apply bool_decide_eq_true in He as <-. rewrite Ei in Hi0. injection Hi0 as -> ->. by rewrite holds_refl.
      + (* FLoaded *)
        destruct late; [done|]. intros [= <- <-]. rewrite app_nil_r.
        set (q := if (now =? 0)%N then FNames r' else CIdle).
        assert ((q = FNames r' /\ now = 0%N) \/ (q = CIdle /\ now <> 0%N)) as Hq by (unfold q; destruct (N.eqb_spec now 0); auto).
        eapply count_inv_move; [exact Hs|exact Et|done..| | | | | |]; cbn [calls]; try done.
        * apply Eg; [done|]. by destruct Hq as [[-> _]|[-> _]].
        * destruct Hq as [[-> Hn]|[-> _]]; [|done]. simpl. intros ->. destruct (Hp eq_refl) as (H1 & H2 & _). split; [by apply H2|done].
        * by destruct Hq as [[-> _]|[-> _]].
        * simpl. intros [He Hle]%andb_true_iff _. apply bool_decide_eq_true in He as <-. apply N.eqb_eq in Hle. destruct Hq as [[-> _]|[_ ?]]; [apply holds_refl|done].
      + (* FNames *) intros [= <- <-]. rewrite app_nil_r. eapply count_inv_names; [done..|by auto].
      + (* FInner *) destruct (negb _) eqn:Hfree; [|done]. intros [= <- <-]. rewrite app_nil_r. eapply count_inv_delete; [done..|by auto|done].
  Qed.

  Lemma count_inv_init n : count_inv [] (new_counts n).
  Proof.
    assert (forall (P : count_pc -> Prop), P CIdle -> forall t p, replicate n CIdle !! t = Some p -> P p) as All.
    { intros P HP t p [-> _]%lookup_replicate. done. }
    split; cbn; try done.
    - intros _. split; [done|]. by apply (All (fun p => guards r p = false)).
    - by apply (All (call_ok _ _ _)).
    - intros tab (i & Hi & _). done.
    - intros []%elem_of_nil.
  Qed.
  Lemma count_inv_run n l s h : follow (count_step tso) (new_counts n) l = Some (s, h) -> orderly h r -> count_inv h s.
  Proof.
    intros H. pattern l, s, h. eapply (follow_ind (count_step tso) (new_counts n)); [..|exact H].
    - intros _. apply count_inv_init.
    - intros l1 s1 h1 c s2 e _ IH Hc Ho. eapply count_inv_step; [|done..]. apply IH. by eapply orderly_prefix.
  Qed.
  Lemma quiet_calls s t p : quiet s -> calls s !! t = Some p -> p = CIdle.
  Proof. intros Hq Hp. by apply (Forall_lookup_1 _ _ _ _ Hq Hp). Qed.
  Lemma gots_quiet s : quiet s -> gots (calls s) = 0.
  Proof. intros Hq. apply gots_guards. intros t p Hp. by rewrite (quiet_calls _ _ _ Hq Hp). Qed.

  Lemma exact_count n l s h : follow (count_step tso) (new_counts n) l = Some (s, h) -> orderly h r -> quiet s ->
    match inner s !! r with Some (c, _) => c = N.of_nat (active h r) | None => active h r = 0 end.
  Proof.
    intros Hr Ho Hq. pose proof (count_inv_run _ _ _ _ Hr Ho) as Hs. destruct (inner s !! r) as [[c f]|] eqn:Ei.
    - destruct (co_count _ _ Hs _ _ Ei) as [-> _]. rewrite (gots_quiet _ Hq). lia.
    - by apply (co_none _ _ Hs).
  Qed.
  Lemma cleaned n l s h : tso = false -> follow (count_step tso) (new_counts n) l = Some (s, h) -> orderly h r -> quiet s ->
    finalized h r -> active h r = 0 -> inner s !! r = None /\ names s !! r = None.
  Proof.
    intros Hso Hr Ho Hq Hf Ha. pose proof (count_inv_run _ _ _ _ Hr Ho) as Hs.
    assert (inner s !! r = None) as Hi.
    { destruct (inner s !! r) as [[c f]|] eqn:Ei; [|done]. destruct (co_count _ _ Hs _ _ Ei) as [Hc _].
      rewrite Ha, (gots_quiet _ Hq) in Hc. simpl in Hc. subst c. destruct f.
      - destruct (co_clean _ _ Hs Hso Ei) as (t & p & Hp & Hx). by rewrite (quiet_calls _ _ _ Hq Hp) in Hx.
      - destruct (co_set _ _ Hs _ Hf Ei) as (t & p & Hp & Hx). by rewrite (quiet_calls _ _ _ Hq Hp) in Hx. }
    split; [done|]. destruct (co_gone _ _ Hs Hf Hi) as [?|[t Ht]]; [done|]. by apply (quiet_calls _ _ _ Hq) in Ht.
  Qed.
End counts.
