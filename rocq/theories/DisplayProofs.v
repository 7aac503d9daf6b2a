(** Proofs about rendered nodes, layers, hit tests and tiles. *)
From Coq Require Import QArith Qround Qminmax Lqa.
From stdpp Require Import numbers option list sorting.
From Verif Require Import Base DisplayModel DisplaySpec.

(** ** Rendered nodes *)
Section dom_ind.
  Context (P : dom -> Prop) (H : forall n below, Forall P below -> P (Dom n below)).
  Fixpoint dom_ind' (t : dom) : P t :=
    match t with
    | Dom n below => H n below ((fix go ts : Forall P ts := match ts with [] => Forall_nil_2 P | t :: ts => Forall_cons_2 P t ts (dom_ind' t) (go ts) end) below)
    end.
End dom_ind.

Section rendered.
Context (kids : N -> list N) (visible : N -> bool).
Notation build := (build kids visible).
Fixpoint puts (l : list (N * list N)) (a : arena) : arena := match l with [] => a | (n, cs) :: l => puts l (put n cs a) end.
Fixpoint post (t : dom) : list (N * list N) :=
  match t with
  | Dom n below =>
      if visible n then mjoin (post <$> below) ++ [(n, filter (fun c => visible c = true) (root <$> below))] else []
  end.
Definition result (t : dom) : option N := if visible (root t) then Some (root t) else None.
Lemma puts_app l l' a : puts (l ++ l') a = puts l' (puts l a).
Proof. revert a. induction l as [|[n cs] l IH]; intros a; cbn; auto. Qed.
Lemma describes_all n below : describes kids (Dom n below) -> kids n = root <$> below /\ Forall (describes kids) below.
Proof.
  intros [H K]. split; [done|]. clear H. induction below as [|t below IH]; [constructor|]. destruct K as [K1 K2]. constructor; auto.
Qed.
Lemma results_flat (below : list dom) : omap id (result <$> below) = filter (fun c => visible c = true) (root <$> below).
Proof.
  induction below as [|t below IH]; [done|]. cbn [fmap list_fmap]. unfold result at 1. rewrite filter_cons. cbn.
  destruct (visible (root t)); cbn; [rewrite decide_True by done|rewrite decide_False by done]; by rewrite <- IH.
Qed.
Lemma build_ok t : describes kids t -> exists k, k <= size t /\ forall fuel stack results a,
  build (k + fuel) (Process (root t) :: stack) results a = build fuel stack (result t :: results) (puts (post t) a).
Proof.
  induction t as [n below IH] using dom_ind'. intros [Hk Hb]%describes_all. unfold result. cbn [root post size]. destruct (visible n) eqn:Hv.
  2:{ exists 1. split; [lia|]. intros. cbn. by rewrite Hv. }
  assert (forall ts, Forall (fun t => describes kids t -> exists k, k <= size t /\ forall fuel stack results a,
    build (k + fuel) (Process (root t) :: stack) results a = build fuel stack (result t :: results) (puts (post t) a)) ts ->
    Forall (describes kids) ts -> exists k, k <= sum_list (size <$> ts) /\ forall fuel stack results a,
    build (k + fuel) ((Process <$> (root <$> ts)) ++ stack) results a =
    build fuel stack (rev (result <$> ts) ++ results) (puts (mjoin (post <$> ts)) a)) as Go.
  { clear. intros ts H. induction H as [|t ts Ht H IH]; intros Hd; [exists 0; split; [done|]; by intros|].
    apply Forall_cons in Hd as [Hd Hds]. destruct (Ht Hd) as (k1 & Hk1 & E1). destruct (IH Hds) as (k2 & Hk2 & E2).
    exists (k1 + k2). split; [cbn; lia|]. intros. rewrite <- Nat.add_assoc. cbn [fmap list_fmap app].
    rewrite E1, E2. cbn [mjoin list_join]. rewrite puts_app. f_equal. cbn [rev]. rewrite <- app_assoc. done. }
  destruct (Go below IH Hb) as (k & Hk' & E). exists (S (k + 1)). split; [lia|]. intros. cbn [DisplayModel.build Nat.add]. rewrite Hv, Hk.
  rewrite <- Nat.add_assoc, E. cbn [Nat.add DisplayModel.build]. rewrite fmap_length. rewrite take_app_alt, drop_app_alt by by rewrite rev_length, fmap_length.
  rewrite rev_involutive, results_flat, puts_app. done.
Qed.

Lemma puts_lookup l a n : (forall cs cs', (n, cs) ∈ l -> (n, cs') ∈ l -> cs = cs') ->
  forall cs, puts l a n = Some cs <-> (n, cs) ∈ l \/ (forall cs', (n, cs') ∉ l) /\ a n = Some cs.
Proof.
  revert a. induction l as [|[m ds] l IH]; intros a Hf cs; cbn [puts].
  { split; [intros; right; split; [intros ? K; by apply elem_of_nil in K|done]|intros [K|[_ K]]; [by apply elem_of_nil in K|done]]. }
  rewrite IH by (intros ? ? ? ?; apply Hf; by right). unfold put. destruct (N.eqb_spec n m) as [->|Hn].
  - split.
    + intros [K|[K E]]; [by left; right|]. simplify_eq. by left; left.
    + intros [[?|K]%elem_of_cons|[K _]]; simplify_eq; [|by left|destruct (K ds); by left].
      destruct (decide (Exists (fun x => fst x = m) l)) as [Hx|Hx].
      * apply Exists_exists in Hx as ([m' es] & Hx & ?). simplify_eq/=. left. replace ds with es; [done|]. apply Hf; [by right|by left].
      * right. split; [|done]. intros cs' K. destruct Hx. apply Exists_exists. by eexists.
  - split.
    + intros [K|[K E]]; [by left; right|]. right. split; [|done]. intros cs' [?|?]%elem_of_cons; simplify_eq; by eapply K.
    + intros [[?|K]%elem_of_cons|[K E]]; simplify_eq; [by left|]. right. split; [|done]. intros cs' ?. eapply K. by right.
Qed.
Lemma post_rendered t x : x ∈ post t <-> x ∈ rendered visible t.
Proof.
  induction t as [n below IH] using dom_ind'. cbn [post rendered]. destruct (visible n); [|done].
  rewrite elem_of_app, elem_of_list_singleton, elem_of_cons. assert (x ∈ mjoin (post <$> below) <-> x ∈ mjoin (rendered visible <$> below)) as ->; [|tauto].
  induction IH as [|t ts Ht H IH']; [done|]. cbn. rewrite !elem_of_app, Ht, IH'. done.
Qed.
Lemma rendered_kids t n cs : describes kids t -> (n, cs) ∈ rendered visible t -> cs = filter (fun c => visible c = true) (kids n).
Proof.
  induction t as [m below IH] using dom_ind'. intros [Hk Hb]%describes_all. cbn [rendered]. destruct (visible m); [|intros K; by apply elem_of_nil in K].
  intros [K|K]%elem_of_cons; [simplify_eq; by rewrite Hk|]. clear Hk. induction IH as [|t ts Ht H IH']; [by apply elem_of_nil in K|].
  apply Forall_cons in Hb as [Hb Hbs]. cbn in K. apply elem_of_app in K as [K|K]; auto.
Qed.
Lemma parse_ok t : describes kids t -> exists a, (forall fuel, size t < fuel ->
    parse kids visible fuel (root t) = Ok (if visible (root t) then Some (root t) else None, a))
  /\ forall n cs, a n = Some cs <-> (n, cs) ∈ rendered visible t.
Proof.
  intros Hd. destruct (build_ok t Hd) as (k & Hk & E). exists (puts (post t) (fun _ => None)). split.
  - intros fuel Hf. unfold parse. replace fuel with (k + S (fuel - k - 1)) by lia. rewrite E. done.
  - intros n cs. rewrite puts_lookup.
    + rewrite post_rendered. split; [intros [K|[_ K]]; done|by left].
    + intros cs' cs''. rewrite !post_rendered. intros K1 K2. apply rendered_kids in K1, K2; [|done..]. congruence.
Qed.
End rendered.

(** ** Layers *)
Section ltree_ind.
  Context (P : ltree -> Prop) (H : forall e below, Forall P below -> P (LNode e below)).
  Fixpoint ltree_ind' (t : ltree) : P t :=
    match t with
    | LNode e below => H e below ((fix go ts : Forall P ts := match ts with [] => Forall_nil_2 P | t :: ts => Forall_cons_2 P t ts (ltree_ind' t) (go ts) end) below)
    end.
End ltree_ind.

Definition go (parent : option rect) (k : nat) (g : bool) (order : Z) (ts : list ltree) (ls : layers) : layers :=
  foldl (fun ls t => traverse parent k g order t ls) ls ts.
Lemma traverse_eq parent k g inh e below ls :
  traverse parent k g inh (LNode e below) ls =
  let order := default inh (z_index e) in
  if compositing e || (is_some (z_index e) && negb g) then
    go (Some (e_content e)) (length ls) true order below (new_layer order (clamp01 (e_opacity e)) (anchor_of parent e) e ls)
  else go (Some (e_content e)) k g order below
         (if e_image e && negb g then new_layer order 1 Scroll e ls else add_to_layer k e ls).
Proof.
  cbn [traverse]. cbv zeta. destruct (compositing e || _).
  - replace (length (new_layer _ _ _ e ls) - 1) with (length ls) by (unfold new_layer; rewrite app_length; cbn; lia).
    generalize (new_layer (default inh (z_index e)) (clamp01 (e_opacity e)) (anchor_of parent e) e ls). intros l0.
    unfold go. revert l0. induction below as [|t ts IH]; intros l0; [done|]. cbn. apply IH.
  - generalize (if e_image e && negb g then new_layer (default inh (z_index e)) 1 Scroll e ls else add_to_layer k e ls). intros l0.
    unfold go. revert l0. induction below as [|t ts IH]; intros l0; [done|]. cbn. apply IH.
Qed.

(** One list of layers goes on from another, with these elements. *)
Definition same_kind (l l' : layer) : Prop := l_order l' = l_order l /\ l_opacity l' = l_opacity l /\ l_anchor l' = l_anchor l.
Definition grows (D : list element) (ls ls' : layers) : Prop :=
  length ls <= length ls'
  /\ mjoin (l_elements <$> ls') ≡ₚ mjoin (l_elements <$> ls) ++ D
  /\ forall i l', ls' !! i = Some l' ->
     match ls !! i with
     | Some l => same_kind l l' /\ exists more, l_elements l' = l_elements l ++ more /\ more `sublist_of` D
     | None => l_elements l' `sublist_of` D
     end.
Lemma grows_refl ls : grows [] ls ls.
Proof.
  split_and!; [done|by rewrite app_nil_r|]. intros i l' E. rewrite E. split; [done|]. exists []. by rewrite app_nil_r.
Qed.
Lemma grows_trans D1 D2 a b c : grows D1 a b -> grows D2 b c -> grows (D1 ++ D2) a c.
Proof.
  intros (L1 & P1 & G1) (L2 & P2 & G2). split_and!; [lia| |].
  - by rewrite P2, P1, <- app_assoc.
  - intros i l' E. specialize (G2 _ _ E). destruct (a !! i) as [l|] eqn:Ea.
    + destruct (b !! i) as [m|] eqn:Eb; [|apply lookup_ge_None in Eb; apply lookup_lt_Some in Ea; lia].
      specialize (G1 _ _ Eb). rewrite Ea in G1. destruct G1 as ((A1 & A2 & A3) & m1 & E1 & S1). destruct G2 as ((B1 & B2 & B3) & m2 & E2 & S2).
      split; [split_and!; congruence|]. exists (m1 ++ m2). split; [by rewrite E2, E1, app_assoc|]. by apply sublist_app.
    + destruct (b !! i) as [m|] eqn:Eb.
      * specialize (G1 _ _ Eb). rewrite Ea in G1. destruct G2 as (_ & m2 & E2 & S2). rewrite E2. by apply sublist_app.
      * by apply sublist_inserts_l.
Qed.
Lemma grows_new order o a e ls : grows [e] ls (new_layer order o a e ls).
Proof.
  unfold new_layer. split_and!; [rewrite app_length; lia| |].
  - rewrite fmap_app. generalize (l_elements <$> ls). intros ll. induction ll as [|x ll IH]; cbn; [done|]. cbn in IH. by rewrite IH, app_assoc.
  - intros i l' E. destruct (ls !! i) as [l|] eqn:Ei.
    + rewrite lookup_app_l in E by by eapply lookup_lt_Some. simplify_eq. split; [done|]. exists []. rewrite app_nil_r. split; [done|]. apply sublist_nil_l.
    + apply lookup_ge_None in Ei. rewrite lookup_app_r in E by done. apply list_lookup_singleton_Some in E as [_ <-]. done.
Qed.
Lemma grows_add k e ls : k < length ls -> grows [e] ls (add_to_layer k e ls).
Proof.
  intros Hk. unfold add_to_layer. split_and!; [by rewrite alter_length| |].
  - revert k Hk. induction ls as [|l ls IH]; intros [|k] Hk; cbn in *; try lia.
    + rewrite <- !app_assoc. apply Permutation_app_head, Permutation_app_comm.
    + rewrite IH by lia. by rewrite app_assoc.
  - intros i l' E. destruct (decide (i = k)) as [->|Hi].
    + rewrite list_lookup_alter in E. destruct (ls !! k) as [l|] eqn:El; [|done]. simplify_eq/=. split; [done|]. by exists [e].
    + rewrite list_lookup_alter_ne in E by done. rewrite E. split; [done|]. exists []. rewrite app_nil_r. split; [done|]. apply sublist_nil_l.
Qed.
Definition grower (t : ltree) : Prop := forall parent k g inh ls, k < length ls -> grows (document_order t) ls (traverse parent k g inh t ls).
Lemma go_grows ts : Forall grower ts -> forall parent k g inh ls, k < length ls ->
  grows (mjoin (document_order <$> ts)) ls (go parent k g inh ts ls).
Proof.
  intros H. induction H as [|t ts Ht H IH]; intros parent k g inh ls Hk; [apply grows_refl|]. cbn.
  pose proof (Ht parent k g inh ls Hk) as G. eapply grows_trans; [exact G|]. apply IH. destruct G as [G _]. lia.
Qed.
Lemma first_ok k g inh e ls : k < length ls ->
  grows [e] ls (if e_image e && negb g then new_layer (default inh (z_index e)) 1 Scroll e ls else add_to_layer k e ls).
Proof. intros Hk. destruct (_ && _); [apply grows_new|by apply grows_add]. Qed.
Lemma traverse_grows t : grower t.
Proof.
  induction t as [e below IH] using ltree_ind'. intros parent k g inh ls Hk. rewrite traverse_eq. cbv zeta. cbn [document_order].
  change (e :: ?l) with ([e] ++ l). destruct (compositing e || _).
  - eapply grows_trans; [apply grows_new|]. apply go_grows; [done|]. unfold new_layer. rewrite app_length. cbn. lia.
  - eapply grows_trans; [by apply first_ok|]. apply go_grows; [done|]. pose proof (first_ok k g inh e ls Hk) as [L _]. lia.
Qed.

(** New layers are begun in document order. *)
Definition firsts (n : nat) (ls : layers) : list element := omap (head ∘ l_elements) (drop n ls).
Definition full (n : nat) (ls : layers) : Prop := forall i l, n <= i -> ls !! i = Some l -> l_elements l <> [].
Definition begins (D : list element) (ls ls' : layers) : Prop :=
  length ls <= length ls'
  /\ (forall i l, ls !! i = Some l -> l_elements l <> [] -> exists l', ls' !! i = Some l' /\ head (l_elements l') = head (l_elements l))
  /\ full (length ls) ls' /\ firsts (length ls) ls' `sublist_of` D.
Lemma heads_eq (ls ls' : layers) : length ls <= length ls' -> full 0 ls ->
  (forall i l, ls !! i = Some l -> l_elements l <> [] -> exists l', ls' !! i = Some l' /\ head (l_elements l') = head (l_elements l)) ->
  omap (head ∘ l_elements) ls' = omap (head ∘ l_elements) ls ++ firsts (length ls) ls'.
Proof.
  unfold firsts. revert ls'. induction ls as [|l ls IH]; intros [|l' ls'] HL Hf Hh; cbn in HL; try lia; try done.
  cbn [length drop omap list_omap]. destruct (Hh 0 l eq_refl) as (m & E & Hm); [by apply (Hf 0 l ltac:(lia))|]. cbn in E. injection E as ->.
  rewrite (IH ls'); [|lia| |].
  - cbn. rewrite Hm. by destruct (head (l_elements l)).
  - intros i x _ Hx. apply (Hf (S i) x ltac:(lia) Hx).
  - intros i x Hx. apply (Hh (S i) x Hx).
Qed.
Lemma begins_refl ls : begins [] ls ls.
Proof.
  split_and!; [done|eauto| |unfold firsts; by rewrite drop_ge].
  intros i l Hi E. apply lookup_lt_Some in E. lia.
Qed.
Lemma begins_trans D1 D2 a b c : begins D1 a b -> begins D2 b c -> begins (D1 ++ D2) a c.
Proof.
  intros (L1 & H1 & F1 & S1) (L2 & H2 & F2 & S2). split_and!; [lia| | |].
  - intros i l E N. destruct (H1 _ _ E N) as (m & E1 & M1). destruct (H2 _ _ E1) as (m' & E2 & M2).
    { intros K. rewrite K in M1. by destruct (l_elements l). }
    exists m'. split; [done|congruence].
  - intros i l Hi E. destruct (decide (length b <= i)) as [Hb|Hb]; [by eapply F2|].
    destruct (lookup_lt_is_Some_2 b i ltac:(lia)) as (m & Em). destruct (H2 _ _ Em) as (m' & E2 & M2); [by eapply F1|].
    simplify_eq. intros K. rewrite K in M2. pose proof (F1 _ _ Hi Em). by destruct (l_elements m).
  - unfold firsts. rewrite (heads_eq (drop (length a) b) (drop (length a) c)).
    + apply sublist_app; [done|]. unfold firsts. rewrite drop_drop, drop_length. by replace (length a + (length b - length a)) with (length b) by lia.
    + rewrite !drop_length. lia.
    + intros i l _ E. rewrite lookup_drop in E. eapply F1; [|exact E]. lia.
    + intros i l E N. rewrite lookup_drop in E |- *. by apply H2.
Qed.
Lemma begins_new order o a e ls : begins [e] ls (new_layer order o a e ls).
Proof.
  unfold new_layer. split_and!; [rewrite app_length; lia| | |].
  - intros i l E _. exists l. split; [|done]. by apply lookup_app_l_Some.
  - intros i l Hi E. rewrite lookup_app_r in E by done. apply list_lookup_singleton_Some in E as [_ <-]. done.
  - unfold firsts. by rewrite drop_app.
Qed.
Lemma begins_add k e ls : begins [e] ls (add_to_layer k e ls).
Proof.
  unfold add_to_layer. split_and!; [by rewrite alter_length| | |].
  - intros i l E N. destruct (decide (i = k)) as [->|Hi].
    + rewrite list_lookup_alter, E. cbn. eexists. split; [done|]. cbn. by destruct (l_elements l).
    + rewrite list_lookup_alter_ne by done. eauto.
  - intros i l Hi E. apply lookup_lt_Some in E. rewrite alter_length in E. lia.
  - unfold firsts. rewrite drop_ge by by rewrite alter_length. apply sublist_nil_l.
Qed.
Lemma traverse_begins t parent k g inh ls : begins (document_order t) ls (traverse parent k g inh t ls).
Proof.
  revert parent k g inh ls. induction t as [e below IH] using ltree_ind'. intros parent k g inh ls.
  assert (forall parent k g inh ls, begins (mjoin (document_order <$> below)) ls (go parent k g inh below ls)) as G.
  { clear -IH. induction IH as [|t ts Ht H IH']; intros parent k g inh ls; [apply begins_refl|]. cbn. eapply begins_trans; [apply Ht|apply IH']. }
  rewrite traverse_eq. cbv zeta. cbn [document_order]. change (e :: ?l) with ([e] ++ l). destruct (compositing e || _).
  - eapply begins_trans; [apply begins_new|apply G].
  - eapply begins_trans; [|apply G]. destruct (_ && _); [apply begins_new|apply begins_add].
Qed.
Lemma traverse_others t parent k g inh ls i : i < length ls -> i <> k -> traverse parent k g inh t ls !! i = ls !! i.
Proof.
  revert parent k g inh ls. induction t as [e below IH] using ltree_ind'. intros parent k g inh ls Hi Hk.
  assert (forall parent k g inh ls, i < length ls -> i <> k -> go parent k g inh below ls !! i = ls !! i) as G.
  { clear -IH. induction IH as [|t ts Ht H IH']; intros parent k g inh ls Hi Hk; [done|]. cbn. unfold go in IH'. rewrite IH'; [by apply Ht| |done].
    destruct (traverse_begins t parent k g inh ls) as [L _]. lia. }
  rewrite traverse_eq. cbv zeta. destruct (compositing e || _).
  - rewrite G; [|unfold new_layer; rewrite app_length; lia|lia]. unfold new_layer. by rewrite lookup_app_l.
  - destruct (_ && _).
    + rewrite G; [|unfold new_layer; rewrite app_length; lia|lia]. unfold new_layer. by rewrite lookup_app_l.
    + unfold add_to_layer. rewrite G; [|by rewrite alter_length|done]. by rewrite list_lookup_alter_ne.
Qed.
Lemma firsts_ok e below : e_image e = false -> omap (head ∘ l_elements) (unsorted_layers (LNode e below)) `sublist_of` e :: mjoin (document_order <$> below).
Proof.
  intros Hi. destruct (traverse_begins (LNode e below) None 0 false 0%Z [mk_layer 0 1 Scroll []]) as (L & _ & _ & S).
  fold (unsorted_layers (LNode e below)) in L, S. destruct (compositing e || (is_some (z_index e) && negb false)) eqn:E.
  - assert (unsorted_layers (LNode e below) !! 0 = Some (mk_layer 0 1 Scroll [])) as Z.
    { unfold unsorted_layers. rewrite traverse_eq. cbv zeta. rewrite E. cbn [new_layer app length].
      assert (forall parent k g inh ls, 0 < length ls -> 0 <> k -> go parent k g inh below ls !! 0 = ls !! 0) as ->; [|done|cbn; lia|done].
      clear. induction below as [|t ts IH]; intros parent k g inh ls Hi Hk; [done|]. cbn. unfold go in IH. rewrite IH; [by apply traverse_others| |done].
      destruct (traverse_begins t parent k g inh ls) as [L _]. lia. }
    destruct (unsorted_layers (LNode e below)) as [|l ls]; [done|]. cbn in Z. injection Z as ->. done.
  - assert (begins (mjoin (document_order <$> below)) [mk_layer 0 1 Scroll [e]] (unsorted_layers (LNode e below))) as (L' & H' & F' & S').
    { unfold unsorted_layers. rewrite traverse_eq. cbv zeta. rewrite E, Hi. cbn [andb].
      change (add_to_layer _ _ _) with [mk_layer 0 1 Scroll [e]]. generalize (Some (e_content e)), 0, (default 0%Z (z_index e)), [mk_layer 0 1 Scroll [e]]. clear.
      induction below as [|t ts IH]; intros parent k inh ls; [apply begins_refl|]. cbn. eapply begins_trans; [apply traverse_begins|apply IH]. }
    rewrite (heads_eq [mk_layer 0 1 Scroll [e]]); [|done| |done].
    + cbn. by constructor.
    + intros [|i] l _ El; [by simplify_eq/=|done].
Qed.
Lemma grows_in D ls ls' i l : grows D ls ls' -> ls !! i = Some l ->
  exists l', ls' !! i = Some l' /\ same_kind l l' /\ exists more, l_elements l' = l_elements l ++ more.
Proof.
  intros (L & _ & G) E. destruct (ls' !! i) as [l'|] eqn:E'; [|apply lookup_ge_None in E'; apply lookup_lt_Some in E; lia].
  exists l'. split; [done|]. specialize (G _ _ E'). rewrite E in G. destruct G as (K & more & Em & _). eauto.
Qed.
Lemma go_split ts t : t ∈ ts -> forall parent k g inh ls, k < length ls ->
  exists ls1 D1 D2, grows D1 ls ls1 /\ grows D2 (traverse parent k g inh t ls1) (go parent k g inh ts ls) /\ k < length ls1.
Proof.
  intros (ts1 & ts2 & ->)%elem_of_list_split parent k g inh ls Hk. unfold go. rewrite foldl_app. cbn.
  exists (foldl (fun ls t => traverse parent k g inh t ls) ls ts1), (mjoin (document_order <$> ts1)), (mjoin (document_order <$> ts2)).
  assert (grows (mjoin (document_order <$> ts1)) ls (foldl (fun ls t => traverse parent k g inh t ls) ls ts1)) as G1.
  { apply (go_grows ts1); [|done]. apply Forall_true. apply traverse_grows. }
  destruct G1 as (L1 & G1). split_and!; [split; done| |lia]. apply (go_grows ts2); [apply Forall_true; apply traverse_grows|].
  pose proof (traverse_grows t parent k g inh (foldl (fun ls t => traverse parent k g inh t ls) ls ts1) ltac:(lia)) as [L2 _]. lia.
Qed.
(** The place and context in which a part of the tree is traversed. *)
Lemma part_traversed o t o' u : part_with_parent o t o' u -> forall k g inh ls, k < length ls ->
  exists k' g' inh' ls1 D1 D2, grows D1 ls ls1 /\ grows D2 (traverse o' k' g' inh' u ls1) (traverse o k g inh t ls) /\ k' < length ls1.
Proof.
  induction 1 as [o t|o e below t o' u Ht Hu IH]; intros k g inh ls Hk.
  { exists k, g, inh, ls, [], []. split_and!; [apply grows_refl..|done]. }
  rewrite traverse_eq. cbv zeta. destruct (compositing e || _).
  - set (ls0 := new_layer _ _ _ e ls). assert (grows [e] ls ls0) as G0 by apply grows_new.
    assert (length ls < length ls0) as L0 by (unfold ls0, new_layer; rewrite app_length; cbn; lia).
    destruct (go_split below t Ht (Some (e_content e)) (length ls) true (default inh (z_index e)) ls0 L0) as (ls1 & D1 & D2 & G1 & G2 & L1).
    destruct (IH (length ls) true (default inh (z_index e)) ls1 L1) as (k' & g' & inh' & ls2 & D3 & D4 & G3 & G4 & L2).
    exists k', g', inh', ls2, ([e] ++ D1 ++ D3), (D4 ++ D2). split_and!; [|by eapply grows_trans|done].
    eapply grows_trans; [done|]. by eapply grows_trans.
  - set (ls0 := if e_image e && negb g then new_layer (default inh (z_index e)) 1 Scroll e ls else add_to_layer k e ls). assert (grows [e] ls ls0) as G0 by by apply first_ok.
    assert (k < length ls0) as L0 by (destruct G0; lia).
    destruct (go_split below t Ht (Some (e_content e)) k g (default inh (z_index e)) ls0 L0) as (ls1 & D1 & D2 & G1 & G2 & L1).
    destruct (IH k g (default inh (z_index e)) ls1 L1) as (k' & g' & inh' & ls2 & D3 & D4 & G3 & G4 & L2).
    exists k', g', inh', ls2, ([e] ++ D1 ++ D3), (D4 ++ D2). split_and!; [|by eapply grows_trans|done].
    eapply grows_trans; [done|]. by eapply grows_trans.
Qed.
Lemma less_iff x y : less x y = true <-> (x < y)%Q.
Proof.
  unfold less. destruct (Qle_bool y x) eqn:E; cbn.
  - apply Qle_bool_iff in E. split; [done|]. intros. lra.
  - split; [|done]. intros _. apply Qnot_le_lt. intros K. apply Qle_bool_iff in K. congruence.
Qed.
Lemma compositing_iff e : compositing e = true <-> apart e.
Proof.
  unfold compositing, apart. rewrite orb_true_iff, less_iff. split; (intros [H|H]; [by left|right]).
  - destruct (e_position e); auto; done.
  - by destruct H as [-> | ->].
Qed.

(** An element that is promoted is first in a layer of its kind. *)
Lemma promoted_first parent k g inh e below ls : k < length ls ->
  compositing e || (is_some (z_index e) && negb g) = true ->
  exists l, l ∈ traverse parent k g inh (LNode e below) ls /\ head (l_elements l) = Some e
    /\ l_order l = default inh (z_index e) /\ l_opacity l = clamp01 (e_opacity e) /\ l_anchor l = anchor_of parent e.
Proof.
  intros Hk Hp. rewrite traverse_eq. cbv zeta. rewrite Hp.
  set (ls0 := new_layer _ _ _ e ls). assert (length ls < length ls0) as L0 by (unfold ls0, new_layer; rewrite app_length; cbn; lia).
  assert (grows (mjoin (document_order <$> below)) ls0 (go (Some (e_content e)) (length ls) true (default inh (z_index e)) below ls0)) as G.
  { apply go_grows; [apply Forall_true, traverse_grows|done]. }
  destruct (grows_in _ _ _ (length ls) (mk_layer (default inh (z_index e)) (clamp01 (e_opacity e)) (anchor_of parent e) [e]) G) as (l' & E' & (K1 & K2 & K3) & more & Em).
  { unfold ls0, new_layer. by rewrite lookup_app_r, Nat.sub_diag. }
  exists l'. split; [by eapply elem_of_list_lookup_2|]. rewrite Em, K1, K2, K3. done.
Qed.
Lemma grows_first D ls ls' l e : grows D ls ls' -> l ∈ ls -> head (l_elements l) = Some e ->
  exists l', l' ∈ ls' /\ same_kind l l' /\ head (l_elements l') = Some e.
Proof.
  intros G (i & Hi)%elem_of_list_lookup He. destruct (grows_in _ _ _ _ _ G Hi) as (l' & E' & K & more & Em).
  exists l'. split_and!; [by eapply elem_of_list_lookup_2|done|]. rewrite Em. by destruct (l_elements l).
Qed.
Lemma apart_ok t o e below : part_with_parent None t o (LNode e below) -> apart e ->
  exists l, l ∈ unsorted_layers t /\ head (l_elements l) = Some e /\ l_opacity l = clamp01 (e_opacity e) /\ l_anchor l = anchor_of o e
    /\ forall z, z_index e = Some z -> l_order l = z.
Proof.
  intros Hp Ha%compositing_iff. unfold unsorted_layers.
  destruct (part_traversed _ _ _ _ Hp 0 false 0%Z [mk_layer 0 1 Scroll []] ltac:(cbn; lia)) as (k & g & inh & ls1 & D1 & D2 & _ & G & L).
  destruct (promoted_first o k g inh e below ls1 L) as (l & Hl & Hf & Ho & Hc & Han); [by rewrite Ha|].
  destruct (grows_first _ _ _ _ _ G Hl Hf) as (l' & Hl' & (K1 & K2 & K3) & Hf'). exists l'. split_and!; [done..|congruence|congruence|].
  intros z Hz. rewrite K1, Ho, Hz. done.
Qed.

(** What is not promoted goes with its parent. *)
Lemma with_parent_ok t p pbelow c cbelow :
  part_of (LNode p pbelow) t -> LNode c cbelow ∈ pbelow -> e_image p = false -> e_image c = false -> ~ apart c -> z_index c = None ->
  exists l, l ∈ unsorted_layers t /\ p ∈ l_elements l /\ c ∈ l_elements l.
Proof.
  intros Hp Hc Ip Ic Ha Hz.
  assert (compositing c = false) as Hcc by (destruct (compositing c) eqn:E; [by apply compositing_iff in E|done]).
  assert (exists o, part_with_parent None t o (LNode p pbelow)) as (o & Hp').
  { generalize (@None rect). induction Hp as [|e below t u Ht Hu IH]; intros o; [exists o; constructor|].
    destruct (IH (Some (e_content e))) as (o' & IH'). exists o'. by econstructor. }
  unfold unsorted_layers.
  destruct (part_traversed _ _ _ _ Hp' 0 false 0%Z [mk_layer 0 1 Scroll []] ltac:(cbn; lia)) as (k & g & inh & ls1 & D1 & D2 & _ & G & L).
  assert (exists i l, traverse o k g inh (LNode p pbelow) ls1 !! i = Some l /\ p ∈ l_elements l /\ c ∈ l_elements l) as (i & l & Hi & H1 & H2).
  { rewrite traverse_eq. cbv zeta.
    assert (forall k' g' inh' ls0, k' < length ls0 -> (exists l0, ls0 !! k' = Some l0 /\ p ∈ l_elements l0) ->
      exists i l, go (Some (e_content p)) k' g' inh' pbelow ls0 !! i = Some l /\ p ∈ l_elements l /\ c ∈ l_elements l) as Key.
    { intros k' g' inh' ls0 L0 (l0 & E0 & Hl0).
      destruct (go_split pbelow _ Hc (Some (e_content p)) k' g' inh' ls0 L0) as (ls2 & D3 & D4 & G3 & G4 & L3).
      destruct (grows_in _ _ _ _ _ G3 E0) as (l2 & E2 & _ & m2 & Em2).
      assert (exists l3, traverse (Some (e_content p)) k' g' inh' (LNode c cbelow) ls2 !! k' = Some l3 /\ p ∈ l_elements l3 /\ c ∈ l_elements l3) as (l3 & E3 & H3 & H4).
      { rewrite traverse_eq. cbv zeta. rewrite Hcc, Hz, Ic. cbn [is_some orb andb].
        assert (grows (mjoin (document_order <$> cbelow)) (add_to_layer k' c ls2) (go (Some (e_content c)) k' g' (default inh' None) cbelow (add_to_layer k' c ls2))) as G5.
        { apply go_grows; [apply Forall_true, traverse_grows|]. unfold add_to_layer. by rewrite alter_length. }
        destruct (grows_in _ _ _ k' (mk_layer (l_order l2) (l_opacity l2) (l_anchor l2) (l_elements l2 ++ [c])) G5) as (l3 & E3 & _ & m3 & Em3).
        { unfold add_to_layer. rewrite list_lookup_alter, E2. done. }
        exists l3. cbn in Em3. rewrite Em3, Em2, !elem_of_app, !(elem_of_list_singleton _ c). tauto. }
      destruct (grows_in _ _ _ _ _ G4 E3) as (l4 & E4 & _ & m4 & Em4). exists k', l4. rewrite Em4, !elem_of_app. tauto. }
    destruct (compositing p || _) eqn:Hpp.
    - apply Key; [unfold new_layer; rewrite app_length; cbn; lia|]. unfold new_layer. eexists. rewrite lookup_app_r, Nat.sub_diag by done. split; [done|]. by left.
    - rewrite Ip. cbn [andb]. apply Key; [unfold add_to_layer; by rewrite alter_length|]. unfold add_to_layer. rewrite list_lookup_alter.
      destruct (lookup_lt_is_Some_2 _ _ L) as [l0 E0]. rewrite E0. eexists. split; [done|]. cbn. apply elem_of_app. right. by left. }
  destruct (grows_in _ _ _ _ _ G Hi) as (l' & E' & _ & m & Em). exists l'. rewrite Em, !elem_of_app. split_and!; [by eapply elem_of_list_lookup_2|tauto|tauto].
Qed.

(** A [z-index] outside of groups. *)
Lemma open_traversed t u : open_part u t -> forall o k inh ls, k < length ls ->
  exists o' k' inh' ls1 D1 D2, grows D1 ls ls1 /\ grows D2 (traverse o' k' false inh' u ls1) (traverse o k false inh t ls) /\ k' < length ls1.
Proof.
  induction 1 as [t|e below t u Ha Hz Ht Hu IH]; intros o k inh ls Hk.
  { exists o, k, inh, ls, [], []. split_and!; [apply grows_refl..|done]. }
  assert (compositing e = false) as Hc by (destruct (compositing e) eqn:E; [by apply compositing_iff in E|done]).
  rewrite traverse_eq. cbv zeta. rewrite Hc, Hz. cbn [is_some orb andb].
  set (ls0 := if e_image e && negb false then new_layer (default inh None) 1 Scroll e ls else add_to_layer k e ls). assert (grows [e] ls ls0) as G0 by (unfold ls0; destruct (_ && _); [apply grows_new|by apply grows_add]).
  assert (k < length ls0) as L0 by (destruct G0; lia).
  destruct (go_split below t Ht (Some (e_content e)) k false (default inh None) ls0 L0) as (ls1 & D1 & D2 & G1 & G2 & L1).
  destruct (IH (Some (e_content e)) k (default inh None) ls1 L1) as (o' & k' & inh' & ls2 & D3 & D4 & G3 & G4 & L2).
  exists o', k', inh', ls2, ([e] ++ D1 ++ D3), (D4 ++ D2). split_and!; [|by eapply grows_trans|done].
  eapply grows_trans; [done|]. by eapply grows_trans.
Qed.
Lemma z_ok t e below z : open_part (LNode e below) t -> z_index e = Some z ->
  exists l, l ∈ unsorted_layers t /\ head (l_elements l) = Some e /\ l_order l = z.
Proof.
  intros Hp Hz. unfold unsorted_layers.
  destruct (open_traversed _ _ Hp None 0 0%Z [mk_layer 0 1 Scroll []] ltac:(cbn; lia)) as (o & k & inh & ls1 & D1 & D2 & _ & G & L).
  destruct (promoted_first o k false inh e below ls1 L) as (l & Hl & Hf & Ho & _); [rewrite Hz; by rewrite orb_true_r|].
  destruct (grows_first _ _ _ _ _ G Hl Hf) as (l' & Hl' & (K1 & _) & Hf'). exists l'. split_and!; [done..|]. rewrite K1, Ho, Hz. done.
Qed.

(** The sort. *)
Lemma insert_perm l ls : insert_layer l ls ≡ₚ l :: ls.
Proof. induction ls as [|m ls IH]; cbn; [done|]. destruct (_ <=? _)%Z; [done|]. rewrite IH. apply perm_swap. Qed.
Lemma sort_perm ls : sort_layers ls ≡ₚ ls.
Proof. induction ls as [|l ls IH]; cbn; [done|]. rewrite insert_perm. by rewrite IH. Qed.
Definition below_order (l m : layer) : Prop := (l_order l <= l_order m)%Z.
Lemma insert_sorted l ls : StronglySorted below_order ls -> StronglySorted below_order (insert_layer l ls).
Proof.
  induction 1 as [|m ls Hs IH Hf]; cbn; [repeat constructor|]. destruct (Z.leb_spec (l_order l) (l_order m)).
  - constructor; [by constructor|]. constructor; [done|]. eapply Forall_impl; [exact Hf|]. unfold below_order. intros; lia.
  - constructor; [done|]. rewrite insert_perm. constructor; [unfold below_order; lia|done].
Qed.
Lemma sort_sorted ls : StronglySorted below_order (sort_layers ls).
Proof. induction ls as [|l ls IH]; cbn; [constructor|]. by apply insert_sorted. Qed.
Lemma insert_stable l ls z : StronglySorted below_order ls ->
  filter (fun m => l_order m = z) (insert_layer l ls) = filter (fun m => l_order m = z) (l :: ls).
Proof.
  induction 1 as [|m ls Hs IH Hf]; [done|]. cbn [insert_layer]. destruct (Z.leb_spec (l_order l) (l_order m)); [done|].
  rewrite (filter_cons _ m), IH. rewrite !filter_cons. repeat case_decide; try done. lia.
Qed.
Lemma sort_stable ls z : filter (fun m => l_order m = z) (sort_layers ls) = filter (fun m => l_order m = z) ls.
Proof.
  induction ls as [|l ls IH]; [done|]. cbn [sort_layers foldr]. rewrite insert_stable by apply sort_sorted. rewrite !filter_cons. fold (sort_layers ls). by rewrite IH.
Qed.

(** ** Hit tests *)
Lemma inside_covers a e x y sx sy : let (px, py) := to_page a x y sx sy in inside (e_margin e) px py = true <-> covers x y sx sy (a, e).
Proof.
  unfold covers, inside. cbn [fst snd]. destruct a as [| |c]; cbn.
  all: try destruct (offset c sx sy) as [dx dy] eqn:Eo.
  all: rewrite ?andb_true_iff, ?Qle_bool_iff, ?less_iff; split; intros; split_and!; try lra; destruct_and!; lra.
Qed.
Lemma first_inside_rev x y es :
  match first_inside x y (rev es) with
  | Some e => exists before after, es = before ++ e :: after /\ inside (e_margin e) x y = true /\ Forall (fun e => inside (e_margin e) x y <> true) after
  | None => Forall (fun e => inside (e_margin e) x y <> true) es
  end.
Proof.
  induction es as [|e es IH] using rev_ind; [constructor|]. rewrite rev_app_distr. cbn [rev app first_inside].
  destruct (inside (e_margin e) x y) eqn:E; [exists es, []; by split_and!|].
  destruct (first_inside x y (rev es)) as [e'|].
  - destruct IH as (b & a & -> & H1 & H2). exists b, (a ++ [e]). rewrite <- app_assoc. split_and!; [done|done|]. apply Forall_app. split; [done|]. constructor; [by rewrite E|done].
  - apply Forall_app. split; [done|]. constructor; [by rewrite E|done].
Qed.
Lemma hit_ok ls x y sx sy :
  match find_element_at x y sx sy ls with
  | Some e => exists before a after, painted ls = before ++ (a, e) :: after /\ covers x y sx sy (a, e) /\ Forall (fun p => ~ covers x y sx sy p) after
  | None => Forall (fun p => ~ covers x y sx sy p) (painted ls)
  end.
Proof.
  unfold find_element_at. induction ls as [|l ls IH] using rev_ind; [constructor|]. rewrite rev_app_distr. cbn [rev app hit_layers].
  assert (painted (ls ++ [l]) = painted ls ++ (pair (l_anchor l) <$> l_elements l)) as ->.
  { unfold painted. rewrite bind_app. cbn. by rewrite app_nil_r. }
  pose proof (inside_covers (l_anchor l)) as Hc. 
  destruct (to_page (l_anchor l) x y sx sy) as [px py] eqn:Ep.
  assert (forall e, inside (e_margin e) px py = true <-> covers x y sx sy (l_anchor l, e)) as Hi by (intros e; specialize (Hc e x y sx sy); by rewrite Ep in Hc).
  assert (forall es, Forall (fun e => inside (e_margin e) px py <> true) es -> Forall (fun p => ~ covers x y sx sy p) (pair (l_anchor l) <$> es)) as Hn.
  { intros es H. apply Forall_fmap. eapply Forall_impl; [exact H|]. intros e He K. by apply He, Hi. }
  pose proof (first_inside_rev px py (l_elements l)) as F. destruct (first_inside px py (rev (l_elements l))) as [e|].
  - destruct F as (b & a & -> & H1 & H2). exists (painted ls ++ (pair (l_anchor l) <$> b)), (l_anchor l), (pair (l_anchor l) <$> a).
    split_and!; [by rewrite fmap_app, <- app_assoc|by apply Hi|auto].
  - destruct (hit_layers x y sx sy (rev ls)) as [e|].
    + destruct IH as (b & a & af & -> & H1 & H2). exists b, a, (af ++ (pair (l_anchor l) <$> l_elements l)). rewrite <- app_assoc.
      split_and!; [done|done|]. apply Forall_app. auto.
    + apply Forall_app. auto.
Qed.

(** ** Tiles *)
Lemma inject_lt (a b : Z) : (inject_Z a < inject_Z b)%Q -> (a < b)%Z.
Proof. by rewrite <- Zlt_Qlt. Qed.
Lemma floor_spec x w : (0 < w)%Q -> (inject_Z (Qfloor (x / w)) * w <= x /\ x < inject_Z (Qfloor (x / w)) * w + w)%Q.
Proof.
  intros Hw. pose proof (Qfloor_le (x / w)) as H1. pose proof (Qlt_floor (x / w)) as H2. rewrite inject_Z_plus in H2.
  assert (x == x / w * w)%Q as E by (field; lra). split.
  - rewrite E at 2. apply Qmult_le_compat_r; lra.
  - rewrite E at 1. apply (Qmult_lt_r _ _ w Hw) in H2. change (inject_Z 1) with 1%Q in H2. lra.
Qed.
Lemma column_unique (a b : Z) w x : (0 < w)%Q -> (inject_Z a * w <= x /\ x < inject_Z a * w + w)%Q ->
  (inject_Z b * w <= x /\ x < inject_Z b * w + w)%Q -> a = b.
Proof.
  intros Hw [H1 H2] [H3 H4]. assert (forall u v : Z, (inject_Z u * w < inject_Z v * w + w)%Q -> (u < v + 1)%Z) as K.
  { intros u v H. apply inject_lt. rewrite inject_Z_plus. apply (Qmult_lt_r _ _ w Hw). change (inject_Z 1) with 1%Q. lra. }
  assert (a < b + 1)%Z by (apply K; lra). assert (b < a + 1)%Z by (apply K; lra). lia.
Qed.
(** The column of a point. *)
Lemma column_ok x w : (0 < w)%Q -> (0 <= x)%Q ->
  exists c : nat, (inject_Z (Z.of_nat c) * w <= x /\ x < inject_Z (Z.of_nat c) * w + w)%Q
    /\ (forall hi, (x < hi)%Q -> c < to_usize (Qceiling (hi / w)))
    /\ (forall lo, (lo <= x)%Q -> to_usize (Qfloor (lo / w)) <= c).
Proof.
  intros Hw Hx. set (z := Qfloor (x / w)). assert (0 <= z)%Z as Hz.
  { assert (0 <= x / w)%Q by (apply Qle_shift_div_l; lra). apply (Qfloor_resp_le 0). done. }
  exists (Z.to_nat z). rewrite Z2Nat.id by done. split_and!; try apply floor_spec; try done.
  - intros hi Hh. unfold to_usize. apply Z2Nat.inj_lt; [done| |].
    + assert (0 <= hi / w)%Q as K by (apply Qle_shift_div_l; lra). pose proof (Qle_ceiling (hi / w)) as K2.
      assert (inject_Z 0 <= inject_Z (Qceiling (hi / w)))%Q as K3 by (change (inject_Z 0) with 0%Q; lra). by rewrite <- Zle_Qle in K3.
    + apply inject_lt. pose proof (Qle_ceiling (hi / w)) as K2. pose proof (Qfloor_le (x / w)) as K1. fold z in K1.
      assert (x / w < hi / w)%Q; [|lra]. apply Qlt_shift_div_l; [done|]. assert (x / w * w == x)%Q by (field; lra). lra.
  - intros lo Hl. unfold to_usize. assert (Qfloor (lo / w) <= z)%Z; [|lia]. apply Qfloor_resp_le.
    apply Qle_shift_div_l; [done|]. assert (lo / w * w == lo)%Q by (field; lra). lra.
Qed.

Lemma bounds_snoc es e : bounds (es ++ [e]) =
  let m := e_margin e in
  if less 0 (rw m) && less 0 (rh m) then
    match bounds es with
    | None => Some (rx m, ry m, rx m + rw m, ry m + rh m)%Q
    | Some (x0, y0, x1, y1) => Some (Qmin x0 (rx m), Qmin y0 (ry m), Qmax x1 (rx m + rw m), Qmax y1 (ry m + rh m))%Q
    end
  else bounds es.
Proof. unfold bounds. by rewrite foldl_app. Qed.
Lemma bounds_ok es e : e ∈ es -> (0 < rw (e_margin e))%Q -> (0 < rh (e_margin e))%Q ->
  exists x0 y0 x1 y1, bounds es = Some (x0, y0, x1, y1)
    /\ (x0 <= rx (e_margin e) /\ y0 <= ry (e_margin e) /\ rx (e_margin e) + rw (e_margin e) <= x1 /\ ry (e_margin e) + rh (e_margin e) <= y1)%Q.
Proof.
  intros He Hw Hh. induction es as [|e' es IH] using rev_ind; [by apply elem_of_nil in He|]. rewrite bounds_snoc. cbv zeta.
  apply elem_of_app in He as [He|He%elem_of_list_singleton].
  - destruct (IH He) as (x0 & y0 & x1 & y1 & -> & H1 & H2 & H3 & H4). destruct (_ && _); [|eauto 10].
    do 4 eexists. split; [done|]. pose proof (Q.le_min_l x0 (rx (e_margin e'))). pose proof (Q.le_min_l y0 (ry (e_margin e'))).
    pose proof (Q.le_max_l x1 (rx (e_margin e') + rw (e_margin e'))). pose proof (Q.le_max_l y1 (ry (e_margin e') + rh (e_margin e'))). split_and!; lra.
  - subst e'. assert (less 0 (rw (e_margin e)) && less 0 (rh (e_margin e)) = true) as -> by (rewrite andb_true_iff, !less_iff; done).
    destruct (bounds es) as [[[[x0 y0] x1] y1]|]; do 4 eexists; (split; [done|]).
    + pose proof (Q.le_min_r x0 (rx (e_margin e))). pose proof (Q.le_min_r y0 (ry (e_margin e))).
      pose proof (Q.le_max_r x1 (rx (e_margin e) + rw (e_margin e))). pose proof (Q.le_max_r y1 (ry (e_margin e) + rh (e_margin e))). split_and!; lra.
    + split_and!; lra.
Qed.

Section tiles.
Context (page_w page_h tile_w tile_h : Q) (Htw : (0 < tile_w)%Q) (Hth : (0 < tile_h)%Q).
Lemma in_tiles first es r0 r1 c0 c1 t : grid first page_w page_h tile_w tile_h es = Some (r0, r1, c0, c1) ->
  t ∈ layer_tiles first page_w page_h tile_w tile_h es <-> exists y x, r0 <= y < r1 /\ c0 <= x < c1 /\ t = tile_at tile_w tile_h es y x.
Proof.
  intros E. unfold layer_tiles. rewrite E. rewrite elem_of_list_bind. split.
  - intros (y & (x & ->%elem_of_list_singleton & Hx)%elem_of_list_bind & Hy). apply elem_of_seq in Hx, Hy. exists y, x. split_and!; try lia; done.
  - intros (y & x & Hy & Hx & ->). exists y. split; [|apply elem_of_seq; lia]. apply elem_of_list_bind. exists x.
    split; [by apply elem_of_list_singleton|apply elem_of_seq; lia].
Qed.
Lemma tile_unique es y x y' x' px py :
  in_rect (t_rect (tile_at tile_w tile_h es y x)) px py -> in_rect (t_rect (tile_at tile_w tile_h es y' x')) px py -> y = y' /\ x = x'.
Proof.
  unfold in_rect, tile_at. cbn. intros (A1 & A2 & A3 & A4) (B1 & B2 & B3 & B4). split; apply Nat2Z.inj.
  - eapply (column_unique _ _ tile_h py); [done|split; done|split; done].
  - eapply (column_unique _ _ tile_w px); [done|split; done|split; done].
Qed.
Lemma tiles_nodup first es : NoDup (layer_tiles first page_w page_h tile_w tile_h es).
Proof.
  unfold layer_tiles. destruct (grid _ _ _ _ _ _) as [[[[r0 r1] c0] c1]|]; [|constructor].
  assert (forall A (f : nat -> list A) l, NoDup l -> (forall n, NoDup (f n)) -> (forall n m a, a ∈ f n -> a ∈ f m -> n = m) -> NoDup (l ≫= f)) as B.
  { intros A f l. induction 1 as [|n l Hn Hl IH]; intros Hf Hd; [constructor|]. cbn. apply NoDup_app. split_and!; [done| |by apply IH].
    intros a Ha (m & Ha' & Hm)%elem_of_list_bind. by rewrite (Hd _ _ _ Ha Ha') in Hn. }
  assert (forall y x y' x', tile_at tile_w tile_h es y x = tile_at tile_w tile_h es y' x' -> y = y' /\ x = x') as Hi.
  { intros y x y' x' Et. apply (tile_unique es y x y' x' (inject_Z (Z.of_nat x) * tile_w) (inject_Z (Z.of_nat y) * tile_h)).
    - unfold in_rect. cbn. lra.
    - rewrite <- Et. unfold in_rect. cbn. lra. }
  apply B; [apply NoDup_seq| |].
  - intros y. apply B; [apply NoDup_seq|intros; apply NoDup_singleton|].
    intros n m a ->%elem_of_list_singleton Ha%elem_of_list_singleton. apply Hi in Ha. tauto.
  - intros n m a (x & ->%elem_of_list_singleton & _)%elem_of_list_bind (x' & Ha%elem_of_list_singleton & _)%elem_of_list_bind. apply Hi in Ha. tauto.
Qed.
Lemma tile_found first es r0 r1 c0 c1 x y : grid first page_w page_h tile_w tile_h es = Some (r0, r1, c0, c1) ->
  (0 <= x)%Q -> (0 <= y)%Q ->
  (forall c, (inject_Z (Z.of_nat c) * tile_w <= x /\ x < inject_Z (Z.of_nat c) * tile_w + tile_w)%Q -> c0 <= c < c1) ->
  (forall r, (inject_Z (Z.of_nat r) * tile_h <= y /\ y < inject_Z (Z.of_nat r) * tile_h + tile_h)%Q -> r0 <= r < r1) ->
  exists t, tile_for (layer_tiles first page_w page_h tile_w tile_h es) x y t.
Proof.
  intros E Hx Hy Hc Hr. destruct (column_ok x tile_w Htw Hx) as (c & Ec & _). destruct (column_ok y tile_h Hth Hy) as (r & Er & _).
  assert (in_rect (t_rect (tile_at tile_w tile_h es r c)) x y) as Hin by (unfold in_rect, tile_at; cbn; destruct Ec, Er; done).
  exists (tile_at tile_w tile_h es r c). split; [done|].
  assert (tile_at tile_w tile_h es r c ∈ layer_tiles first page_w page_h tile_w tile_h es) as Hm.
  { apply (in_tiles _ _ _ _ _ _ _ E). exists r, c. split_and!; try done; auto; by (apply Hr || apply Hc). }
  pose proof (tiles_nodup first es) as Hn. assert (forall t', t' ∈ layer_tiles first page_w page_h tile_w tile_h es -> in_rect (t_rect t') x y -> t' = tile_at tile_w tile_h es r c) as Hu.
  { intros t' (r' & c' & _ & _ & ->)%(in_tiles _ _ _ _ _ _ _ E) Hin'. by destruct (tile_unique _ _ _ _ _ _ _ Hin Hin') as [-> ->]. }
  apply elem_of_list_split in Hm as (before & after & Eq). exists before, after. split; [done|]. rewrite Eq in Hn, Hu.
  apply Forall_forall. intros u Hu1 Hu2. assert (u = tile_at tile_w tile_h es r c) as ->.
  { apply Hu; [|done]. apply elem_of_app in Hu1. rewrite elem_of_app, elem_of_cons. tauto. }
  rewrite <- Permutation_middle in Hn. by apply NoDup_cons in Hn as [Hn _].
Qed.
Lemma page_columns x c : (0 <= x)%Q -> (x < page_w)%Q -> (inject_Z (Z.of_nat c) * tile_w <= x /\ x < inject_Z (Z.of_nat c) * tile_w + tile_w)%Q ->
  c < to_usize (Qceiling (page_w / tile_w)).
Proof.
  intros Hx Hp Hc. destruct (column_ok x tile_w Htw Hx) as (c' & Ec & H & _). replace c with c'; [by apply H|].
  apply Nat2Z.inj. by eapply (column_unique _ _ tile_w x).
Qed.
Lemma page_rows y r : (0 <= y)%Q -> (y < page_h)%Q -> (inject_Z (Z.of_nat r) * tile_h <= y /\ y < inject_Z (Z.of_nat r) * tile_h + tile_h)%Q ->
  r < to_usize (Qceiling (page_h / tile_h)).
Proof.
  intros Hx Hp Hc. destruct (column_ok y tile_h Hth Hx) as (c' & Ec & H & _). replace r with c'; [by apply H|].
  apply Nat2Z.inj. by eapply (column_unique _ _ tile_h y).
Qed.
Lemma cover_first es x y : (0 <= x)%Q -> (x < page_w)%Q -> (0 <= y)%Q -> (y < page_h)%Q ->
  exists t, tile_for (layer_tiles true page_w page_h tile_w tile_h es) x y t.
Proof.
  intros. eapply tile_found; [reflexivity|done|done| |].
  - intros k Hk. split; [lia|]. by apply (page_columns x).
  - intros k Hk. split; [lia|]. by apply (page_rows y).
Qed.
Lemma cover_element first es e x y : e ∈ es -> in_rect (e_margin e) x y -> (0 <= x)%Q -> (x < page_w)%Q -> (0 <= y)%Q -> (y < page_h)%Q ->
  exists t, tile_for (layer_tiles first page_w page_h tile_w tile_h es) x y t.
Proof.
  intros He (A1 & A2 & A3 & A4) Hx1 Hx2 Hy1 Hy2. destruct first; [by apply cover_first|].
  destruct (bounds_ok es e He) as (x0 & y0 & x1 & y1 & Eb & B1 & B2 & B3 & B4); [lra|lra|].
  destruct es as [|e0 es']; [by apply elem_of_nil in He|].
  eapply tile_found; [unfold grid; cbn [orb]; rewrite Eb; reflexivity|done|done| |].
  - intros c Hc. destruct (column_ok x tile_w Htw Hx1) as (c' & Ec & H1 & H2).
    assert (c = c') as -> by (apply Nat2Z.inj; by eapply (column_unique _ _ tile_w x)).
    pose proof (H1 page_w Hx2). pose proof (H1 x1 ltac:(lra)). pose proof (H2 x0 ltac:(lra)). lia.
  - intros c Hc. destruct (column_ok y tile_h Hth Hy1) as (c' & Ec & H1 & H2).
    assert (c = c') as -> by (apply Nat2Z.inj; by eapply (column_unique _ _ tile_h y)).
    pose proof (H1 page_h Hy2). pose proof (H1 y1 ltac:(lra)). pose proof (H2 y0 ltac:(lra)). lia.
Qed.
Lemma tile_is first es t : t ∈ layer_tiles first page_w page_h tile_w tile_h es ->
  t_pieces t = piece_of (t_rect t) <$> filter (fun e => touches (t_rect t) (e_margin e) = true) es.
Proof.
  destruct (grid first page_w page_h tile_w tile_h es) as [[[[r0 r1] c0] c1]|] eqn:E.
  - intros (y & x & _ & _ & ->)%(in_tiles _ _ _ _ _ _ _ E). done.
  - unfold layer_tiles. rewrite E. intros K. by apply elem_of_nil in K.
Qed.
End tiles.

Lemma both_touch a b x y : in_rect a x y -> in_rect b x y -> touches a b = true.
Proof.
  intros (A1 & A2 & A3 & A4) (B1 & B2 & B3 & B4). unfold touches. rewrite andb_true_iff, !Qle_bool_iff. split.
  - apply (Qle_trans _ x); [apply Q.max_lub; [done|]|apply Q.min_glb; [lra|]].
    + pose proof (Q.le_min_l (rx b) (rx b + rw b)). lra.
    + pose proof (Q.le_max_r (rx b) (rx b + rw b)). lra.
  - apply (Qle_trans _ y); [apply Q.max_lub; [done|]|apply Q.min_glb; [lra|]].
    + pose proof (Q.le_min_l (ry b) (ry b + rh b)). lra.
    + pose proof (Q.le_max_r (ry b) (ry b + rh b)). lra.
Qed.
(** A piece is what tile and element have in common, in the coordinates of both. *)
Lemma piece_ok r e p : piece_of r e = p ->
  p_element p = e
  /\ (rx r + p_x p == rx (e_margin e) + rx (p_rect p) /\ ry r + p_y p == ry (e_margin e) + ry (p_rect p))%Q
  /\ forall x y, in_rect (mk_rect (rx r + p_x p) (ry r + p_y p) (rw (p_rect p)) (rh (p_rect p))) x y <-> in_rect r x y /\ in_rect (e_margin e) x y.
Proof.
  intros <-. unfold piece_of, in_rect. cbn.
  pose proof (Q.max_comm (rx (e_margin e)) (rx r)) as C1. pose proof (Q.max_comm (ry (e_margin e)) (ry r)) as C2.
  split_and!; [done|lra|lra|]. intros x y.
  pose proof (Q.max_lub_iff (rx r) (rx (e_margin e)) x) as L1. pose proof (Q.max_lub_iff (ry r) (ry (e_margin e)) y) as L2.
  pose proof (Q.min_glb_lt_iff (rx r + rw r) (rx (e_margin e) + rw (e_margin e)) x) as G1.
  pose proof (Q.min_glb_lt_iff (ry r + rh r) (ry (e_margin e) + rh (e_margin e)) y) as G2.
  split.
  - intros (A1 & A2 & A3 & A4).
    destruct (proj1 L1) as [? ?]; [lra|]. destruct (proj1 L2) as [? ?]; [lra|]. destruct (proj1 G1) as [? ?]; [lra|]. destruct (proj1 G2) as [? ?]; [lra|]. tauto.
  - intros [(A1 & A2 & A3 & A4) (B1 & B2 & B3 & B4)]. pose proof (proj2 L1 (conj A1 B1)). pose proof (proj2 L2 (conj A3 B3)).
    pose proof (proj2 G1 (conj A2 B2)). pose proof (proj2 G2 (conj A4 B4)). split_and!; lra.
Qed.

(** ** Sticky elements *)
Lemma slide_ok edge n size c csize s :
  let d := slide (Some edge) n size c csize s in
  (0 <= d)%Q
  /\ (n + size <= c + csize -> n + d + size <= c + csize)%Q
  /\ (edge <= n - s -> d == 0)%Q
  /\ (edge <= n - s + d \/ c + csize <= n + d + size)%Q.
Proof.
  cbv zeta. unfold slide. set (a := (edge - (n - s))%Q). set (b := (c + csize - (n + size))%Q).
  destruct (Q.max_spec a 0) as [[? Ea]|[? Ea]]; destruct (Q.max_spec b 0) as [[? Eb]|[? Eb]];
  destruct (Q.min_spec (Qmax a 0) (Qmax b 0)) as [[? Em]|[? Em]]; split_and!; intros; unfold a, b in *; try lra.
  all: try (left; lra). all: try (right; lra).
Qed.
Lemma slide_mono i n size c csize s s' : (s <= s')%Q ->
  (slide i n size c csize s <= slide i n size c csize s')%Q /\ (n - s' + slide i n size c csize s' <= n - s + slide i n size c csize s)%Q.
Proof.
  intros H. destruct i as [edge|]; cbn [slide]; [|lra].
  set (b := Qmax (c + csize - (n + size)) 0).
  destruct (Q.max_spec (edge - (n - s)) 0) as [[? Ea]|[? Ea]]; destruct (Q.max_spec (edge - (n - s')) 0) as [[? Ea']|[? Ea']];
  destruct (Q.min_spec (Qmax (edge - (n - s)) 0) b) as [[? Em]|[? Em]]; destruct (Q.min_spec (Qmax (edge - (n - s')) 0) b) as [[? Em']|[? Em']];
  assert (0 <= b)%Q by apply Q.le_max_r; split; lra.
Qed.

Lemma clamp01_ok x : (clamp01 x == Qmax 0 (Qmin 1 x))%Q.
Proof.
  unfold clamp01, less. destruct (Qle_bool 0 x) eqn:E1; cbn [negb].
  - apply Qle_bool_iff in E1. destruct (Qle_bool x 1) eqn:E2; cbn [negb].
    + apply Qle_bool_iff in E2. rewrite Q.min_r, Q.max_r by done. done.
    + assert (1 < x)%Q as H by (apply Qnot_le_lt; intros H; apply Qle_bool_iff in H; congruence).
      rewrite Q.min_l by (by apply Qlt_le_weak). done.
  - assert (x < 0)%Q as H by (apply Qnot_le_lt; intros H; apply Qle_bool_iff in H; congruence).
    rewrite Q.min_r by lra. rewrite Q.max_l by lra. done.
Qed.
