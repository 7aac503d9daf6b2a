(** The table of named references in the source is as the proofs need it, and what a document means is
    determined. *)
From stdpp Require Import gmap.
From Coq Require Import ZifyBool ZifyN.
From Verif Require Import Text SettingsModel CookieModel TokenModel TokenSpec TokenProofs TokenStep TokenStep2 TokenRun TokenRefs TokenDocs Entities.
Local Open Scope N_scope.

Fixpoint prefixb (p l : list N) : bool :=
  match p, l with [], _ => true | x :: p, y :: l => (x =? y) && prefixb p l | _ :: _, [] => false end.
Fixpoint infixb (p l : list N) : bool := prefixb p l || match l with [] => false | _ :: l => infixb p l end.
Lemma prefixb_app p l : prefixb p (p ++ l) = true.
Proof. induction p as [|x p IH]; [by destruct l|]. cbn. by rewrite N.eqb_refl. Qed.
Lemma infixb_app a p b : infixb p (a ++ p ++ b) = true.
Proof.
  induction a as [|x a IH]; cbn [app].
  - destruct (p ++ b) eqn:E; cbn; rewrite <- E, prefixb_app; done.
  - cbn. rewrite IH. by rewrite orb_true_r.
Qed.
Definition body (k : list N) : list N := if bool_decide (last k = Some 59) then take (pred (length k)) k else k.
Lemma body_spec k : k = body k \/ k = body k ++ [59].
Proof.
  unfold body. case_bool_decide as E; [right|by left]. apply last_Some in E as [l ->].
  rewrite app_length. cbn. rewrite Nat.add_1_r. cbn. by rewrite take_app.
Qed.
Definition entry_ok (e : list N * list N) : bool :=
  match body e.1 with [] => false | w => forallb is_alnum w end && negb (infixb (txt "StreamEnd") e.1) &&
  match e.2 with [] => false | _ => true end.
(** Distinct keys: sorted, each is below the next. *)
Fixpoint below (a b : list N) : bool :=
  match a, b with _, [] => false | [], _ :: _ => true | x :: a, y :: b => (x <? y) || ((x =? y) && below a b) end.
Lemma below_irrefl a : below a a = false.
Proof. induction a as [|x a IH]; [done|]. cbn. rewrite IH. lia. Qed.
Lemma below_trans a b c : below a b = true -> below b c = true -> below a c = true.
Proof.
  revert b c. induction a as [|x a IH]; intros [|y b] [|z c]; cbn; try done. intros H1 H2.
  apply orb_true_iff in H1 as [H1|H1]; apply orb_true_iff in H2 as [H2|H2]; apply orb_true_iff;
    try (left; lia). right. apply andb_true_iff in H1 as [H1 H1']; apply andb_true_iff in H2 as [H2 H2'].
  apply andb_true_iff. split; [lia|]. by eapply IH.
Qed.
Fixpoint rising (l : list (list N)) : bool :=
  match l with x :: ((y :: _) as r) => below x y && rising r | _ => true end.
Lemma rising_distinct l : rising l = true -> NoDup l.
Proof.
  assert (H : forall l x, rising (x :: l) = true -> Forall (fun y => below x y = true) l /\ NoDup (x :: l)).
  { clear l. induction l as [|y l IH]; intros x R; [split; [constructor|apply NoDup_singleton]|].
    cbn in R. apply andb_true_iff in R as [R1 R2]. destruct (IH y R2) as [F D].
    assert (F' : Forall (fun z => below x z = true) (y :: l)).
    { constructor; [done|]. eapply Forall_impl; [exact F|]. intros z. by apply below_trans. }
    split; [done|]. constructor; [|done]. intros I. rewrite Forall_forall in F'. specialize (F' x I). by rewrite below_irrefl in F'. }
  destruct l as [|x l]; [constructor|]. intros R. by destruct (H l x R).
Qed.
Definition in_order (a b : list N) : Prop := below b a = false.
Local Instance in_order_dec a b : Decision (in_order a b) := decide (below b a = false).
Lemma table_check tbl : rising (merge_sort in_order (map fst tbl)) = true -> forallb entry_ok tbl = true -> table_ok tbl.
Proof.
  intros D F. apply rising_distinct in D. rewrite (merge_sort_Permutation in_order) in D. rewrite forallb_forall in F.
  assert (F' : forall k r, (k, r) ∈ tbl -> body k <> [] /\ Forall alnum (body k) /\ infixb (txt "StreamEnd") k = false /\ r <> []).
  { intros k r H. apply elem_of_list_In, F in H. unfold entry_ok in H. cbn [fst snd] in H.
    apply andb_true_iff in H as [H H3]. apply andb_true_iff in H as [H1 H2]. apply negb_true_iff in H2.
    split_and!; [by intros E; rewrite E in H1| |done|by intros ->].
    apply Forall_forall. intros x Hx. apply alnum_spec. destruct (body k) as [|y w]; [done|]. rewrite forallb_forall in H1.
    by apply H1, elem_of_list_In. }
  split.
  - done.
  - intros k r H. destruct (F' _ _ H) as (H1 & H2 & _). exists (body k). split_and!; [done|done|apply body_spec].
  - intros k r a b H ->. destruct (F' _ _ H) as (_ & _ & H3 & _). by rewrite infixb_app in H3.
  - intros k r H. by destruct (F' _ _ H) as (_ & _ & _ & ?).
Qed.
Lemma named_ok : table_ok named_chars.
Proof. apply table_check; vm_compute; reflexivity. Qed.

(** ** Documents *)
Section means.
Context (tbl : list (list N * list N)) (OK : table_ok tbl).
Lemma value_functional v o o' : value_means tbl v o -> value_means tbl v o' -> o = o'.
Proof. destruct 1; inversion 1; subst; try done; by eapply reads_functional. Qed.
Lemma value_total v : exists o, value_means tbl v o.
Proof.
  destruct v as [|w1 w2 v|w1 w2 q v].
  - exists []. constructor.
  - destruct (reads_total tbl OK true true v) as [o H]. exists o. by constructor.
  - destruct (reads_total tbl OK true true v) as [o H]. exists o. by constructor.
Qed.
Lemma attrs_functional l nvs nvs' : Forall2 (attr_means tbl) l nvs -> Forall2 (attr_means tbl) l nvs' -> nvs = nvs'.
Proof.
  intros H. revert nvs'. induction H as [|a nv l nvs [E V] _ IH]; intros nvs' H'; inversion H' as [|? nv' ? l' [E' V']]; subst; [done|].
  f_equal; [|by apply IH]. destruct nv, nv'. cbn in *. f_equal; [congruence|by eapply value_functional].
Qed.
Lemma attrs_total l : exists nvs, Forall2 (attr_means tbl) l nvs.
Proof.
  induction l as [|a l [nvs IH]]; [by exists []; constructor|]. destruct (value_total (a_value a)) as [o V].
  exists ((map folded (a_name a), o) :: nvs). by constructor.
Qed.
Lemma wins_functional nvs m m' : first_wins nvs m -> first_wins nvs m' -> m = m'.
Proof. intros H H'. apply map_eq. intros n. by rewrite H, H'. Qed.
Lemma wins_total nvs : exists m, first_wins nvs m.
Proof.
  induction nvs as [|[n v] nvs [m IH]]; [exists ∅; intros n; by rewrite lookup_empty|].
  exists (<[n := v]> m). intros n'. cbn. destruct (decide (n' = n)) as [->|N]; [by rewrite lookup_insert|].
  by rewrite lookup_insert_ne by done.
Qed.
Lemma markup_functional m k k' : markup_means tbl m k -> markup_means tbl m k' -> k = k'.
Proof.
  destruct 1; inversion 1; subst; try done.
  match goal with H : Forall2 _ l ?a, H' : Forall2 _ l ?b |- _ => pose proof (attrs_functional _ _ _ H H'); subst end.
  f_equal. by eapply wins_functional.
Qed.
Lemma markup_total m : exists k, markup_means tbl m k.
Proof.
  destruct m as [n l w sc|n w|b].
  - destruct (attrs_total l) as [nvs H]. destruct (wins_total nvs) as [m W]. eexists. by econstructor.
  - eexists. constructor.
  - eexists. constructor.
Qed.
Lemma doc_functional d ts ts' : doc_means tbl d ts -> doc_means tbl d ts' -> ts = ts'.
Proof.
  intros H. revert ts'. induction H as [s o R|s o m k r l ts R M D IH]; intros ts' H'; inversion H'; subst.
  - f_equal. f_equal. by eapply reads_functional.
  - replace o0 with o by (by eapply reads_functional). replace k0 with k by (by eapply markup_functional). do 2 f_equal. by apply IH.
Qed.
Lemma doc_total d : exists ts, doc_means tbl d ts.
Proof.
  destruct d as [ps l]. induction ps as [|[s m] ps [ts IH]].
  - destruct (reads_total tbl OK false false l) as [o R]. eexists. by constructor.
  - destruct (reads_total tbl OK false false s) as [o R]. destruct (markup_total m) as [k M]. eexists. by econstructor.
Qed.

Lemma doc_pulls d ts ps fuel ls :
  doc_ok d -> doc_means tbl d ts -> Forall (fun p => p_switch p = None) ps -> length ps = length ts ->
  (8 * length (doc_source d) + 10 < fuel)%nat ->
  exists t', pulls tbl fuel ps (new (doc_source d) Data ls) = Some (ts, t').
Proof.
  intros H M P L F.
  destruct (doc_run tbl OK d ts M H ps (new (doc_source d) Data ls) None ls P L) as (f & t & E); [done|].
  assert (A : Forall allowed ps) by (eapply Forall_impl; [exact P|]; intros p Hp; unfold allowed; by rewrite Hp).
  destruct (pulls_ok tbl fuel ps (new (doc_source d) Data ls)) as (l & t' & E' & _).
  - by apply inv_new.
  - done.
  - pose proof (measure_new (doc_source d) Data ls). lia.
  - exists t'. rewrite E'. pose proof (pulls_mono _ _ (max f fuel) _ _ _ E ltac:(lia)) as X.
    pose proof (pulls_mono _ _ (max f fuel) _ _ _ E' ltac:(lia)) as X'. rewrite X in X'. congruence.
Qed.
End means.
