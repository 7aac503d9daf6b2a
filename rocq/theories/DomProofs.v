From stdpp Require Import gmap relations.
From Verif Require Import Text SettingsModel DomModel DomSpec.

Lemma Ok_inj {A} (x y : A) : Ok x = Ok y -> x = y.
Proof. by intros [= ->]. Qed.

(** * The arena *)
Lemma get_slot d i n : get d i = Some n <-> slots (ar d) !! i = Some (Some n).
Proof. unfold get, node_ref. destruct (slots (ar d) !! i) as [[m|]|]; naive_solver. Qed.
Lemma get_lt d i : exists_in d i -> i < length (slots (ar d)).
Proof.
  unfold exists_in. intros H. destruct (get d i) as [n|] eqn:E; [|done].
  apply get_slot in E. by apply lookup_lt_Some in E.
Qed.
Lemma get_edit d i f j : get (edit d i f) j = if bool_decide (j = i) then f <$> get d i else get d j.
Proof.
  unfold edit, get, with_node, node_ref. simpl.
  destruct (slots (ar d) !! i) as [[m|]|] eqn:E; simpl.
  - case_bool_decide; subst.
    + rewrite list_lookup_insert; [done|]. by eapply lookup_lt_Some.
    + by rewrite list_lookup_insert_ne by done.
  - case_bool_decide; subst; [by rewrite E|done].
  - case_bool_decide; subst; [by rewrite E|done].
Qed.
Lemma ar_set_named x y d : ar (set_named x y d) = ar d. Proof. done. Qed.
Lemma ar_register_name v i d : ar (register_name v i d) = ar d.
Proof. unfold register_name. by repeat case_match. Qed.
Lemma ar_unregister i d : ar (unregister_names i d) = ar d.
Proof. unfold unregister_names. by repeat case_match. Qed.
Lemma ar_on_elem i e d : ar (on_mutation_elem i e d) = ar d.
Proof. unfold on_mutation_elem. case_match; [apply ar_register_name|apply ar_unregister]. Qed.
Lemma ar_on i d : ar (on_mutation i d) = ar d.
Proof. unfold on_mutation. case_match; [apply ar_on_elem|done]. Qed.
Lemma get_ar d d' : ar d = ar d' -> forall j, get d j = get d' j.
Proof. unfold get. by intros ->. Qed.

(** arena invariant *)
Definition somes {A} (l : list (option A)) : nat := length (filter (fun x => is_Some x) l).
Record good (d : doc) : Prop := {
  g_next : next_id (ar d) = length (slots (ar d));
  g_count : count (ar d) = somes (slots (ar d));
  g_pos : 0 < next_id (ar d) }.
Lemma somes_insert {A} (l : list (option A)) (i : nat) (x y : option A) : l !! i = Some x ->
  somes (<[i := y]> l) + (if x then 1 else 0) = somes l + (if y then 1 else 0).
Proof.
  unfold somes. intros H. rewrite insert_take_drop by (by eapply lookup_lt_Some).
  rewrite <- (take_drop_middle l i x) at 3 by done. rewrite !filter_app, !app_length, !filter_cons.
  repeat case_decide; destruct x, y; simpl; try lia;
    try (exfalso; by eapply is_Some_None); try (exfalso; by eauto).
Qed.
Lemma ar_edit d i f : next_id (ar (edit d i f)) = next_id (ar d) /\ count (ar (edit d i f)) = count (ar d)
  /\ length (slots (ar (edit d i f))) = length (slots (ar d)) /\ somes (slots (ar (edit d i f))) = somes (slots (ar d)).
Proof.
  unfold edit, with_node, node_ref. simpl. destruct (slots (ar d) !! i) as [[m|]|] eqn:E; [|done..]. simpl.
  rewrite insert_length. repeat split. pose proof (somes_insert _ _ _ (Some (f m)) E). simpl in *. lia.
Qed.
Lemma good_edit d i f : good d -> good (edit d i f).
Proof. destruct (ar_edit d i f) as (E1&E2&E3&E4). intros []. split; congruence. Qed.
Lemma good_ar d d' : ar d = ar d' -> good d -> good d'.
Proof. intros E []. split; congruence. Qed.
Lemma good_on i d : good d -> good (on_mutation i d).
Proof. apply good_ar. by rewrite ar_on. Qed.
Lemma good_new : good new_doc. Proof. split; vm_compute; try done; lia. Qed.

Definition put_slots (a : arena) (n : node) := slots a ++ [Some n].
Lemma put_next a n : next_id a = S (length (slots a)) -> put a (length (slots a)) n = mk_arena (slots a ++ [Some n]) (next_id a) (count a + 1).
Proof.
  intros H. unfold put. rewrite bool_decide_true by lia.
  replace (length (slots a) + 1 - length (slots a)) with 1 by lia. simpl.
  rewrite lookup_app_r by lia. rewrite Nat.sub_diag. simpl. f_equal.
  rewrite insert_app_r_alt by lia. rewrite Nat.sub_diag. done.
Qed.
Lemma ar_register dt d : good d ->
  ar (register dt d).1 = mk_arena (slots (ar d) ++ [Some (fresh_node dt)]) (S (next_id (ar d))) (count (ar d) + 1)
  /\ (register dt d).2 = next_id (ar d).
Proof.
  intros [Hn Hc Hp]. unfold register. simpl. split; [|done].
  set (d1 := set_ar _ d).
  assert (Hd : ar (match dt with DElement e => on_mutation_elem (next_id (ar d)) e d1 | _ => d1 end) = ar d1).
  { destruct dt; try done. apply ar_on_elem. }
  rewrite Hd. unfold d1. simpl. rewrite Hn. rewrite (put_next (mk_arena (slots (ar d)) (S (length (slots (ar d)))) (count (ar d)))) by done. done.
Qed.
Lemma get_register dt d j : good d ->
  get (register dt d).1 j = if bool_decide (j = next_id (ar d)) then Some (fresh_node dt) else get d j.
Proof.
  intros G. pose proof (ar_register dt d G) as [E _]. unfold get, node_ref. rewrite E. simpl.
  destruct G as [Hn _ _]. rewrite Hn. case_bool_decide; subst.
  - by rewrite lookup_app_r, Nat.sub_diag.
  - destruct (decide (j < length (slots (ar d)))).
    + by rewrite lookup_app_l.
    + rewrite lookup_ge_None_2 by (rewrite app_length; simpl; lia). by rewrite lookup_ge_None_2 by lia.
Qed.
Lemma good_register dt d : good d -> good (register dt d).1.
Proof.
  intros G. pose proof (ar_register dt d G) as [E _]. destruct G as [Hn Hc Hp]. split; rewrite E; simpl.
  - rewrite app_length. simpl. lia.
  - unfold somes in *. rewrite filter_app, app_length, filter_cons, decide_True by eauto. simpl. lia.
  - lia.
Qed.
Lemma get_fresh d : good d -> get d (next_id (ar d)) = None.
Proof. intros [Hn _ _]. unfold get, node_ref. by rewrite Hn, lookup_ge_None_2. Qed.
Definition del (i : nat) (d : doc) : doc := set_ar (delete_node (ar d) i) d.
Lemma get_del d i j : get (del i d) j = if bool_decide (j = i) then None else get d j.
Proof.
  unfold del, get, delete_node, node_ref. simpl.
  destruct (slots (ar d) !! i) as [[m|]|] eqn:E; simpl.
  - case_bool_decide; subst.
    + by rewrite list_lookup_insert by (by eapply lookup_lt_Some).
    + by rewrite list_lookup_insert_ne by done.
  - case_bool_decide; subst; [by rewrite E|done].
  - case_bool_decide; subst; [by rewrite E|done].
Qed.
Lemma good_del i d : good d -> good (del i d).
Proof.
  intros [Hn Hc Hp]. unfold del, delete_node, node_ref.
  destruct (slots (ar d) !! i) as [[m|]|] eqn:E; [|by split..].
  split; simpl; rewrite ?insert_length; try done.
  pose proof (somes_insert _ _ _ (@None node) E). simpl in *. lia.
Qed.

(** * Effects on links *)
Lemma children_get d d' i : get d i = get d' i -> children d i = children d' i.
Proof. unfold children. by intros ->. Qed.
Lemma parent_get d d' i : get d i = get d' i -> parent d i = parent d' i.
Proof. unfold parent. by intros ->. Qed.
Lemma get_on d i j : get (on_mutation i d) j = get d j.
Proof. apply get_ar, ar_on. Qed.
Lemma get_drop_child i p d j : get (drop_child i p d) j =
  if bool_decide (j = p) then (fun n => set_children (without i (n_children n)) n) <$> get d p else get d j.
Proof.
  unfold drop_child. destruct (get d p) as [n|] eqn:E.
  - rewrite get_on, get_edit. case_bool_decide; [by rewrite E|done].
  - case_bool_decide; subst; by rewrite ?E.
Qed.
Lemma good_drop_child i p d : good d -> good (drop_child i p d).
Proof. unfold drop_child. case_match; [|done]. intros. by apply good_on, good_edit. Qed.
(** the effect of [detach] *)
Lemma get_detach i d j : get (detach i d) j =
  match parent d i with
  | None => get d j
  | Some p =>
      (fun n => let n1 := if bool_decide (j = p) then set_children (without i (n_children n)) n else n in
                if bool_decide (j = i) then set_parent None n1 else n1) <$> get d j
  end.
Proof.
  unfold detach, parent. destruct (get d i) as [n|] eqn:E; [|done]. simpl.
  destruct (n_parent n) as [p|] eqn:Ep; [|done].
  assert (Hi : exists m, get (drop_child i p d) i = Some m).
  { rewrite get_drop_child. case_bool_decide; subst; rewrite E; simpl; eauto. }
  destruct Hi as [m Hm]. rewrite Hm, get_on, get_edit, Hm. rewrite get_drop_child in Hm.
  rewrite get_drop_child. repeat case_bool_decide; subst; simplify_eq; simpl; rewrite ?E in *; simpl in *; simplify_eq; try done.
  all: by destruct (get d j).
Qed.
Lemma good_detach i d : good d -> good (detach i d).
Proof.
  intros G. unfold detach. repeat case_match; try done; try apply good_on, good_edit; by apply good_drop_child.
Qed.
Lemma get_remove i d j : get (remove i d) j =
  if bool_decide (j = i) then None
  else match parent d i with
       | Some p => if bool_decide (j = p) then (fun n => set_children (without i (n_children n)) n) <$> get d j else get d j
       | None => get d j
       end.
Proof.
  unfold remove, parent. destruct (get d i) as [n|] eqn:E; simpl.
  - destruct (n_parent n) as [p|] eqn:Ep; simpl.
    + change (get (del i (drop_child i p d)) j = if bool_decide (j = i) then None else if bool_decide (j = p) then (fun n => set_children (without i (n_children n)) n) <$> get d j else get d j).
      rewrite get_del, get_drop_child. repeat case_bool_decide; subst; done.
    + change (get (del i d) j = if bool_decide (j = i) then None else get d j). by rewrite get_del.
  - case_bool_decide; subst; done.
Qed.
Lemma good_remove i d : good d -> good (remove i d).
Proof.
  intros G. unfold remove. destruct (get d i) as [n|] eqn:E; [|done].
  destruct (n_parent n).
  - apply (good_del i), good_drop_child, G.
  - apply (good_del i), G.
Qed.

(** where a new child goes *)
Definition placed (i : nat) (pos : option nat) (l : list nat) : list nat :=
  match pos with Some k => if bool_decide (k <= length l) then insert_at i k l else l ++ [i] | None => l ++ [i] end.
Definition attached (i p : nat) (pos : option nat) (d : doc) : doc :=
  let d1 := match get d p with Some n => on_mutation p (edit d p (set_children (placed i pos (n_children n)))) | None => d end in
  match get d1 i with Some _ => on_mutation i (edit d1 i (set_parent (Some p))) | None => d1 end.
Lemma attach_eq i p pos d : attach i p pos d =
  if bool_decide (p = i) then Ok d else let* b := has_rec (depth d) d i p in if b then Ok d else Ok (attached i p pos d).
Proof.
  unfold attach, attached, placed. case_bool_decide; [done|]. destruct (has_rec _ _ _ _) as [[]| |]; try done. simpl.
  by repeat case_match.
Qed.
Lemma get_attached i p pos d j : p <> i -> get (attached i p pos d) j =
  (fun n => if bool_decide (j = p) then set_children (placed i pos (n_children n)) n
            else if bool_decide (j = i) then set_parent (Some p) n else n) <$> get d j.
Proof.
  intros Hpi. unfold attached. destruct (get d p) as [m|] eqn:E.
  - rewrite get_on, get_edit, bool_decide_false by done. destruct (get d i) as [n|] eqn:Ei.
    + rewrite get_on, get_edit, !get_on, !get_edit, (bool_decide_false (i = p)) by done.
      rewrite Ei. repeat case_bool_decide; subst; simplify_eq/=; rewrite ?E, ?Ei; simpl; try done; by destruct (get d j).
    + rewrite get_on, get_edit. repeat case_bool_decide; subst; simplify_eq/=; rewrite ?E, ?Ei; simpl; try done; by destruct (get d j).
  - destruct (get d i) as [n|] eqn:Ei.
    + rewrite get_on, get_edit. repeat case_bool_decide; subst; simplify_eq/=; rewrite ?E, ?Ei; simpl; try done; by destruct (get d j).
    + repeat case_bool_decide; subst; simplify_eq/=; rewrite ?E, ?Ei; simpl; try done; by destruct (get d j).
Qed.
Lemma good_attached i p pos d : good d -> good (attached i p pos d).
Proof.
  intros G. unfold attached. destruct (get d p).
  - set (d1 := on_mutation _ _). assert (good d1) by (by apply good_on, good_edit). clearbody d1. destruct (get d1 i); [|done]. by apply good_on, good_edit.
  - destruct (get d i); [|done]. by apply good_on, good_edit.
Qed.

(** * Acyclicity *)
Definition acyclic (d : doc) : Prop := forall x, ~ tc (child d) x x.
Lemma child_exists d p c : child d p c -> exists_in d p.
Proof. unfold child, children, exists_in. destruct (get d p); [done|]. by intros ?%elem_of_nil. Qed.
Lemma tc_split_edge {A} (R R' : A -> A -> Prop) p i : (forall x y, R' x y -> R x y \/ (x = p /\ y = i)) ->
  forall x y, tc R' x y -> tc R x y \/ (rtc R x p /\ rtc R i y).
Proof.
  intros H x y T. induction T as [x y E|x y z E T IH].
  - destruct (H _ _ E) as [?|[-> ->]]; [left; by apply tc_once|right; split; apply rtc_refl].
  - destruct (H _ _ E) as [?|[-> ->]].
    + destruct IH as [IH|[IH1 IH2]]; [left; by eapply tc_l|right; split; [by eapply rtc_l|done]].
    + destruct IH as [IH|[IH1 IH2]]; right; (split; [apply rtc_refl|]); [by apply tc_rtc|].
      done.
Qed.
Lemma acyclic_sub d d' : (forall x y, child d' x y -> child d x y) -> acyclic d -> acyclic d'.
Proof.
  intros H A x T. apply (A x). clear A. revert T. generalize x at 2 4. intros y T.
  induction T; [by apply tc_once, H|]. by eapply tc_l; [apply H|].
Qed.
Lemma acyclic_add d d' p i : (forall x y, child d' x y -> child d x y \/ (x = p /\ y = i)) ->
  p <> i -> ~ tc (child d) i p -> acyclic d -> acyclic d'.
Proof.
  intros H Hpi Hn A x T. destruct (tc_split_edge _ _ _ _ H _ _ T) as [T'|[T1 T2]]; [by apply (A x)|].
  assert (R : rtc (child d) i p) by (by etransitivity).
  apply rtc_tc in R as [->|R]; done.
Qed.

(** the recursive search finds exactly the descendants *)
Lemma nodup_bound (l : list nat) n : NoDup l -> (forall x, x ∈ l -> x < n) -> length l <= n.
Proof.
  intros Hd Hb. rewrite <- (seq_length n 0). apply submseteq_length, NoDup_submseteq; [done|].
  intros x Hx. apply elem_of_seq. specialize (Hb x Hx). lia.
Qed.
Lemma tc_child_inv d p t : tc (child d) p t -> exists c, child d p c /\ (c = t \/ tc (child d) c t).
Proof. intros T. inversion T; subst; eauto. Qed.
Lemma has_rec_ok d : acyclic d -> forall f p t anc,
  NoDup anc -> (forall a, a ∈ anc -> exists_in d a /\ tc (child d) a p) -> length (slots (ar d)) < length anc + f ->
  exists b, has_rec f d p t = Ok b /\ (b = true <-> tc (child d) p t).
Proof.
  intros A. induction f as [|f IH]; intros p t anc Hnd Hanc Hlen.
  { exfalso. assert (length anc <= length (slots (ar d))); [|lia].
    apply nodup_bound; [done|]. intros x Hx. apply get_lt. by apply Hanc. }
  simpl. destruct (get d p) as [n|] eqn:E.
  2:{ exists false. split; [done|]. split; [done|]. intros T.
      apply tc_child_inv in T as (c&Hc&_). apply child_exists in Hc. by destruct (Hc E). }
  set (each := fix each (l : list nat) : res bool := _).
  assert (Hp : p ∉ anc). { intros Hp. by apply (A p), (Hanc p). }
  assert (Hsub : forall l, (forall c, c ∈ l -> child d p c) ->
    exists b, each l = Ok b /\ (b = true <-> exists c, c ∈ l /\ (c = t \/ tc (child d) c t))).
  { induction l as [|c l IHl]; intros Hl.
    - exists false. split; [done|]. split; [done|]. intros (c&Hc&_). by apply elem_of_nil in Hc.
    - simpl. case_bool_decide as Hct.
      + exists true. split; [done|]. split; [|done]. intros _. exists c. split; [left|by left].
      + destruct (IH c t (p :: anc)) as (b&Eb&Hb).
        * by constructor.
        * assert (Hpc : child d p c) by (apply Hl; left).
          intros a [->|Ha]%elem_of_cons.
          -- split; [by eapply child_exists|by apply tc_once].
          -- split; [by apply Hanc|]. eapply tc_r; [by apply Hanc|done].
        * simpl. lia.
        * rewrite Eb. simpl. destruct b.
          -- exists true. split; [done|]. split; [|done]. intros _. exists c. split; [left|]. right. by apply Hb.
          -- destruct IHl as (b&Eb'&Hb'); [intros; apply Hl; by right|].
             exists b. split; [done|]. rewrite Hb'. split.
             ++ intros (x&Hx&Ht). exists x. split; [by right|done].
             ++ intros (x&[->|Hx]%elem_of_cons&Ht).
                ** destruct Ht as [->|Ht]; [done|]. by apply Hb in Ht.
                ** eauto. }
  assert (Hch : children d p = n_children n) by (unfold children; by rewrite E).
  destruct (Hsub (n_children n)) as (b&Eb&Hb). { intros c Hc. unfold child. by rewrite Hch. }
  exists b. split; [done|]. rewrite Hb. split.
  - intros (c&Hc&[->|Ht]); [apply tc_once|eapply tc_l; [|done]]; unfold child; by rewrite Hch.
  - intros (c&Hc&Ht)%tc_child_inv. exists c. unfold child in Hc. by rewrite Hch in Hc.
Qed.
Lemma has_rec_depth d p t : acyclic d -> exists b, has_rec (depth d) d p t = Ok b /\ (b = true <-> tc (child d) p t).
Proof.
  intros A. apply (has_rec_ok d A _ p t []); [constructor| |unfold depth; simpl; lia]. intros a Ha. by apply elem_of_nil in Ha.
Qed.
(** what attaching does, as a relation on the two documents *)
Lemma attach_cases i p pos d : acyclic d ->
  (attach i p pos d = Ok d /\ rtc (child d) i p) \/
  (attach i p pos d = Ok (attached i p pos d) /\ p <> i /\ ~ tc (child d) i p).
Proof.
  intros A. rewrite attach_eq. case_bool_decide as Hpi; [subst; left; split; [done|apply rtc_refl]|].
  destruct (has_rec_depth d i p A) as (b&Eb&Hb). rewrite Eb. simpl. destruct b.
  - left. split; [done|]. apply tc_rtc. by apply Hb.
  - right. split; [done|]. split; [done|]. intros T. by apply Hb in T.
Qed.
Lemma elem_placed i pos l x : x ∈ placed i pos l <-> x = i \/ x ∈ l.
Proof.
  unfold placed, insert_at. repeat case_match; rewrite elem_of_app, elem_of_cons.
  - rewrite <- (take_drop n l) at 3. rewrite elem_of_app. tauto.
  - rewrite elem_of_nil. tauto.
  - rewrite elem_of_nil. tauto.
Qed.
Lemma child_fmap d d' (f : nat -> node -> node) x y : get d' x = f x <$> get d x ->
  child d' x y <-> exists n, get d x = Some n /\ y ∈ n_children (f x n).
Proof.
  intros H. unfold child, children. rewrite H. destruct (get d x); simpl; [naive_solver|].
  rewrite elem_of_nil. naive_solver.
Qed.
Lemma child_attached i p pos d x y : p <> i -> child (attached i p pos d) x y -> child d x y \/ (x = p /\ y = i).
Proof.
  intros Hpi H. eapply (child_fmap d _ (fun j n => if bool_decide (j = p) then set_children (placed i pos (n_children n)) n
            else if bool_decide (j = i) then set_parent (Some p) n else n)) in H; [|by apply get_attached].
  destruct H as (n&E&H). unfold child, children. rewrite E.
  repeat case_bool_decide; subst; simpl in *; [|by left..].
  apply elem_placed in H as [->|H]; [by right|by left].
Qed.
Lemma acyclic_attach i p pos d : acyclic d -> exists d', attach i p pos d = Ok d' /\ acyclic d'.
Proof.
  intros A. destruct (attach_cases i p pos d A) as [[E H]|(E&Hpi&H)]; rewrite E; [by eauto|].
  eexists. split; [done|]. eapply acyclic_add; [|exact Hpi|exact H|exact A]. intros x y. by apply child_attached.
Qed.
Lemma elem_without i l x : x ∈ without i l <-> x <> i /\ x ∈ l.
Proof. unfold without. rewrite elem_of_list_filter. done. Qed.
Lemma child_detach i d x y : child (detach i d) x y -> child d x y.
Proof.
  unfold child, children. rewrite get_detach. destruct (parent d i) as [p|]; [|done].
  destruct (get d x); simpl; [|done]. repeat case_bool_decide; simpl; rewrite ?elem_without; tauto.
Qed.
Lemma child_remove i d x y : child (remove i d) x y -> child d x y.
Proof.
  unfold child, children. rewrite get_remove. case_bool_decide; subst; [by intros ?%elem_of_nil|].
  destruct (parent d i) as [p|]; [|done].
  case_bool_decide; [|done]. destruct (get d x); simpl; [|done]. rewrite elem_without; tauto.
Qed.
Lemma child_register dt d x y : good d -> child (register dt d).1 x y <-> child d x y.
Proof.
  intros G. unfold child, children. rewrite get_register by done. case_bool_decide; subst; [|done].
  rewrite get_fresh by done. done.
Qed.
Lemma child_edit d i f x y : (forall n, n_children (f n) = n_children n) -> child (edit d i f) x y <-> child d x y.
Proof.
  intros H. unfold child, children. rewrite get_edit. case_bool_decide; subst; [|done].
  destruct (get d i); simpl; [by rewrite H|done].
Qed.

(** * Every operation *)
Definition links (d : doc) (j : nat) : option (option nat * list nat) := (fun n => (n_parent n, n_children n)) <$> get d j.
Definition same_links (d d' : doc) : Prop := forall j, links d' j = links d j.
Lemma links_exists d d' j : links d' j = links d j -> exists_in d' j <-> exists_in d j.
Proof. unfold links, exists_in. destruct (get d j), (get d' j); simpl; naive_solver. Qed.
Lemma links_children d d' j : links d' j = links d j -> children d' j = children d j.
Proof. unfold links, children. destruct (get d j), (get d' j); simpl; naive_solver. Qed.
Lemma links_parent d d' j : links d' j = links d j -> parent d' j = parent d j.
Proof. unfold links, parent. destruct (get d j), (get d' j); simpl; naive_solver. Qed.
Lemma same_links_edit d i f : (forall n, n_children (f n) = n_children n /\ n_parent (f n) = n_parent n) -> same_links d (edit d i f).
Proof.
  intros H j. unfold links. rewrite get_edit. case_bool_decide; subst; [|done].
  destruct (get d i) as [n|]; simpl; [|done]. destruct (H n) as [-> ->]. done.
Qed.
Lemma same_links_ar d d' : ar d' = ar d -> same_links d d'.
Proof. intros E j. unfold links. by rewrite (get_ar d' d E). Qed.
Lemma same_links_trans d1 d2 d3 : same_links d1 d2 -> same_links d2 d3 -> same_links d1 d3.
Proof. intros H1 H2 j. by rewrite H2. Qed.
Lemma map_elem_links f n : n_children (map_elem f n) = n_children n /\ n_parent (map_elem f n) = n_parent n.
Proof. unfold map_elem. by destruct (n_data n). Qed.
Lemma same_links_set_attribute i k v d : same_links d (set_attribute i k v d).
Proof.
  unfold set_attribute. case_match; [|by intros j].
  case_bool_decide; [eapply same_links_trans; [|apply same_links_ar, ar_register_name]|]; apply same_links_edit, map_elem_links.
Qed.
Lemma good_set_attribute i k v d : good d -> good (set_attribute i k v d).
Proof.
  intros G. unfold set_attribute. case_match; [|done].
  case_bool_decide; [eapply good_ar; [symmetry; apply ar_register_name|]|]; by apply good_edit.
Qed.

Inductive kind := KSame | KNew (dt : data) | KAttach (i p : nat) (pos : option nat) | KDetach (i : nat) | KRemove (i : nat)
| KRelocate (i p : nat).
(** operations fall into six kinds *)
Definition kind_of (d : doc) (o : op) : kind :=
  match o with
  | OElement n ns a => KNew (DElement (new_elem n ns a (match a !! txt "class" with Some v => classes_of v | None => ∅ end)))
  | OText s => KNew (DText s) | OComment s => KNew (DComment s) | ODoctype n p s => KNew (DDoctype n p s)
  | OClone i => match get d i with Some n => KNew (n_data n) | None => KSame end
  | OAttach i p pos => KAttach i p pos | ODetach i => KDetach i | ORemove i => KRemove i
  | ORelocate i p => KRelocate i p
  | ORelocateUnlessThere i p => match get d i with
                                | Some n => if bool_decide (n_parent n = Some p) then KSame else KRelocate i p
                                | None => KSame end
  | _ => KSame
  end.
Lemma apply_kind o d : good d ->
  match kind_of d o with
  | KSame => exists d', apply o d = Ok d' /\ good d' /\ same_links d d' /\ next_id (ar d') = next_id (ar d) /\ count (ar d') = count (ar d)
  | KNew dt => apply o d = Ok (register dt d).1
  | KAttach i p pos => apply o d = attach i p pos d
  | KDetach i => apply o d = Ok (detach i d)
  | KRemove i => apply o d = Ok (remove i d)
  | KRelocate i p => apply o d = attach i p None (detach i d)
  end.
Proof.
  assert (Hid : good d -> good d /\ same_links d d /\ next_id (ar d) = next_id (ar d) /\ count (ar d) = count (ar d)) by (intros ?; split_and!; done).
  assert (He : forall i f, (forall n, n_children (f n) = n_children n /\ n_parent (f n) = n_parent n) -> good d ->
     good (edit d i f) /\ same_links d (edit d i f) /\ next_id (ar (edit d i f)) = next_id (ar d) /\ count (ar (edit d i f)) = count (ar d)).
  { intros i f Hf G. destruct (ar_edit d i f) as (E1&E2&_). split; [by apply good_edit|]. split; [by apply same_links_edit|]. done. }
  intros G. destruct o; simpl; try done; try (eexists; split; [reflexivity|]; first [by apply He; [apply map_elem_links|] | idtac]).
  - unfold clone_node. destruct (get d i); [done|]. eauto.
  - unfold relocate_unless_there. destruct (get d i) as [n|]; [|by eauto]. case_bool_decide; [by eauto|done].
  - split; [by apply good_set_attribute|]. split; [apply same_links_set_attribute|].
    unfold set_attribute. case_match; [|done]. destruct (ar_edit d i (map_elem (add_attribute k v))) as (E1&E2&_).
    case_bool_decide; [by rewrite ar_register_name|done].
  - apply He; [|done]. intros n. by destruct (n_data n).
  - apply He; [|done]. intros n. by destruct (n_data n).
  - split; [by apply (good_ar d)|]. split; [by intros j|done].
Qed.

Lemma acyclic_links d d' : same_links d d' -> acyclic d -> acyclic d'.
Proof. intros H. apply acyclic_sub. intros x y. unfold child. by rewrite (links_children d d'). Qed.
Lemma good_attach i p pos d d' : good d -> acyclic d -> attach i p pos d = Ok d' -> good d'.
Proof.
  intros G A E. destruct (attach_cases i p pos d A) as [[E' H]|(E'&Hpi&H)]; rewrite E' in E; simplify_eq; [done|by apply good_attached].
Qed.
Lemma acyclic_detach i d : acyclic d -> acyclic (detach i d).
Proof. apply acyclic_sub, child_detach. Qed.
(** whatever is called, the calls return and the links stay acyclic *)
Lemma apply_ok o d : good d -> acyclic d -> exists d', apply o d = Ok d' /\ good d' /\ acyclic d'.
Proof.
  intros G A. pose proof (apply_kind o d G) as H. destruct (kind_of d o).
  - destruct H as (d'&E&G'&S&_). exists d'. split_and!; try done. by eapply acyclic_links.
  - rewrite H. eexists. split; [done|]. split; [by apply good_register|]. eapply acyclic_sub; [|exact A].
    intros x y. by rewrite child_register.
  - rewrite H. destruct (acyclic_attach i p pos d A) as (d'&E&A'). exists d'. split_and!; try done. by eapply good_attach.
  - rewrite H. eexists. split; [done|]. split; [by apply good_detach|by apply acyclic_detach].
  - rewrite H. eexists. split; [done|]. split; [by apply good_remove|]. eapply acyclic_sub; [|exact A]. intros x y. apply child_remove.
  - rewrite H. assert (A1 := acyclic_detach i d A). destruct (acyclic_attach i p None _ A1) as (d'&E&A'). exists d'. split_and!; try done.
    eapply (good_attach i p None (detach i d)); [by apply good_detach|exact A1|exact E].
Qed.
Lemma run_ok ops d : good d -> acyclic d -> exists d', run ops d = Ok d' /\ good d' /\ acyclic d'.
Proof.
  revert d. induction ops as [|o r IH]; intros d G A; simpl; [by eauto|].
  destruct (apply_ok o d G A) as (d1&E&G1&A1). rewrite E. simpl. by apply IH.
Qed.
Lemma acyclic_new : acyclic new_doc.
Proof.
  intros x T. apply tc_child_inv in T as (c&Hc&_). unfold child, children in Hc.
  destruct (get new_doc x) as [n|] eqn:E; [|by apply elem_of_nil in Hc].
  destruct x as [|x]; [|done]. vm_compute in E. simplify_eq. by apply elem_of_nil in Hc.
Qed.
Lemma history_inv P d ops d' : history P d ops d' -> good d -> acyclic d -> good d' /\ acyclic d'.
Proof.
  induction 1 as [|d o d1 r d2 _ E _ IH]; [done|]. intros G A. destruct (apply_ok o d G A) as (?&E'&?&?). rewrite E in E'. simplify_eq. auto.
Qed.
Lemma history_new P ops d : history P new_doc ops d -> good d /\ acyclic d.
Proof. intros H. eapply history_inv; [done|apply good_new|apply acyclic_new]. Qed.
Lemma run_history P d ops d' : history P d ops d' -> run ops d = Ok d'.
Proof. induction 1 as [|d o d1 r d2 _ E _ IH]; [done|]. simpl. rewrite E. done. Qed.
Lemma run_any ops d d' : run ops d = Ok d' -> history any d ops d'.
Proof.
  revert d. induction ops as [|o r IH]; intros d; simpl; [intros; simplify_eq; constructor|].
  destruct (apply o d) as [d1| |] eqn:E; simpl; try done. intros H. by econstructor; [..|apply IH].
Qed.

(** * Linked documents *)
Record tidy (d : doc) : Prop := { t_linked : linked d; t_bound : forall c p, parent d c = Some p -> p < next_id (ar d) }.
Lemma linked_links d d' : same_links d d' -> linked d -> linked d'.
Proof.
  intros S [H1 H2 H3 H4].
  assert (Hc : forall p, children d' p = children d p) by (intros; by apply links_children).
  assert (Hp : forall p, parent d' p = parent d p) by (intros; by apply links_parent).
  assert (He : forall p, exists_in d' p <-> exists_in d p) by (intros; by apply links_exists).
  unfold child in *.
  split; unfold child; intros; repeat rewrite ?Hc, ?Hp, ?He in *; eauto.
Qed.
Lemma parent_register dt d c : good d -> parent (register dt d).1 c = parent d c.
Proof.
  intros G. unfold parent. rewrite get_register by done. case_bool_decide; subst; [|done]. by rewrite get_fresh.
Qed.
Lemma exists_register dt d c : good d -> exists_in (register dt d).1 c <-> c = next_id (ar d) \/ exists_in d c.
Proof.
  intros G. unfold exists_in. rewrite get_register by done. case_bool_decide; subst; [|naive_solver]. naive_solver.
Qed.
Lemma children_register dt d c : good d -> children (register dt d).1 c = children d c.
Proof.
  intros G. unfold children. rewrite get_register by done. case_bool_decide; subst; [|done]. by rewrite get_fresh.
Qed.
Lemma next_register dt d : good d -> next_id (ar (register dt d).1) = S (next_id (ar d)).
Proof. intros G. by rewrite (proj1 (ar_register dt d G)). Qed.
Lemma tidy_register dt d : good d -> tidy d -> tidy (register dt d).1.
Proof.
  intros G [[H1 H2 H3 H4] Hb]. split; [split|].
  - intros p c. rewrite child_register, exists_register by done. eauto.
  - intros p c. rewrite child_register, parent_register by done. eauto.
  - intros p. rewrite children_register by done. eauto.
  - intros p c. rewrite child_register, parent_register, exists_register by done. intros Hp [->|He]; [|by eauto].
    apply Hb in Hp. lia.
  - intros c p. rewrite parent_register, next_register by done. intros Hp%Hb. lia.
Qed.
Lemma children_detach i d p : linked d -> children (detach i d) p = without i (children d p).
Proof.
  intros [H1 H2 H3 H4]. unfold children at 1. rewrite get_detach. unfold without.
  destruct (parent d i) as [q|] eqn:Eq.
  - unfold children. destruct (get d p) as [n|] eqn:E; simpl; [|done].
    destruct (bool_decide_reflect (p = q)) as [->|Hne]; [by case_bool_decide|].
    assert (Hn : forall x, x ∈ n_children n -> x <> i).
    { intros x Hx ->. apply Hne. assert (Hc : child d p i) by (unfold child, children; by rewrite E).
      apply H2 in Hc. congruence. }
    rewrite (filter_all (fun x => x <> i)) by done. by case_bool_decide.
  - change (children d p = filter (fun x => x <> i) (children d p)).
    rewrite (filter_all (fun x => x <> i)); [done|]. intros x Hx ->. apply H2 in Hx. congruence.
Qed.
Lemma parent_detach i d c : parent (detach i d) c = if bool_decide (c = i) then None else parent d c.
Proof.
  unfold parent at 1. rewrite get_detach. destruct (parent d i) as [p|] eqn:E.
  - unfold parent. destruct (get d c) as [n|] eqn:Ec; simpl; [|by case_bool_decide].
    repeat case_bool_decide; done.
  - case_bool_decide; subst; done.
Qed.
Lemma exists_detach i d c : exists_in (detach i d) c <-> exists_in d c.
Proof. unfold exists_in. rewrite get_detach. destruct (parent d i); [|done]. destruct (get d c); naive_solver. Qed.
Lemma next_edit d i f : next_id (ar (edit d i f)) = next_id (ar d). Proof. apply ar_edit. Qed.
Lemma next_on d i : next_id (ar (on_mutation i d)) = next_id (ar d). Proof. by rewrite ar_on. Qed.
Lemma next_drop_child i p d : next_id (ar (drop_child i p d)) = next_id (ar d).
Proof. unfold drop_child. case_match; [|done]. by rewrite next_on, next_edit. Qed.
Lemma next_detach i d : next_id (ar (detach i d)) = next_id (ar d).
Proof.
  unfold detach. repeat case_match; try done; cbv zeta; rewrite ?next_on, ?next_edit, ?next_drop_child; done.
Qed.
Lemma next_remove i d : next_id (ar (remove i d)) = next_id (ar d).
Proof.
  unfold remove. case_match; [|done]. cbv zeta. unfold set_ar, delete_node. simpl. destruct (n_parent n).
  - case_match; simpl; apply next_drop_child.
  - by case_match.
Qed.
Lemma next_attached i p pos d : next_id (ar (attached i p pos d)) = next_id (ar d).
Proof.
  unfold attached. destruct (get d p); cbv zeta.
  - case_match; rewrite ?next_on, ?next_edit, ?next_on, ?next_edit; done.
  - case_match; rewrite ?next_on, ?next_edit; done.
Qed.
Lemma nodup_without i l : NoDup l -> NoDup (without i l).
Proof. apply NoDup_filter. Qed.
Lemma tidy_detach i d : tidy d -> tidy (detach i d).
Proof.
  intros [L Hb]. pose proof L as [H1 H2 H3 H4]. split; [split|].
  - intros p c. unfold child. rewrite children_detach, elem_without, exists_detach by done. intros [_ ?]. eauto.
  - intros p c. unfold child. rewrite children_detach, elem_without, parent_detach by done. intros [? ?].
    rewrite bool_decide_false by done. eauto.
  - intros p. rewrite children_detach by done. by apply nodup_without.
  - intros p c. unfold child. rewrite children_detach, elem_without, exists_detach, parent_detach by done.
    case_bool_decide; [done|]. intros. split; [done|]. by apply H4.
  - intros c p. rewrite next_detach, parent_detach. case_bool_decide; [done|]. apply Hb.
Qed.
Lemma detached_detach i d : detached (detach i d) i.
Proof. intros p. rewrite parent_detach, bool_decide_true by done. done. Qed.
Lemma children_remove i d p : linked d -> children (remove i d) p = if bool_decide (p = i) then [] else without i (children d p).
Proof.
  intros [H1 H2 H3 H4]. unfold children at 1. rewrite get_remove. case_bool_decide; [done|]. unfold without.
  destruct (parent d i) as [q|] eqn:Eq.
  - case_bool_decide; subst; [unfold children; by destruct (get d q)|].
    change (children d p = filter (fun x => x <> i) (children d p)).
    rewrite (filter_all (fun x => x <> i)); [done|]. intros x Hx ->. apply H2 in Hx. congruence.
  - change (children d p = filter (fun x => x <> i) (children d p)).
    rewrite (filter_all (fun x => x <> i)); [done|]. intros x Hx ->. apply H2 in Hx. congruence.
Qed.
Lemma parent_remove i d c : parent (remove i d) c = if bool_decide (c = i) then None else parent d c.
Proof.
  unfold parent at 1. rewrite get_remove. case_bool_decide; [done|]. destruct (parent d i); [|done].
  case_bool_decide; [|done]. unfold parent. by destruct (get d c).
Qed.
Lemma exists_remove i d c : exists_in (remove i d) c <-> c <> i /\ exists_in d c.
Proof.
  unfold exists_in. rewrite get_remove. case_bool_decide; [naive_solver|]. destruct (parent d i); [|naive_solver].
  case_bool_decide; [|naive_solver]. destruct (get d c); naive_solver.
Qed.
Lemma tidy_remove i d : tidy d -> tidy (remove i d).
Proof.
  intros [L Hb]. pose proof L as [H1 H2 H3 H4]. split; [split|].
  - intros p c. unfold child. rewrite children_remove, exists_remove by done. case_bool_decide; [by intros ?%elem_of_nil|].
    rewrite elem_without. intros [? ?]. eauto.
  - intros p c. unfold child. rewrite children_remove, parent_remove by done. case_bool_decide; [by intros ?%elem_of_nil|].
    rewrite elem_without. intros [? ?]. rewrite bool_decide_false by done. eauto.
  - intros p. rewrite children_remove by done. case_bool_decide; [constructor|]. by apply nodup_without.
  - intros p c. unfold child. rewrite children_remove, exists_remove, parent_remove by done.
    case_bool_decide; [done|]. intros ? [? ?]. rewrite bool_decide_false by done. rewrite elem_without. split; [done|]. by apply H4.
  - intros c p. rewrite next_remove, parent_remove. case_bool_decide; [done|]. apply Hb.
Qed.
Lemma children_attached i p pos d q : p <> i -> children (attached i p pos d) q =
  if bool_decide (q = p) then (if get d p then placed i pos (children d p) else []) else children d q.
Proof.
  intros Hpi. unfold children. rewrite get_attached by done. destruct (get d q) as [n|] eqn:E; simpl.
  - repeat case_bool_decide; subst; try done. by rewrite E.
  - case_bool_decide; subst; by rewrite ?E.
Qed.
Lemma parent_attached i p pos d c : p <> i -> parent (attached i p pos d) c =
  if bool_decide (c = i) then (if get d i then Some p else None) else parent d c.
Proof.
  intros Hpi. unfold parent. rewrite get_attached by done. destruct (get d c) as [n|] eqn:E; simpl.
  - repeat case_bool_decide; subst; try done. by rewrite E.
  - case_bool_decide; subst; by rewrite ?E.
Qed.
Lemma exists_attached i p pos d c : p <> i -> exists_in (attached i p pos d) c <-> exists_in d c.
Proof. intros. unfold exists_in. rewrite get_attached by done. destruct (get d c); naive_solver. Qed.
Lemma placed_perm i pos l : placed i pos l ≡ₚ i :: l.
Proof.
  unfold placed, insert_at. repeat case_match.
  - rewrite <- Permutation_middle. by rewrite take_drop.
  - by rewrite Permutation_app_comm.
  - by rewrite Permutation_app_comm.
Qed.
Lemma tidy_attached i p pos d : good d -> tidy d -> p <> i -> exists_in d i -> exists_in d p -> detached d i -> tidy (attached i p pos d).
Proof.
  intros G [L Hb] Hpi Ei Ep Hd. pose proof L as [H1 H2 H3 H4].
  assert (Hgi : exists n, get d i = Some n). { unfold exists_in in Ei. destruct (get d i); eauto. done. }
  assert (Hgp : exists n, get d p = Some n). { unfold exists_in in Ep. destruct (get d p); eauto. done. }
  destruct Hgi as [ni Ni], Hgp as [np Np].
  assert (Hni : forall q, ~ child d q i). { intros q Hq. apply (Hd q); [by apply H2|by eapply child_exists]. }
  assert (Hch : forall q, children (attached i p pos d) q = if bool_decide (q = p) then placed i pos (children d p) else children d q).
  { intros q. rewrite children_attached by done. by rewrite Np. }
  assert (Hpa : forall c, parent (attached i p pos d) c = if bool_decide (c = i) then Some p else parent d c).
  { intros c. rewrite parent_attached by done. by rewrite Ni. }
  split; [split|].
  - intros q c. unfold child. rewrite Hch, exists_attached by done. case_bool_decide; subst; [|by eauto].
    rewrite elem_placed. intros [->|?]; [done|eauto].
  - intros q c. unfold child. rewrite Hch, Hpa. case_bool_decide; subst.
    + rewrite elem_placed. intros [->|Hc]; [by rewrite bool_decide_true|]. rewrite bool_decide_false; [by eauto|].
      intros ->. by apply (Hni p).
    + intros Hc. rewrite bool_decide_false; [by eauto|]. intros ->. by apply (Hni q).
  - intros q. rewrite Hch. case_bool_decide; [|by eauto]. rewrite placed_perm. constructor; [|by eauto]. apply Hni.
  - intros q c. unfold child. rewrite Hpa, Hch, exists_attached by done. case_bool_decide; subst.
    + intros [= ->] _. rewrite bool_decide_true by done. rewrite elem_placed. by left.
    + intros Hq Eq. pose proof (H4 _ _ Hq Eq) as Hc. case_bool_decide; subst; [|done]. rewrite elem_placed. by right.
  - intros c q. rewrite next_attached, Hpa. case_bool_decide; [|apply Hb]. intros [= <-].
    rewrite (g_next _ G). by apply get_lt.
Qed.
Lemma tidy_attach i p pos d d' : good d -> acyclic d -> tidy d -> exists_in d i -> exists_in d p -> detached d i ->
  attach i p pos d = Ok d' -> tidy d'.
Proof.
  intros G A T Ei Ep Hd E. destruct (attach_cases i p pos d A) as [[E' H]|(E'&Hpi&H)]; rewrite E' in E; simplify_eq; [done|].
  by apply tidy_attached.
Qed.
Lemma tidy_apply o d d' : good d -> acyclic d -> tidy d -> careful d o -> apply o d = Ok d' -> tidy d'.
Proof.
  intros G A T C E. pose proof (apply_kind o d G) as H. destruct (kind_of d o) eqn:K.
  - destruct H as (d1&E1&G'&S&N&_). rewrite E in E1. simplify_eq. destruct T as [L Hb]. split; [by eapply linked_links|].
    intros c p. rewrite N, (links_parent d d1) by done. apply Hb.
  - rewrite E in H. apply Ok_inj in H as ->. by apply tidy_register.
  - rewrite E in H. destruct o; simpl in K; repeat case_match; simplify_eq. destruct C as (C1&C2&C3). by eapply (tidy_attach _ _ _ d d' G A T C1 C2 C3).
  - rewrite E in H. apply Ok_inj in H as ->. by apply tidy_detach.
  - rewrite E in H. apply Ok_inj in H as ->. by apply tidy_remove.
  - rewrite E in H.
    assert (C' : exists_in d i /\ exists_in d p) by (destruct o; simpl in K; repeat case_match; simplify_eq; done).
    destruct C' as [C1 C2]. eapply (tidy_attach i p None (detach i d)); try done.
    + by apply good_detach.
    + by apply acyclic_detach.
    + by apply tidy_detach.
    + by apply exists_detach.
    + by apply exists_detach.
    + apply detached_detach.
Qed.
Lemma tidy_new : tidy new_doc.
Proof.
  assert (Hg : forall x n, get new_doc x = Some n -> n = fresh_node DDocument).
  { intros [|x] n H; [|done]. vm_compute in H. by simplify_eq. }
  assert (Hc : forall x, children new_doc x = []). { intros x. unfold children. destruct (get new_doc x) eqn:E; [|done]. by apply Hg in E as ->. }
  assert (Hp : forall x, parent new_doc x = None). { intros x. unfold parent. destruct (get new_doc x) eqn:E; [|done]. by apply Hg in E as ->. }
  split; [split|]; unfold child; intros; rewrite ?Hc, ?Hp in *; try done.
  1-2: by apply elem_of_nil in H. constructor.
Qed.
Lemma careful_tidy d ops d' : history careful d ops d' -> good d -> acyclic d -> tidy d -> good d' /\ acyclic d' /\ tidy d'.
Proof.
  induction 1 as [|d o d1 r d2 C E _ IH]; [done|]. intros G A T. destruct (apply_ok o d G A) as (?&E'&?&?). rewrite E in E'. simplify_eq.
  apply IH; try done. by eapply (tidy_apply o d).
Qed.
Lemma careful_new ops d : history careful new_doc ops d -> good d /\ acyclic d /\ tidy d.
Proof. intros H. eapply careful_tidy; [done|apply good_new|apply acyclic_new|apply tidy_new]. Qed.

(** * Identity and counting *)
Lemma get_later o d d' i : good d -> acyclic d -> apply o d = Ok d' -> i < next_id (ar d) -> ~ exists_in d i -> ~ exists_in d' i.
Proof.
  intros G A E Hi Hn. pose proof (apply_kind o d G) as H. destruct (kind_of d o) eqn:K.
  - destruct H as (d1&E1&_&S&_). rewrite E in E1. simplify_eq. by rewrite (links_exists d d1).
  - rewrite E in H. apply Ok_inj in H as ->. rewrite exists_register by done. intros [->|?]; [lia|done].
  - rewrite E in H. destruct (attach_cases i0 p pos d A) as [[E' _]|(E'&Hpi&_)]; rewrite E' in H; simplify_eq; [done|]. by rewrite exists_attached.
  - rewrite E in H. apply Ok_inj in H as ->. by rewrite exists_detach.
  - rewrite E in H. apply Ok_inj in H as ->. rewrite exists_remove. tauto.
  - rewrite E in H. destruct (attach_cases i0 p None _ (acyclic_detach i0 d A)) as [[E' _]|(E'&Hpi&_)]; rewrite E' in H; simplify_eq.
    + by rewrite exists_detach.
    + by rewrite exists_attached, exists_detach.
Qed.
Lemma count_on i d : count (ar (on_mutation i d)) = count (ar d). Proof. by rewrite ar_on. Qed.
Lemma count_edit d i f : count (ar (edit d i f)) = count (ar d). Proof. apply ar_edit. Qed.
Lemma count_drop_child i p d : count (ar (drop_child i p d)) = count (ar d).
Proof. unfold drop_child. case_match; [|done]. by rewrite count_on, count_edit. Qed.
Lemma count_detach i d : count (ar (detach i d)) = count (ar d).
Proof. unfold detach. repeat case_match; try done; cbv zeta; rewrite ?count_on, ?count_edit, ?count_drop_child; done. Qed.
Lemma count_attached i p pos d : count (ar (attached i p pos d)) = count (ar d).
Proof.
  unfold attached. destruct (get d p); cbv zeta.
  - case_match; rewrite ?count_on, ?count_edit, ?count_on, ?count_edit; done.
  - case_match; rewrite ?count_on, ?count_edit; done.
Qed.
Lemma somes_pos {A} (l : list (option A)) (i : nat) (x : A) : l !! i = Some (Some x) -> 0 < somes l.
Proof.
  intros H. unfold somes. destruct (filter _ l) eqn:E; [|simpl; lia]. exfalso.
  assert (Hx : Some x ∈ filter (fun x => is_Some x) l). { apply elem_of_list_filter. split; [by eauto|]. by eapply elem_of_list_lookup_2. }
  rewrite E in Hx. by apply elem_of_nil in Hx.
Qed.
Lemma count_remove i d : good d -> count (ar (remove i d)) + (if get d i then 1 else 0) = count (ar d).
Proof.
  intros G. unfold remove. destruct (get d i) as [n|] eqn:E; [|lia]. cbv zeta.
  assert (Hk : forall d1, good d1 -> exists_in d1 i -> count (ar (set_ar (delete_node (ar d1) i) d1)) + 1 = count (ar d1)).
  { intros d1 G1 H1. unfold exists_in in H1. destruct (get d1 i) as [m|] eqn:E1; [|done].
    unfold delete_node. unfold get in E1. rewrite E1. simpl. change (get d1 i = Some m) in E1.
    apply get_slot, somes_pos in E1. rewrite (g_count _ G1). lia. }
  destruct (n_parent n).
  - rewrite Hk; [apply count_drop_child|by apply good_drop_child|]. unfold exists_in. rewrite get_drop_child. case_bool_decide; subst; by rewrite E.
  - rewrite Hk; try done. unfold exists_in. by rewrite E.
Qed.
Lemma count_apply o d d' : good d -> acyclic d -> apply o d = Ok d' -> count (ar d') + removes d o = count (ar d) + registers d o.
Proof.
  intros G A E. pose proof (apply_kind o d G) as H. destruct (kind_of d o) eqn:K.
  - destruct H as (d1&E1&_&S&_&N). rewrite E in E1. simplify_eq. rewrite N.
    assert (registers d o = 0 /\ removes d o = 0) as [-> ->]; [|lia]. destruct o; simpl in *; try done. by destruct (get d i).
  - rewrite E in H. apply Ok_inj in H as ->. rewrite (proj1 (ar_register dt d G)). simpl.
    assert (registers d o = 1 /\ removes d o = 0) as [-> ->]; [|lia]. destruct o; simpl in *; try done; repeat case_match; try done; simplify_eq.
  - rewrite E in H. assert (registers d o = 0 /\ removes d o = 0) as [-> ->]. { destruct o; simpl in *; repeat case_match; done. }
    destruct (attach_cases i p pos d A) as [[E' _]|(E'&Hpi&_)]; rewrite E' in H; simplify_eq; [done|]. by rewrite count_attached.
  - rewrite E in H. apply Ok_inj in H as ->. assert (registers d o = 0 /\ removes d o = 0) as [-> ->]. { destruct o; simpl in *; repeat case_match; done. }
    by rewrite count_detach.
  - rewrite E in H. apply Ok_inj in H as ->. assert (registers d o = 0 /\ removes d o = if get d i then 1 else 0) as [-> ->].
    { destruct o; simpl in *; repeat case_match; simplify_eq; done. }
    by rewrite count_remove, Nat.add_0_r.
  - rewrite E in H. assert (registers d o = 0 /\ removes d o = 0) as [-> ->]. { destruct o; simpl in *; repeat case_match; done. }
    destruct (attach_cases i p None _ (acyclic_detach i d A)) as [[E' _]|(E'&Hpi&_)]; rewrite E' in H; simplify_eq.
    + by rewrite count_detach.
    + by rewrite count_attached, count_detach.
Qed.
Lemma count_ledger d ops d' a b : ledger d ops d' a b -> good d -> acyclic d -> node_count d' + b = node_count d + a.
Proof.
  induction 1 as [|d o d1 r d2 a b E _ IH]; [done|]. intros G A. destruct (apply_ok o d G A) as (?&E'&G1&A1). rewrite E in E'. simplify_eq.
  specialize (IH G1 A1). pose proof (count_apply o d _ G A E). unfold node_count in *. lia.
Qed.
Lemma next_apply o d d' : good d -> acyclic d -> apply o d = Ok d' -> next_id (ar d') = next_id (ar d) + registers d o.
Proof.
  intros G A E. pose proof (apply_kind o d G) as H. destruct (kind_of d o) eqn:K.
  - destruct H as (d1&E1&_&S&N&_). rewrite E in E1. simplify_eq. rewrite N.
    assert (registers d o = 0) as ->; [|lia]. destruct o; simpl in *; try done. by destruct (get d i).
  - rewrite E in H. apply Ok_inj in H as ->. rewrite next_register by done.
    assert (registers d o = 1) as ->; [|lia]. destruct o; simpl in *; try done; repeat case_match; try done; simplify_eq.
  - rewrite E in H. assert (registers d o = 0) as ->. { destruct o; simpl in *; repeat case_match; done. }
    destruct (attach_cases i p pos d A) as [[E' _]|(E'&Hpi&_)]; rewrite E' in H; simplify_eq; [lia|]. rewrite next_attached. lia.
  - rewrite E in H. apply Ok_inj in H as ->. assert (registers d o = 0) as ->. { destruct o; simpl in *; repeat case_match; done. }
    rewrite next_detach. lia.
  - rewrite E in H. apply Ok_inj in H as ->. assert (registers d o = 0) as ->.
    { destruct o; simpl in *; repeat case_match; simplify_eq; done. }
    rewrite next_remove. lia.
  - rewrite E in H. assert (registers d o = 0) as ->. { destruct o; simpl in *; repeat case_match; done. }
    destruct (attach_cases i p None _ (acyclic_detach i d A)) as [[E' _]|(E'&Hpi&_)]; rewrite E' in H; simplify_eq.
    + rewrite next_detach. lia.
    + rewrite next_attached, next_detach. lia.
Qed.
Lemma history_next P d ops d' : history P d ops d' -> good d -> acyclic d -> next_id (ar d) <= next_id (ar d').
Proof.
  induction 1 as [|d o d1 r d2 _ E _ IH]; [done|]. intros G A. destruct (apply_ok o d G A) as (?&E'&G1&A1). rewrite E in E'. simplify_eq.
  pose proof (next_apply o d _ G A E). specialize (IH G1 A1). lia.
Qed.
Lemma history_gone P d ops d' i : history P d ops d' -> good d -> acyclic d -> i < next_id (ar d) -> ~ exists_in d i -> ~ exists_in d' i.
Proof.
  induction 1 as [|d o d1 r d2 _ E _ IH]; [done|]. intros G A. destruct (apply_ok o d G A) as (?&E'&G1&A1). rewrite E in E'. simplify_eq.
  intros Hi Hn. apply IH; try done.
  - pose proof (next_apply o d _ G A E). lia.
  - by eapply (get_later o d).
Qed.
