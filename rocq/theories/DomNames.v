From stdpp Require Import gmap relations.
From Verif Require Import Text SettingsModel DomModel DomSpec DomProofs DomTraverse.

(** * Data of nodes *)
Definition data_of (d : doc) (j : nat) : option data := n_data <$> get d j.
Lemma element_data d j : (get d j ≫= element_of) = (data_of d j ≫= fun x => match x with DElement e => Some e | _ => None end).
Proof. unfold data_of. by destruct (get d j) as [[? ? []]|]. Qed.
Lemma attribute_data d d' j k : data_of d' j = data_of d j -> attribute d' j k = attribute d j k.
Proof. intros E. unfold attribute. by rewrite !element_data, E. Qed.
Lemma data_attached i p pos d j : p <> i -> data_of (attached i p pos d) j = data_of d j.
Proof.
  intros H. unfold data_of. rewrite get_attached by done. destruct (get d j); simpl; [|done].
  repeat case_bool_decide; done.
Qed.
Lemma data_detach i d j : data_of (detach i d) j = data_of d j.
Proof.
  unfold data_of. rewrite get_detach. destruct (parent d i); [|done]. destruct (get d j); simpl; [|done].
  repeat case_bool_decide; done.
Qed.
Lemma data_remove i d j : data_of (remove i d) j = if bool_decide (j = i) then None else data_of d j.
Proof.
  unfold data_of. rewrite get_remove. case_bool_decide; [done|]. destruct (parent d i); [|done].
  case_bool_decide; [|done]. by destruct (get d j).
Qed.
Lemma data_register dt d j : good d -> data_of (register dt d).1 j = if bool_decide (j = next_id (ar d)) then Some dt else data_of d j.
Proof. intros G. unfold data_of. rewrite get_register by done. by case_bool_decide. Qed.
Lemma data_edit d i f j : data_of (edit d i f) j = if bool_decide (j = i) then (n_data ∘ f) <$> get d i else data_of d j.
Proof. unfold data_of. rewrite get_edit. case_bool_decide; [|done]. by destruct (get d i). Qed.
Lemma data_edit_links d i f j : (forall n, n_data (f n) = n_data n) -> data_of (edit d i f) j = data_of d j.
Proof. intros H. rewrite data_edit. case_bool_decide; subst; [|done]. unfold data_of. destruct (get d i); simpl; [by rewrite H|done]. Qed.
Lemma data_on d i j : data_of (on_mutation i d) j = data_of d j.
Proof. unfold data_of. by rewrite get_on. Qed.

(** * Names *)
Definition id_of (d : doc) (j : nat) : option str := attribute d j (txt "id").
Record nm (d : doc) : Prop := {
  nm_named : forall s n, named d !! s = Some n -> id_of d n = Some s;
  nm_found : forall n s, id_of d n = Some s -> valid_id s = true -> is_Some (named d !! s);
  nm_by : forall i ids s, named_by d !! i = Some ids -> s ∈ ids -> named d !! s = Some i }.
Lemma nm_ext d d' : (forall j, id_of d' j = id_of d j) -> named d' = named d -> named_by d' = named_by d -> nm d -> nm d'.
Proof.
  intros H E1 E2 [H1 H2 H3]. split.
  - intros s n. rewrite E1, H. eauto.
  - intros n s. rewrite E1, H. eauto.
  - intros i ids s. rewrite E1, E2. eauto.
Qed.
Lemma nm_unregister d i : nm d -> id_of d i = None -> nm (unregister_names i d) /\ named (unregister_names i d) = named d.
Proof.
  intros N Hi. unfold unregister_names. destruct (named_by d !! i) as [ids|] eqn:E; [|done].
  assert (ids = []) as ->.
  { destruct ids as [|s r]; [done|]. exfalso. assert (H := nm_by d N i _ s E ltac:(left)). apply (nm_named d N) in H. congruence. }
  simpl. split; [|done]. destruct N as [H1 H2 H3]. split; [done|done|].
  intros j ids s. simpl. rewrite lookup_delete_Some. intros [_ Hj]. eauto.
Qed.
(** registering the name a node has *)
Lemma register_name_cases v i d :
  (register_name v i d = d /\ (valid_id v = false \/ is_Some (named d !! v))) \/
  (valid_id v = true /\ named d !! v = None /\
   register_name v i d = set_named (<[v := i]> (named d)) (<[i := default [] (named_by d !! i) ++ [v]]> (named_by d)) d).
Proof. unfold register_name. destruct (valid_id v); [|by eauto]. destruct (named d !! v); [by eauto|by right]. Qed.
Lemma id_of_get d i : id_of d i = (get d i ≫= element_of) ≫= fun e => e_attrs e !! txt "id".
Proof. done. Qed.
Lemma nm_on d i : nm d -> nm (on_mutation i d) /\ named (on_mutation i d) = named d.
Proof.
  intros N. unfold on_mutation. destruct (get d i ≫= element_of) as [e|] eqn:E; [|done].
  unfold on_mutation_elem. destruct (e_attrs e !! txt "id") as [v|] eqn:Ev.
  - destruct (register_name_cases v i d) as [[-> _]|(Hv&Hn&_)]; [done|]. exfalso.
    assert (H : id_of d i = Some v) by (rewrite id_of_get, E; done). apply (nm_found d N) in H; [|done]. rewrite Hn in H. by apply is_Some_None in H.
  - apply nm_unregister; [done|]. rewrite id_of_get, E. done.
Qed.
Lemma nm_on_edit d i f : (forall n, n_data (f n) = n_data n) -> nm d -> nm (on_mutation i (edit d i f)) /\ named (on_mutation i (edit d i f)) = named d.
Proof.
  intros H N. assert (N' : nm (edit d i f)). { apply (nm_ext d); try done. intros j. apply attribute_data. by apply data_edit_links. }
  apply (nm_on _ i) in N' as [? E]. by rewrite E.
Qed.
Lemma nm_attached d i p pos : nm d -> nm (attached i p pos d) /\ named (attached i p pos d) = named d.
Proof.
  intros N. unfold attached.
  set (d1 := match get d p with Some n => _ | None => d end).
  assert (H1 : nm d1 /\ named d1 = named d). { unfold d1. destruct (get d p); [|done]. by apply nm_on_edit. }
  destruct H1 as [N1 E1]. clearbody d1. cbv zeta. destruct (get d1 i); [|done]. rewrite <- E1. by apply nm_on_edit.
Qed.
Lemma nm_drop_child d i p : nm d -> nm (drop_child i p d) /\ named (drop_child i p d) = named d.
Proof. intros N. unfold drop_child. destruct (get d p); [|done]. by apply nm_on_edit. Qed.
Lemma nm_detach d i : nm d -> nm (detach i d) /\ named (detach i d) = named d.
Proof.
  intros N. unfold detach. destruct (get d i) as [n|]; [|done]. destruct (n_parent n) as [p|]; [|done]. cbv zeta.
  destruct (nm_drop_child d i p N) as [N1 E1]. destruct (get _ i); [|done]. rewrite <- E1. by apply nm_on_edit.
Qed.
Lemma nm_remove d i : nm d -> id_of d i = None -> nm (remove i d) /\ named (remove i d) = named d.
Proof.
  intros N Hi.
  assert (K : nm (match parent d i with Some p => drop_child i p d | None => d end) /\
    named (match parent d i with Some p => drop_child i p d | None => d end) = named d).
  { destruct (parent d i); [by apply nm_drop_child|done]. }
  destruct K as [K E].
  assert (Hr : named (remove i d) = named (match parent d i with Some p => drop_child i p d | None => d end)
     /\ named_by (remove i d) = named_by (match parent d i with Some p => drop_child i p d | None => d end)).
  { unfold remove, parent. destruct (get d i) as [n|]; [|done]. simpl. by destruct (n_parent n). }
  destruct Hr as [Hr1 Hr2]. split; [|by rewrite Hr1].
  eapply nm_ext; [|exact Hr1|exact Hr2|exact K]. intros j.
  assert (Hj : id_of (remove i d) j = id_of d j).
  { destruct (decide (j = i)) as [->|Hne].
    - rewrite Hi. unfold id_of, attribute. rewrite element_data, data_remove, bool_decide_true by done. done.
    - apply attribute_data. by rewrite data_remove, bool_decide_false. }
  rewrite Hj. symmetry. apply attribute_data. unfold drop_child. destruct (parent d i); [|done]. destruct (get d n); [|done].
  rewrite data_on. by apply data_edit_links.
Qed.
Lemma nm_register_name d d' i v : nm d -> (forall j, id_of d' j = if bool_decide (j = i) then Some v else id_of d j) ->
  id_of d i = None \/ id_of d i = Some v ->
  named d' = named (register_name v i d) -> named_by d' = named_by (register_name v i d) ->
  nm d' /\ (forall s n, named d !! s = Some n -> named d' !! s = Some n).
Proof.
  intros N Hid Hi E1 E2. destruct (register_name_cases v i d) as [[E Hv]|(Hv&Hn&E)]; rewrite E in *.
  - split; [|by rewrite E1]. destruct N as [H1 H2 H3]. split.
    + intros s n. rewrite E1, Hid. intros Hs. case_bool_decide; subst; [|by eauto]. apply H1 in Hs. destruct Hi; congruence.
    + intros n s. rewrite E1, Hid. case_bool_decide; [|by eauto]. intros [= <-] Hvs. destruct Hv as [?|?]; [congruence|done].
    + rewrite E1, E2. eauto.
  - simpl in E1, E2. split.
    + destruct N as [H1 H2 H3]. split.
      * intros s n. rewrite E1, Hid, lookup_insert_Some. intros [[-> ->]|[Hne Hs]]; [by rewrite bool_decide_true|].
        case_bool_decide; subst; [|by eauto]. apply H1 in Hs. destruct Hi; congruence.
      * intros n s. rewrite E1, Hid. intros Hs Hval. rewrite lookup_insert_is_Some. destruct (decide (v = s)); [by left|right].
        split; [done|]. case_bool_decide; [congruence|]. eauto.
      * intros j ids s. rewrite E1, E2. rewrite lookup_insert_Some. intros [[-> <-]|[Hne Hj]].
        -- intros [Hs| ->%elem_of_list_singleton]%elem_of_app; [|by rewrite lookup_insert].
           destruct (named_by d !! j) as [ids|] eqn:Ej; [|by apply elem_of_nil in Hs]. simpl in Hs.
           assert (Hj := H3 _ _ _ Ej Hs). rewrite lookup_insert_ne; [done|]. intros ->. congruence.
        -- intros Hs. assert (Hj' := H3 _ _ _ Hj Hs). rewrite lookup_insert_ne; [done|]. intros ->. congruence.
    + intros s n Hs. rewrite E1. rewrite lookup_insert_ne; [done|]. intros ->. congruence.
Qed.
Lemma nm_register dt d : good d -> nm d -> nm (register dt d).1 /\ (forall s n, named d !! s = Some n -> named (register dt d).1 !! s = Some n).
Proof.
  intros G N. set (i := next_id (ar d)).
  assert (Hfresh : id_of d i = None). { unfold id_of, attribute, i. by rewrite get_fresh. }
  assert (Hid : forall j, id_of (register dt d).1 j = if bool_decide (j = i) then match dt with DElement e => e_attrs e !! txt "id" | _ => None end else id_of d j).
  { intros j. unfold id_of, attribute. rewrite !element_data, data_register by done. fold i. case_bool_decide; [by destruct dt|done]. }
  set (d1 := set_ar (mk_arena (slots (ar d)) (S i) (count (ar d))) d).
  assert (Hsame : forall d', named d' = named d -> named_by d' = named_by d -> (forall j, id_of d' j = id_of d j) -> nm d' /\ (forall s n, named d !! s = Some n -> named d' !! s = Some n)).
  { intros d' E1 E2 Hj. split; [by apply (nm_ext d)|by rewrite E1]. }
  destruct dt as [| | | |e]; try (apply Hsame; [done|done|]; intros j; rewrite Hid; case_bool_decide; subst; done).
  destruct (e_attrs e !! txt "id") as [v|] eqn:Ev.
  - apply (nm_register_name d _ i v); [done|by setoid_rewrite Hid|by left| |].
    + unfold register. simpl. fold i. fold d1. unfold on_mutation_elem. rewrite Ev.
      unfold register_name. destruct (valid_id v); [|done]. simpl. by destruct (named d !! v).
    + unfold register. simpl. fold i. fold d1. unfold on_mutation_elem. rewrite Ev.
      unfold register_name. destruct (valid_id v); [|done]. simpl. by destruct (named d !! v).
  - assert (N1 : nm d1). { apply (nm_ext d); done. }
    destruct (nm_unregister d1 i N1 Hfresh) as [N2 E2].
    split.
    + eapply (nm_ext (unregister_names i d1)); [| | |exact N2].
      * intros j. rewrite Hid. assert (H : id_of (unregister_names i d1) j = id_of d j).
        { unfold id_of, attribute. rewrite (get_ar (unregister_names i d1) d1); [done|]. apply ar_unregister. }
        rewrite H. case_bool_decide; subst; done.
      * unfold register. simpl. fold i. fold d1. unfold on_mutation_elem. by rewrite Ev.
      * unfold register. simpl. fold i. fold d1. unfold on_mutation_elem. by rewrite Ev.
    + intros s n Hs. unfold register. simpl. fold i. fold d1. unfold on_mutation_elem. rewrite Ev. by rewrite E2.
Qed.
Lemma nm_data_same d d' : (forall j, id_of d' j = id_of d j) -> named d' = named d -> named_by d' = named_by d -> nm d ->
  nm d' /\ (forall s n, named d !! s = Some n -> named d' !! s = Some n).
Proof. intros H E1 E2 N. split; [by apply (nm_ext d)|by rewrite E1]. Qed.
Lemma id_map_elem d i f j : (forall e, e_attrs (f e) !! txt "id" = e_attrs e !! txt "id") -> id_of (edit d i (map_elem f)) j = id_of d j.
Proof.
  intros H. unfold id_of, attribute. rewrite get_edit. case_bool_decide; subst; [|done].
  destruct (get d i) as [[? ? []]|]; simpl; try done.
Qed.
Lemma nm_apply o d d' : good d -> acyclic d -> nm d -> steady d o -> apply o d = Ok d' ->
  nm d' /\ (forall s n, named d !! s = Some n -> named d' !! s = Some n).
Proof.
  intros G A N S E.
  assert (Kn : forall dt, Ok (register dt d).1 = Ok d' -> nm d' /\ (forall s n, named d !! s = Some n -> named d' !! s = Some n)).
  { intros dt H. apply Ok_inj in H as <-. by apply nm_register. }
  assert (Ka : forall d0 i p pos, nm d0 -> acyclic d0 -> named d0 = named d -> attach i p pos d0 = Ok d' -> nm d' /\ (forall s n, named d !! s = Some n -> named d' !! s = Some n)).
  { intros d0 i p pos N0 A0 E0 H. destruct (attach_cases i p pos d0 A0) as [[E' _]|(E'&_)]; rewrite E' in H; apply Ok_inj in H as <-.
    - split; [done|by rewrite E0].
    - destruct (nm_attached d0 i p pos N0) as [? E1]. split; [done|]. by rewrite E1, E0. }
  assert (Ke : forall d1, nm d1 /\ named d1 = named d -> nm d1 /\ (forall s n, named d !! s = Some n -> named d1 !! s = Some n)).
  { intros d1 [? E1]. split; [done|]. by rewrite E1. }
  destruct o; cbn [apply steady] in *; try (by eapply Kn).
  - unfold clone_node in E. destruct (get d i); [by eapply Kn|]. simpl in E. by simplify_eq.
  - by eapply Ka.
  - simplify_eq. apply Ke. by apply nm_detach.
  - simplify_eq. apply Ke. by apply nm_remove.
  - destruct (nm_detach d i N) as [N1 E1]. eapply (Ka (detach i d)); try done. by apply acyclic_detach.
  - unfold relocate_unless_there in E. destruct (get d i) as [n|]; [|by simplify_eq]. case_bool_decide; [by simplify_eq|].
    destruct (nm_detach d i N) as [N1 E1]. eapply (Ka (detach i d)); try done. by apply acyclic_detach.
  - apply Ok_inj in E as <-. unfold set_attribute. destruct (get d i ≫= element_of) as [e|] eqn:Ee; [|done].
    case_bool_decide as Hk.
    + set (d1 := edit d i (map_elem (add_attribute k v))).
      apply (nm_register_name d _ i v); [done| |rewrite Hk in S; by apply S| |].
      * intros j. assert (H : id_of (register_name v i d1) j = id_of d1 j).
        { unfold id_of, attribute. rewrite (get_ar (register_name v i d1) d1); [done|]. apply ar_register_name. }
        rewrite H. unfold d1, id_of, attribute. rewrite get_edit. case_bool_decide; subst; [|done].
        destruct (get d i) as [[? ? []]|]; simpl in *; try done. by rewrite lookup_insert.
      * unfold register_name. destruct (valid_id v); [|done]. simpl. by destruct (named d !! v).
      * unfold register_name. destruct (valid_id v); [|done]. simpl. by destruct (named d !! v).
    + apply nm_data_same; try done. intros j. apply id_map_elem. intros e'. simpl. by rewrite lookup_insert_ne.
  - simplify_eq. apply nm_data_same; try done. intros j. apply id_map_elem. intros e'. simpl. by rewrite lookup_delete_ne.
  - simplify_eq. apply nm_data_same; try done. intros j. by apply id_map_elem.
  - simplify_eq. apply nm_data_same; try done. intros j. by apply id_map_elem.
  - simplify_eq. apply nm_data_same; try done. intros j. unfold id_of, attribute. unfold set_text. rewrite get_edit.
    case_bool_decide; subst; [|done]. by destruct (get d i) as [[? ? []]|].
  - simplify_eq. apply nm_data_same; try done. intros j. unfold id_of, attribute. unfold append_text. rewrite get_edit.
    case_bool_decide; subst; [|done]. by destruct (get d i) as [[? ? []]|].
  - simplify_eq. by apply nm_data_same.
Qed.
Lemma nm_new : nm new_doc.
Proof.
  split.
  - intros s n. cbn [named new_doc]. by rewrite lookup_empty.
  - intros n s. unfold id_of, attribute. by destruct n.
  - intros i ids s. cbn [named_by new_doc]. by rewrite lookup_empty.
Qed.
Lemma nm_history d ops d' : history steady d ops d' -> good d -> acyclic d -> nm d -> nm d' /\ (forall s n, named d !! s = Some n -> named d' !! s = Some n).
Proof.
  induction 1 as [|d o d1 r d2 S E _ IH]; [done|]. intros G A N. destruct (apply_ok o d G A) as (?&E'&?&?). rewrite E in E'. simplify_eq.
  destruct (nm_apply o d _ G A N S E) as [N1 M]. destruct IH as [N2 M2]; try done. split; [done|]. eauto.
Qed.

(** an operation gives an id attribute to at most one node *)
Lemma one_id o d d' : good d -> acyclic d -> apply o d = Ok d' -> exists i, forall j s, id_of d' j = Some s -> j = i \/ id_of d j = Some s.
Proof.
  intros G A E.
  assert (Ks : (forall j, data_of d' j = data_of d j) -> exists i, forall j s, id_of d' j = Some s -> j = i \/ id_of d j = Some s).
  { intros H. exists 0. intros j s Hj. right. unfold id_of in *. by rewrite <- (attribute_data d d'). }
  assert (Kn : forall dt, Ok (register dt d).1 = Ok d' -> exists i, forall j s, id_of d' j = Some s -> j = i \/ id_of d j = Some s).
  { intros dt H. apply Ok_inj in H as <-. exists (next_id (ar d)). intros j s Hj. destruct (decide (j = next_id (ar d))); [by left|right].
    unfold id_of in *. rewrite <- Hj. symmetry. apply attribute_data. by rewrite data_register, bool_decide_false. }
  assert (Ka : forall d0 i p pos, acyclic d0 -> (forall j, data_of d0 j = data_of d j) -> attach i p pos d0 = Ok d' -> forall j, data_of d' j = data_of d j).
  { intros d0 i p pos A0 E0 H j. destruct (attach_cases i p pos d0 A0) as [[E' _]|(E'&Hpi&_)]; rewrite E' in H; apply Ok_inj in H as <-; [done|].
    by rewrite data_attached. }
  assert (Ke : forall i f, (forall j, j <> i -> get (f d) j = get d j) -> d' = f d -> exists i, forall j s, id_of d' j = Some s -> j = i \/ id_of d j = Some s).
  { intros i f H ->. exists i. intros j s Hj. destruct (decide (j = i)); [by left|right]. unfold id_of, attribute in *. by rewrite H in Hj. }
  destruct o; cbn [apply] in *; try (by eapply Kn).
  - unfold clone_node in E. destruct (get d i); [by eapply Kn|]. simpl in E. simplify_eq. by apply Ks.
  - apply Ks. by eapply Ka.
  - simplify_eq. apply Ks. intros. apply data_detach.
  - simplify_eq. exists 0. intros j s Hj. right. unfold id_of, attribute in *. rewrite element_data in *. rewrite data_remove in Hj. by case_bool_decide.
  - apply Ks. eapply (Ka (detach i d)); [by apply acyclic_detach|intros; apply data_detach|done].
  - unfold relocate_unless_there in E. destruct (get d i) as [n|]; [|simplify_eq; by apply Ks]. case_bool_decide; [simplify_eq; by apply Ks|].
    apply Ks. eapply (Ka (detach i d)); [by apply acyclic_detach|intros; apply data_detach|done].
  - simplify_eq. apply (Ke i (set_attribute i k v)); [|done]. intros j Hj. unfold set_attribute.
    destruct (get d i ≫= element_of); [|done].
    assert (H : get (edit d i (map_elem (add_attribute k v))) j = get d j) by (by rewrite get_edit, bool_decide_false).
    case_bool_decide; [|done]. rewrite (get_ar _ _ (ar_register_name _ _ _)). done.
  - simplify_eq. apply (Ke i (remove_attribute i k)); [|done]. intros j Hj. unfold remove_attribute. by rewrite get_edit, bool_decide_false.
  - simplify_eq. apply (Ke i (add_class i c)); [|done]. intros j Hj. unfold add_class. by rewrite get_edit, bool_decide_false.
  - simplify_eq. apply (Ke i (set_template i t)); [|done]. intros j Hj. unfold set_template. by rewrite get_edit, bool_decide_false.
  - simplify_eq. apply (Ke i (set_text i s)); [|done]. intros j Hj. unfold set_text. by rewrite get_edit, bool_decide_false.
  - simplify_eq. apply (Ke i (append_text i s)); [|done]. intros j Hj. unfold append_text. by rewrite get_edit, bool_decide_false.
  - simplify_eq. by apply Ks.
Qed.
Lemma first_wins d o d1 ops d2 s n : good d -> acyclic d -> nm d -> steady d o -> apply o d = Ok d1 -> history steady d1 ops d2 ->
  (forall m, id_of d m <> Some s) -> id_of d1 n = Some s -> valid_id s = true -> named d2 !! s = Some n.
Proof.
  intros G A N S E H Hno Hn Hv. destruct (apply_ok o d G A) as (?&E'&G1&A1). rewrite E in E'. simplify_eq.
  destruct (nm_apply o d _ G A N S E) as [N1 _]. destruct (nm_history _ _ _ H G1 A1 N1) as [_ M]. apply M.
  destruct (nm_found _ N1 _ _ Hn Hv) as [m Hm]. pose proof (nm_named _ N1 _ _ Hm) as Hm'.
  destruct (one_id o d _ G A E) as [i Hi]. destruct (Hi _ _ Hn) as [->|?]; [|by exfalso; eapply Hno].
  destruct (Hi _ _ Hm') as [->|?]; [done|by exfalso; eapply Hno].
Qed.

(** whatever happens, a name leads to a node that had it at some time *)
Lemma named_unregister d i s n : named (unregister_names i d) !! s = Some n -> named d !! s = Some n.
Proof.
  unfold unregister_names. destruct (named_by d !! i) as [ids|]; [|done]. simpl. generalize (named d). induction ids as [|x r IH]; intros m; [done|].
  simpl. intros H%IH. by apply lookup_delete_Some in H as [_ ?].
Qed.
Lemma named_register_name d i v s n : named (register_name v i d) !! s = Some n -> named d !! s = Some n \/ (n = i /\ s = v).
Proof.
  destruct (register_name_cases v i d) as [[-> _]|(_&_&->)]; [by left|]. simpl. rewrite lookup_insert_Some. intros [[-> ->]|[_ ?]]; eauto.
Qed.
Lemma named_on d i s n : named (on_mutation i d) !! s = Some n -> named d !! s = Some n \/ id_of d n = Some s.
Proof.
  unfold on_mutation. destruct (get d i ≫= element_of) as [e|] eqn:E; [|by left]. unfold on_mutation_elem.
  destruct (e_attrs e !! txt "id") as [v|] eqn:Ev.
  - intros [?|[-> ->]]%named_register_name; [by left|]. right. rewrite id_of_get, E. done.
  - intros ?%named_unregister. by left.
Qed.
Lemma named_on_edit d i f s n : (forall n, n_data (f n) = n_data n) -> named (on_mutation i (edit d i f)) !! s = Some n -> named d !! s = Some n \/ id_of d n = Some s.
Proof.
  intros H [?|Hn]%named_on; [by left|]. right. unfold id_of in *. rewrite (attribute_data d) in Hn; [done|]. by apply data_edit_links.
Qed.
Lemma named_drop_child d i p s n : named (drop_child i p d) !! s = Some n -> named d !! s = Some n \/ id_of d n = Some s.
Proof. unfold drop_child. destruct (get d p); [|by left]. by apply named_on_edit. Qed.
Lemma id_drop_child d i p n : id_of (drop_child i p d) n = id_of d n.
Proof. apply attribute_data. unfold drop_child. destruct (get d p); [|done]. rewrite data_on. by apply data_edit_links. Qed.
Lemma named_detach d i s n : named (detach i d) !! s = Some n -> named d !! s = Some n \/ id_of d n = Some s.
Proof.
  unfold detach. destruct (get d i) as [m|]; [|by left]. destruct (n_parent m) as [p|]; [|by left]. cbv zeta.
  destruct (get _ i); [|apply named_drop_child]. intros [H|H]%named_on_edit; [|by rewrite id_drop_child in H; right|done]. by apply named_drop_child in H.
Qed.
Lemma named_attached d i p pos s n : named (attached i p pos d) !! s = Some n -> named d !! s = Some n \/ id_of d n = Some s.
Proof.
  unfold attached. set (d1 := match get d p with Some n => _ | None => d end).
  assert (H1 : named d1 !! s = Some n -> named d !! s = Some n \/ id_of d n = Some s).
  { unfold d1. destruct (get d p); [|by left]. by apply named_on_edit. }
  assert (H2 : forall n, id_of d1 n = id_of d n).
  { intros j. apply attribute_data. unfold d1. destruct (get d p); [|done]. rewrite data_on. by apply data_edit_links. }
  clearbody d1. cbv zeta. destruct (get d1 i); [|done]. intros [H|H]%named_on_edit; [by apply H1| |done]. right. by rewrite <- H2.
Qed.
Lemma named_register dt d s n : good d -> named (register dt d).1 !! s = Some n -> named d !! s = Some n \/ id_of (register dt d).1 n = Some s.
Proof.
  intros G. destruct dt as [| | | |e]; try (by left).
  assert (Hid : id_of (register (DElement e) d).1 (next_id (ar d)) = e_attrs e !! txt "id").
  { unfold id_of, attribute. by rewrite element_data, data_register, bool_decide_true. }
  remember (id_of (register (DElement e) d).1) as F eqn:HF. unfold register. simpl. unfold on_mutation_elem.
  destruct (e_attrs e !! txt "id") as [v|].
  - intros [?|[-> ->]]%named_register_name; [by left|]. by right.
  - intros ?%named_unregister. by left.
Qed.
Lemma named_apply o d d' s n : good d -> acyclic d -> apply o d = Ok d' -> named d' !! s = Some n ->
  named d !! s = Some n \/ id_of d n = Some s \/ id_of d' n = Some s.
Proof.
  intros G A E Hs.
  assert (Ka : forall d0 i p pos, acyclic d0 -> attach i p pos d0 = Ok d' -> named d0 !! s = Some n \/ id_of d0 n = Some s).
  { intros d0 i p pos A0 H. destruct (attach_cases i p pos d0 A0) as [[E' _]|(E'&_)]; rewrite E' in H; apply Ok_inj in H as <-; [by left|].
    by apply named_attached in Hs. }
  assert (Kn : forall dt, Ok (register dt d).1 = Ok d' -> named d !! s = Some n \/ id_of d n = Some s \/ id_of d' n = Some s).
  { intros dt H. apply Ok_inj in H as <-. apply named_register in Hs as [?|?]; eauto. }
  assert (Kr : forall i p, attach i p None (detach i d) = Ok d' -> named d !! s = Some n \/ id_of d n = Some s \/ id_of d' n = Some s).
  { intros i p H. destruct (Ka (detach i d) i p None (acyclic_detach i d A) H) as [H'|H'].
    - apply named_detach in H' as [?|?]; eauto.
    - right. left. unfold id_of in *. rewrite (attribute_data d) in H'; [done|]. apply data_detach. }
  destruct o; cbn [apply] in *; try (by eapply Kn); try (simplify_eq; by left).
  - unfold clone_node in E. destruct (get d i); [by eapply Kn|]. simpl in E. simplify_eq. by left.
  - destruct (Ka d i p pos A E); eauto.
  - simplify_eq. apply named_detach in Hs as [?|?]; eauto.
  - apply Ok_inj in E as <-.
    assert (Hr : named (remove i d) = named (match parent d i with Some p => drop_child i p d | None => d end)).
    { unfold remove, parent. destruct (get d i) as [m|]; [|done]. simpl. by destruct (n_parent m). }
    rewrite Hr in Hs. destruct (parent d i); [|by left]. apply named_drop_child in Hs as [?|?]; eauto.
  - by eapply Kr.
  - unfold relocate_unless_there in E. destruct (get d i) as [m|]; [|simplify_eq; by left]. case_bool_decide; [simplify_eq; by left|]. by eapply Kr.
  - apply Ok_inj in E as <-. unfold set_attribute in *. destruct (get d i ≫= element_of) as [e|] eqn:Ee; [|by left].
    case_bool_decide as Hk; [|by left]. apply named_register_name in Hs as [?|[-> ->]]; [by left|]. right. right.
    unfold id_of, attribute. rewrite (get_ar _ _ (ar_register_name _ _ _)), get_edit, bool_decide_true by done.
    rewrite Hk. destruct (get d i) as [[? ? []]|]; simpl in Ee; try done. simpl. by rewrite lookup_insert.
Qed.
Lemma named_history P d ops d' s n : history P d ops d' -> good d -> acyclic d -> named d' !! s = Some n ->
  named d !! s = Some n \/ exists l r dm, ops = l ++ r /\ run l d = Ok dm /\ id_of dm n = Some s.
Proof.
  induction 1 as [|d o d1 r d2 _ E H IH]; [by left|]. intros G A Hs. destruct (apply_ok o d G A) as (?&E'&G1&A1). rewrite E in E'. simplify_eq.
  destruct (IH G1 A1 Hs) as [Hs1|(l&r'&dm&->&Hr&Hd)].
  - destruct (named_apply o d _ s n G A E Hs1) as [?|[?|?]]; [by left|right; exists [], (o :: r), d; by split_and!|].
    right. exists [o], r, x. split_and!; try done. simpl. by rewrite E.
  - right. exists (o :: l), r', dm. split_and!; try done. simpl. by rewrite E.
Qed.

(** * Classes *)
Definition cls_elem (e : elem) : Prop :=
  forall c, class_is_active c (e_classes e) = true <-> exists v, e_attrs e !! txt "class" = Some v /\ is_word c v.
Definition cls (d : doc) : Prop := forall j e, (get d j ≫= element_of) = Some e -> cls_elem e.
Lemma classes_fold l : forall (m : class_list) c, (forall x b, m !! x = Some b -> b = true) ->
  fold_left (fun m c => <[c := true]> m) l m !! c = Some true <-> c ∈ l \/ m !! c = Some true.
Proof.
  induction l as [|x l IH]; intros m c H; simpl.
  - rewrite elem_of_nil. tauto.
  - rewrite IH.
    + rewrite elem_of_cons. destruct (decide (c = x)) as [->|]; [rewrite lookup_insert|rewrite lookup_insert_ne by done]; tauto.
    + intros y b. rewrite lookup_insert_Some. intros [[_ <-]|[_ ?]]; [done|by eauto].
Qed.
Lemma classes_add_fold l : forall (m : class_list) c, (forall x b, m !! x = Some b -> b = true) ->
  fold_left (fun m c => class_add c m) l m !! c = Some true <-> c ∈ l \/ m !! c = Some true.
Proof.
  induction l as [|x l IH]; intros m c H; simpl.
  - rewrite elem_of_nil. tauto.
  - unfold class_add at 2. destruct (m !! x) as [b|] eqn:E.
    + rewrite IH by done. rewrite elem_of_cons. pose proof (H _ _ E). subst. destruct (decide (c = x)) as [->|]; tauto.
    + rewrite IH.
      * rewrite elem_of_cons. destruct (decide (c = x)) as [->|]; [rewrite lookup_insert|rewrite lookup_insert_ne by done]; tauto.
      * intros y b. rewrite lookup_insert_Some. intros [[_ <-]|[_ ?]]; [done|by eauto].
Qed.
Lemma active_lookup c m : class_is_active c m = true <-> m !! c = Some true.
Proof. unfold class_is_active. destruct (m !! c) as [[]|]; naive_solver. Qed.
Lemma classes_of_words v c : class_is_active c (classes_of v) = true <-> is_word c v.
Proof.
  rewrite active_lookup. unfold classes_of. rewrite classes_fold by done. rewrite split_whitespace_words, lookup_empty. naive_solver.
Qed.
Lemma classes_added_words v c : class_is_active c (fold_left (fun m c => class_add c m) (split_whitespace v) ∅) = true <-> is_word c v.
Proof.
  rewrite active_lookup. rewrite classes_add_fold by done. rewrite split_whitespace_words, lookup_empty. naive_solver.
Qed.
Lemma cls_data d d' : (forall j e, (get d' j ≫= element_of) = Some e -> cls_elem e \/ exists j', (get d j' ≫= element_of) = Some e) -> cls d -> cls d'.
Proof. intros H C j e Hj. destruct (H j e Hj) as [?|[j' Hj']]; [done|by eapply C]. Qed.
Lemma cls_apply o d d' : good d -> acyclic d -> cls d -> class_set_only d o -> apply o d = Ok d' -> cls d'.
Proof.
  intros G A C S E.
  assert (Ks : (forall j, data_of d' j = data_of d j) -> cls d').
  { intros H. apply (cls_data d); [|done]. intros j e. rewrite element_data, H, <- element_data. eauto. }
  assert (Kn : forall dt, (forall e, dt = DElement e -> cls_elem e) -> Ok (register dt d).1 = Ok d' -> cls d').
  { intros dt Hdt H. apply Ok_inj in H as <-. apply (cls_data d); [|done]. intros j e. rewrite element_data, data_register by done.
    case_bool_decide; subst; simpl; [destruct dt; try done; intros [= ->]; left; by apply Hdt|]. rewrite <- element_data. eauto. }
  assert (Ka : forall d0 i p pos, acyclic d0 -> (forall j, data_of d0 j = data_of d j) -> attach i p pos d0 = Ok d' -> cls d').
  { intros d0 i p pos A0 E0 H. apply Ks. intros j. destruct (attach_cases i p pos d0 A0) as [[E' _]|(E'&Hpi&_)]; rewrite E' in H; apply Ok_inj in H as <-; [done|].
    by rewrite data_attached. }
  assert (Km : forall i f, (forall e, cls_elem e -> cls_elem (f e)) -> (forall j, data_of d' j = data_of (edit d i (map_elem f)) j) -> cls d').
  { intros i f Hf Hd j e. rewrite element_data, Hd, <- element_data, get_edit. case_bool_decide; subst; [|apply C].
    destruct (get d i) as [[p c dt]|] eqn:Eg; simpl; [|done]. unfold map_elem. simpl. destruct dt as [| | | |e']; simpl; try done. intros [= <-].
    apply Hf. apply (C i). by rewrite Eg. }
  destruct o; cbn [apply class_set_only] in *; try done; try (eapply Kn; [|exact E]; naive_solver).
  - eapply Kn; [|exact E]. intros e [= <-] c. simpl. destruct (attrs !! txt "class") as [v|] eqn:Ev.
    + rewrite classes_of_words. naive_solver.
    + rewrite active_lookup, lookup_empty. naive_solver.
  - unfold clone_node in E. destruct (get d i) as [[p c dt]|] eqn:Eg; [|simpl in E; simplify_eq; by apply Ks].
    eapply Kn; [|exact E]. intros e He. simpl in He. apply (C i). rewrite Eg. simpl. unfold element_of. simpl. by rewrite He.
  - by eapply Ka.
  - simplify_eq. apply Ks. intros. apply data_detach.
  - simplify_eq. apply (cls_data d); [|done]. intros j e. rewrite element_data, data_remove. case_bool_decide; [done|]. rewrite <- element_data. eauto.
  - eapply (Ka (detach i d)); [by apply acyclic_detach|intros; apply data_detach|done].
  - unfold relocate_unless_there in E. destruct (get d i) as [n|]; [|simplify_eq; by apply Ks]. case_bool_decide; [simplify_eq; by apply Ks|].
    eapply (Ka (detach i d)); [by apply acyclic_detach|intros; apply data_detach|done].
  - apply Ok_inj in E as <-. unfold set_attribute in *. destruct (get d i ≫= element_of) as [e|] eqn:Ee; [|done].
    apply (Km i (add_attribute k v)).
    + intros e' H c. simpl. destruct (bool_decide_reflect (k = txt "class")) as [->|Hk].
      * rewrite lookup_insert, classes_added_words. naive_solver.
      * rewrite lookup_insert_ne by done. apply H.
    + intros j. case_bool_decide; [|done]. unfold data_of. by rewrite (get_ar _ _ (ar_register_name _ _ _)).
  - simplify_eq. apply (Km i (drop_attribute k)); [|done]. intros e H c. simpl. rewrite bool_decide_false by done. rewrite lookup_delete_ne by done. apply H.
  - simplify_eq. apply (Km i (elem_set_template t)); done.
  - simplify_eq. apply (cls_data d); [|done]. intros j e. unfold set_text. rewrite get_edit. case_bool_decide; subst; [|by eauto].
    destruct (get d i) as [[? ? []]|] eqn:Eg; simpl; try done. intros ?. right. exists i. by rewrite Eg.
  - simplify_eq. apply (cls_data d); [|done]. intros j e. unfold append_text. rewrite get_edit. case_bool_decide; subst; [|by eauto].
    destruct (get d i) as [[? ? []]|] eqn:Eg; simpl; try done. intros ?. right. exists i. by rewrite Eg.
  - simplify_eq. by apply Ks.
Qed.
Lemma cls_new : cls new_doc.
Proof. intros [|j] e; done. Qed.
Lemma cls_history d ops d' : history class_set_only d ops d' -> good d -> acyclic d -> cls d -> cls d'.
Proof.
  induction 1 as [|d o d1 r d2 S E _ IH]; [done|]. intros G A C. destruct (apply_ok o d G A) as (?&E'&?&?). rewrite E in E'. simplify_eq.
  apply IH; try done. by eapply (cls_apply o d).
Qed.
Lemma cls_has d i c : cls d -> has_class d i c = true <-> exists v, attribute d i (txt "class") = Some v /\ is_word c v.
Proof.
  intros C. unfold has_class, attribute. specialize (C i). destruct (get d i ≫= element_of) as [e|]; [|naive_solver].
  apply (C e eq_refl c).
Qed.

(** * The task queue *)
Definition creates (t : task) : bool := match t with TAttribute _ _ _ => false | _ => true end.
Fixpoint number (n : nat) (ts : list task) : list (task * nat) :=
  match ts with [] => [] | t :: r => if creates t then (t, n) :: number (S n) r else number n r end.
Fixpoint ncreates (ts : list task) : nat := match ts with [] => 0 | t :: r => (if creates t then 1 else 0) + ncreates r end.
Lemma number_app n ts ts' : number n (ts ++ ts') = number n ts ++ number (n + ncreates ts) ts'.
Proof.
  revert n. induction ts as [|t r IH]; intros n; simpl; [by rewrite Nat.add_0_r|].
  rewrite !IH. destruct (creates t); simpl; [|done]. by rewrite Nat.add_succ_r.
Qed.
Lemma ncreates_app ts ts' : ncreates (ts ++ ts') = ncreates ts + ncreates ts'.
Proof. induction ts; simpl; lia. Qed.
Definition task_data (t : task) : data :=
  match t with
  | TElement name ns _ _ => DElement (new_elem name (Some ns) ∅ ∅)
  | TText s _ => DText s | TComment s _ => DComment s | TAttribute _ _ _ => DDocument
  end.
Definition task_parent (t : task) : nat := match t with TElement _ _ p _ | TText _ p | TComment _ p => p | TAttribute _ _ _ => 0 end.
Definition task_pos (t : task) : option nat := match t with TElement _ _ _ pos => pos | _ => None end.
Lemma run_task_create t d : creates t = true -> run_task t d =
  let* d2 := attach (next_id (ar d)) (task_parent t) (task_pos t) (register (task_data t) d).1 in Ok (d2, []).
Proof. by destruct t. Qed.
Definition made_in (d : doc) (t : task) (i : nat) : Prop := exists n, get d i = Some n /\ made t n.
Lemma made_data d d' t i : data_of d' i = data_of d i -> made_in d t i -> made_in d' t i.
Proof.
  intros E (n&Hn&M). unfold data_of in E. rewrite Hn in E. destruct (get d' i) as [n'|] eqn:E'; [|done]. exists n'. split; [done|].
  simpl in E. simplify_eq. unfold made in *. rewrite E. done.
Qed.
Lemma made_set_attribute d i k v t j : made_in d t j -> made_in (set_attribute i k v d) t j.
Proof.
  intros (n&Hn&M). unfold set_attribute. destruct (get d i ≫= element_of) as [e|] eqn:Ee; [|by exists n].
  assert (K : made_in (edit d i (map_elem (add_attribute k v))) t j).
  { unfold made_in. rewrite get_edit. case_bool_decide; subst; [|by eauto]. rewrite Hn. eexists. split; [done|].
    unfold map_elem. destruct n as [p c []]; simpl in *; done. }
  case_bool_decide; [|done]. destruct K as (m&Hm&?). exists m. by rewrite (get_ar _ _ (ar_register_name _ _ _)).
Qed.
Lemma run_task_ok t d : good d -> acyclic d -> exists d' errs, run_task t d = Ok (d', errs) /\ good d' /\ acyclic d' /\
  next_id (ar d') = next_id (ar d) + (if creates t then 1 else 0) /\
  (creates t = true -> made_in d' t (next_id (ar d))) /\ (forall t' i, made_in d t' i -> made_in d' t' i).
Proof.
  intros G A. destruct (creates t) eqn:Ec.
  - rewrite run_task_create by done. set (dt := task_data t). set (d1 := (register dt d).1).
    assert (G1 : good d1) by (by apply good_register).
    assert (A1 : acyclic d1). { eapply acyclic_sub; [|exact A]. intros x y. by apply child_register. }
    assert (Hd1 : forall j, data_of d1 j = if bool_decide (j = next_id (ar d)) then Some dt else data_of d j) by (intros; by apply data_register).
    assert (Hm1 : made_in d1 t (next_id (ar d))).
    { exists (fresh_node dt). unfold d1. rewrite get_register, bool_decide_true by done. split; [done|]. unfold dt. by destruct t. }
    assert (Hk1 : forall t' i, made_in d t' i -> made_in d1 t' i).
    { intros t' i Hi. eapply made_data; [|done]. rewrite Hd1, bool_decide_false; [done|]. intros ->. destruct Hi as (n&Hn&_). by rewrite get_fresh in Hn. }
    destruct (attach_cases (next_id (ar d)) (task_parent t) (task_pos t) d1 A1) as [[E _]|(E&Hpi&_)]; rewrite E; simpl.
    + eexists _, _. split; [done|]. split_and!; try done. unfold d1. rewrite next_register by done. lia.
    + eexists _, _. split; [done|]. split_and!.
      * by apply good_attached.
      * destruct (acyclic_attach (next_id (ar d)) (task_parent t) (task_pos t) d1 A1) as (d'&E'&A'). rewrite E in E'. by apply Ok_inj in E' as <-.
      * rewrite next_attached. unfold d1. rewrite next_register by done. lia.
      * intros _. eapply made_data; [|exact Hm1]. by apply data_attached.
      * intros t' i Hi. eapply made_data; [|apply Hk1, Hi]. by apply data_attached.
  - destruct t as [| | |k v i]; try done. simpl.
    assert (K : forall errs : list task_error, exists (d' : doc) (errs' : list task_error), Ok (d, errs) = Ok (d', errs') /\ good d' /\ acyclic d' /\ next_id (ar d') = next_id (ar d) + 0 /\
       (false = true -> made_in d' (TAttribute k v i) (next_id (ar d))) /\ (forall t' i, made_in d t' i -> made_in d' t' i)).
    { intros errs. exists d, errs. split_and!; try done; lia. }
    repeat case_match; try apply K.
    all: eexists _, _; split; [done|]; split_and!; try done.
    all: try by apply good_set_attribute.
    all: try by eapply acyclic_links; [apply same_links_set_attribute|].
    all: try by intros; apply made_set_attribute.
    all: unfold set_attribute; repeat case_match; rewrite ?ar_register_name, ?next_edit; lia.
Qed.
Lemma run_tasks_ok ts : forall d, good d -> acyclic d -> exists d' errs, run_tasks ts d = Ok (d', errs) /\ good d' /\ acyclic d' /\
  next_id (ar d') = next_id (ar d) + ncreates ts /\
  (forall t i, (t, i) ∈ number (next_id (ar d)) ts -> made_in d' t i) /\ (forall t i, made_in d t i -> made_in d' t i).
Proof.
  induction ts as [|t r IH]; intros d G A; simpl.
  - exists d, []. split_and!; try done; try lia; intros t i Hi; by apply elem_of_nil in Hi.
  - destruct (run_task_ok t d G A) as (d1&e1&E1&G1&A1&N1&M1&K1). destruct (IH d1 G1 A1) as (d2&e2&E2&G2&A2&N2&M2&K2).
    rewrite E1. simpl. rewrite E2. simpl. eexists _, _. split; [done|]. split_and!; try done.
    + lia.
    + intros t' i. destruct (creates t).
      * intros [[= -> ->]|Hi]%elem_of_cons; [by apply K2, M1|]. apply M2. by replace (next_id (ar d1)) with (S (next_id (ar d))) by lia.
      * intros Hi. apply M2. by replace (next_id (ar d1)) with (next_id (ar d)) by lia.
    + eauto.
Qed.
Lemma queue_promises s qs s' l : queue_history s qs s' l -> good s.2 -> acyclic s.2 -> q_next s.1 = next_id (ar s.2) + ncreates (q_tasks s.1) ->
  good s'.2 /\ acyclic s'.2 /\ q_next s'.1 = next_id (ar s'.2) + ncreates (q_tasks s'.1) /\
  (forall t i, made_in s.2 t i -> made_in s'.2 t i) /\
  (forall t i, (t, i) ∈ number (next_id (ar s.2)) (q_tasks s.1) ++ l -> made_in s'.2 t i \/ (t, i) ∈ number (next_id (ar s'.2)) (q_tasks s'.1)).
Proof.
  induction 1 as [s|q d t q' x r s l E H IH|q d q' d' errs r s l E H IH]; simpl; intros G A Hq.
  - split_and!; try done. intros t i. rewrite app_nil_r. by right.
  - assert (E' : q_next q' = q_next q + (if creates t then 1 else 0) /\ q_tasks q' = q_tasks q ++ [t] /\ x = if creates t then Some (q_next q) else None).
    { unfold enqueue in E. destruct t; simplify_eq; simpl; split_and!; done || lia. }
    destruct E' as (E1&E2&E3). simpl in IH. destruct (IH G A) as (G'&A'&Q'&K'&P').
    { rewrite E1, E2, ncreates_app. simpl. lia. }
    split_and!; try done. intros t' i Hi. apply P'. rewrite E2, number_app, <- Hq. simpl. subst x.
    destruct (creates t); simpl; rewrite <- ?app_assoc; [done|]. done.
  - unfold flush in E. simpl in IH. destruct (run_tasks_ok (q_tasks q) d G A) as (d1&e1&E1&G1&A1&N1&M1&K1). rewrite E1 in E. simpl in E. simplify_eq. simpl in IH.
    destruct (IH G1 A1) as (G'&A'&Q'&K'&P'); [lia|]. split_and!; try done; [by eauto|].
    intros t i [Hi|Hi]%elem_of_app; [left; by apply K', M1|]. by apply P'.
Qed.
Lemma run_app l r d : run (l ++ r) d = (let* d1 := run l d in run r d1).
Proof. revert d. induction l as [|o l IH]; intros d; simpl; [done|]. destruct (apply o d); simpl; [apply IH|done..]. Qed.
Lemma direct_run ts : forall d d', good d -> acyclic d -> run_tasks ts d = Ok (d', []) -> run (direct (next_id (ar d)) ts) d = Ok d'.
Proof.
  induction ts as [|t r IH]; intros d d' G A H; [simpl in H; by simplify_eq|].
  destruct (run_task_ok t d G A) as (d1&e1&E1&G1&A1&N1&_). simpl in H. rewrite E1 in H. simpl in H.
  destruct (run_tasks r d1) as [[d2 e2]| |] eqn:E2; simpl in H; simplify_eq.
  match goal with H : e1 ++ e2 = [] |- _ => apply app_nil in H as [-> ->] end.
  specialize (IH d1 d' G1 A1 E2). rewrite N1 in IH.
  assert (Hc : creates t = true -> run (match t with TElement name ns _ _ => OElement name (Some ns) ∅ | TText s _ => OText s | TComment s _ => OComment s | TAttribute k v i => OSetAttribute i k v end :: OAttach (next_id (ar d)) (task_parent t) (task_pos t) :: direct (S (next_id (ar d))) r) d = Ok d').
  { intros Hc. rewrite Hc in IH. rewrite run_task_create in E1 by done.
    assert (Ha : apply (match t with TElement name ns _ _ => OElement name (Some ns) ∅ | TText s _ => OText s | TComment s _ => OComment s | TAttribute k v i => OSetAttribute i k v end) d = Ok (register (task_data t) d).1).
    { by destruct t. }
    cbn [run]. rewrite Ha. cbn [rbind run]. cbn [apply]. destruct (attach _ _ _ _) as [d3| |]; simpl in E1; simplify_eq. simpl.
    by replace (S (next_id (ar d))) with (next_id (ar d) + 1) by lia. }
  destruct t as [name ns p pos|s p|s p|k v i]; [exact (Hc eq_refl)..|]. clear Hc.
  simpl in IH. rewrite Nat.add_0_r in IH. simpl. simpl in E1. repeat case_match; simplify_eq; exact IH.
Qed.

(** * Statements about whole histories *)
Lemma run_good ops d : run ops new_doc = Ok d -> good d /\ acyclic d.
Proof. intros H. by apply (history_new any ops), run_any. Qed.
Lemma ids_are_new ops d dt d' i : run ops new_doc = Ok d -> register dt d = (d', i) ->
  i = peek_next_id d /\ exists_in d' i /\ (forall x, x <> i -> get d' x = get d x) /\
  (forall l r dm, ops = l ++ r -> run l new_doc = Ok dm -> ~ exists_in dm i).
Proof.
  intros H E. destruct (run_good _ _ H) as [G A]. destruct (ar_register dt d G) as [_ Ei].
  assert (Hd : d' = (register dt d).1) by (by rewrite E). assert (Hi : i = next_id (ar d)) by (by rewrite <- Ei, E). subst d' i. split_and!.
  - done.
  - apply exists_register; [done|by left].
  - intros x Hx. by rewrite get_register, bool_decide_false.
  - intros l r dm -> Hm. rewrite run_app, Hm in H. simpl in H. destruct (run_good _ _ Hm) as [Gm Am].
    pose proof (history_next _ _ _ _ (run_any _ _ _ H) Gm Am) as Hle. intros Hx%get_lt. rewrite <- (g_next _ Gm) in Hx. lia.
Qed.
Lemma removed_is_gone ops d i d1 ops' d2 : run ops new_doc = Ok d -> exists_in d i -> apply (ORemove i) d = Ok d1 -> run ops' d1 = Ok d2 -> get d2 i = None.
Proof.
  intros H Hi E R. destruct (run_good _ _ H) as [G A]. destruct (apply_ok (ORemove i) d G A) as (x&E'&G1&A1). rewrite E in E'. apply Ok_inj in E' as <-.
  assert (K : ~ exists_in d2 i).
  { eapply (history_gone _ d1); [by apply run_any|done|done| |].
    - pose proof (next_apply _ _ _ G A E) as Hn. simpl in Hn. apply get_lt in Hi. rewrite <- (g_next _ G) in Hi. lia.
    - apply Ok_inj in E as <-. rewrite exists_remove. tauto. }
  unfold exists_in in K. destruct (get d2 i); [by destruct K|done].
Qed.
Lemma only_remove_removes ops d o d' i : run ops new_doc = Ok d -> apply o d = Ok d' -> exists_in d i -> ~ exists_in d' i -> o = ORemove i.
Proof.
  intros H E Hi Hn. destruct (run_good _ _ H) as [G A]. pose proof (apply_kind o d G) as K. destruct (kind_of d o) eqn:Ko.
  - destruct K as (d1&E1&_&S&_). rewrite E in E1. simplify_eq. by rewrite (links_exists d d1) in Hn.
  - rewrite E in K. apply Ok_inj in K as ->. rewrite exists_register in Hn by done. tauto.
  - rewrite E in K. destruct (attach_cases i0 p pos d A) as [[E' _]|(E'&Hpi&_)]; rewrite E' in K; apply Ok_inj in K as ->; [done|]. by rewrite exists_attached in Hn.
  - rewrite E in K. apply Ok_inj in K as ->. by rewrite exists_detach in Hn.
  - rewrite E in K. apply Ok_inj in K as ->. rewrite exists_remove in Hn. assert (i = i0) as -> by (destruct (decide (i = i0)); tauto).
    destruct o; simpl in Ko; repeat case_match; by simplify_eq.
  - rewrite E in K. destruct (attach_cases i0 p None _ (acyclic_detach i0 d A)) as [[E' _]|(E'&Hpi&_)]; rewrite E' in K; apply Ok_inj in K as ->.
    + by rewrite exists_detach in Hn.
    + by rewrite exists_attached, exists_detach in Hn.
Qed.
Lemma somes_seq (l : list (option node)) : somes l = length (filter (fun i => is_Some (match l !! i with Some (Some n) => Some n | _ => None end)) (seq 0 (length l))).
Proof.
  induction l as [|x l IH] using rev_ind; [done|]. rewrite app_length, seq_app. simpl. unfold somes in *. rewrite !filter_app, !app_length, IH. f_equal.
  - f_equal. apply filter_ext_iff. intros i Hi. apply elem_of_seq in Hi. by rewrite lookup_app_l by lia.
  - rewrite !filter_cons. rewrite lookup_app_r, Nat.sub_diag by lia. simpl.
    destruct x; [by rewrite !decide_True by eauto|by rewrite !decide_False by (intros [? ?]; done)].
Qed.
Lemma ledger_run d ops d' a b : ledger d ops d' a b -> run ops d = Ok d'.
Proof. induction 1 as [|d o d1 r d2 a b E _ IH]; [done|]. simpl. by rewrite E. Qed.
Lemma count_nodes ops d a b : ledger new_doc ops d a b ->
  node_count d + b = 1 + a /\ node_count d = length (filter (fun i => is_Some (get d i)) (seq 0 (peek_next_id d))) /\
  (forall i, exists_in d i -> i < peek_next_id d).
Proof.
  intros H. destruct (run_good _ _ (ledger_run _ _ _ _ _ H)) as [G A]. split_and!.
  - rewrite (count_ledger _ _ _ _ _ H good_new acyclic_new). done.
  - unfold node_count, peek_next_id. rewrite (g_count _ G), somes_seq, (g_next _ G). done.
  - intros i Hi%get_lt. unfold peek_next_id. by rewrite (g_next _ G).
Qed.
Lemma iterates_document ops d : history careful new_doc ops d ->
  exists l, preorder d 0 l /\ (forall fuel, length l < fuel -> iter_all fuel d [0] = Ok l) /\
  NoDup l /\ (forall x, x ∈ l <-> rtc (child d) 0 x).
Proof.
  intros H. destruct (careful_new ops d H) as (G&A&T). destruct (preorder_exists d 0 A) as [l Hl]. exists l. split_and!; [done| | |].
  - intros fuel. by apply iter_preorder.
  - by apply (preorder_nodup d (length l) (t_linked d T) A 0).
  - by apply (preorder_reach d (length l)).
Qed.
Lemma query_document ops d cs : run ops new_doc = Ok d ->
  exists l found, preorder d 0 l /\ sublist found l /\
  (forall fuel, length l < fuel -> query fuel d cs FindAll = Ok (Some found) /\ query fuel d cs FindFirst = Ok (Some (take 1 found))) /\
  (forall x, x ∈ found <-> x ∈ l /\ Forall (satisfies d x) cs) /\
  (NoDup l -> NoDup found).
Proof.
  intros H. destruct (run_good _ _ H) as [G A]. destruct (preorder_exists d 0 A) as [l Hl]. exists l, (filter (sel d cs) l). split_and!; try done.
  - apply sublist_filter.
  - intros fuel Hf. by apply query_spec.
  - intros x. rewrite elem_of_list_filter. unfold sel. rewrite forallb_sat. tauto.
  - intros. by apply NoDup_filter.
Qed.
Lemma walk_in_order ops d : run ops new_doc = Ok d -> exists_in d 0 -> exists l, walked d 0 l /\ walk_document (depth d) d = Ok l.
Proof.
  intros H H0. destruct (run_good _ _ H) as [G A]. destruct (walk_ok d A (depth d) 0 []) as (l&E&W); [constructor| |unfold depth; simpl; lia|].
  - intros a Ha. by apply elem_of_nil in Ha.
  - exists l. split; [done|]. unfold walk_document. unfold exists_in in H0. by destruct (get d 0).
Qed.
Lemma valid_id_spec s : valid_id s = true <-> s <> [] /\ Forall (fun c => c <> 9 /\ c <> 10 /\ c <> 12 /\ c <> 13 /\ c <> 32)%N s.
Proof.
  unfold valid_id. rewrite andb_true_iff, !negb_true_iff, bool_decide_eq_false. apply and_iff_compat_l.
  rewrite <- not_true_iff_false, existsb_exists, Forall_forall. unfold ascii_ws. split.
  - intros H c Hc. repeat split; intros ->; apply H; eexists; (split; [by apply elem_of_list_In|]); apply bool_decide_eq_true; set_solver.
  - intros H (c&Hc&Hb). apply elem_of_list_In in Hc. apply H in Hc. apply bool_decide_eq_true in Hb. set_solver.
Qed.
Lemma is_found ops d s n : history steady new_doc ops d -> attribute d n (txt "id") = Some s ->
  s <> [] -> Forall (fun c => c <> 9 /\ c <> 10 /\ c <> 12 /\ c <> 13 /\ c <> 32)%N s -> exists m, node_by_named_id d s = Some m.
Proof.
  intros H Hn H1 H2. destruct (nm_history _ _ _ H good_new acyclic_new nm_new) as [N _]. apply (nm_found d N n); [done|]. by apply valid_id_spec.
Qed.
Lemma first_keeps ops d o d1 ops' d2 s n :
  history steady new_doc ops d -> steady d o -> apply o d = Ok d1 -> history steady d1 ops' d2 ->
  (forall m, attribute d m (txt "id") <> Some s) -> attribute d1 n (txt "id") = Some s ->
  s <> [] -> Forall (fun c => c <> 9 /\ c <> 10 /\ c <> 12 /\ c <> 13 /\ c <> 32)%N s ->
  node_by_named_id d2 s = Some n.
Proof.
  intros H S E H' Hno Hn H1 H2. destruct (history_new _ _ _ H) as [G A]. destruct (nm_history _ _ _ H good_new acyclic_new nm_new) as [N _].
  eapply (first_wins d o d1 ops' d2 s n); try done. by apply valid_id_spec.
Qed.
Lemma once_had_it ops d s n : run ops new_doc = Ok d -> node_by_named_id d s = Some n ->
  exists l r dm, ops = l ++ r /\ run l new_doc = Ok dm /\ attribute dm n (txt "id") = Some s.
Proof.
  intros H Hs. destruct (named_history _ _ _ _ _ _ (run_any _ _ _ H) good_new acyclic_new Hs) as [Hn|?]; [|done].
  cbn [named new_doc] in Hn. by rewrite lookup_empty in Hn.
Qed.
Lemma promised_ids ops d0 qs q d l : run ops new_doc = Ok d0 ->
  queue_history (new_queue d0, d0) qs (q, d) l -> q_tasks q = [] ->
  forall t i, (t, i) ∈ l -> exists n, get d i = Some n /\ made t n.
Proof.
  intros H Hq Ht t i Hi. destruct (run_good _ _ H) as [G A]. destruct (queue_promises _ _ _ _ Hq G A) as (_&_&_&_&P); [simpl; lia|].
  simpl in P. destruct (P t i Hi) as [?|Hn]; [done|]. rewrite Ht in Hn. by apply elem_of_nil in Hn.
Qed.
Lemma flush_returns ops d q : run ops new_doc = Ok d -> exists q' d' errs, flush q d = Ok (q', d', errs) /\ q_tasks q' = [] /\ q_next q' = q_next q.
Proof.
  intros H. destruct (run_good _ _ H) as [G A]. destruct (run_tasks_ok (q_tasks q) d G A) as (d'&errs&E&_). unfold flush. rewrite E. simpl. eauto 10.
Qed.
Lemma flush_in_order ops d q q' d' : run ops new_doc = Ok d -> flush q d = Ok (q', d', []) -> run (direct (peek_next_id d) (q_tasks q)) d = Ok d'.
Proof.
  intros H E. destruct (run_good _ _ H) as [G A]. unfold flush in E. destruct (run_tasks (q_tasks q) d) as [[x e]| |] eqn:Er; simpl in E; simplify_eq.
  by apply direct_run.
Qed.
Lemma attribute_outcome d k v i d' errs : run_task (TAttribute k v i) d = Ok (d', errs) ->
  (errs = [] /\ d' = set_attribute i k v d /\ is_elem d i /\ (node_by_named_id d v = None \/ node_by_named_id d v = Some i)) \/
  (errs <> [] /\ d' = d /\ ((k = txt "id" /\ (v = [] \/ Exists (fun c => c ∈ [9; 10; 12; 13; 32]%N) v)) \/ ~ is_elem d i \/ (exists j, node_by_named_id d v = Some j /\ j <> i))).
Proof.
  simpl. destruct (bool_decide (k = txt "id") && negb (valid_id v)) eqn:Eb.
  { intros E. simplify_eq. right. split_and!; try done. left. apply andb_true_iff in Eb as [Hk%bool_decide_eq_true Hv].
    split; [done|]. unfold valid_id in Hv. apply negb_true_iff, andb_false_iff in Hv as [Hv|Hv].
    - left. apply negb_false_iff in Hv. by apply bool_decide_eq_true in Hv.
    - right. apply negb_false_iff, existsb_exists in Hv as (c&Hc&Hb). apply Exists_exists. exists c. split; [by apply elem_of_list_In|].
      by apply bool_decide_eq_true in Hb. }
  destruct (node_by_named_id d v) as [j|] eqn:En.
  - destruct (bool_decide_reflect (j = i)) as [->|Hj]; simpl.
    + destruct (is_element d i) eqn:Ee; simpl; intros E; simplify_eq.
      * left. split_and!; try done; [by apply is_element_spec|by right].
      * right. split_and!; try done. right. left. rewrite <- is_element_spec. congruence.
    + intros E. simplify_eq. right. split_and!; try done. right. right. eauto.
  - destruct (is_element d i) eqn:Ee; simpl; intros E; simplify_eq.
    + left. split_and!; try done; [by apply is_element_spec|by left].
    + right. split_and!; try done. right. left. rewrite <- is_element_spec. congruence.
Qed.
Fixpoint tally (d : doc) (ops : list op) : option (doc * nat * nat) :=
  match ops with
  | [] => Some (d, 0, 0)
  | o :: r => match apply o d with
              | Ok d1 => match tally d1 r with Some (d2, a, b) => Some (d2, registers d o + a, removes d o + b) | None => None end
              | _ => None
              end
  end.
Lemma ledger_tally ops : forall d d' a b, tally d ops = Some (d', a, b) -> ledger d ops d' a b.
Proof.
  induction ops as [|o r IH]; intros d d' a b H; simpl in H; [simplify_eq; constructor|].
  destruct (apply o d) as [d1| |] eqn:E; [|done..]. destruct (tally d1 r) as [[[d2 a'] b']|] eqn:Et; [|done]. simplify_eq.
  econstructor; [done|]. by apply IH.
Qed.
