From stdpp Require Import gmap.
From Verif Require Import Text SettingsModel SettingsProofs StorageModel StorageSpec.

(** * Text keys *)
Lemma split_colon (a b a' b' : str) : 58%N ∉ a -> 58%N ∉ a' -> a ++ 58%N :: b = a' ++ 58%N :: b' -> a = a' /\ b = b'.
Proof.
  revert a'. induction a as [|x a IH]; intros [|y a'] H1 H2 E; simplify_eq/=; try (by auto); [set_solver..|].
  destruct (IH a'); [set_solver..|done|]. by subst.
Qed.
Lemma rsplit_colon (a b a' b' : str) : 58%N ∉ b -> 58%N ∉ b' -> a ++ 58%N :: b = a' ++ 58%N :: b' -> a = a' /\ b = b'.
Proof.
  intros H1 H2 E. apply (f_equal reverse) in E. rewrite !reverse_app, !reverse_cons, <-!app_assoc in E. simpl in E.
  apply split_colon in E; [|by rewrite elem_of_reverse..]. destruct E as [E1 E2]. apply (inj reverse) in E1. apply (inj reverse) in E2. done.
Qed.
Lemma digits_no (x : N) n : (x < 48 \/ 57 < x)%N -> x ∉ show_N n.
Proof. intros Hx H. pose proof (show_N_digits n) as F. rewrite Forall_forall in F. specialize (F _ H). unfold is_digit in F. lia. Qed.
Lemma show_N_inj n m : show_N n = show_N m -> n = m.
Proof. intros E. pose proof (parse_show_N n) as H. rewrite E, parse_show_N in H. congruence. Qed.

Lemma serialization_inj o o' : tuple_origin o -> tuple_origin o' -> ascii_serialization o = ascii_serialization o' -> o = o'.
Proof.
  destruct o as [s h p|], o' as [s' h' p'|]; try done. intros [Hs Hh] [Hs' Hh'] E. cbn [ascii_serialization] in E.
  change (txt "://") with (58%N :: [47;47]%N) in E. rewrite <-!app_comm_cons in E. apply split_colon in E as [<- E]; [|done..].
  do 2 apply (inj (cons _)) in E. rewrite !app_nil_l in E.
  assert (forall h q h', (58%N ∉ h' \/ exists h'', h' = h'' ++ [93%N]) -> h ++ txt ":" ++ show_N q = h' -> False) as Hx.
  { intros g q g' [Hg|[g'' ->]] E'; [subst g'; apply Hg; set_solver|].
    rewrite app_assoc in E'. destruct (show_N q) as [|x r] eqn:Eq using rev_ind.
    - pose proof (parse_show_N q) as Hq. by rewrite Eq in Hq.
    - rewrite app_assoc in E'. apply app_inj_tail in E' as [_ ->]. eapply (digits_no 93 q); [lia|]. rewrite Eq. set_solver. }
  destruct (bool_decide_reflect (default_port s = Some p)), (bool_decide_reflect (default_port s = Some p')); rewrite ?app_nil_r in E.
  - subst. congruence.
  - by edestruct Hx; [exact Hh|].
  - by edestruct Hx; [exact Hh'|].
  - change (txt ":") with ([58%N]) in E. simpl in E. apply rsplit_colon in E as [<- E]; [|by apply digits_no; lia..].
    apply show_N_inj in E. by subst.
Qed.
Lemma serialization_null o : tuple_origin o -> ascii_serialization o <> txt "null".
Proof.
  destruct o as [s h p|]; [|done]. intros _ E. assert (58%N ∈ txt "null") as H; [|vm_compute in H; set_solver].
  rewrite <-E. cbn [ascii_serialization]. apply elem_of_app. right. apply elem_of_app. left. vm_compute. set_solver.
Qed.
Lemma part_text_inj p p' : plain_part p -> plain_part p' -> part_text p = part_text p' -> p = p'.
Proof.
  destruct p as [|o|s], p' as [|o'|s']; simpl; try done.
  - intros _ [H _] E. by subst.
  - intros H H' E. apply (inj (app (txt "top:"))) in E. f_equal. by apply serialization_inj.
  - intros _ [_ H] E. by edestruct H.
  - intros [H _] _ E. by subst.
  - intros [_ H] _ E. by edestruct H.
  - by intros _ _ ->.
Qed.

(** * Storage slots *)
Definition akey (a : area) : N * N * str * str :=
  match a with Local z p o => (z, 0%N, part_text p, ascii_serialization o) | Session z t p o => (z, t, part_text p, ascii_serialization o) end.
Definition skey (a : area) : N * N * str * str := akey a.
Definition alive (x : stores) (a : area) : bool :=
  match a with Local _ _ _ => true | Session _ _ _ _ => bool_decide (is_Some (sessions x !! skey a)) end.
Definition shown (bk : backend) (x : stores) (a : area) (k : str) : option str :=
  match a with
  | Local z p o => match bk with
                   | InMemory => areas x !! (z, p, o) ≫= fun i => maps x !! i ≫= fun m => m !! k
                   | Sqlite => rows x !! (z, part_text p, ascii_serialization o, k)
                   end
  | Session _ _ _ _ => sessions x !! skey a ≫= fun m => m !! k
  end.
Definition fits (bk : backend) (x : stores) (i : inner) (a : area) : Prop :=
  match a with
  | Local z p o => match bk with
                   | InMemory => exists n, i = IMem n /\ areas x !! (z, p, o) = Some n
                   | Sqlite => i = ISql z (part_text p) (ascii_serialization o)
                   end
  | Session _ _ _ _ => i = ISess (skey a)
  end.
Definition sound (x : stores) : Prop :=
  (forall k n, areas x !! k = Some n -> n < length (maps x)) /\
  (forall k k' n, areas x !! k = Some n -> areas x !! k' = Some n -> k = k').

Lemma proper_akey bk a b : (bk = InMemory -> is_local a = false) -> is_local a = is_local b ->
  proper bk a -> proper bk b -> akey a = akey b -> a = b.
Proof.
  intros Hm Hl Ha Hb E. destruct a as [z p o|z t p o], b as [z' p' o'|z' t' p' o']; try done; simpl in *.
  - destruct Ha as [->|[Hp Ho]]; [by specialize (Hm eq_refl)|]. destruct Hb as [->|[Hp' Ho']]; [by specialize (Hm eq_refl)|].
    injection E as E1 E2 E3. apply part_text_inj in E2; [|done..]. apply serialization_inj in E3; [|done..]. by subst.
  - destruct Ha as [Hp Ho], Hb as [Hp' Ho'].
    injection E as E1 E2 E3 E4. apply part_text_inj in E3; [|done..]. apply serialization_inj in E4; [|done..]. by subst.
Qed.

(** Reading through a handle reads the area's slot. *)
Lemma get_shown bk x i a k : fits bk x i a -> get_item false i k x = shown bk x a k.
Proof.
  destruct a as [z p o|z t p o]; simpl.
  - destruct bk; [intros (n & -> & Hn)|intros ->]; simpl; [by rewrite Hn|done].
  - by intros ->.
Qed.
Lemma fits_mono bk x x' i a : areas x ⊆ areas x' -> fits bk x i a -> fits bk x' i a.
Proof.
  intros Hs. destruct a as [z p o|z t p o]; simpl; [|done]. destruct bk; [|done]. intros (n & -> & Hn). exists n. split; [done|].
  by eapply lookup_weaken.
Qed.

Section change.
  Context (bk : backend) (x : stores) (i : inner) (b : area).
  Context (S : sound x) (F : fits bk x i b) (Pb : proper bk b).
  Lemma alter_session (f : gmap str str -> gmap str str) a k : is_local b = false -> proper bk a ->
    shown bk (set_sessions (alter f (skey b) (sessions x)) x) a k =
      (if bool_decide (b = a) then (f <$> sessions x !! skey a) ≫= fun m => m !! k else shown bk x a k) /\
    alive (set_sessions (alter f (skey b) (sessions x)) x) a = alive x a.
  Proof.
    intros Hl Pa. destruct (bool_decide_reflect (b = a)) as [<-|Hne].
    - destruct b as [|z t p o]; [done|]. simpl. rewrite lookup_alter. split; [done|]. apply bool_decide_ext. by rewrite fmap_is_Some.
    - destruct a as [z p o|z t p o]; [done|]. simpl. rewrite lookup_alter_ne; [done|]. intros E. apply Hne.
      eapply proper_akey; eauto; by rewrite Hl.
  Qed.
  Lemma alter_map (f : gmap str str -> gmap str str) a k : is_local b = true -> bk = InMemory ->
    exists n, i = IMem n /\
    shown bk (set_maps (alter f n (maps x)) x) a k =
      (if bool_decide (b = a) then match b with Local z p o => areas x !! (z, p, o) | _ => None end ≫= fun n => (f <$> maps x !! n) ≫= fun m => m !! k
       else shown bk x a k) /\
    alive (set_maps (alter f n (maps x)) x) a = alive x a.
  Proof.
    intros Hl ->. destruct b as [z p o|]; [|done]. destruct F as (n & -> & Hn). exists n. split; [done|]. split; [|by destruct a].
    destruct S as [S1 S2]. destruct (bool_decide_reflect (Local z p o = a)) as [<-|Hne].
    - simpl. rewrite Hn. simpl. by rewrite list_lookup_alter.
    - destruct a as [z' p' o'|]; [|done]. simpl. destruct (areas x !! (z', p', o')) as [n'|] eqn:E'; [|done]. simpl.
      rewrite list_lookup_alter_ne; [done|]. intros ->. apply Hne. specialize (S2 _ _ _ Hn E'). by injection S2 as -> -> ->.
  Qed.
End change.

Lemma op_shown (bk : backend) (x : stores) (i : inner) (b : area) (f : gmap str str -> gmap str str) (g : str -> option str -> option str) (r' : gmap (N * str * str * str) str) (x' : stores) :
  sound x -> fits bk x i b -> proper bk b ->
  (forall m k', f m !! k' = g k' (m !! k')) ->
  (forall z p o, i = ISql z p o ->
     (forall k', r' !! (z, p, o, k') = g k' (rows x !! (z, p, o, k'))) /\
     (forall z' p' o' k', (z', p', o') <> (z, p, o) -> r' !! (z', p', o', k') = rows x !! (z', p', o', k'))) ->
  x' = match i with
       | IMem n => set_maps (alter f n (maps x)) x
       | ISql _ _ _ => set_rows r' x
       | ISess key => set_sessions (alter f key (sessions x)) x
       end ->
  sound x' /\ areas x' = areas x /\
  forall a, proper bk a -> alive x' a = alive x a /\
    forall k', shown bk x' a k' = if bool_decide (b = a) && alive x b then g k' (shown bk x a k') else shown bk x a k'.
Proof.
  intros S F Pb Hf Hr ->.
  assert (sound (match i with IMem n => set_maps (alter f n (maps x)) x | ISql _ _ _ => set_rows r' x
       | ISess key => set_sessions (alter f key (sessions x)) x end)) as S'.
  { destruct S as [S1 S2]. split; destruct i; simpl; try done. intros k n' H. rewrite alter_length. eauto. }
  split; [done|]. split; [by destruct i|]. intros a Pa. clear S'.
  destruct (is_local b) eqn:Hl.
  - destruct bk.
    + destruct (alter_map InMemory x i b ltac:(assumption) ltac:(assumption) ltac:(assumption) f a [] Hl eq_refl) as (n & -> & _ & Hal). simpl in *. split; [done|]. intros k'.
      destruct (alter_map InMemory x (IMem n) b ltac:(assumption) ltac:(assumption) ltac:(assumption) f a k' Hl eq_refl) as (n' & [= <-] & Hs & _). rewrite Hs.
      destruct b as [z p o|]; [|done]. simpl. rewrite andb_true_r. destruct (bool_decide_reflect (Local z p o = a)) as [<-|]; [|done].
      simpl. destruct S as [S1 _]. destruct F as (n2 & [= <-] & Hn). rewrite Hn. simpl.
      destruct (lookup_lt_is_Some_2 (maps x) n (S1 _ _ Hn)) as [m ->]. simpl. apply Hf.
    + destruct b as [z p o|]; [|done]. simpl in F. subst i. destruct (Hr _ _ _ eq_refl) as [H1 H2]. split; [by destruct a|].
      intros k'. simpl. rewrite andb_true_r. destruct (bool_decide_reflect (Local z p o = a)) as [<-|Hne]; [simpl; apply H1|].
      destruct a as [z' p' o'|]; [|done]. simpl. apply H2. intros E. apply Hne. symmetry. eapply (proper_akey Sqlite); [done|done|done..|].
      simpl. by injection E as -> -> ->.
  - assert (i = ISess (skey b)) as -> by (destruct b; [done|exact F]).
    split; [by apply (alter_session bk x (ISess (skey b)) b ltac:(assumption) ltac:(assumption) f a [] Hl Pa)|]. intros k'. destruct (alter_session bk x (ISess (skey b)) b ltac:(assumption) ltac:(assumption) f a k' Hl Pa) as [Hs _]. rewrite Hs.
    destruct (bool_decide_reflect (b = a)) as [<-|]; [|done]. simpl. destruct b as [|z t p o]; [done|].
    cbn [alive shown]. destruct (sessions x !! _) as [m|]; [rewrite bool_decide_eq_true_2 by done; apply Hf|].
    by rewrite bool_decide_eq_false_2 by (by intros []).
Qed.

Lemma open_shown bk x b x' i : sound x -> proper bk b -> open_area bk b x = (x', i) ->
  sound x' /\ areas x ⊆ areas x' /\ fits bk x' i b /\
  forall a, proper bk a -> alive x' a = alive x a || bool_decide (b = a) /\ forall k, shown bk x' a k = shown bk x a k.
Proof.
  intros [S1 S2] Pb E. destruct b as [z p o|z t p o]; simpl in E.
  - destruct bk.
    + destruct (areas x !! (z, p, o)) as [n|] eqn:En; injection E as <- <-.
      * split; [done|]. split; [done|]. split; [simpl; eauto|]. intros a _. split; [|done]. destruct a; [done|]. by rewrite orb_false_r.
      * split; [split; simpl|].
        -- intros k n. rewrite app_length. simpl. rewrite lookup_insert_Some. intros [[_ <-]|[_ H]]; [lia|]. specialize (S1 _ _ H). lia.
        -- intros k k' n. rewrite !lookup_insert_Some. intros [[<- <-]|[_ H]] [[<- E']|[_ H']]; [done|..].
           ++ specialize (S1 _ _ H'). lia.
           ++ subst. specialize (S1 _ _ H). lia.
           ++ by eapply S2.
        -- split; [simpl; by apply insert_subseteq|]. split; [simpl; exists (length (maps x)); by rewrite lookup_insert|].
           intros a _. split; [destruct a; [done|by rewrite orb_false_r]|]. intros k. destruct a as [z' p' o'|]; [|done]. simpl.
           destruct (decide ((z, p, o) = (z', p', o'))) as [Heq|Hne].
           ++ rewrite <-Heq, lookup_insert, En. simpl. rewrite lookup_app_r, Nat.sub_diag by lia. simpl. by rewrite lookup_empty.
           ++ rewrite lookup_insert_ne by done. destruct (areas x !! (z', p', o')) as [n|] eqn:En'; [|done]. simpl.
              rewrite lookup_app_l; [done|]. by eapply S1.
    + injection E as <- <-. split; [done|]. split; [done|]. split; [done|]. intros a _. split; [|done]. destruct a; [done|]. by rewrite orb_false_r.
  - injection E as <- <-. split; [done|]. split; [done|]. split; [done|]. intros a Pa.
    destruct (decide (Session z t p o = a)) as [<-|Hne].
    + rewrite bool_decide_eq_true_2, orb_true_r by done. split; [simpl; rewrite lookup_insert; by rewrite bool_decide_eq_true_2|].
      intros k. simpl. rewrite lookup_insert. simpl. destruct (sessions x !! _); [done|]. simpl. by rewrite lookup_empty.
    + rewrite bool_decide_eq_false_2, orb_false_r by done. destruct a as [|z' t' p' o']; [done|]. simpl. rewrite lookup_insert_ne; [done|].
      intros E. apply Hne. by eapply (proper_akey bk).
Qed.
Lemma drop_shown bk x z t a : 
  (sound x -> sound (drop_tab z t x)) /\ areas (drop_tab z t x) = areas x /\
  alive (drop_tab z t x) a = alive x a && negb (of_tab z t a) /\
  forall k, shown bk (drop_tab z t x) a k = if of_tab z t a then None else shown bk x a k.
Proof.
  split; [done|]. split; [done|]. destruct a as [z' p o|z' t' p o]; [done|]. unfold drop_tab. cbn [alive shown set_sessions sessions skey akey of_tab].
  match goal with |- bool_decide (is_Some (?F !! ?k)) = _ /\ _ => set (G := F); assert (G !! k =
    if bool_decide (z' = z) && bool_decide (t' = t) then None else sessions x !! (z', t', part_text p, ascii_serialization o)) as -> end.
  { subst G. destruct (bool_decide_reflect (z' = z)), (bool_decide_reflect (t' = t)); simpl.
    - apply map_filter_lookup_None. right. intros m _ H. by apply H.
    - apply option_eq. intros m. rewrite map_filter_lookup_Some. simpl. naive_solver.
    - apply option_eq. intros m. rewrite map_filter_lookup_Some. simpl. naive_solver.
    - apply option_eq. intros m. rewrite map_filter_lookup_Some. simpl. naive_solver. }
  destruct (bool_decide _ && bool_decide _); simpl; [|by rewrite andb_true_r]. by rewrite andb_false_r.
Qed.
Lemma keys_shown bk x i a : fits bk x i a ->
  NoDup (keys false i x) /\ (forall k, k ∈ keys false i x <-> is_Some (shown bk x a k)) /\ len false i x = length (keys false i x).
Proof.
  assert (forall m : gmap str str, NoDup (map fst (map_to_list m)) /\ (forall k, k ∈ map fst (map_to_list m) <-> is_Some (m !! k)) /\
    size m = length (map fst (map_to_list m))) as Hm.
  { intros m. split; [apply NoDup_fst_map_to_list|]. split; [|by rewrite map_length]. intros k. rewrite elem_of_list_fmap. split.
    - intros ([k' v] & -> & H). apply elem_of_map_to_list in H. by eexists.
    - intros [v H]. exists (k, v). by rewrite elem_of_map_to_list. }
  destruct a as [z p o|z t p o]; simpl.
  - destruct bk.
    + intros (n & -> & Hn). simpl. rewrite Hn. simpl. destruct (maps x !! n) as [m|]; [apply Hm|]. simpl. destruct (Hm ∅) as (H1 & H2 & H3).
      split; [done|]. split; [|done]. intros k. by rewrite H2, lookup_empty.
    + intros ->. simpl. set (f := fun kv : N * str * str * str * str => _). 
      assert (forall l : list (N * str * str * str * str), NoDup l.*1 -> NoDup (omap f l)) as Hnd.
      { induction l as [|[[[[z1 p1] o1] k1] v1] l IH]; simpl; [constructor|]. rewrite NoDup_cons. intros [H1 H2]. unfold f at 1. simpl.
        destruct (bool_decide_reflect (z1 = z /\ p1 = part_text p /\ o1 = ascii_serialization o)) as [(-> & -> & ->)|]; [|auto].
        constructor; [|auto]. rewrite elem_of_list_omap. intros ([[[[z2 p2] o2] k2] v2] & H & E). unfold f in E. simpl in E.
        destruct (bool_decide_reflect (z2 = z /\ p2 = part_text p /\ o2 = ascii_serialization o)) as [(-> & -> & ->)|]; [|done]. injection E as ->.
        apply H1. by apply (elem_of_list_fmap_1 fst) in H. }
      split; [apply Hnd, NoDup_fst_map_to_list|]. split.
      * intros k. rewrite elem_of_list_omap. split.
        -- intros ([[[[z2 p2] o2] k2] v2] & H & E). unfold f in E. simpl in E.
           destruct (bool_decide_reflect (z2 = z /\ p2 = part_text p /\ o2 = ascii_serialization o)) as [(-> & -> & ->)|]; [|done]. injection E as ->.
           apply elem_of_map_to_list in H. by eexists.
        -- intros [v H]. exists (z, part_text p, ascii_serialization o, k, v). rewrite elem_of_map_to_list. split; [done|]. unfold f. simpl.
           by rewrite bool_decide_eq_true_2.
      * match goal with |- size (filter ?P (rows x)) = _ => transitivity (length (filter P (map_to_list (rows x)))) end.
        { match goal with |- size ?F = _ => change (size F) with (length (map_to_list F)) end. apply Permutation_length. apply NoDup_Permutation; [apply NoDup_map_to_list|apply NoDup_filter, NoDup_map_to_list|].
          intros [k v]. rewrite elem_of_list_filter, !elem_of_map_to_list, map_filter_lookup_Some. naive_solver. }
        clear. induction (map_to_list (rows x)) as [|[[[[z1 p1] o1] k1] v1] l IH]; [done|]. rewrite filter_cons. simpl. unfold f at 1. simpl.
        destruct (bool_decide_reflect (z1 = z /\ p1 = part_text p /\ o1 = ascii_serialization o)); case_decide; naive_solver.
  - intros ->. simpl. destruct (sessions x !! _) as [m|]; [apply Hm|]. simpl. destruct (Hm ∅) as (H1 & H2 & H3).
    split; [done|]. split; [|done]. intros k. by rewrite H2, lookup_empty.
Qed.

(** * All executions *)
Section machine.
  Context (bk : backend) (r : gmap (N * str * str * str) str).
  Definition base (a : area) (k : str) : option str := shown bk (mk_stores ∅ [] r ∅) a k.
  Definition cell_from (a : area) (k : str) (l : list entry) : bool * option str := fold_left (cell_after a k) l (is_local a, base a k).
  Definition val_from a k l := (cell_from a k l).2.
  Definition entry_ok (l : list entry) (e : entry) : Prop :=
    match e with
    | Read a k v => v = val_from a k l
    | Listed a ks => NoDup ks /\ forall k, k ∈ ks <-> is_Some (val_from a k l)
    | Counted a n => exists ks, length ks = n /\ NoDup ks /\ forall k, k ∈ ks <-> is_Some (val_from a k l)
    | _ => True
    end.
  Definition held (s : state) (h : handle) : Prop := fits bk (st s) (h_inner h) (h_area h) /\ Opened (h_area h) ∈ log s.
  Record inv (s : state) : Prop := {
    inv_sound : sound (st s);
    inv_handles : forall h, h ∈ handles s -> held s h;
    inv_threads : forall t p, threads s !! t = Some p -> match p with Setting h _ _ _ | Removing h _ _ => held s h | Publishing _ => True end;
    inv_cells : forall a k, proper bk a -> cell_from a k (log s) = (alive (st s) a, shown bk (st s) a k);
    inv_log : forall l1 e l2, log s = l1 ++ e :: l2 -> entry_ok l1 e
  }.
  Definition opened_proper (s : state) : Prop := forall a, Opened a ∈ log s -> proper bk a.

  Lemma inv_start : inv (start r).
  Proof.
    split; simpl; try done.
    - intros h H. by apply elem_of_nil in H.
    - intros l1 e l2 H. by destruct l1.
  Qed.
  (** one step whose log gains [e] *)
  Lemma log_snoc (l : list entry) e : (forall l1 e' l2, l = l1 ++ e' :: l2 -> entry_ok l1 e') -> entry_ok l e ->
    forall l1 e' l2, l ++ [e] = l1 ++ e' :: l2 -> entry_ok l1 e'.
  Proof.
    intros H He l1 e' l2 E. destruct l2 as [|y l2 _] using rev_ind.
    - apply app_inj_tail in E as [<- <-]. done.
    - rewrite app_comm_cons, app_assoc in E. apply app_inj_tail in E as [-> _]. by eapply H.
  Qed.
  Lemma cell_snoc a k l e : cell_from a k (l ++ [e]) = cell_after a k (cell_from a k l) e.
  Proof. unfold cell_from. by rewrite fold_left_app. Qed.
  Lemma held_mono s s' h : areas (st s) ⊆ areas (st s') -> (forall e, e ∈ log s -> e ∈ log s') -> held s h -> held s' h.
  Proof. intros H1 H2 [F O]. split; [by eapply fits_mono|auto]. Qed.

  Definition pc_held (s : state) (p : pc) : Prop := match p with Setting h _ _ _ | Removing h _ _ => held s h | Publishing _ => True end.
  Lemma inv_change s y H T e : inv s -> sound y -> areas (st s) ⊆ areas y ->
    (forall h, h ∈ H -> h ∈ handles s \/ e = Opened (h_area h) /\ fits bk y (h_inner h) (h_area h)) ->
    (forall t p, T !! t = Some p -> threads s !! t = Some p \/ pc_held s p) ->
    (forall a k, proper bk a -> cell_after a k (alive (st s) a, shown bk (st s) a k) e = (alive y a, shown bk y a k)) ->
    entry_ok (log s) e ->
    inv (mk_state y H T (log s ++ [e])).
  Proof.
    intros I Hy Ha HH HT Hc He. destruct I as [I1 I2 I3 I4 I5].
    assert (forall h, held s h -> held (mk_state y H T (log s ++ [e])) h) as Hm.
    { intros h. apply held_mono; simpl; [done|]. intros e'. rewrite elem_of_app. auto. }
    split; simpl; [done|..].
    - intros h Hh. destruct (HH _ Hh) as [Hh'|[-> Hh']]; [auto|]. split; simpl; [done|]. set_solver.
    - intros t p Ht. destruct (HT _ _ Ht) as [Ht'|Ht']; [specialize (I3 _ _ Ht'); destruct p; auto|]. destruct p; simpl in Ht'; auto.
    - intros a k Pa. rewrite cell_snoc, I4 by done. by apply Hc.
    - by apply log_snoc.
  Qed.
  Lemma inv_threads_only s T : inv s -> (forall t p, T !! t = Some p -> threads s !! t = Some p \/ pc_held s p) ->
    inv (mk_state (st s) (handles s) T (log s)).
  Proof. intros [I1 I2 I3 I4 I5] HT. split; simpl; try done. intros t p H. destruct (HT _ _ H) as [H'|H']; [exact (I3 _ _ H')|by destruct p]. Qed.
  Lemma threads_insert s t p : pc_held s p -> forall t' p', <[t := p]> (threads s) !! t' = Some p' -> threads s !! t' = Some p' \/ pc_held s p'.
  Proof. intros Hp t' p' H. apply lookup_insert_Some in H as [[_ <-]|[_ H]]; auto. Qed.
  Lemma threads_delete s t : forall t' p', delete t (threads s) !! t' = Some p' -> threads s !! t' = Some p' \/ pc_held s p'.
  Proof. intros t' p' H. apply lookup_delete_Some in H as [_ H]. auto. Qed.

  Lemma val_shown s a k : inv s -> proper bk a -> val_from a k (log s) = shown bk (st s) a k.
  Proof. intros I Pa. unfold val_from. by rewrite (inv_cells s I). Qed.

  Lemma step s x s' : inv s -> act bk s x = Some s' ->
    match x with Begin _ _ f | Advance _ f => f = false end -> opened_proper s' -> inv s'.
  Proof.
    intros I E Hf HO.
    assert (forall h, held s h -> log s `prefix_of` log s' -> proper bk (h_area h)) as HP.
    { intros h [_ Ho] [l Hl]. apply HO. rewrite Hl. set_solver. }
    destruct x as [t c f|t f]; simpl in E; subst f.
    - unfold begin in E. destruct (threads s !! t) eqn:Et; [done|]. destruct c as [b|n k|n k v|n k|n|n|n|z tab].
      + destruct (open_area bk b (st s)) as [y i] eqn:Eo. injection E as <-. 
        assert (proper bk b) as Pb by (apply HO; simpl; set_solver).
        destruct (open_shown bk (st s) b y i (inv_sound s I) Pb Eo) as (Hy & Ha & F & Hs).
        apply (inv_change s y); try done.
        * intros h. cbn [add_handle handles set_st]. rewrite elem_of_app, elem_of_list_singleton. intros [Hh| ->]; [by left|right]. done.
        * auto.
        * intros a k Pa. destruct (Hs a Pa) as [H1 H2]. rewrite H1, H2. simpl. destruct (bool_decide _); [by rewrite orb_true_r|by rewrite orb_false_r].
      + destruct (handles s !! n) as [h|] eqn:Eh; [|done]. injection E as <-. assert (held s h) as Hh by (by eapply (inv_handles s I), elem_of_list_lookup_2).
        apply (inv_change s (st s)); try done; [apply (inv_sound s I)|auto|auto|]. simpl. rewrite val_shown; [|done|apply HP; [done|by eexists]].
        apply get_shown, Hh.
      + destruct (handles s !! n) as [h|] eqn:Eh; [|done]. injection E as <-. apply inv_threads_only; [done|]. apply threads_insert. simpl.
        by eapply (inv_handles s I), elem_of_list_lookup_2.
      + destruct (handles s !! n) as [h|] eqn:Eh; [|done]. injection E as <-. apply inv_threads_only; [done|]. apply threads_insert. simpl.
        by eapply (inv_handles s I), elem_of_list_lookup_2.
      + destruct (handles s !! n) as [h|] eqn:Eh; [|done]. simpl in E. assert (held s h) as Hh by (by eapply (inv_handles s I), elem_of_list_lookup_2).
        destruct (clear false (h_inner h) (st s)) as [y|] eqn:Ec; [|injection E as <-; done]. injection E as <-.
        assert (proper bk (h_area h)) as Pb by (apply HP; [done|by eexists]).
        destruct (op_shown bk (st s) (h_inner h) (h_area h) (fun _ => ∅) (fun _ _ => None) (rows y) y (inv_sound s I) (proj1 Hh) Pb) as (Hy & Ha & Hs).
        * intros m k. apply lookup_empty.
        * intros z p o Ei. rewrite Ei in Ec. injection Ec as <-. simpl. split.
          -- intros k. apply map_filter_lookup_None. right. intros v _ H. by apply H.
          -- intros z' p' o' k Hne. apply option_eq. intros v. rewrite map_filter_lookup_Some. simpl. split; [by intros []|]. intros H. split; [done|].
             intros (-> & -> & ->). done.
        * destruct (h_inner h); injection Ec as <-; done.
        * apply (inv_change s y); try done; [by rewrite Ha|auto|by apply (threads_insert s)|]. intros a k Pa. destruct (Hs a Pa) as [H1 H2]. rewrite H1, H2. simpl.
          destruct (bool_decide_reflect (h_area h = a)) as [<-|]; [|done]. simpl. destruct (alive (st s) (h_area h)) eqn:Eal; [done|]. f_equal.
          destruct (h_area h); [done|]. simpl in *. apply bool_decide_eq_false in Eal. destruct (sessions _ !! _); [by edestruct Eal|done].
      + destruct (handles s !! n) as [h|] eqn:Eh; [|done]. injection E as <-. assert (held s h) as Hh by (by eapply (inv_handles s I), elem_of_list_lookup_2).
        assert (proper bk (h_area h)) as Pb by (apply HP; [done|by eexists]).
        apply (inv_change s (st s)); try done; [apply (inv_sound s I)|auto|auto|]. destruct (keys_shown bk (st s) (h_inner h) (h_area h) (proj1 Hh)) as (H1 & H2 & _).
        split; [done|]. intros k. by rewrite val_shown.
      + destruct (handles s !! n) as [h|] eqn:Eh; [|done]. injection E as <-. assert (held s h) as Hh by (by eapply (inv_handles s I), elem_of_list_lookup_2).
        assert (proper bk (h_area h)) as Pb by (apply HP; [done|by eexists]).
        apply (inv_change s (st s)); try done; [apply (inv_sound s I)|auto|auto|]. destruct (keys_shown bk (st s) (h_inner h) (h_area h) (proj1 Hh)) as (H1 & H2 & H3).
        exists (keys false (h_inner h) (st s)). split; [done|]. split; [done|]. intros k. by rewrite val_shown.
      + injection E as <-. destruct (drop_shown bk (st s) z tab (Local 0 PNone (Opaque 0))) as (Hy & Ha & _).
        apply (inv_change s (drop_tab z tab (st s))); try done; [by apply Hy, I|auto|auto|]. intros a k Pa.
        destruct (drop_shown bk (st s) z tab a) as (_ & _ & H1 & H2). rewrite H1, H2. simpl. destruct (of_tab z tab a); [by rewrite andb_false_r|by rewrite andb_true_r].
    - unfold advance in E. destruct (threads s !! t) as [p|] eqn:Et; [|done]. simpl in E. pose proof (inv_threads s I _ _ Et) as Hp. destruct p as [h k v old|h k old|e].
      + destruct (set_item false (h_inner h) k v (st s)) as [y|] eqn:Ec; [|by destruct (h_inner h)]. injection E as <-.
        assert (proper bk (h_area h)) as Pb by (apply HP; [done|by eexists]).
        destruct (op_shown bk (st s) (h_inner h) (h_area h) (fun m => <[k := v]> m) (fun k' o => if bool_decide (k = k') then Some v else o) (rows y) y (inv_sound s I) (proj1 Hp) Pb) as (Hy & Ha & Hs).
        * intros m k'. destruct (bool_decide_reflect (k = k')) as [<-|]; [apply lookup_insert|by apply lookup_insert_ne].
        * intros z p o Ei. rewrite Ei in Ec. injection Ec as <-. simpl. split.
          -- intros k'. destruct (bool_decide_reflect (k = k')) as [<-|]; [apply lookup_insert|apply lookup_insert_ne; congruence].
          -- intros z' p' o' k' Hne. apply lookup_insert_ne. congruence.
        * destruct (h_inner h); injection Ec as <-; done.
        * apply (inv_change s y); try done; [by rewrite Ha|auto|by apply (threads_insert s)|]. intros a k' Pa. destruct (Hs a Pa) as [H1 H2]. rewrite H1, H2. simpl.
          destruct (bool_decide_reflect (h_area h = a)) as [<-|]; [|done]. simpl. destruct (alive (st s) (h_area h)) eqn:Eal; [|by rewrite andb_false_r].
          by destruct (bool_decide (k = k')).
      + destruct (remove_item false (h_inner h) k (st s)) as [y|] eqn:Ec; [|by destruct (h_inner h)]. injection E as <-.
        assert (proper bk (h_area h)) as Pb by (apply HP; [done|by eexists]).
        destruct (op_shown bk (st s) (h_inner h) (h_area h) (fun m => delete k m) (fun k' o => if bool_decide (k = k') then None else o) (rows y) y (inv_sound s I) (proj1 Hp) Pb) as (Hy & Ha & Hs).
        * intros m k'. destruct (bool_decide_reflect (k = k')) as [<-|]; [apply lookup_delete|by apply lookup_delete_ne].
        * intros z p o Ei. rewrite Ei in Ec. injection Ec as <-. simpl. split.
          -- intros k'. destruct (bool_decide_reflect (k = k')) as [<-|]; [apply lookup_delete|apply lookup_delete_ne; congruence].
          -- intros z' p' o' k' Hne. apply lookup_delete_ne. congruence.
        * destruct (h_inner h); injection Ec as <-; done.
        * apply (inv_change s y); try done; [by rewrite Ha|auto|by apply (threads_insert s)|]. intros a k' Pa. destruct (Hs a Pa) as [H1 H2]. rewrite H1, H2. simpl.
          destruct (bool_decide_reflect (h_area h = a)) as [<-|]; [|done]. simpl. destruct (alive (st s) (h_area h)) eqn:Eal; [by destruct (bool_decide (k = k'))|].
          destruct (bool_decide (k = k')); [|done]. f_equal.
          destruct (h_area h); [done|]. simpl in *. apply bool_decide_eq_false in Eal. destruct (sessions _ !! _); [by edestruct Eal|done].
      + injection E as <-. apply (inv_change s (st s)); try done; [apply (inv_sound s I)|auto|by apply (threads_delete s)].
  Qed.
  Lemma log_grows s x s' : act bk s x = Some s' -> log s `prefix_of` log s'.
  Proof.
    destruct x as [t c f|t f]; simpl; unfold begin, advance.
    - destruct (threads s !! t); [done|]. destruct c as [a|n k|n k v|n k|n|n|n|z tab]; simpl; intros E.
      1: destruct (open_area bk a (st s)) as [y i]; injection E as <-; by eexists.
      1-6: destruct (handles s !! n) as [h|]; [|done]; simpl in E.
      4: destruct (clear f (h_inner h) (st s)).
      all: injection E as <-; try done; by eexists.
    - destruct (threads s !! t) as [[h k v old|h k old|e]|]; simpl; [..|done]; intros E.
      1: destruct (set_item f (h_inner h) k v (st s)).
      3: destruct (remove_item f (h_inner h) k (st s)).
      all: injection E as <-; try done; by eexists.
  Qed.
  Lemma exec_inv l s s' : exec bk s l = Some s' -> inv s -> working l -> opened_proper s' -> inv s' /\ log s `prefix_of` log s'.
  Proof.
    revert s. induction l as [|x l IH]; simpl; intros s E I W HO; [by injection E as <-|].
    destruct (act bk s x) as [s1|] eqn:E1; [|done]. simpl in E. apply Forall_cons in W as [W1 W2].
    assert (forall l s1, exec bk s1 l = Some s' -> log s1 `prefix_of` log s') as Hpre.
    { clear. induction l as [|y l IH]; simpl; intros s E; [by injection E as <-|]. destruct (act bk s y) eqn:Ey; [|done].
      etransitivity; [by eapply log_grows|]. by apply IH. }
    pose proof (log_grows _ _ _ E1) as Hg. pose proof (Hpre _ _ E) as Hg'.
    destruct (IH s1 E) as [I' _]; [|done|done|by split; [|etransitivity]].
    eapply step; eauto. intros a Ha. apply HO. destruct Hg' as [l' ->]. set_solver.
  Qed.
End machine.

(** * Events *)
Definition pending (T : gmap N pc) : list (area * option str * option str) :=
  omap (fun kp => match kp.2 with Publishing e => Some (e_area e, e_key e, e_new e) | _ => None end) (map_to_list T).
Lemma pending_insert T t p : T !! t = None ->
  pending (<[t := p]> T) ≡ₚ match p with Publishing e => [(e_area e, e_key e, e_new e)] | _ => [] end ++ pending T.
Proof. intros H. unfold pending. rewrite map_to_list_insert by done. simpl. by destruct p. Qed.
Lemma pending_delete T t p : T !! t = Some p ->
  pending T ≡ₚ match p with Publishing e => [(e_area e, e_key e, e_new e)] | _ => [] end ++ pending (delete t T).
Proof. intros H. rewrite <-(insert_delete T t p) at 1 by done. apply pending_insert, lookup_delete. Qed.

Lemma told_step bk s x s' : act bk s x = Some s' ->
  changes (log s) ≡ₚ told (log s) ++ pending (threads s) -> changes (log s') ≡ₚ told (log s') ++ pending (threads s').
Proof.
  unfold changes, told. destruct x as [t c f|t f]; simpl; unfold begin, advance.
  - destruct (threads s !! t) eqn:Et; [done|]. destruct c as [a|n k|n k v|n k|n|n|n|z tab]; simpl; intros E IH.
    1: destruct (open_area bk a (st s)) as [y i]; injection E as <-; simpl; rewrite !omap_app; simpl; by rewrite !app_nil_r.
    1-6: destruct (handles s !! n) as [h|]; [|done]; simpl in E.
    4: destruct (clear f (h_inner h) (st s)).
    all: injection E as <-; simpl; rewrite ?omap_app; simpl; rewrite ?app_nil_r; try done.
    1-2: by rewrite pending_insert.
    rewrite pending_insert by done. simpl. rewrite IH. by rewrite <-app_assoc, (Permutation_app_comm (pending _)).
  - destruct (threads s !! t) as [[h k v old|h k old|e]|] eqn:Et; simpl; [..|done]; intros E IH.
    1: destruct (set_item f (h_inner h) k v (st s)).
    3: destruct (remove_item f (h_inner h) k (st s)).
    all: injection E as <-; simpl; rewrite ?omap_app; simpl; rewrite ?app_nil_r.
    all: rewrite (pending_delete _ _ _ Et) in IH; simpl in IH.
    2, 4: done.
    + rewrite <-insert_delete_insert, pending_insert by apply lookup_delete. simpl. rewrite IH, <-app_assoc. by rewrite (Permutation_app_comm (pending _)).
    + rewrite <-insert_delete_insert, pending_insert by apply lookup_delete. simpl. rewrite IH, <-app_assoc. by rewrite (Permutation_app_comm (pending _)).
    + by rewrite IH, <-app_assoc.
Qed.
Lemma exec_told bk l s s' : exec bk s l = Some s' ->
  changes (log s) ≡ₚ told (log s) ++ pending (threads s) -> changes (log s') ≡ₚ told (log s') ++ pending (threads s').
Proof.
  revert s. induction l as [|x l IH]; simpl; intros s E H; [by injection E as <-|].
  destruct (act bk s x) as [s1|] eqn:E1; [|done]. simpl in E. eapply IH; [done|]. by eapply told_step.
Qed.

Section alone.
  Context (bk : backend) (r : gmap (N * str * str * str) str) (t : N).
  Definition event_ok (l : list entry) (e : event) : Prop :=
    exists l0 c, l = l0 ++ [c] /\ change_of c = Some (e_area e, e_key e, e_new e) /\
      e_old e = match e_key e with Some k => val_from bk r (e_area e) k l0 | None => None end.
  Definition alone (s : state) : Prop :=
    (forall t' p, threads s !! t' = Some p -> t' = t) /\
    match threads s !! t with
    | Some (Setting h k _ old) | Some (Removing h k old) => old = val_from bk r (h_area h) k (log s)
    | Some (Publishing e) => event_ok (log s) e
    | None => True
    end /\
    forall l1 e l2, log s = l1 ++ Published e :: l2 -> event_ok l1 e.
  Lemma published_snoc (l : list entry) e : (forall l1 e' l2, l = l1 ++ Published e' :: l2 -> event_ok l1 e') ->
    (forall e', e = Published e' -> event_ok l e') -> forall l1 e' l2, l ++ [e] = l1 ++ Published e' :: l2 -> event_ok l1 e'.
  Proof.
    intros H He l1 e' l2 E. destruct l2 as [|y l2 _] using rev_ind.
    - apply app_inj_tail in E as [<- ->]. auto.
    - rewrite app_comm_cons, app_assoc in E. apply app_inj_tail in E as [-> _]. by eapply H.
  Qed.
  Lemma alone_step s x s' : inv bk r s -> alone s -> act bk s x = Some s' ->
    match x with Begin t' _ f | Advance t' f => f = false /\ t' = t end -> opened_proper bk s' -> alone s'.
  Proof.
    intros I (A1 & A2 & A3) E Hx HO. pose proof (log_grows bk s x s' E) as Hg.
    assert (forall h k, held bk s h -> get_item false (h_inner h) k (st s) = val_from bk r (h_area h) k (log s)) as Hget.
    { intros h k [F Ho]. rewrite (val_shown bk r s) by (done || (apply HO; destruct Hg as [? ->]; set_solver)). by apply get_shown. }
    destruct x as [t' c f|t' f]; destruct Hx as [-> ->]; simpl in E.
    - unfold begin in E. destruct (threads s !! t) eqn:Et; [done|]. destruct c as [a|n k|n k v|n k|n|n|n|z tab].
      1: destruct (open_area bk a (st s)) as [y i].
      2-7: destruct (handles s !! n) as [h|] eqn:Eh; [|done]; simpl in E; 
           assert (held bk s h) as Hh by (by eapply (inv_handles bk r s I), elem_of_list_lookup_2).
      5: destruct (clear false (h_inner h) (st s)).
      all: injection E as <-; unfold alone; simpl; rewrite ?lookup_insert, ?Et; try done.
      1,2,6-8: by split; [done|]; split; [done|]; apply published_snoc.
      1-2: split; [intros t' p; rewrite lookup_insert_Some; naive_solver|]; split; [by apply Hget|done].
      split; [intros t' p; rewrite lookup_insert_Some; naive_solver|]. split; [|by apply published_snoc]. eexists _, _. by split.
    - unfold advance in E. destruct (threads s !! t) as [p|] eqn:Et; [|done]. simpl in E. destruct p as [h k v old|h k old|e].
      + destruct (set_item false (h_inner h) k v (st s)) as [y|] eqn:Ec; [|by destruct (h_inner h)]. injection E as <-.
        unfold alone; simpl; rewrite lookup_insert. split; [intros t' p; rewrite lookup_insert_Some; naive_solver|].
        split; [|by apply published_snoc]. eexists _, _. by split.
      + destruct (remove_item false (h_inner h) k (st s)) as [y|] eqn:Ec; [|by destruct (h_inner h)]. injection E as <-.
        unfold alone; simpl; rewrite lookup_insert. split; [intros t' p; rewrite lookup_insert_Some; naive_solver|].
        split; [|by apply published_snoc]. eexists _, _. by split.
      + injection E as <-. unfold alone; simpl; rewrite lookup_delete. split; [intros t' p; rewrite lookup_delete_Some; naive_solver|].
        split; [done|]. apply published_snoc; [done|]. by intros e' [= <-].
  Qed.
  Lemma exec_alone l s s' : exec bk s l = Some s' -> inv bk r s -> alone s -> working l -> only_thread t l -> opened_proper bk s' -> alone s'.
  Proof.
    revert s. induction l as [|x l IH]; simpl; intros s E I A W O HO; [by injection E as <-|].
    destruct (act bk s x) as [s1|] eqn:E1; [|done]. simpl in E. apply Forall_cons in W as [W1 W2]. apply Forall_cons in O as [O1 O2].
    assert (opened_proper bk s1) as HO1.
    { assert (forall l s1, exec bk s1 l = Some s' -> log s1 `prefix_of` log s') as Hpre.
      { clear. induction l as [|y l IH]; simpl; intros s E; [by injection E as <-|]. destruct (act bk s y) eqn:Ey; [|done].
        etransitivity; [by eapply log_grows|]. by apply IH. }
      intros a Ha. apply HO. destruct (Hpre _ _ E) as [l' ->]. set_solver. }
    eapply (IH s1); try done; [by eapply step|]. eapply alone_step; eauto. by destruct x.
  Qed.
End alone.

(** * Several runs over one database *)
Lemma cell_fold_none a k l c : is_local a = true -> c.1 = true -> fold_left (cell_after a k) l c = (true, (fold_left (cell_after a k) l c).2).
Proof.
  intros Ha. revert c. induction l as [|e l IH]; intros [c1 c2]; simpl; [by intros ->|]. intros ->. apply IH.
  destruct e; simpl; repeat case_match; simplify_eq/=; try done. destruct a; done.
Qed.
Lemma lived_rows r lg : lived r lg -> (forall a, Opened a ∈ lg -> proper Sqlite a) ->
  forall z p o k, proper Sqlite (Local z p o) -> r !! (z, part_text p, ascii_serialization o, k) = value (Local z p o) k lg.
Proof.
  induction 1 as [|r lg l s H IH W E]; intros Hp z p o k Pa; [done|].
  destruct (exec_inv Sqlite r l (start r) s E (inv_start Sqlite r) W) as [I _]; [intros a Ha; apply Hp; set_solver|].
  pose proof (val_shown Sqlite r s (Local z p o) k I Pa) as Hv. simpl in Hv. rewrite <-Hv. unfold val_from, cell_from, value, cell. simpl.
  rewrite fold_left_app. f_equal. f_equal. rewrite (cell_fold_none (Local z p o) k lg (true, None)) by done. f_equal.
  rewrite IH; [done|intros a Ha; apply Hp; set_solver|done].
Qed.

Lemma base_empty bk a k : base bk ∅ a k = None.
Proof. destruct a; simpl; [destruct bk; simpl; by rewrite lookup_empty|by rewrite lookup_empty]. Qed.
Lemma val_from_empty bk a k l : val_from bk ∅ a k l = value a k l.
Proof. unfold val_from, cell_from, value, cell. by rewrite base_empty. Qed.
Lemma run_inv bk l s : exec bk (start ∅) l = Some s -> working l -> opened_proper bk s -> inv bk ∅ s.
Proof. intros E W O. by destruct (exec_inv bk ∅ l (start ∅) s E (inv_start bk ∅) W O). Qed.

Lemma dead_stays a k l c : c = (false, None) -> Opened a ∉ l -> fold_left (cell_after a k) l c = (false, None).
Proof.
  revert c. induction l as [|e l IH]; intros c -> Hn; [done|]. simpl. apply IH; [|set_solver].
  destruct e; simpl; repeat case_match; try done; [|by rewrite andb_false_r in *].
  rewrite bool_decide_eq_true in *. subst. exfalso. set_solver.
Qed.
Lemma dropped_value z t p o k l1 l2 : Opened (Session z t p o) ∉ l2 -> value (Session z t p o) k (l1 ++ Dropped z t :: l2) = None.
Proof.
  intros H. unfold value, cell. rewrite fold_left_app. simpl. rewrite !bool_decide_eq_true_2 by done. simpl. by rewrite dead_stays.
Qed.
Lemma drop_others bk r s t z tab s' n h k : inv bk r s -> exec bk s [Begin t (CDrop z tab) false] = Some s' ->
  handles s !! n = Some h -> of_tab z tab (h_area h) = false ->
  get_item false (h_inner h) k (st s') = get_item false (h_inner h) k (st s).
Proof.
  intros I E Hn Ht. assert (held bk s h) as [F _] by (by eapply (inv_handles bk r s I), elem_of_list_lookup_2).
  simpl in E. unfold begin in E. destruct (threads s !! t); [done|]. injection E as <-. simpl.
  rewrite !(get_shown bk _ _ (h_area h)); [|done|by eapply fits_mono; [|done]].
  destruct (drop_shown bk (st s) z tab (h_area h)) as (_ & _ & _ & ->). by rewrite Ht.
Qed.
