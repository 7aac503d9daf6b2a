(** Proofs about the cascade. *)
From stdpp Require Import gmap.
From Verif Require Import Base Text SettingsModel DomModel SelectorModel SelectorSpec SyntaxModel SyntaxSpec SyntaxProofs CascadeModel CascadeSpec.

(** ** Two runs of the matcher side by side *)
Definition alike {A} (R : fixlist -> fixlist -> Prop) (x y : res (A * fixlist)) : Prop :=
  match x, y with
  | Ok (a, s), Ok (b, e) => a = b /\ R s e
  | Panic, Panic | Diverge, Diverge => True
  | _, _ => False
  end.
Lemma alike_ok {A} (R : fixlist -> fixlist -> Prop) (a : A) s e : R s e -> alike R (Ok (a, s)) (Ok (a, e)).
Proof. done. Qed.
Lemma alike_bind {A B} (R : fixlist -> fixlist -> Prop) (x y : res (A * fixlist)) (f g : A * fixlist -> res (B * fixlist)) :
  alike R x y -> (forall a s e, R s e -> alike R (f (a, s)) (g (a, e))) -> alike R (rbind x f) (rbind y g).
Proof. destruct x as [[a s]| |], y as [[b e]| |]; simpl; try done. intros [-> H] Hf. by apply Hf. Qed.

Lemma any_parts (l : list (str * list nat)) : Forall (fun _ => True) l.
Proof. by induction l; constructor. Qed.
Section alike.
(** [R] survives the three things that happen to the list: a counter goes up, a longhand is entered, and the list is put back *)
Context (nm : str) (P : str -> Prop) (R : fixlist -> fixlist -> Prop).
Context (R_count : forall s e, R s e -> count_of (f_counts s) nm = count_of (f_counts e) nm).
Context (R_up : forall n s e, P n -> R s e -> R (mk_fix (f_list s) (counts_up (f_counts s) nm) (f_info s)) (mk_fix (f_list e) (counts_up (f_counts e) nm) (f_info e))).
Context (R_insert : forall s e n v, P n -> R s e -> R (insert n v s) (insert n v e)).
Context (fits : str -> str -> value -> bool).

Definition named (r : option resolver) : Prop := match r with Some r => r_name r = nm /\ Forall (fun p => P p.1) (r_parts r) | None => True end.
Definition steady (f : run) : Prop := forall input r s e, named r -> R s e -> alike R (f input r s) (f input r e).

Lemma R_complete ns vs s e : Forall P ns -> R s e -> R (complete ns vs s) (complete ns vs e).
Proof. unfold complete. revert s e. induction ns as [|n ns IH]; simpl; [done|]. intros s e [Hn Hns]%Forall_cons H. apply IH; [done|]. by apply R_insert. Qed.
Lemma finished_P idx l : Forall (fun p => P p.1) l -> Forall P (finished idx l).
Proof.
  unfold finished. induction 1 as [|p l Hp _ IH]; simpl; [constructor|]. destruct (step_complete p idx) as [[?|]|]; [done| |done]. by constructor.
Qed.
Lemma going_on_P idx l : Forall (fun p => P p.1) l -> Forall (fun p => P p.1) (going_on idx l).
Proof.
  unfold going_on. induction 1 as [|p l Hp _ IH]; simpl; [constructor|]. unfold step_complete at 1. destruct (p.2) as [|j path]; [done|].
  destruct (j =? idx); [|done]. destruct path; [done|]. by constructor.
Qed.
Lemma get_names_P m l k ns : Forall P l -> get_names m l k = Some ns -> Forall P ns.
Proof.
  intros H. assert (K : forall j ns, ((fun n : str => [n]) <$> l !! j) = Some ns -> Forall P ns).
  { intros j ns' (n&Hn&->)%fmap_Some. constructor; [|constructor]. rewrite Forall_lookup in H. by eapply H. }
  destruct m; simpl; try done; [apply K| |].
  - destruct k as [|[|[|[|k]]]]; [by intros [= <-]| |apply K|apply K|done].
    destruct l as [|x [|a [|b l]]]; try done. intros [= <-]. rewrite !Forall_cons in *. split_and!; try tauto. constructor.
  - destruct (decide (k = 0)); [by intros [= <-]|apply K].
Qed.
Lemma stepped_steady f cl idx input r s e : steady f -> named r -> R s e ->
  alike R (stepped f cl idx input r s) (stepped f cl idx input r e).
Proof.
  intros F Hr H. unfold stepped. destruct r as [r|]; [|by apply F]. destruct Hr as [Hr Hp].
  unfold step. rewrite Hr, (R_count _ _ H). pose proof (finished_P idx _ Hp) as Hd. pose proof (going_on_P idx _ Hp) as Hg.
  destruct (finished idx (r_parts r)) as [|n ns] eqn:Ef.
  - destruct (match r_spread r with QuadMulti | DuoMulti | NextProp => true | _ => false end).
    + destruct (_ ++ _) eqn:Eg; [by apply F|]. apply F; [|done]. split; [done|]. simpl. rewrite <- Eg. by apply Forall_app.
    + destruct (going_on _ _); [by apply F|]. by apply F.
  - destruct (match r_spread r with QuadMulti | DuoMulti | NextProp => true | _ => false end).
    + destruct (get_names _ _ _) as [names|] eqn:En; [|by apply F].
      eapply alike_bind; [apply F; [done|apply (R_up n); [by apply Forall_cons in Hd as [? _]|done]]|]. intros m s1 e1 H1. cbv beta iota.
      destruct (cl m); apply alike_ok; [apply R_complete; [by eapply get_names_P|done]|done].
    + eapply alike_bind; [apply F; [done|exact H]|]. intros m s1 e1 H1. cbv beta iota.
      destruct (cl m); apply alike_ok; [apply R_complete; [|done]|done]. constructor; [|constructor]. by apply Forall_cons in Hd as [? _].
Qed.
Lemma try_all_steady l : Forall (fun x => steady (ru_run x)) l -> forall idx input r s e, named r -> R s e ->
  alike R (try_all l idx input r s) (try_all l idx input r e).
Proof.
  induction 1 as [|x l Hx _ IH]; intros idx input r s e Hr H; simpl; [by apply alike_ok|].
  eapply alike_bind; [by apply stepped_steady|]. intros m s1 e1 H1.
  eapply alike_bind; [by apply IH|]. intros ms s2 e2 H2. simpl. by apply alike_ok.
Qed.
Lemma exactly_one_steady l : Forall (fun x => steady (ru_run x)) l -> steady (exactly_one l).
Proof.
  intros F input r s e Hr H. unfold exactly_one. destruct input as [|v input]; [by apply alike_ok|].
  eapply alike_bind; [by apply try_all_steady|]. intros ms s1 e1 H1. simpl. by apply alike_ok.
Qed.
Lemma scan_steady all l : Forall (fun x => steady (ru_run x.2)) l -> forall used input r s e, named r -> R s e ->
  alike R (scan all l used input r s) (scan all l used input r e).
Proof.
  induction 1 as [|[i x] l Hx _ IH]; intros used input r s e Hr H; simpl; [by apply alike_ok|].
  case_bool_decide; [by apply IH|].
  eapply alike_bind; [by apply stepped_steady|]. intros m s1 e1 H1. cbv beta iota.
  destruct (claim _ _ _ _); [by apply alike_ok|by apply IH].
Qed.
Lemma claims_steady fuel all l : Forall (fun x => steady (ru_run x.2)) l -> forall used input vals r s e, named r -> R s e ->
  alike R (claims fuel all l used input vals r s) (claims fuel all l used input vals r e).
Proof.
  intros F. induction fuel as [|fuel IH]; intros used input vals r s e Hr H; simpl; [done|].
  destruct input as [|v input]; [by apply alike_ok|].
  eapply alike_bind; [by apply scan_steady|]. intros [[i m]|] s1 e1 H1; simpl; [by apply IH|by apply alike_ok].
Qed.
Lemma pass_steady all l : Forall (fun x => steady (ru_run x.2)) l -> steady (any_order_pass all l).
Proof.
  intros F input r s e Hr H. unfold any_order_pass.
  eapply alike_bind; [by apply claims_steady|]. intros [[used rest] vals] s1 e1 H1. simpl. by apply alike_ok.
Qed.
Lemma best_steady l all : Forall (Forall (fun x => steady (ru_run x.2))) l -> forall input b s e, R s e ->
  alike R (best l all input b s) (best l all input b e).
Proof.
  induction 1 as [|o l Ho _ IH]; intros input b s e H; cbn [best]; [by apply alike_ok|].
  eapply alike_bind; [by apply pass_steady|]. intros m s1 e1 H1. cbv beta iota.
  destruct (negb (m_ok m)); [by apply IH|]. destruct (m_rest m); [by apply alike_ok|by apply IH].
Qed.
Lemma any_order_steady all l : Forall (fun x => steady (ru_run x)) l -> steady (any_order all l).
Proof.
  intros F input r s e Hr H. unfold any_order.
  assert (F' : Forall (fun x => steady (ru_run x.2)) (imap pair l)).
  { apply Forall_lookup. intros i x Hi. rewrite list_lookup_imap in Hi. apply fmap_Some in Hi as (y&Hy&->). simpl. by eapply Forall_lookup in F. }
  destruct r as [r|]; [by apply pass_steady|]. apply best_steady; [|done].
  unfold rotations. apply Forall_fmap. apply Forall_forall. intros k _. simpl. apply Forall_app. split; [by apply Forall_drop|by apply Forall_take].
Qed.
Lemma in_turn_steady l : Forall (fun x => steady (ru_run x)) l -> forall idx input vals pc r s e, named r -> R s e ->
  alike R (in_turn l idx input vals pc r s) (in_turn l idx input vals pc r e).
Proof.
  induction 1 as [|x l Hx _ IH]; intros idx input vals pc r s e Hr H; cbn [in_turn]; [by apply alike_ok|].
  eapply alike_bind; [by apply stepped_steady|]. intros m s1 e1 H1. cbv beta iota.
  destruct (m_ok m); [by apply IH|]. destruct (ru_comma x); [|by apply alike_ok].
  destruct (negb pc); [by apply IH|]. destruct (_ && _); by apply alike_ok.
Qed.
Lemma repeated_steady fuel once full raw : steady once -> forall input cnt vals r s e, named r -> R s e ->
  alike R (repeated fuel once full raw input cnt vals r s) (repeated fuel once full raw input cnt vals r e).
Proof.
  intros F. induction fuel as [|fuel IH]; intros input cnt vals r s e Hr H; cbn [repeated]; [done|].
  destruct input as [|v input]; [by apply alike_ok|].
  eapply alike_bind; [by apply F|]. intros m s1 e1 H1. cbv beta iota.
  destruct (m_ok m); [destruct (full (S cnt))|destruct (full cnt)]; try by apply alike_ok; try by apply IH.
  - by apply IH.
  - destruct (m_rest m); [by apply alike_ok|by apply IH].
Qed.
Lemma commas_steady fuel item lo hi raw : steady item -> forall input cnt vals r s e, named r -> R s e ->
  alike R (commas fuel item lo hi raw input cnt vals r s) (commas fuel item lo hi raw input cnt vals r e).
Proof.
  intros F. induction fuel as [|fuel IH]; intros input cnt vals r s e Hr H; cbn [commas]; [done|].
  eapply alike_bind; [by apply F|]. intros m s1 e1 H1. cbv beta iota.
  destruct (negb (m_ok m)); [by apply alike_ok|]. destruct (after_comma (m_rest m)) as [[|]|]; [by apply alike_ok|by apply IH|by apply alike_ok].
Qed.
Lemma multiplied_steady ms once : steady once -> steady (with_multipliers ms once).
Proof.
  intros F input r s e Hr H. unfold with_multipliers.
  assert (FI : steady (fun input r s => repeated (S (S (length input + bound (primary ms)))) once (fulfilled (primary ms)) input input 0 [] r s)).
  { intros input' r' s' e' Hr' H'. by apply repeated_steady. }
  destruct (comma_bounds ms) as [[lo hi]|]; [by apply commas_steady|by apply FI].
Qed.
Lemma single_steady ok : steady (single ok).
Proof. intros input r s e Hr H. unfold single. destruct input; by apply alike_ok. Qed.
Lemma group_steady k l : Forall (fun x => steady (ru_run x)) l -> steady (run_group k l).
Proof.
  intros F. unfold run_group. destruct k; intros input r s e Hr H.
  - by apply in_turn_steady.
  - by apply any_order_steady.
  - by apply any_order_steady.
  - by apply exactly_one_steady.
Qed.
Lemma match_steady c : steady (match_component fits c).
Proof.
  induction c as [s ms|s ms|n ms|n a ms IH|s q0 rg0 ms|ms|ms|ms|s ms|t rg ms|k cs ms IH] using component_ind'; simpl; apply multiplied_steady;
    try apply single_steady; try (intros input r s' e' Hr H; by apply alike_ok); try (intros input r s' e' Hr H; exact I).
  - intros input r s' e' Hr H. destruct input as [|v input]; [by apply alike_ok|]. destruct v; try by apply alike_ok.
    destruct (negb _); by apply alike_ok.
  - intros input r s' e' Hr H. destruct input as [|v input]; [by apply alike_ok|]. destruct v; try by apply alike_ok.
    destruct (negb _); [by apply alike_ok|].
    eapply alike_bind; [by apply IH|]. intros m s1 e1 H1. cbv beta iota. by apply alike_ok.
  - apply group_steady. apply Forall_fmap. exact IH.
Qed.
Lemma tree_steady cs input r s e : named r -> R s e -> alike R (tree_matches fits cs input r s) (tree_matches fits cs input r e).
Proof.
  intros Hr H. unfold tree_matches. destruct cs as [|c more]; [by apply alike_ok|].
  destruct (_ || _); [by apply alike_ok|]. destruct more; [|done].
  eapply alike_bind; [by apply match_steady|]. intros m s1 e1 H1. cbv beta iota. by apply alike_ok.
Qed.
End alike.

(** ** The list of longhands, shared or alone *)
Definition merge (l w : list (str * decl)) : list (str * decl) := foldl (fun l x => put l x.1 x.2) l w.
Definition same_rank (a b : decl) : Prop := dc_origin a = dc_origin b /\ dc_important a = dc_important b /\ dc_spec a = dc_spec b.
Lemma decl_cmp_same a b : same_rank a b -> decl_cmp a b = Eq.
Proof.
  intros (Ho&Hi&Hs). unfold decl_cmp, priority. rewrite Ho, Hi, Hs, N.compare_refl. unfold spec_cmp.
  destruct (dc_spec b) as [[x y] z]. by rewrite !N.compare_refl.
Qed.
Lemma decl_cmp_rank a a' b : same_rank a a' -> decl_cmp a b = decl_cmp a' b.
Proof. intros (Ho&Hi&Hs). unfold decl_cmp, priority. by rewrite Ho, Hi, Hs. Qed.
Lemma put_keys l n d : n ∈ l.*1 -> (put l n d).*1 = l.*1.
Proof.
  induction l as [|[k e] l IH]; simpl; [by intros ?%elem_of_nil|]. intros H. case_bool_decide as Hk; [done|]. simpl. f_equal. apply IH.
  apply elem_of_cons in H as [->|H]; [done|done].
Qed.
Lemma put_new l n d : n ∉ l.*1 -> put l n d = l ++ [(n, d)].
Proof.
  induction l as [|[k e] l IH]; simpl; [done|]. intros [Hk Hl]%not_elem_of_cons. rewrite bool_decide_eq_false_2 by congruence. by rewrite IH.
Qed.
Lemma put_swap l n d m x : n <> m -> n ∈ l.*1 -> put (put l m x) n d = put (put l n d) m x.
Proof.
  intros Hnm. induction l as [|[k e] l IH]; simpl; [by intros ?%elem_of_nil|]. intros H.
  destruct (decide (k = m)) as [Hm|Hm], (decide (k = n)) as [Hn|Hn].
  - congruence.
  - subst k. rewrite !(bool_decide_eq_true_2 (m = m)) by done. simpl. rewrite (bool_decide_eq_false_2 (m = n)) by done. simpl.
    by rewrite (bool_decide_eq_true_2 (m = m)).
  - subst k. rewrite (bool_decide_eq_false_2 (n = m)) by done. simpl. rewrite !(bool_decide_eq_true_2 (n = n)) by done. simpl.
    by rewrite (bool_decide_eq_false_2 (n = m)).
  - rewrite (bool_decide_eq_false_2 (k = m)) by done. simpl. rewrite !(bool_decide_eq_false_2 (k = n)) by done. simpl.
    rewrite (bool_decide_eq_false_2 (k = m)) by done. f_equal. apply IH. apply elem_of_cons in H as [->|H]; [done|done].
Qed.
Lemma put_over l n e d : same_rank d e -> put (put l n e) n d = put l n d.
Proof.
  intros Hr. induction l as [|[k x] l IH]; simpl.
  - rewrite bool_decide_eq_true_2 by done. by rewrite (decl_cmp_same d e Hr).
  - case_bool_decide as Hk; simpl.
    + rewrite bool_decide_eq_true_2 by done. f_equal. f_equal.
      rewrite (decl_cmp_rank d e x Hr). destruct (decl_cmp e x) eqn:E; rewrite ?(decl_cmp_same d e Hr); try done.
      by rewrite (decl_cmp_rank d e x Hr), E.
    + rewrite bool_decide_eq_false_2 by done. by rewrite IH.
Qed.
Lemma merge_put l n d w : n ∈ l.*1 -> n ∉ w.*1 -> put (merge l w) n d = merge (put l n d) w.
Proof.
  revert l. induction w as [|[m x] w IH]; intros l Hl Hw; simpl; [done|].
  simpl in Hw. apply not_elem_of_cons in Hw as [Hm Hw]. unfold merge in *. simpl. rewrite IH; [|..|done].
  - by rewrite put_swap.
  - destruct (decide (m ∈ l.*1)) as [H|H]; [by rewrite put_keys|]. rewrite put_new by done. rewrite fmap_app. set_solver.
Qed.
Lemma merge_app l w w' : merge l (w ++ w') = merge (merge l w) w'.
Proof. apply foldl_app. Qed.
Lemma put_split w n d : NoDup w.*1 -> n ∈ w.*1 -> exists w1 e w2, w = w1 ++ (n, e) :: w2 /\ n ∉ w1.*1 /\ n ∉ w2.*1 /\
  put w n d = w1 ++ (n, match decl_cmp d e with Lt => e | _ => d end) :: w2.
Proof.
  induction w as [|[k x] w IH]; simpl; [by intros _ ?%elem_of_nil|]. intros [Hk Hw]%NoDup_cons H.
  destruct (decide (k = n)) as [->|Hn].
  - exists [], x, w. rewrite bool_decide_eq_true_2 by done. split_and!; try done. apply not_elem_of_nil.
  - rewrite bool_decide_eq_false_2 by done. apply elem_of_cons in H as [->|H]; [done|].
    destruct (IH Hw H) as (w1&e&w2&->&H1&H2&E). exists ((k, x) :: w1), e, w2. simpl. rewrite E. split_and!; try done.
    apply not_elem_of_cons. done.
Qed.
Lemma put_key l n d : n ∈ (put l n d).*1.
Proof.
  destruct (decide (n ∈ l.*1)) as [H|H]; [by rewrite put_keys|]. rewrite put_new by done. rewrite fmap_app. set_solver.
Qed.
Lemma put_NoDup l n d : NoDup l.*1 -> NoDup (put l n d).*1.
Proof.
  intros H. destruct (decide (n ∈ l.*1)) as [Hn|Hn]; [by rewrite put_keys|]. rewrite put_new by done. rewrite fmap_app. simpl.
  apply NoDup_app. split_and!; [done| |apply NoDup_singleton]. intros x Hx ->%elem_of_list_singleton. done.
Qed.

(** a run for a declaration beside a run from scratch *)
Definition bare (v : value) : decl := mk_decl v Author false [] (0, 0, 0)%N.
Definition tag (i : info) (v : value) : decl := mk_decl v (i_origin i) (i_important i) (i_location i) (i_spec i).
Definition beside (nm : str) (base : list (str * decl)) (i : info) (s e : fixlist) : Prop :=
  f_info s = Some i /\ f_info e = None /\ count_of (f_counts s) nm = count_of (f_counts e) nm /\
  exists w : list (str * value), NoDup w.*1 /\ f_list e = map (fun x => (x.1, bare x.2)) w /\ f_list s = merge base (map (fun x => (x.1, tag i x.2)) w).
Lemma count_of_up l n : count_of (counts_up l n) n = S (count_of l n).
Proof.
  unfold counts_up, count_of. destruct (list_find (fun e => e.1 = n) l) as [[i [k c]]|] eqn:E.
  - apply list_find_Some in E as (Hi&Hk&Hb). simpl in Hk. subst k.
    assert (list_find (fun e : str * nat => e.1 = n) (<[i:=(n, S c)]> l) = Some (i, (n, S c))) as ->; [|done].
    apply list_find_Some. split_and!; [|done|].
    + apply list_lookup_insert. by eapply lookup_lt_Some.
    + intros j y Hj Hlt. rewrite list_lookup_insert_ne in Hj by lia. by eapply Hb.
  - assert (list_find (fun e : str * nat => e.1 = n) (l ++ [(n, 1)]) = Some (length l, (n, 1))) as ->; [|done].
    apply list_find_None in E. apply list_find_Some. split_and!; [|done|].
    + by apply list_lookup_middle.
    + intros j y Hj Hlt. rewrite lookup_app_l in Hj by done. rewrite Forall_lookup in E. by eapply E.
Qed.
Lemma count_of_reset l n : count_of (filter (fun e => e.1 <> n) l) n = 0.
Proof.
  unfold count_of. destruct (list_find _ _) as [[i [k c]]|] eqn:E; [|done]. apply list_find_Some in E as (Hi&Hk&_).
  apply elem_of_list_lookup_2, elem_of_list_filter in Hi as [Hn _]. done.
Qed.
Lemma map_keys {A B} (g : A -> B) (w : list (str * A)) : (map (fun x => (x.1, g x.2)) w).*1 = w.*1.
Proof. induction w as [|[k x] w IH]; simpl; [done|]. by f_equal. Qed.
Lemma beside_insert nm base i s e n v : beside nm base i s e -> beside nm base i (insert n v s) (insert n v e).
Proof.
  intros (Hs&He&Hc&w&Hw&Ee&Es). unfold insert, get_declaration. rewrite Hs, He. simpl. split_and!; [done..|].
  destruct (decide (n ∈ w.*1)) as [Hn|Hn].
  - assert (exists w1 u w2, w = w1 ++ (n, u) :: w2 /\ n ∉ w1.*1 /\ n ∉ w2.*1) as (w1&u&w2&->&H1&H2).
    { apply elem_of_list_fmap in Hn as ([k u]&->&Hn). apply elem_of_list_split in Hn as (w1&w2&->). exists w1, u, w2.
      rewrite fmap_app in Hw. simpl in Hw. apply NoDup_app in Hw as (_&H&[H2 _]%NoDup_cons). split_and!; [done| |done].
      intros Hin. apply (H _ Hin). by left. }
    exists (w1 ++ (n, v) :: w2). split_and!.
    + rewrite fmap_app in *. done.
    + rewrite Ee, !map_app. simpl. clear - H1. induction w1 as [|[k x] w1 IH]; simpl.
      * rewrite bool_decide_eq_true_2 by done. done.
      * simpl in H1. apply not_elem_of_cons in H1 as [Hk H1]. rewrite bool_decide_eq_false_2 by congruence. by rewrite IH.
    + rewrite Es, !map_app. simpl. rewrite !merge_app. unfold merge at 1 3. simpl. fold (merge (put (merge base (map (fun x => (x.1, tag i x.2)) w1)) n (tag i u)) (map (fun x => (x.1, tag i x.2)) w2)).
      fold (merge (put (merge base (map (fun x => (x.1, tag i x.2)) w1)) n (tag i v)) (map (fun x => (x.1, tag i x.2)) w2)).
      rewrite merge_put; [|apply put_key|by rewrite map_keys]. f_equal. by apply put_over.
  - exists (w ++ [(n, v)]). split_and!.
    + rewrite fmap_app. apply NoDup_app. split_and!; [done| |apply NoDup_singleton]. intros x Hx ->%elem_of_list_singleton. done.
    + rewrite Ee, map_app. apply put_new. by rewrite map_keys.
    + rewrite Es, map_app, merge_app. done.
Qed.
Lemma beside_up nm base i s e : beside nm base i s e ->
  beside nm base i (mk_fix (f_list s) (counts_up (f_counts s) nm) (f_info s)) (mk_fix (f_list e) (counts_up (f_counts e) nm) (f_info e)).
Proof. intros (Hs&He&Hc&w&Hw). unfold beside. simpl. rewrite !count_of_up, Hc. eauto 10. Qed.

Section cascade.
Context (lower : str -> str) (fits : str -> str -> value -> bool) (show : value -> str) (parse : str -> value)
  (math : str -> list value -> option value) (round : N -> N) (white : N -> bool).
Context (definitions : str -> option definition).

(** a shorthand sets the same longhands whatever was declared before *)
Lemma expand_alone df v i n f b f' : (forall r, df_shorthand df = Some r -> r_name r = n) ->
  expand fits df (to_slice v) (fresh i n f) = Ok (b, f') ->
  fits_grammar fits df v = b /\ f_list f' = merge (f_list f) (map (fun e => (e.1, tag i e.2)) (expansion fits df v)).
Proof.
  intros Hn E. unfold expand in E. unfold fits_grammar, expansion.
  assert (S : forall r, named n (fun _ => True) r -> alike (beside n (f_list f) i) (tree_matches fits (df_grammar df) (to_slice v) r (fresh i n f))
                (tree_matches fits (df_grammar df) (to_slice v) r no_fix)).
  { intros r Hr. apply (tree_steady n (fun _ => True)); [..|done|].
    - by intros s e (_&_&H&_).
    - intros _ s e _. apply beside_up.
    - intros ? ? ? ? _. apply beside_insert.
    - split_and!; [done|done| |]; [by simpl; rewrite count_of_reset|]. exists []. split_and!; [constructor|done|done]. }
  destruct (df_shorthand df) as [r|].
  - specialize (S (Some r) (conj (Hn r eq_refl) (any_parts _))). rewrite E in S. destruct (tree_matches _ _ _ _ no_fix) as [[b' e]| |]; [|done|done].
    destruct S as [-> (_&_&_&w&_&Ee&Es)]. split; [done|]. by rewrite Es, Ee, !map_map.
  - specialize (S None I). destruct (tree_matches fits (df_grammar df) (to_slice v) None (fresh i n f)) as [[b1 f1]| |]; simpl in E; [|done|done].
    injection E as -> <-. destruct (tree_matches _ _ _ _ no_fix) as [[b' e]| |]; [|done|done]. destruct S as [-> _]. done.
Qed.

(** ** What one declaration does *)
Definition pushes (m : pmap) (l : list (str * decl)) : pmap := foldl (fun m e => push e.1 e.2 m) m l.
Lemma pushes_app m l l' : pushes m (l ++ l') = pushes (pushes m l) l'.
Proof. apply foldl_app. Qed.
Definition applying : Type := sheet * specificity * declaration.
Definition offered (say : applying -> list (str * value)) (l : list applying) : list (str * decl) :=
  x ← l; map (fun e => (e.1, offer x e.2)) (say x).
Definition effect (d : doc) (i : nat) (m : customs) (l : list applying) (st st' : state) : Prop :=
  st'.1 = pushes st.1 (offered (says_directly fits show parse math definitions d i m) l) /\
  f_list st'.2 = merge (f_list st.2) (offered (says_as_shorthand fits show parse math definitions d i m) l).
Lemma offered_app say l l' : offered say (l ++ l') = offered say l ++ offered say l'.
Proof. apply bind_app. Qed.
Lemma effect_nil d i m st : effect d i m [] st st.
Proof. done. Qed.
Lemma effect_app d i m l l' st st1 st2 : effect d i m l st st1 -> effect d i m l' st1 st2 -> effect d i m (l ++ l') st st2.
Proof. intros [P1 F1] [P2 F2]. split; rewrite offered_app; [by rewrite pushes_app, <- P1|by rewrite merge_app, <- F1]. Qed.
Lemma declare_effect d i m s sp x st st' : well_named definitions ->
  declare fits show parse math definitions d i m s sp x st = Ok st' -> effect d i m [(s, sp, x)] st st'.
Proof.
  intros Hw. destruct x as [[name v] imp], st as [pm f]. unfold declare, effect, offered, says_directly, says_as_shorthand, final. simpl.
  rewrite !app_nil_r. destruct (is_custom name); [by intros [= <-]|].
  set (u := normalize (resolve_functions show parse math v d i m)).
  destruct (decide (name = txt "content")) as [Hc|Hc]; [rewrite bool_decide_eq_true_2 by done|rewrite bool_decide_eq_false_2 by done].
  { by intros [= <-]. }
  destruct (definitions name) as [df|] eqn:Hdf; [|by intros [= <-]].
  destruct (expand _ _ _ _) as [[ok f1]| |] eqn:Ex; cbn [rbind]; [|done|done].
  apply expand_alone in Ex as [-> Ef]; [|intros r Hr; by eapply Hw].
  destruct ok; [intros [= <-]; split; [done|exact Ef]|].
  destruct (decide (name = txt "background")) as [Hb|Hb]; [rewrite bool_decide_eq_true_2 by done|rewrite bool_decide_eq_false_2 by done];
    intros [= <-]; (split; [|exact Ef]); [|done].
  rewrite map_app. destruct (match find_value is_url u with Some _ => _ | None => _ end), (find_value is_colour u); done.
Qed.
Lemma declares_effect d i m s sp l st st' : well_named definitions ->
  loop (declare fits show parse math definitions d i m s sp) l st = Ok st' -> effect d i m (map (fun y => (s, sp, y)) l) st st'.
Proof.
  intros Hw. revert st. induction l as [|x l IH]; simpl; intros st E; [injection E as <-; apply effect_nil|].
  destruct (declare _ _ _ _ _ _ _ _ _ _ _ st) as [st1| |] eqn:E1; simpl in E; [|done|done].
  change (effect d i m ([(s, sp, x)] ++ map (fun y => (s, sp, y)) l) st st'). eapply effect_app; [by apply declare_effect|by apply IH].
Qed.
Lemma applied_selectors d i sheets pseudo : applied lower d i sheets pseudo =
  '(s, r, x) ← selectors_of sheets;
  match match_selector lower d i x pseudo with Ok (true, sp) => map (fun y => (s, sp, y)) (rl_declarations r) | _ => [] end.
Proof.
  unfold applied, selectors_of.
  induction sheets as [|s sheets IH]; [done|]. simpl. rewrite bind_app. f_equal; [|exact IH]. clear IH.
  induction (sh_rules s) as [|r rs IH]; [done|]. simpl. rewrite bind_app. f_equal; [|exact IH]. clear IH.
  induction (rl_selectors r) as [|x xs IH]; [done|]. simpl. f_equal. exact IH.
Qed.
Lemma visits_effect d i m sheets pseudo st st' : well_named definitions ->
  loop (visit lower fits show parse math definitions d i m pseudo) (selectors_of sheets) st = Ok st' ->
  effect d i m (applied lower d i sheets pseudo) st st'.
Proof.
  intros Hw. rewrite applied_selectors. revert st. induction (selectors_of sheets) as [|[[s r] x] l IH]; intros st E; simpl in E; [injection E as <-; apply effect_nil|].
  cbn [mbind list_bind]. destruct (match_selector lower d i x pseudo) as [[b sp]| |]; cbn [rbind] in E; [|done|done].
  destruct b; [|by apply IH].
  destruct (loop (declare _ _ _ _ _ _ _ _ _ _) (rl_declarations r) st) as [st1| |] eqn:E1; cbn [rbind] in E; [|done|done].
  eapply effect_app; [by apply declares_effect|by apply IH].
Qed.
End cascade.

(** ** The list of each property *)
Definition for_prop (p : str) (l : list (str * decl)) : list decl := (filter (fun e => e.1 = p) l).*2.
Lemma for_prop_app p l l' : for_prop p (l ++ l') = for_prop p l ++ for_prop p l'.
Proof. unfold for_prop. by rewrite filter_app, fmap_app. Qed.
Lemma for_prop_cons p k e l : for_prop p ((k, e) :: l) = if decide (k = p) then e :: for_prop p l else for_prop p l.
Proof. unfold for_prop. rewrite filter_cons. simpl. by destruct (decide (k = p)). Qed.
Lemma for_prop_none p l : p ∉ l.*1 -> for_prop p l = [].
Proof.
  induction l as [|[k e] l IH]; [done|]. simpl. intros [Hk Hl]%not_elem_of_cons. rewrite for_prop_cons. rewrite decide_False by congruence. by apply IH.
Qed.
Lemma pmap_insert (m : pmap) k (l : list decl) : <[k := l]> m !! k = Some l.
Proof. apply lookup_insert. Qed.
Lemma pmap_empty k : (∅ : pmap) !! k = None.
Proof. apply lookup_empty. Qed.
Lemma pmap_insert_ne (m : pmap) k j (l : list decl) : k <> j -> <[k := l]> m !! j = m !! j.
Proof. apply lookup_insert_ne. Qed.
Lemma pushes_lookup m l p : pushes m l !! p = match for_prop p l with [] => m !! p | ds => Some (declared m p ++ ds) end.
Proof.
  revert m. induction l as [|[k e] l IH]; intros m; [done|]. rewrite for_prop_cons. unfold pushes in *. simpl. rewrite IH.
  unfold push, declared at 1. case_decide as Hk.
  - subst k. unfold declared. rewrite !pmap_insert. simpl. destruct (for_prop p l); [done|]. by rewrite <- app_assoc.
  - unfold declared. rewrite !pmap_insert_ne by done. done.
Qed.
Definition mx (b x : decl) : decl := match decl_cmp x b with Lt => b | _ => x end.
Lemma max_decl_snoc l d : max_decl (l ++ [d]) = Some (match max_decl l with None => d | Some b => mx b d end).
Proof. destruct l as [|x l]; [done|]. simpl. by rewrite foldl_app. Qed.
Lemma merge_NoDup l w : NoDup l.*1 -> NoDup (merge l w).*1.
Proof. revert l. induction w as [|[n d] w IH]; intros l H; [done|]. unfold merge in *. simpl. apply IH. by apply put_NoDup. Qed.
Lemma for_prop_put p l n d : NoDup l.*1 ->
  for_prop p (put l n d) = if decide (n = p) then [match for_prop p l with e :: _ => mx e d | [] => d end] else for_prop p l.
Proof.
  induction l as [|[k e] l IH]; intros H; simpl.
  - rewrite for_prop_cons. by case_decide.
  - simpl in H. apply NoDup_cons in H as [Hk H]. case_bool_decide as Hn.
    + subst k. rewrite !for_prop_cons. case_decide; [|done]. subst n. rewrite for_prop_none by done. done.
    + rewrite !for_prop_cons. rewrite IH by done. destruct (decide (k = p)), (decide (n = p)); congruence.
Qed.
Lemma for_prop_merge p w : for_prop p (merge [] w) = option_list (max_decl (for_prop p w)).
Proof.
  induction w as [|[n d] w IH] using rev_ind; [done|]. rewrite merge_app. unfold merge at 1. simpl.
  rewrite for_prop_put by (apply merge_NoDup; constructor). rewrite IH, for_prop_app, for_prop_cons. case_decide.
  - rewrite max_decl_snoc. destruct (max_decl (for_prop p w)); done.
  - by rewrite app_nil_r.
Qed.

(** ** Ranks *)
Definition rank_lt (a b : decl) : Prop :=
  (priority a < priority b)%N \/ (priority a = priority b /\ less_specific (dc_spec a) (dc_spec b)).
Lemma spec_cmp_lt x y : spec_cmp x y = Lt <-> less_specific x y.
Proof.
  destruct x as [[a b] c], y as [[a' b'] c']. unfold spec_cmp, less_specific. simpl.
  destruct (N.compare_spec a a'); [destruct (N.compare_spec b b'); [destruct (N.compare_spec c c')|..]|..]; split; intros H'; try done; try lia.
Qed.
Lemma decl_cmp_lt a b : decl_cmp a b = Lt <-> rank_lt a b.
Proof.
  unfold decl_cmp, rank_lt. rewrite <- spec_cmp_lt. destruct (N.compare_spec (priority a) (priority b)) as [E|E|E]; split.
  - intros H. by right.
  - intros [H|[_ H]]; [lia|done].
  - intros _. by left.
  - done.
  - done.
  - intros [H|[H _]]; lia.
Qed.
Lemma outranks_lt a b : outranks a b <-> rank_lt b a.
Proof.
  assert (K : forall d, exists k, stands_at k d /\ (forall j, stands_at j d -> j = k) /\ priority d = (if Nat.ltb k 3 then N.of_nat k + 1 else N.of_nat k + 2)%N).
  { intros [v [] [] l sp]; [exists 5|exists 0|exists 4|exists 1|exists 3|exists 2]; (split; [done|split; [|done]]);
      intros j Hj; unfold stands_at in Hj; simpl in Hj; do 6 (destruct j as [|j]; [try done|]); done. }
  destruct (K a) as (j&Hj&Uj&Pj), (K b) as (k&Hk&Uk&Pk). unfold outranks, rank_lt. split.
  - intros (j'&k'&Hj'&Hk'&H). rewrite (Uj j' Hj') in H. rewrite (Uk k' Hk') in H. rewrite Pj, Pk.
    destruct H as [H|[-> H]]; [left|by right]. destruct (Nat.ltb_spec j 3), (Nat.ltb_spec k 3); lia.
  - intros H. exists j, k. split_and!; [done|done|]. rewrite Pj, Pk in H.
    destruct H as [H|[H Hs]]; [left; destruct (Nat.ltb_spec j 3), (Nat.ltb_spec k 3); lia|].
    right. split; [|done]. destruct (Nat.ltb_spec j 3), (Nat.ltb_spec k 3); lia.
Qed.
Lemma rank_lt_trans a b c : rank_lt a b -> rank_lt b c -> rank_lt a c.
Proof. unfold rank_lt, less_specific. lia. Qed.
Lemma rank_lt_cotrans a b c : rank_lt a c -> rank_lt a b \/ rank_lt b c.
Proof. unfold rank_lt, less_specific. lia. Qed.
Lemma rank_lt_irrefl a : ~ rank_lt a a.
Proof. unfold rank_lt, less_specific. lia. Qed.
Global Instance rank_lt_dec a b : Decision (rank_lt a b).
Proof. destruct (decl_cmp a b) eqn:E; [right|left|right]; rewrite <- decl_cmp_lt; congruence. Defined.
Lemma mx_spec b x : mx b x = if decide (rank_lt x b) then b else x.
Proof. unfold mx. case_decide as H; [by rewrite (proj2 (decl_cmp_lt x b) H)|]. rewrite <- decl_cmp_lt in H. by destruct (decl_cmp x b). Qed.
Lemma mx_assoc a b c : mx (mx a b) c = mx a (mx b c).
Proof.
  rewrite !mx_spec. destruct (decide (rank_lt b a)) as [H1|H1], (decide (rank_lt c b)) as [H2|H2]; try done;
    repeat case_decide; try done; exfalso.
  - eauto using rank_lt_trans.
  - match goal with H : rank_lt c a |- _ => destruct (rank_lt_cotrans c b a H); done end.
Qed.
Lemma max_decl_app l l' : max_decl (l ++ l') = match max_decl l, max_decl l' with Some a, Some b => Some (mx a b) | None, o => o | o, None => o end.
Proof.
  induction l' as [|d l' IH] using rev_ind; [rewrite app_nil_r; by destruct (max_decl l)|].
  rewrite app_assoc, !max_decl_snoc, IH. destruct (max_decl l), (max_decl l'); try done. by rewrite mx_assoc.
Qed.
Lemma max_decl_wins l c : max_decl l = Some c <-> wins c l.
Proof.
  assert (Fwd : forall l c, max_decl l = Some c -> wins c l).
  { intros m. induction m as [|d m IH] using rev_ind; intros c' E; [done|]. rewrite max_decl_snoc in E. injection E as E.
    destruct (max_decl m) as [b|] eqn:Em.
    - specialize (IH b eq_refl) as (l1&l2&->&H1&H2). rewrite mx_spec in E. destruct (decide (rank_lt d b)) as [Hd|Hd]; subst c'.
      + exists l1, (l2 ++ [d]). rewrite <- app_assoc. split_and!; [done|done|]. apply Forall_app. split; [done|]. constructor; [|constructor].
        by apply outranks_lt.
      + exists (l1 ++ b :: l2), []. split_and!; [done| |constructor]. apply Forall_app. split; [|constructor].
        * eapply Forall_impl; [exact H1|]. intros x Hx. simpl in Hx. rewrite outranks_lt in *. intros H. destruct (rank_lt_cotrans d b x H); done.
        * by rewrite outranks_lt.
        * eapply Forall_impl; [exact H2|]. intros x Hx. rewrite outranks_lt in *. intros H. apply Hd. by eapply rank_lt_trans.
    - subst c'. destruct m as [|x m]; [|done]. exists [], []. split_and!; [done|constructor|constructor]. }
  split; [apply Fwd|]. intros (l1&l2&->&H1&H2).
  destruct (max_decl (l1 ++ c :: l2)) as [b|] eqn:E; [|by destruct l1]. f_equal.
  pose proof (max_decl_app l1 (c :: l2)) as E'. rewrite E in E'. change (c :: l2) with ([c] ++ l2) in E'. rewrite max_decl_app in E'. simpl in E'.
  assert (M2 : match max_decl l2 with Some b => mx c b = c | None => True end).
  { destruct (max_decl l2) as [x|] eqn:Ex; [|done]. apply Fwd in Ex as (m1&m2&->&_). rewrite Forall_app, Forall_cons, outranks_lt in H2.
    destruct H2 as (_&Hx&_). rewrite mx_spec. by rewrite decide_True. }
  assert (M1 : match max_decl l1 with Some a => mx a c = c | None => True end).
  { destruct (max_decl l1) as [x|] eqn:Ex; [|done]. apply Fwd in Ex as (m1&m2&->&_). rewrite Forall_app, Forall_cons, outranks_lt in H1.
    destruct H1 as (_&Hx&_). rewrite mx_spec. by rewrite decide_False. }
  destruct (max_decl l2); rewrite ?M2 in E'; destruct (max_decl l1); rewrite ?M1 in E'; congruence.
Qed.

(** ** The whole *)
Section whole.
Context (lower : str -> str) (fits : str -> str -> value -> bool) (show : value -> str) (parse : str -> value)
  (math : str -> list value -> option value) (round : N -> N) (white : N -> bool).
Context (definitions : str -> option definition).

Lemma for_prop_offered say p l : for_prop p (offered say l) = offers say p l.
Proof.
  unfold offered, offers. induction l as [|x l IH]; [done|]. cbn [mbind list_bind]. rewrite for_prop_app. f_equal; [|exact IH].
  induction (say x) as [|[k v] r IHr]; [done|]. simpl. rewrite for_prop_cons. case_decide; simpl; by rewrite IHr.
Qed.
Lemma offered_names say l k e : (k, e) ∈ offered say l -> exists x y, x ∈ l /\ y ∈ say x /\ y.1 = k.
Proof.
  unfold offered. intros (x&H&Hx)%elem_of_list_bind. apply elem_of_list_In, in_map_iff in H as ([k' v]&[= <- <-]&H).
  exists x, (k', v). split_and!; [done| |done]. by apply elem_of_list_In.
Qed.
Lemma merge_names w k : k ∈ (merge [] w).*1 -> k ∈ w.*1.
Proof.
  induction w as [|[n d] w IH] using rev_ind; [done|]. rewrite merge_app, fmap_app. unfold merge at 1. simpl. intros H.
  destruct (decide (n ∈ (merge [] w).*1)) as [Hn|Hn]; [rewrite put_keys in H by done|rewrite put_new, fmap_app in H by done; simpl in H]; set_solver.
Qed.
Lemma resolve_unnested fuel f : (forall k df, k ∈ (f_list f).*1 -> definitions k = Some df -> is_shorthand df = false) ->
  exists g, resolve_nested fits definitions (S fuel) f = Ok g /\ f_list g = f_list f.
Proof.
  intros H. cbn [resolve_nested].
  assert (List.filter (fun e : str * decl => match definitions e.1 with Some df => is_shorthand df | None => false end) (f_list f) = []) as ->.
  { revert H. induction (f_list f) as [|[k e] l IH]; intros H; [done|]. simpl.
    destruct (definitions k) as [df|] eqn:E; [rewrite (H k df)|]; try done; try (by left); apply IH; intros; eapply H; eauto; by right. }
  simpl. eexists. split; [done|]. simpl. by rewrite app_nil_r.
Qed.
Lemma computed d i sheets pseudo m cs : well_named definitions ->
  collect_customs lower d i sheets = Ok cs ->
  unnested definitions (says_as_shorthand fits show parse math definitions d i cs) (applied lower d i sheets pseudo) ->
  compute_properties lower fits show parse math white definitions d i sheets pseudo = Ok (Some m) ->
  forall p, m !! p = match offers (says_directly fits show parse math definitions d i cs) p (applied lower d i sheets pseudo) ++
                           option_list (max_decl (offers (says_as_shorthand fits show parse math definitions d i cs) p (applied lower d i sheets pseudo))) with
                     | [] => None | ds => Some ds end.
Proof.
  intros Hw Hc Hu E p. unfold compute_properties in E. destruct (match pseudo with None => _ | Some _ => _ end); [done|].
  rewrite Hc in E. cbn [rbind] in E.
  destruct (loop _ _ _) as [[pm f]| |] eqn:El; cbn [rbind] in E; [|done|done].
  apply visits_effect in El as [Epm Ef]; [|done]. simpl in Epm, Ef.
  destruct (resolve_unnested 15 f) as (g&Eg&Hg).
  { intros k df Hk Hdf. rewrite Ef in Hk. apply merge_names in Hk. apply elem_of_list_fmap in Hk as ([k' e]&->&Hk). simpl in Hdf.
    apply offered_names in Hk as (x&y&Hx&Hy&Hyk). eapply Hu; [exact Hx|exact Hy|]. by rewrite Hyk. }
  change nesting with 16 in E. rewrite Eg in E. cbn [rbind] in E. injection E as <-.
  assert (apply_fixes g pm = pushes pm (f_list g)) as ->.
  { unfold apply_fixes, pushes. generalize (f_list g). intros l. revert pm Epm. clear. intros pm _. revert pm. induction l as [|[n x] l IH]; intros pm; [done|]. simpl. apply IH. }
  assert (Z : forall l, pushes ∅ l !! p = match for_prop p l with [] => None | ds => Some ds end).
  { intros l. rewrite pushes_lookup. unfold declared. rewrite pmap_empty. done. }
  rewrite pushes_lookup, Hg, Ef, for_prop_merge, for_prop_offered, Epm. unfold declared. rewrite Z, for_prop_offered.
  destruct (max_decl _) as [b|]; simpl.
  - destruct (offers _ p _); done.
  - destruct (offers _ p _); [done|]. by rewrite app_nil_r.
Qed.
Lemma max_decl_squash l l' : max_decl (l ++ option_list (max_decl l')) = max_decl (l ++ l').
Proof. rewrite !max_decl_app. by destruct (max_decl l'). Qed.
Lemma value_wins l v : match l with [] => None | ds => Some ds end = Some v -> exists c, wins c l /\ max_decl v = Some c.
Proof. destruct l as [|x l]; [done|]. intros [= <-]. destruct (max_decl (x :: l)) as [c|] eqn:E; [|done]. exists c. split; [by apply max_decl_wins|done]. Qed.
End whole.
