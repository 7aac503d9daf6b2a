(** Proofs about the shorthands that repeat one grammar for several longhands. *)
From stdpp Require Import gmap.
From Verif Require Import Base Text SettingsModel DomModel SelectorModel SelectorSpec SyntaxModel SyntaxSpec SyntaxProofs SyntaxEnds CascadeModel CascadeSpec CascadeProofs.

Section box.
Context (fits : str -> str -> value -> bool).

(** without a resolver nothing is entered *)
Lemma match_none c input s m s' : match_component fits c input None s = Ok (m, s') -> s' = s.
Proof.
  intros E. assert (S : alike (fun a b => a = s /\ b = s) (match_component fits c input None s) (match_component fits c input None s)).
  { apply (match_steady [] (fun _ => False)); try done. by intros a b [-> ->]. }
  rewrite E in S. by destruct S as (_&->&_).
Qed.
Lemma stepped_vals f cl i v rest r s m s' : (forall r s m s', f (v :: rest) r s = Ok (m, s') -> m_ok m = true -> m_vals m = [v]) ->
  stepped f cl i (v :: rest) r s = Ok (m, s') -> m_ok m = true -> m_vals m = [v].
Proof.
  intros F. unfold stepped. destruct r as [r|]; [|apply F]. destruct (step r i s) as [|r'|ns s1]; [apply F|apply F|].
  destruct (f (v :: rest) None s1) as [[m1 s2]| |] eqn:E; cbn [rbind]; [|done|done].
  destruct (cl m1); intros [= <- _]; by eapply F.
Qed.
Lemma shortest_mem m l : shortest m l ∈ m :: l.
Proof. revert m. induction l as [|x l IH]; intros m; simpl; [set_solver|]. destruct (_ <? _); [specialize (IH x)|specialize (IH m)]; set_solver. Qed.
(** a choice hands on the value it takes *)
Lemma choice_vals c : choice fits c -> forall v rest r s m s', match_component fits c (v :: rest) r s = Ok (m, s') -> m_ok m = true -> m_vals m = [v].
Proof.
  induction c as [s0 ms|s0 ms|n ms|n a ms IH|s0 q0 rg0 ms|ms|ms|ms|s0 ms|t rg ms|k cs ms IH] using component_ind'; intros Hc v rest r s m s' E Hm;
    destruct (choice_ms fits _ Hc) as (Hp&Hb&_); rewrite match_component_eq in E; unfold with_multipliers in E; rewrite Hp, Hb in E; simpl in E;
    destruct Hc as [_ Hc]; try done.
  all: try (injection E as <- _; done).
  all: try (match type of E with context [if ?b then mk_m true _ _ else _] => destruct b; simpl in E; injection E as <- _; done end).
  - destruct v; simpl in E; try (injection E as <- _; done). destruct (negb _); simpl in E; injection E as <- _; done.
  - destruct v; simpl in E; try (injection E as <- _; done). destruct (negb _); simpl in E; [injection E as <- _; done|].
    destruct (match_component fits a args None s) as [[m1 s1]| |]; cbn [rbind] in E; [|done|done].
    destruct (_ && _); simpl in E; injection E as <- _; done.
  - destruct Hc as [Hk Hcs].
    assert (V : Forall (fun c => forall v rest r s m s', match_component fits c (v :: rest) r s = Ok (m, s') -> m_ok m = true -> m_vals m = [v]) cs).
    { clear -IH Hcs. induction IH as [|c cs Hc HF IHcs]; constructor; destruct Hcs; [by apply Hc|by apply IHcs]. }
    destruct Hk as [-> |[-> Hl]].
    + unfold run_group, exactly_one in E.
      destruct (try_all _ 0 (v :: rest) r s) as [[ms0 s1]| |] eqn:Et; cbn [rbind] in E; [|done|done].
      assert (F : Forall (fun m => m_ok m = true /\ m_vals m = [v]) ms0).
      { clear -V Et. revert Et. generalize 0. revert s ms0 s1. induction V as [|c cs Hc HV IHV]; intros s ms0 s1 i Et; simpl in Et; [by injection Et as <- _|].
        destruct (stepped _ _ i (v :: rest) r s) as [[m s2]| |] eqn:Es; cbn [rbind] in Et; [|done|done].
        destruct (try_all _ (S i) (v :: rest) r s2) as [[ms s3]| |] eqn:Er; cbn [rbind] in Et; [|done|done].
        specialize (IHV _ _ _ _ Er). injection Et as <- _. destruct (m_ok m) eqn:Hm; [|done]. constructor; [|done]. split; [done|].
        eapply stepped_vals; [|exact Es|done]. intros r0 s0 m0 s' H. by eapply Hc. }
      set (w := match ms0 with [] => no_match (v :: rest) | m :: ms => shortest m ms end) in E.
      assert (W : m_ok w = true -> m_vals w = [v]).
      { unfold w. destruct ms0 as [|m1 ms1]; [done|]. rewrite Forall_forall in F. intros _. apply F, shortest_mem. }
      destruct (m_ok w) eqn:Hw; injection E as <- _; [by apply W|congruence].
    + destruct cs as [|c [|]]; try done. simpl in E. rewrite Forall_singleton in V.
      destruct (stepped _ _ 0 (v :: rest) r s) as [[m1 s1]| |] eqn:Es; cbn [rbind] in E; [|done|done].
      destruct (m_ok m1) eqn:Hm1; cbn [rbind] in E.
      * simpl in E. injection E as <- _. simpl. eapply stepped_vals; [|exact Es|done]. intros r0 s0 m0 s2 H. by eapply V.
      * destruct (is_comma c); simpl in E; injection E as <- _; done.
Qed.
Lemma choice_takes c v rest s : choice fits c -> no_function v ->
  exists m, match_component fits c (v :: rest) None s = Ok (m, s) /\ (m_ok m = true <-> language fits c [v]) /\ (m_ok m = true -> m_rest m = rest /\ m_vals m = [v]).
Proof.
  intros Hc Hv. destruct (choice_step fits c v rest None s Hc (or_intror Hv)) as (m&s'&E&Hok&Hr).
  destruct (choice_ms fits _ Hc) as (Hp&Hb&_). destruct (plain_same fits _ _ _ _ _ _ _ Hp Hb E) as (m'&E'&Hm&Hr').
  pose proof (match_none _ _ _ _ _ E'). subst s'. exists m'. split; [done|]. rewrite Hm. split; [done|]. intros Ht. split; [rewrite Hr'; by apply Hr|].
  eapply choice_vals; [done|exact E'|congruence].
Qed.

(** ** One value at a time *)
Context (nm : str) (sp : spread) (parts : list (str * list nat)) (names : list str).
Context (Hsp : sp = QuadMulti \/ sp = DuoMulti) (Hne : names <> []).
Definition up (s : fixlist) : fixlist := mk_fix (f_list s) (counts_up (f_counts s) nm) (f_info s).
Lemma step_names idx s : finished idx parts = names ->
  step (mk_resolver nm sp parts) idx s = match get_names sp names (count_of (f_counts s) nm) with Some ns => SComplete ns (up s) | None => SSkip end.
Proof.
  intros Hf. unfold step. simpl. rewrite Hf. destruct names as [|n ns]; [done|]. destruct Hsp as [-> | ->]; done.
Qed.
Lemma stepped_takes c idx v rest s ns : finished idx parts = names -> choice fits c -> no_function v -> language fits c [v] ->
  get_names sp names (count_of (f_counts s) nm) = Some ns ->
  exists m, stepped (match_component fits c) m_ok idx (v :: rest) (Some (mk_resolver nm sp parts)) s = Ok (m, complete ns [v] (up s)) /\
    m_ok m = true /\ m_rest m = rest /\ m_vals m = [v].
Proof.
  intros Hf Hc Hv Hl Hn. unfold stepped. rewrite step_names, Hn by done. destruct (choice_takes c v rest (up s) Hc Hv) as (m&->&Hok&Hr). cbn [rbind].
  rewrite (proj2 Hok Hl). exists m. destruct (Hr (proj2 Hok Hl)) as [-> ->]. by rewrite (proj2 Hok Hl).
Qed.
Lemma stepped_refuses c idx v rest s : finished idx parts = names -> choice fits c -> no_function v -> ~ language fits c [v] ->
  exists m, stepped (match_component fits c) m_ok idx (v :: rest) (Some (mk_resolver nm sp parts)) s = Ok (m, s) /\ m_ok m = false.
Proof.
  intros Hf Hc Hv Hl. unfold stepped. rewrite step_names by done.
  destruct (get_names _ _ _) as [ns|].
  - destruct (choice_takes c v rest (up s) Hc Hv) as (m&->&Hok&_). cbn [rbind]. destruct (m_ok m) eqn:Hm; [by destruct Hl; apply Hok|]. by exists m.
  - destruct (choice_takes c v rest s Hc Hv) as (m&->&Hok&_). cbn [rbind]. destruct (m_ok m) eqn:Hm; [by destruct Hl; apply Hok|]. by exists m.
Qed.
Lemma refuse_all cs idx v rest s : (forall j, j < length cs -> finished (idx + j) parts = names) -> Forall (choice fits) cs -> no_function v ->
  Forall (fun y => ~ language fits y [v]) cs ->
  try_all (map (fun c => mk_runner (omissible c) (is_comma c) (match_component fits c)) cs) idx (v :: rest) (Some (mk_resolver nm sp parts)) s = Ok ([], s).
Proof.
  revert idx. induction cs as [|c cs IH]; intros idx Hf Hc Hv Hl; [done|]. apply Forall_cons in Hc as [Hc Hcs]. apply Forall_cons in Hl as [Hl Hls].
  cbn [map try_all ru_run]. destruct (stepped_refuses c idx v rest s) as (m&->&Hm); [rewrite <- (Nat.add_0_r idx); apply Hf; simpl; lia|done..|].
  cbn [rbind]. rewrite IH; [|intros j Hj; rewrite Nat.add_succ_comm; apply Hf; simpl; lia|done..]. cbn [rbind]. by rewrite Hm.
Qed.
Lemma take_one cs1 c cs2 idx v rest s ns : (forall j, j < length (cs1 ++ c :: cs2) -> finished (idx + j) parts = names) ->
  Forall (choice fits) (cs1 ++ c :: cs2) -> no_function v -> language fits c [v] -> Forall (fun y => ~ language fits y [v]) (cs1 ++ cs2) ->
  get_names sp names (count_of (f_counts s) nm) = Some ns ->
  exists m, try_all (map (fun c => mk_runner (omissible c) (is_comma c) (match_component fits c)) (cs1 ++ c :: cs2)) idx (v :: rest) (Some (mk_resolver nm sp parts)) s
      = Ok ([m], complete ns [v] (up s)) /\ m_ok m = true /\ m_rest m = rest.
Proof.
  revert idx. induction cs1 as [|x cs1 IH]; intros idx Hf Hc Hv Hl Hr Hn.
  - simpl in Hc, Hr, Hf. cbn [app map try_all ru_run]. apply Forall_cons in Hc as [Hc Hcs].
    destruct (stepped_takes c idx v rest s ns) as (m&->&Hm&Hrest&_); [rewrite <- (Nat.add_0_r idx); apply Hf; lia|done..|]. cbn [rbind].
    rewrite refuse_all; [|intros j Hj; rewrite Nat.add_succ_comm; apply Hf; lia|done..]. cbn [rbind]. rewrite Hm. by exists m.
  - simpl in Hc, Hr, Hf. cbn [app map try_all ru_run]. apply Forall_cons in Hc as [Hc Hcs]. apply Forall_cons in Hr as [Hx Hrs].
    destruct (stepped_refuses x idx v rest s) as (m&->&Hm); [rewrite <- (Nat.add_0_r idx); apply Hf; lia|done..|]. cbn [rbind].
    destruct (IH (S idx)) as (m'&E&Hm'&Hr'); [intros j Hj; rewrite Nat.add_succ_comm; apply Hf; lia|done..|]. rewrite E. cbn [rbind]. rewrite Hm. by exists m'.
Qed.
(** the whole group on one value *)
Lemma group_takes k cs ms v rest s ns : (forall j, j < length cs -> finished j parts = names) ->
  choice fits (CGroup k cs []) -> no_function v -> by_one_alternative fits (CGroup k cs ms) v ->
  get_names sp names (count_of (f_counts s) nm) = Some ns ->
  exists m, once_run fits (CGroup k cs ms) (v :: rest) (Some (mk_resolver nm sp parts)) s = Ok (m, complete ns [v] (up s)) /\ m_ok m = true /\ m_rest m = rest.
Proof.
  intros Hf [_ [Hk Hcs]] Hv Hone Hn.
  assert (C : Forall (choice fits) cs) by (clear -Hcs; induction cs; constructor; destruct Hcs; auto).
  unfold once_run, run_group. destruct Hk as [-> |[-> Hl]].
  - destruct Hone as (l&x&r&->&Hx&Hr). unfold exactly_one.
    destruct (take_one l x r 0 v rest s ns) as (m&E&Hm&Hrest); [done..|]. rewrite E. cbn [rbind shortest]. by exists m.
  - destruct cs as [|c [|]]; try done. simpl in Hone. apply Forall_cons in C as [C _]. simpl in Hf.
    cbn [map in_turn ru_run]. destruct (stepped_takes c 0 v rest s ns) as (m&->&Hm&Hrest&_); [apply Hf; lia|done..|]. cbn [rbind]. rewrite Hm.
    eexists. split; [done|]. by rewrite Hrest.
Qed.
(** as many values as there are sets of names *)
Fixpoint fill (j : nat) (vs : list value) (s : fixlist) : fixlist :=
  match vs with [] => s | v :: vs => fill (S j) vs (complete (default [] (get_names sp names j)) [v] (up s)) end.
Lemma complete_counts ns vs s : f_counts (complete ns vs s) = f_counts s.
Proof. revert s. unfold complete. induction ns as [|n ns IH]; intros s; [done|]. simpl. by rewrite IH. Qed.
Lemma repeat_takes k cs ms hi vs : (forall j, j < length cs -> finished j parts = names) ->
  choice fits (CGroup k cs []) -> Forall no_function vs -> Forall (by_one_alternative fits (CGroup k cs ms)) vs ->
  (forall j, j < hi -> is_Some (get_names sp names j)) ->
  forall fuel raw cnt vals s, length vs < fuel -> vs <> [] -> cnt + length vs <= hi -> count_of (f_counts s) nm = cnt ->
  exists m, repeated fuel (once_run fits (CGroup k cs ms)) (fulfilled (Between 1 hi)) raw vs cnt vals (Some (mk_resolver nm sp parts)) s = Ok (m, fill cnt vs s) /\
    m_ok m = true /\ m_rest m = [].
Proof.
  intros Hf Hc. induction vs as [|v vs IH]; intros Hv Ho Hn fuel raw cnt vals s Hfuel Hnil Hlen Hcnt; [done|].
  apply Forall_cons in Hv as [Hv Hvs]. apply Forall_cons in Ho as [Ho Hos]. destruct fuel as [|fuel]; [simpl in Hfuel; lia|].
  cbn [repeated]. simpl in Hlen, Hfuel. destruct (Hn cnt) as [ns Hns]; [lia|].
  destruct (group_takes k cs ms v vs s ns) as (m&->&Hm&Hrest); [done..|by rewrite Hcnt|]. cbn [rbind fill]. rewrite Hm, Hns, Hrest. cbn [default from_option]. unfold id.
  destruct vs as [|w vs].
  - exists m. split; [|by rewrite Hrest]. simpl in Hlen.
    assert (fulfilled (Between 1 hi) (S cnt) = Full \/ fulfilled (Between 1 hi) (S cnt) = MoreAllowed) as [-> | ->]; [|done..].
    cbn [fulfilled]. destruct (Nat.ltb_spec (S cnt) 1); [lia|]. destruct (Nat.eqb_spec (S cnt) hi); [by left|]. destruct (Nat.ltb_spec (S cnt) hi); [by right|lia].
  - assert (fulfilled (Between 1 hi) (S cnt) = MoreAllowed) as ->.
    { simpl in Hlen. cbn [fulfilled]. destruct (Nat.ltb_spec (S cnt) 1); [lia|]. destruct (Nat.eqb_spec (S cnt) hi); [lia|]. destruct (Nat.ltb_spec (S cnt) hi); [done|lia]. }
    apply IH; try done; [simpl in *; lia..|]. rewrite complete_counts. simpl. by rewrite count_of_up, Hcnt.
Qed.
Lemma match_takes k cs hi vs s : (forall j, j < length cs -> finished j parts = names) ->
  choice fits (CGroup k cs []) -> Forall no_function vs -> Forall (by_one_alternative fits (CGroup k cs [Between 1 hi])) vs ->
  (forall j, j < hi -> is_Some (get_names sp names j)) -> 1 <= length vs <= hi -> count_of (f_counts s) nm = 0 ->
  exists m, match_component fits (CGroup k cs [Between 1 hi]) vs (Some (mk_resolver nm sp parts)) s = Ok (m, fill 0 vs s) /\ m_ok m = true /\ m_rest m = [].
Proof.
  intros Hf Hc Hv Ho Hn Hl Hs. rewrite match_component_eq. unfold with_multipliers.
  change (comma_bounds (multipliers (CGroup k cs [Between 1 hi]))) with (@None (nat * N)).
  change (primary (multipliers (CGroup k cs [Between 1 hi]))) with (Between 1 hi). cbv iota.
  apply repeat_takes; try done; try lia. by destruct vs; simpl in *; [lia|].
Qed.
End box.

(** ** The four sides and the two ends *)
Lemma put_bare_new l n v : n ∉ l.*1 -> put l n (bare v) = l ++ [(n, bare v)].
Proof. apply put_new. Qed.
Lemma put_bare l n v w : n ∉ l.*1 -> forall r, put (l ++ (n, bare v) :: r) n (bare w) = l ++ (n, bare w) :: r.
Proof.
  induction l as [|[k e] l IH]; intros H r; simpl.
  - by rewrite bool_decide_eq_true_2.
  - simpl in H. apply not_elem_of_cons in H as [Hk H]. rewrite bool_decide_eq_false_2 by congruence. by rewrite IH.
Qed.
Section sides.
Context (fits : str -> str -> value -> bool).
Lemma fill_four nm b l r t vs x : NoDup [b; l; r; t] -> box vs = Some x ->
  f_list (fill nm QuadMulti [b; l; r; t] 0 vs no_fix) =
    [(b, bare (x.1.2)); (l, bare (x.2)); (r, bare (x.1.1.2)); (t, bare (x.1.1.1))].
Proof.
  intros N Hb. rewrite !NoDup_cons, !not_elem_of_cons in N. destruct N as ((H1&H2&H3&_)&(H4&H5&_)&(H6&_)&_).
  unfold box in Hb. destruct vs as [|v1 [|v2 [|v3 [|v4 [|]]]]]; try done; injection Hb as <-;
    cbn [fill get_names default from_option lookup list_lookup fmap option_fmap option_map]; unfold id, complete, insert, up, get_declaration;
    cbn [foldl f_list f_info f_counts no_fix put fst snd];
    repeat (first [rewrite bool_decide_eq_true_2 by done | rewrite bool_decide_eq_false_2 by congruence]; cbn [put foldl f_list f_info f_counts fst snd]); done.
Qed.
Lemma fill_two nm b e vs x : b <> e -> both_ends vs = Some x ->
  f_list (fill nm DuoMulti [b; e] 0 vs no_fix) = [(b, bare (x.1)); (e, bare (x.2))].
Proof.
  intros N Hb. unfold both_ends in Hb. destruct vs as [|v1 [|v2 [|]]]; try done; injection Hb as <-;
    cbn [fill get_names default from_option lookup list_lookup fmap option_fmap option_map]; unfold id, complete, insert, up, get_declaration;
    repeat (first [rewrite decide_True by done|rewrite decide_False by done]; cbn [default from_option lookup list_lookup fmap option_fmap option_map]); unfold id;
    cbn [foldl f_list f_info f_counts no_fix put fst snd];
    repeat (first [rewrite bool_decide_eq_true_2 by done | rewrite bool_decide_eq_false_2 by congruence]; cbn [put foldl f_list f_info f_counts fst snd]); done.
Qed.
Lemma spreads nm sp parts names k cs hi v : sp = QuadMulti \/ sp = DuoMulti -> names <> [] -> (forall j, finished j parts = names) ->
  choice fits (CGroup k cs []) -> Forall no_function (to_slice v) -> Forall (by_one_alternative fits (CGroup k cs [Between 1 hi])) (to_slice v) ->
  (forall j, j < hi -> is_Some (get_names sp names j)) -> 1 <= length (to_slice v) <= hi -> ~ waved_through (to_slice v) ->
  let df := mk_definition [CGroup k cs [Between 1 hi]] (Some (mk_resolver nm sp parts)) in
  forall rest, fits_grammar fits (df rest) v = true /\
    expansion fits (df rest) v = map (fun e => (e.1, dc_value e.2)) (f_list (fill nm sp names 0 (to_slice v) no_fix)).
Proof.
  intros Hsp Hne Hf Hc Hv Ho Hn Hl Hw df rest. unfold fits_grammar, expansion. cbn [df df_grammar df_shorthand]. unfold tree_matches.
  destruct (is_css_wide_keyword _ || _ || _) eqn:E; [by apply waved in E|].
  destruct (match_takes fits nm sp parts names Hsp Hne k cs hi (to_slice v) no_fix) as (m&->&Hm&Hr); [by intros; apply Hf|done..|].
  cbn [rbind]. by rewrite Hm, Hr.
Qed.
Lemma spreads_four nm b l r t k cs v x rest : NoDup [b; l; r; t] -> choice fits (CGroup k cs []) ->
  Forall no_function (to_slice v) -> Forall (by_one_alternative fits (CGroup k cs [Between 1 4])) (to_slice v) -> ~ waved_through (to_slice v) ->
  box (to_slice v) = Some x ->
  let df := mk_definition [CGroup k cs [Between 1 4]] (Some (mk_resolver nm QuadMulti [(b, []); (l, []); (r, []); (t, [])])) rest in
  fits_grammar fits df v = true /\ expansion fits df v = [(b, x.1.2); (l, x.2); (r, x.1.1.2); (t, x.1.1.1)].
Proof.
  intros N Hc Hv Ho Hw Hb df. destruct (spreads nm QuadMulti [(b, []); (l, []); (r, []); (t, [])] [b; l; r; t] k cs 4 v) with (rest := rest) as [H1 H2];
    [by left|done|by intros [|j]|done..| | |done|split; [exact H1|]].
  - intros [|[|[|[|]]]] ?; [eexists; done..|lia].
  - unfold box in Hb. destruct (to_slice v) as [|? [|? [|? [|? [|]]]]]; try done; simpl; lia.
  - unfold df. rewrite H2. by rewrite (fill_four _ _ _ _ _ _ x).
Qed.
Lemma spreads_two nm b e k cs v x rest : b <> e -> choice fits (CGroup k cs []) ->
  Forall no_function (to_slice v) -> Forall (by_one_alternative fits (CGroup k cs [Between 1 2])) (to_slice v) -> ~ waved_through (to_slice v) ->
  both_ends (to_slice v) = Some x ->
  let df := mk_definition [CGroup k cs [Between 1 2]] (Some (mk_resolver nm DuoMulti [(b, []); (e, [])])) rest in
  fits_grammar fits df v = true /\ expansion fits df v = [(b, x.1); (e, x.2)].
Proof.
  intros N Hc Hv Ho Hw Hb df. destruct (spreads nm DuoMulti [(b, []); (e, [])] [b; e] k cs 2 v) with (rest := rest) as [H1 H2];
    [by right|done|by intros [|j]|done..| | |done|split; [exact H1|]].
  - intros [|[|]] ?; [eexists; done..|lia].
  - unfold both_ends in Hb. destruct (to_slice v) as [|? [|? [|]]]; try done; simpl; lia.
  - unfold df. rewrite H2. by rewrite (fill_two _ _ _ _ x).
Qed.
End sides.

(** ** Deciding what a grammar takes *)
Definition takesb (fits : str -> str -> value -> bool) (c : component) (v : value) : bool :=
  match match_component fits c [v] None no_fix with Ok (m, _) => m_ok m | _ => false end.
Lemma takes_ok fits c v : choice fits c -> no_function v -> takesb fits c v = true <-> language fits c [v].
Proof. intros Hc Hv. unfold takesb. by destruct (choice_takes fits c v [] no_fix Hc Hv) as (m&->&Hok&_). Qed.
Fixpoint one_taker (fits : str -> str -> value -> bool) (cs : list component) (v : value) : bool :=
  match cs with
  | [] => false
  | c :: cs => if takesb fits c v then forallb (fun c => negb (takesb fits c v)) cs else one_taker fits cs v
  end.
Lemma no_taker fits cs v : Forall (choice fits) cs -> no_function v -> forallb (fun c => negb (takesb fits c v)) cs = true ->
  Forall (fun y => ~ language fits y [v]) cs.
Proof.
  intros Hc Hv. induction Hc as [|c cs Hc Hcs IH]; [constructor|]. simpl. intros [H1 H2]%andb_true_iff. constructor; [|by apply IH].
  rewrite <- takes_ok by done. by destruct (takesb fits c v).
Qed.
Lemma one_taker_ok fits cs ms v : Forall (choice fits) cs -> no_function v -> one_taker fits cs v = true -> by_one_alternative fits (CGroup ExactlyOne cs ms) v.
Proof.
  intros Hc Hv. simpl. induction Hc as [|c cs Hc Hcs IH]; [done|]. simpl. destruct (takesb fits c v) eqn:E.
  - intros H. exists [], c, cs. split; [done|]. split; [by apply takes_ok|]. by apply no_taker.
  - intros H. destruct (IH H) as (l&x&r&->&Hx&Hr). exists (c :: l), x, r. split; [done|]. split; [done|]. simpl. constructor; [|done].
    rewrite <- takes_ok by done. by rewrite E.
Qed.
Lemma choice_parts fits k cs ms : choice fits (CGroup k cs ms) -> Forall (choice fits) cs.
Proof. intros [_ [_ H]]. induction cs; constructor; destruct H; auto. Qed.
