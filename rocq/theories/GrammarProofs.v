(** Running the checks over the definitions the engine is compiled with. *)
From Coq Require Import FMapPositive.
From stdpp Require Import gmap.
From Verif Require Import Base Text SelectorModel SyntaxModel SyntaxSpec SyntaxProofs SyntaxEnds GrammarData GrammarModel GrammarSpec.

Lemma text_eqb_ok a b : text_eqb a b = true <-> a = b.
Proof.
  revert b. induction a as [|x a IH]; intros [|y b]; simpl; try done. rewrite andb_true_iff, N.eqb_eq, IH. split; [by intros [-> ->]|by intros [= -> ->]].
Qed.
Lemma text_in n l : existsb (text_eqb n) l = true <-> n ∈ l.
Proof. rewrite existsb_elem. setoid_rewrite text_eqb_ok. split; [by intros (x & ? & ->)|eauto]. Qed.
Lemma distinct_ok l seen : distinct seen l = true -> NoDup l /\ forall x, x ∈ l -> find x seen = None.
Proof.
  revert seen. induction l as [|x l IH]; intros seen; simpl; [intros _; split; [constructor|intros ? H; inversion H]|].
  destruct (find x seen) eqn:E; [done|]. intros [Hn Hl]%IH. split.
  - constructor; [|done]. intros Hx%Hl. unfold find, put in Hx. by rewrite PositiveMap.gss in Hx.
  - intros y [->|Hy]%elem_of_cons; [done|]. specialize (Hl y Hy). unfold find, put in *. destruct (decide (key y = key x)) as [He|Hne].
    + rewrite He. done.
    + by rewrite PositiveMap.gso in Hl.
Qed.
Lemma all_fold (P : component -> Prop) (f : component -> bool) cs :
  Forall (fun c => f c = true -> P c) cs -> forallb f cs = true -> foldr (fun c Q => P c /\ Q) True cs.
Proof. induction 1 as [|c cs Hc _ IH]; simpl; [done|]. intros [? ?]%andb_true_iff. auto. Qed.
Lemma if_negb (a b : bool) : (if a then negb b else true) = true -> a = true -> b = false.
Proof. destruct a, b; done. Qed.
Lemma productive_ok c : productiveb c = true -> productive c.
Proof.
  induction c as [s ms|s ms|n ms|n a ms IH|s q rg ms|ms|ms|ms|s ms|t rg ms|k cs ms IH] using component_ind';
    intros [H1 H2]%andb_true_iff; (split; [by apply if_negb|]); try done; [by apply IH|]. by apply all_fold with productiveb.
Qed.
Lemma plain_msb_ok ms : plain_msb ms = true -> plain_ms ms.
Proof. by destruct ms as [|m [|]]. Qed.
Lemma list_msb_ok ms : list_msb ms = true -> list_ms ms.
Proof.
  intros [H|H]%orb_true_iff; [left; by apply plain_msb_ok|right]. destruct (rev ms) as [|m r] eqn:E; [done|]. destruct m; try done.
  exists (rev r), lo, hi. split; [|by apply plain_msb_ok]. by rewrite <-(rev_involutive ms), E.
Qed.
Lemma tidy_ok b c : tidyb b c = true -> tidy b c.
Proof.
  revert b. induction c as [s ms|s ms|n ms|n a ms IH|s q rg ms|ms|ms|ms|s ms|t rg ms|k cs ms IH] using component_ind';
    intros b [H1 H2]%andb_true_iff; (split; [destruct b; [by apply list_msb_ok|by apply plain_msb_ok]|]); try done; [by apply IH|].
  apply all_fold with (tidyb false); [|done]. eapply Forall_impl; [exact IH|]. auto.
Qed.
Lemma single_msb_ok ms : single_msb ms = true -> single_ms ms.
Proof. destruct ms as [|m [|]]; try (by left); destruct m; try done; by right. Qed.
Lemma choice_ok fits c : (forall t rg, fits t rg VComma = false) -> choiceb c = true -> choice fits c.
Proof.
  intros Hf. induction c as [s ms|s ms|n ms|n a ms IH|s q rg ms|ms|ms|ms|s ms|t rg ms|k cs ms IH] using component_ind';
    intros [H1 H2]%andb_true_iff; (split; [by apply single_msb_ok|]); try done.
  - apply andb_true_iff in H2 as [? ?]. split; [by apply tidy_ok|by apply productive_ok].
  - intros ->. done.
  - apply andb_true_iff in H2 as [Hk H2]. split; [|by apply all_fold with choiceb]. destruct k; try done; [|by left].
    right. split; [done|]. by destruct cs as [|? [|]].
Qed.
Lemma set_set ms ms' c : set_multipliers ms (set_multipliers ms' c) = set_multipliers ms c.
Proof. by destruct c. Qed.
Lemma set_same c : set_multipliers (multipliers c) c = c.
Proof. by destruct c. Qed.

(** one pass over the definitions *)
Definition crash_value (n : str) : list value :=
  (if text_eqb n (txt "flex") then [VNumber 1; VNumber 1] else []) ++
  [VFunction (txt "calc-size") [VString (txt "auto"); VComma; VUnit 1 (txt "px"); VString (txt "+"); VUnit 1 (txt "px")]].
Definition any_fits : str -> str -> value -> bool := type_fits (fun _ _ => true) (fun _ => true) (fun _ => true) (fun _ => true) (fun _ _ => false).
Definition shipped_check (r : res defs) : bool :=
  match r with
  | Ok d =>
      distinct (PositiveMap.empty _) shipped_names && (length shipped_names =? 666) &&
      forallb (check_of (fun _ => true) d) shipped_names &&
      forallb (fun n => existsb (text_eqb n) sizes || check_of productiveb d n) shipped_names &&
      (length (List.filter (check_of (tidyb true) d) shipped_names) =? 553) &&
      (length (List.filter (check_of plain_grammarb d) shipped_names) =? 402) &&
      forallb (fun n => check_of (fun c => match match_component any_fits c (crash_value n) None no_fix with Panic => true | _ => false end) d n) sizes
  | _ => false
  end.
Lemma shipped : shipped_check shipped_definitions = true.
Proof. vm_compute. reflexivity. Qed.

Lemma check_of_ok f d n : check_of f d n = true -> exists p c, find_property n d = Some p /\ p_syntax p = [c] /\ f c = true.
Proof.
  unfold check_of, component_of. destruct (find_property n d) as [p|]; [|done]. destruct (p_syntax p) as [|c [|]] eqn:E; try done. eauto.
Qed.
Lemma check_loads r : shipped_check r = true -> exists d, r = Ok d.
Proof. destruct r as [d| |]; intros H; [by exists d|discriminate H..]. Qed.
Lemma shipped_loads : exists d, shipped_definitions = Ok d.
Proof. exact (check_loads _ shipped). Qed.
Lemma check_facts d : shipped_check (Ok d) = true ->
  NoDup shipped_names /\ length shipped_names = 666 /\
  (forall n, n ∈ shipped_names -> exists p c, find_property n d = Some p /\ p_syntax p = [c] /\ (n ∉ sizes -> productive c)) /\
  length (List.filter (check_of (tidyb true) d) shipped_names) = 553 /\
  length (List.filter (check_of plain_grammarb d) shipped_names) = 402 /\
  (forall n, n ∈ sizes -> exists p c, find_property n d = Some p /\ p_syntax p = [c] /\ match_component any_fits c (crash_value n) None no_fix = Panic).
Proof.
  unfold shipped_check. intros H.
  apply andb_true_iff in H as [H Hcrash]. apply andb_true_iff in H as [H Hplain]. apply andb_true_iff in H as [H Htidy].
  apply andb_true_iff in H as [H Hprod]. apply andb_true_iff in H as [H Hall]. apply andb_true_iff in H as [Hd Hlen].
  generalize dependent shipped_names. intros names Hd Hlen Hall Hprod Htidy Hplain.
  apply distinct_ok in Hd as [Hd _]. apply Nat.eqb_eq in Hlen, Htidy, Hplain.
  split; [exact Hd|]. split; [exact Hlen|]. split; [|split; [exact Htidy|split; [exact Hplain|]]].
  - intros n Hn. rewrite forallb_forall in Hall, Hprod. pose proof (Hall n ltac:(by apply elem_of_list_In)) as H1.
    specialize (Hprod n ltac:(by apply elem_of_list_In)). apply check_of_ok in H1 as (p & c & Hp & Hc & _). exists p, c. split_and!; [done|done|].
    intros Hs. apply orb_true_iff in Hprod as [Hx|Hx]; [by apply text_in in Hx|]. apply check_of_ok in Hx as (p' & c' & Hp' & Hc' & Hx).
    rewrite Hp in Hp'. injection Hp' as <-. rewrite Hc in Hc'. injection Hc' as <-. by apply productive_ok.
  - intros n Hn. rewrite forallb_forall in Hcrash. specialize (Hcrash n ltac:(by apply elem_of_list_In)).
    apply check_of_ok in Hcrash as (p & c & Hp & Hc & Hx). exists p, c. split_and!; [done|done|].
    by destruct (match_component any_fits c (crash_value n) None no_fix).
Qed.
Lemma shipped_facts : exists d, shipped_definitions = Ok d /\
  NoDup shipped_names /\ length shipped_names = 666 /\
  (forall n, n ∈ shipped_names -> exists p c, find_property n d = Some p /\ p_syntax p = [c] /\ (n ∉ sizes -> productive c)) /\
  length (List.filter (check_of (tidyb true) d) shipped_names) = 553 /\
  length (List.filter (check_of plain_grammarb d) shipped_names) = 402 /\
  (forall n, n ∈ sizes -> exists p c, find_property n d = Some p /\ p_syntax p = [c] /\ match_component any_fits c (crash_value n) None no_fix = Panic).
Proof.
  destruct shipped_loads as [d E]. exists d. split; [exact E|]. apply check_facts. pose proof shipped as H. by rewrite E in H.
Qed.
Global Opaque shipped_definitions shipped_names.
Lemma plain_grammar_ok c : plain_grammarb c = true ->
  list_ms (multipliers c) /\ sensible (primary (multipliers c)) /\
  (comma_bounds (multipliers c) <> None -> enough (fulfilled (primary (multipliers c)) 0) = false) /\
  forall fits, (forall t rg, fits t rg VComma = false) -> choice fits (set_multipliers [] c).
Proof.
  intros [[[Hc Hm]%andb_true_iff Hs]%andb_true_iff Hb]%andb_true_iff. split_and!; [by apply list_msb_ok| | |].
  - destruct (primary (multipliers c)) as [| | | |lo [|hi]| |]; simpl; try done. lia.
  - intros Hn. destruct (comma_bounds (multipliers c)); [|done]. by apply negb_true_iff.
  - intros fits Hf. by apply choice_ok.
Qed.
