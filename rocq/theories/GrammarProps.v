(** C73-C74 for the grammars the engine is compiled with. *)
From stdpp Require Import gmap.
From Verif Require Import Base Text SelectorModel SyntaxModel SyntaxSpec SyntaxProofs SyntaxEnds GrammarData GrammarModel GrammarSpec GrammarProofs.

(** ** C74 *)
(** The definitions load without a crash, each of the 666 properties in the file has its grammar, and checking a declaration of
    any of them ends, without a crash, whatever the values are and whatever the data types accept. The fourteen properties
    that set a size are left out, see below. *)
Theorem C74_shipped : exists d, shipped_definitions = Ok d /\ NoDup shipped_names /\ length shipped_names = 666 /\
  forall n, n ∈ shipped_names -> exists p, find_property n d = Some p /\
    (n ∉ sizes -> forall fits input r s, exists b s', tree_matches fits (p_syntax p) input r s = Ok (b, s')).
Proof.
  destruct shipped_facts as (d & E & Hn & Hl & Hall & _). exists d. split_and!; [done|done|done|].
  intros n Hin. destruct (Hall n Hin) as (p & c & Hp & Hc & Hprod). exists p. split; [done|]. intros Hs fits input r s. rewrite Hc.
  unfold tree_matches. destruct (_ || _); [eauto|].
  destruct (component_total fits c (Hprod Hs) input r s) as (m & s' & ->). cbn [rbind]. eauto.
Qed.
Example C74_shipped_demo : txt "color" ∈ shipped_names /\ txt "color" ∉ sizes /\ txt "margin" ∈ shipped_names /\ txt "margin" ∉ sizes.
Proof. repeat rewrite <-text_in. split_and!; by vm_compute. Qed.
(** The fourteen: a declaration such as [width: calc-size(auto, 1px + 1px)] crashes the engine. *)
Theorem C74_calc_size_refuted : exists d, shipped_definitions = Ok d /\ length sizes = 14 /\
  forall n, n ∈ sizes -> exists p, find_property n d = Some p /\
    tree_matches any_fits (p_syntax p) (crash_value n) None no_fix = Panic.
Proof.
  destruct shipped_facts as (d & E & _ & _ & _ & _ & _ & Hcrash). exists d. split_and!; [done|done|].
  intros n Hn. destruct (Hcrash n Hn) as (p & c & Hp & Hc & Hx). exists p. split; [done|]. rewrite Hc. unfold tree_matches.
  replace (is_css_wide_keyword (crash_value n) || contains_substitution (crash_value n) || is_vendor_prefixed_keyword (crash_value n)) with false.
  - by rewrite Hx.
  - unfold crash_value. by destruct (text_eqb n (txt "flex")).
Qed.

(** ** C73 *)
(** Of 553 of the properties: what the engine takes as a valid declaration is generated by the property's grammar, or is among
    what every property takes. [C73_at_most] holds of the others too. *)
Theorem C73_shipped_partial : exists d names, shipped_definitions = Ok d /\ NoDup names /\ length names = 553 /\ names ⊆ shipped_names /\
  forall n, n ∈ names -> exists p c, find_property n d = Some p /\ p_syntax p = [c] /\
    forall fits input r s s', tree_matches fits (p_syntax p) input r s = Ok (true, s') -> waved_through input \/ language fits c input.
Proof.
  destruct shipped_facts as (d & E & Hn & _ & _ & Hlen & _). exists d, (List.filter (check_of (tidyb true) d) shipped_names). split_and!; [done|by apply NoDup_ListNoDup, List.NoDup_filter, NoDup_ListNoDup|done| |].
  - intros n [Hin _]%elem_of_list_In%filter_In. by apply elem_of_list_In.
  - intros n [_ Hx]%elem_of_list_In%filter_In. apply check_of_ok in Hx as (p & c & Hp & Hc & Hx). exists p, c. split_and!; [done|done|].
    rewrite Hc. intros fits input r s s' Hm. unfold tree_matches in Hm.
    destruct (_ || _) eqn:Hw in Hm; [left; by apply waved|right].
    destruct (match_component fits c input r s) as [[m s1]| |] eqn:Em; cbn [rbind] in Hm; try discriminate Hm.
    apply Ok_pair in Hm as [Hm _]. apply andb_true_iff in Hm as [Hok Hr]. apply bool_decide_eq_true, nil_length_inv in Hr.
    by eapply (proj2 (tidy_sound fits c) (tidy_ok _ _ Hx)).
Qed.
(** Of 402 of the properties: exactly that is taken, for declarations without functions. *)
Theorem C73_shipped_exact_partial : exists d names, shipped_definitions = Ok d /\ NoDup names /\ length names = 402 /\ names ⊆ shipped_names /\
  forall n, n ∈ names -> exists p c, find_property n d = Some p /\ p_syntax p = [c] /\
    forall fits input r s b s', (forall t rg, fits t rg VComma = false) -> Forall no_function input ->
      tree_matches fits (p_syntax p) input r s = Ok (b, s') -> b = true <-> waved_through input \/ language fits c input.
Proof.
  destruct shipped_facts as (d & E & Hn & _ & _ & _ & Hlen & _). exists d, (List.filter (check_of plain_grammarb d) shipped_names). split_and!; [done|by apply NoDup_ListNoDup, List.NoDup_filter, NoDup_ListNoDup|done| |].
  - intros n [Hin _]%elem_of_list_In%filter_In. by apply elem_of_list_In.
  - intros n [_ Hx]%elem_of_list_In%filter_In. apply check_of_ok in Hx as (p & c & Hp & Hc & Hx). exists p, c. split_and!; [done|done|].
    rewrite Hc. destruct (plain_grammar_ok c Hx) as (Hms & Hs & Hb & Hch). intros fits input r s b s' Hf Hfn Hm. specialize (Hch fits Hf).
    pose proof (waved input) as Hw. unfold tree_matches in Hm. destruct (_ || _) eqn:Hx' in Hm.
    + apply Ok_pair in Hm as [<- _]. split; [|done]. intros _. left. by apply Hw.
    + destruct (match_component fits c input r s) as [[m s1]| |] eqn:Em; cbn [rbind] in Hm; try discriminate Hm.
      apply Ok_pair in Hm as [<- _]. rewrite <-(set_same c), <-(set_set _ [] c) in Em |- *.
      rewrite (choice_exact fits _ _ input r s m s1 Hch Hms Hs Hb (or_intror Hfn) Em). split; [by right|].
      intros [H|H]; [|done]. apply Hw in H. congruence.
Qed.
Example C73_shipped_exact_demo : (forall t rg, type_fits (fun _ _ => true) (fun _ => true) (fun _ => true) (fun _ => true) (fun _ _ => false) t rg VComma = false) /\
  Forall no_function [VUnit 1 (txt "px"); VString (txt "auto")].
Proof.
  split; [|repeat constructor]. intros t rg. unfold type_fits. destruct (is_builtin t); [|done]. cbn [negb].
  repeat (destruct (text_eqb t _); [done|]). cbn. by repeat (destruct (text_eqb t _)).
Qed.

Print Assumptions C74_shipped.
Print Assumptions C74_calc_size_refuted.
Print Assumptions C73_shipped_partial.
Print Assumptions C73_shipped_exact_partial.
