(** C75, C76, C79 and C80 of the definitions the engine is compiled with. *)
From stdpp Require Import gmap.
From Verif Require Import Base Text SettingsModel DomModel DomSpec DomProofs SelectorModel SelectorSpec SelectorProofs SelectorProps
  SyntaxModel SyntaxSpec SyntaxProofs SyntaxEnds SyntaxProps GrammarModel GrammarSpec GrammarProofs
  CascadeModel CascadeSpec CascadeProofs CascadeMore CascadeBox CascadeProps CascadeShipped.

(** ** C80 *)
(** The definitions load, and with them computing a style ends without a crash for every document, node, pseudo-element and sheets
    in which no property is declared whose grammar allows calc-size(). *)
Theorem C80_shipped : exists d, shipped_definitions = Ok d /\
  forall lower fits show parse math white ops doc i sheets pseudo,
  history careful new_doc ops doc -> declares_only (fun n => n ∉ sizes) sheets ->
  exists o, compute_properties lower fits show parse math white (shipped_definition d) doc i sheets pseudo = Ok o.
Proof.
  destruct cascade_sound as (d&E&W&_). exists d. split; [exact E|]. intros lower fits show parse math white ops doc i sheets pseudo H D.
  eapply C80_styling_ends; [exact H|exact W|exact D].
Qed.
Example C80_shipped_example : declares_only (fun n => n ∉ sizes) (p_rule [says "margin" (px 1); says "color" (named "red"); says "--width" (px 2)]).
Proof.
  intros s r x Hs Hr Hx. apply elem_of_list_singleton in Hs as ->. apply elem_of_list_singleton in Hr as ->.
  repeat (apply elem_of_cons in Hx as [-> |Hx]; [apply (bool_decide_unpack _); by vm_compute|]). by apply elem_of_nil in Hx.
Qed.
(** [p { width: calc-size(auto, 1px + 1px) }] crashes the computing of the paragraph's style. *)
Theorem C80_calc_size_refuted : exists d, shipped_definitions = Ok d /\
  crash_sheets = p_rule [says "width" (VFunction (txt "calc-size") [VString (txt "auto"); VComma; px 1; VString (txt "+"); px 1])] /\
  history careful new_doc page3 (doc_of page3) /\
  compute_properties low simple_fits text_of VString (fun _ _ => None) (fun _ => false) (shipped_definition d) (doc_of page3) 3 crash_sheets None = Panic.
Proof. destruct cascade_sound as (d&E&_&_&_&_&H). exists d. split; [exact E|]. split; [reflexivity|]. split; [exact page3_ok|exact H]. Qed.

(** ** C76 *)
Lemma not_special n ns : (n, ns) ∈ boxes ++ pairs -> is_custom n = false /\ n <> txt "content" /\ n <> txt "background" /\ NoDup ns /\ n ∉ ns.
Proof.
  intros H.
  assert (F : Forall (fun e => is_custom e.1 = false /\ e.1 <> txt "content" /\ e.1 <> txt "background" /\ NoDup e.2 /\ e.1 ∉ e.2) (boxes ++ pairs)).
  { apply (bool_decide_unpack _). by vm_compute. }
  rewrite Forall_forall in F. exact (F _ H).
Qed.
(** For margin, padding and scroll-padding and for the 22 shorthands of two ends: whenever the declaration of the shorthand is the
    one that applies, and its value is one the property's grammar takes unambiguously, every side has the value CSS gives it.
    Partial: no functions, no CSS-wide keywords, and not the other shorthands, see below. *)
Theorem C76_shipped_partial : exists d, shipped_definitions = Ok d /\
  forall n ns, (n, ns) ∈ boxes ++ pairs -> exists df c, shipped_definition d n = Some df /\ df_grammar df = [c] /\
  forall lower fits show parse math round white doc i sheets pseudo cs m x,
  (forall t rg, fits t rg VComma = false) ->
  collect_customs lower doc i sheets = Ok cs -> applied lower doc i sheets pseudo = [x] -> x.2.1.1 = n ->
  compute_properties lower fits show parse math white (shipped_definition d) doc i sheets pseudo = Ok (Some m) ->
  let vs := to_slice (final show parse math doc i cs x) in
  Forall no_function vs -> Forall (by_one_alternative fits c) vs -> ~ waved_through vs ->
  (forall b l r t vt vr vb vl, ns = [b; l; r; t] -> box vs = Some (vt, vr, vb, vl) ->
     value_of round m t = Some (snap round vt) /\ value_of round m r = Some (snap round vr) /\
     value_of round m b = Some (snap round vb) /\ value_of round m l = Some (snap round vl)) /\
  (forall b e vb ve, ns = [b; e] -> both_ends vs = Some (vb, ve) ->
     value_of round m b = Some (snap round vb) /\ value_of round m e = Some (snap round ve)).
Proof.
  destruct cascade_sound as (d&E&_&HB&HP&_). exists d. split; [exact E|]. intros n ns Hin.
  destruct (not_special n ns Hin) as (Hcu&Hco&Hba&Hnd&Hself).
  assert (L4 : forall n ns, (n, ns) ∈ boxes -> length ns = 4).
  { intros n' ns' H. assert (F : Forall (fun e => length e.2 = 4) boxes) by (apply (bool_decide_unpack _); by vm_compute). rewrite Forall_forall in F. exact (F _ H). }
  assert (L2 : forall n ns, (n, ns) ∈ pairs -> length ns = 2).
  { intros n' ns' H. assert (F : Forall (fun e => length e.2 = 2) pairs) by (apply (bool_decide_unpack _); by vm_compute). rewrite Forall_forall in F. exact (F _ H). }
  apply elem_of_app in Hin as [Hin|Hin].
  - destruct (HB n ns Hin) as (k&cs0&rest&Hch&Hdf&Hlong). eexists _, _. split; [exact Hdf|]. split; [reflexivity|].
    intros lower fits show parse math round white doc i sheets pseudo cs m x Hf Hc Ha Hx Em vs Hv Ho Hw.
    pose proof (choice_ok fits _ Hf Hch) as C. split; [|intros b e vb ve ->; specialize (L4 _ _ Hin); done].
    intros b l r t vt vr vb vl -> Hbox. cbn [map] in Hdf. destruct (C76_four_sides_partial fits n b l r t k cs0 rest _ vt vr vb vl Hnd C Hv Ho Hw Hbox) as [_ Hexp].
    assert (S : forall p v, (p, v) ∈ [(b, vb); (l, vl); (r, vr); (t, vt)] -> value_of round m p = Some (snap round v)).
    { intros p v Hp. eapply (C76_sides_set lower fits show parse math round white (shipped_definition d) doc i sheets pseudo cs m x);
        [apply named_in|exact Hc|exact Ha|by rewrite Hx..|rewrite Hx; exact Hdf| |exact Em| | |].
      - intros [p' v'] df' He Hd'. eapply Hlong; [|exact Hd']. rewrite Hexp in He. apply (elem_of_list_fmap_1 fst) in He. exact He.
      - rewrite Hexp. exact Hnd.
      - rewrite Hexp. exact Hp.
      - rewrite Hx. intros ->. apply Hself. apply (elem_of_list_fmap_1 fst) in Hp. exact Hp. }
    split_and!; apply S; repeat (apply elem_of_list_here || apply elem_of_list_further).
  - destruct (HP n ns Hin) as (k&cs0&rest&Hch&Hdf&Hlong). eexists _, _. split; [exact Hdf|]. split; [reflexivity|].
    intros lower fits show parse math round white doc i sheets pseudo cs m x Hf Hc Ha Hx Em vs Hv Ho Hw.
    pose proof (choice_ok fits _ Hf Hch) as C. split; [intros b l r t vt vr vb vl ->; specialize (L2 _ _ Hin); done|].
    intros b e vb ve -> Hbox. cbn [map] in Hdf. assert (Hne : b <> e) by (intros ->; apply NoDup_cons in Hnd as [H _]; apply H, elem_of_list_here).
    destruct (C76_two_ends_partial fits n b e k cs0 rest _ vb ve Hne C Hv Ho Hw Hbox) as [_ Hexp].
    assert (S : forall p v, (p, v) ∈ [(b, vb); (e, ve)] -> value_of round m p = Some (snap round v)).
    { intros p v Hp. eapply (C76_sides_set lower fits show parse math round white (shipped_definition d) doc i sheets pseudo cs m x);
        [apply named_in|exact Hc|exact Ha|by rewrite Hx..|rewrite Hx; exact Hdf| |exact Em| | |].
      - intros [p' v'] df' He Hd'. eapply Hlong; [|exact Hd']. rewrite Hexp in He. apply (elem_of_list_fmap_1 fst) in He. exact He.
      - rewrite Hexp. exact Hnd.
      - rewrite Hexp. exact Hp.
      - rewrite Hx. intros ->. apply Hself. apply (elem_of_list_fmap_1 fst) in Hp. exact Hp. }
    split_and!; apply S; repeat (apply elem_of_list_here || apply elem_of_list_further).
Qed.
Example C76_shipped_example : length boxes = 3 /\ length pairs = 22 /\
  (txt "margin", [txt "margin-bottom"; txt "margin-left"; txt "margin-right"; txt "margin-top"]) ∈ boxes /\
  (txt "overflow", [txt "overflow-x"; txt "overflow-y"]) ∈ pairs /\ (forall t rg, simple_fits t rg VComma = false) /\
  exists x, applied low (doc_of page3) 3 (p_rule [says "margin" (VList [px 1; VZero])]) None = [x] /\
    final text_of VString (fun _ _ => None) (doc_of page3) 3 ∅ x = VList [px 1; VZero] /\
    collect_customs low (doc_of page3) 3 (p_rule [says "margin" (VList [px 1; VZero])]) = Ok ∅.
Proof.
  split_and!; [reflexivity|reflexivity|apply (bool_decide_unpack _); by vm_compute|apply (bool_decide_unpack _); by vm_compute| |].
  - intros t rg. unfold simple_fits, type_fits. repeat (case_match; try done).
  - eexists. split_and!; vm_compute; reflexivity.
Qed.
(** [border-width: 1px 2px 3px 4px] makes the top 3px wide, [border-color: red blue] makes it blue, [inset: 1px 2px 3px 4px] puts it
    at 3px; [gap: 5px] leaves no gap between columns; [scroll-margin], [background] and [margin: inherit] say nothing about
    their longhands, though all of these are valid. *)
Theorem C76_order_refuted : exists d, shipped_definitions = Ok d /\
  styled_in raw_values d (p_rule [says "border-width" (VList [px 1; px 2; px 3; px 4])]) "border-top-width" = Ok (Some (px 3)) /\
  styled_in raw_values d (p_rule [says "border-color" (VList [named "red"; named "blue"])]) "border-top-color" = Ok (Some (named "blue")) /\
  styled_in raw_values d (p_rule [says "inset" (VList [px 1; px 2; px 3; px 4])]) "top" = Ok (Some (px 3)).
Proof.
  destruct cascade_sound as (d&E&_&_&_&H&_). exists d. split; [exact E|]. split_and!; apply H; repeat (apply elem_of_list_here || apply elem_of_list_further).
Qed.
Theorem C76_missing_refuted : exists d, shipped_definitions = Ok d /\
  styled_in raw_values d (p_rule [says "scroll-margin" (px 1)]) "scroll-margin-top" = Ok None /\
  styled_in raw_values d (p_rule [says "background" (named "red")]) "background-color" = Ok None /\
  styled_in raw_values d (p_rule [says "gap" (px 5)]) "column-gap" = Ok (Some VNone) /\
  styled_in raw_values d (p_rule [says "margin-top" (px 1); says "margin" VInherit]) "margin-top" = Ok (Some (px 1)).
Proof.
  destruct cascade_sound as (d&E&_&_&_&H&_). exists d. split; [exact E|]. split_and!; apply H; repeat (apply elem_of_list_here || apply elem_of_list_further).
Qed.

(** ** C75 and C79 *)
(** [margin: 0; margin-top: 5px] leaves the margin at 0, and [p { border-top-color: blue } .b { border: 1px solid red }] leaves the
    top blue although the class is more specific. *)
Theorem C75_shipped_refuted : exists d, shipped_definitions = Ok d /\
  styled_in raw_values d (p_rule [says "margin" VZero; says "margin-top" (px 5)]) "margin-top" = Ok (Some VZero) /\
  styled_in raw_values d [author [mk_rule (of_type "p") [says "border-top-color" (named "blue")];
    mk_rule (of_class "b") [says "border" (VList [px 1; named "solid"; named "red"])]]] "border-top-color" = Ok (Some (named "blue")).
Proof.
  destruct cascade_sound as (d&E&_&_&_&H&_). exists d. split; [exact E|]. split_and!; apply H; repeat (apply elem_of_list_here || apply elem_of_list_further).
Qed.
(** [margin-top: 1px; margin: 2px huge]: the second is not valid, and sets the top margin all the same. *)
Theorem C79_shipped_refuted : exists d, shipped_definitions = Ok d /\
  styled_in raw_values d (p_rule [says "margin-top" (px 1); says "margin" (VList [px 2; named "huge"])]) "margin-top" = Ok (Some (px 2)).
Proof.
  destruct cascade_sound as (d&E&_&_&_&H&_). exists d. split; [exact E|]. apply H; repeat (apply elem_of_list_here || apply elem_of_list_further).
Qed.

Print Assumptions C80_shipped.
Print Assumptions C80_calc_size_refuted.
Print Assumptions C76_shipped_partial.
Print Assumptions C76_order_refuted.
Print Assumptions C76_missing_refuted.
Print Assumptions C75_shipped_refuted.
Print Assumptions C79_shipped_refuted.
