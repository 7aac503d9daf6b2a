(** C75-C80: which declaration decides, shorthands, custom properties, and what becomes of declarations that are not valid. *)
From stdpp Require Import gmap.
From Verif Require Import Base Text SettingsModel DomModel DomSpec DomProofs SelectorModel SelectorSpec SelectorProofs SelectorProps
  SyntaxModel SyntaxSpec SyntaxProofs SyntaxEnds SyntaxProps GrammarModel GrammarSpec GrammarProofs CascadeModel CascadeSpec CascadeProofs CascadeMore CascadeBox.

(** *** A page, and definitions for the demonstrations: [color], [margin] and its sides *)
Definition colours : component := CGroup ExactlyOne [kw (txt "red"); kw (txt "blue"); kw (txt "black")] [Once].
Definition sides : list str := [txt "margin-bottom"; txt "margin-left"; txt "margin-right"; txt "margin-top"].
Definition margin_definition : definition :=
  mk_definition [margin_grammar] (Some (mk_resolver (txt "margin") QuadMulti (map (fun n => (n, [])) sides))) sides.
Definition demo_definitions (n : str) : option definition :=
  if decide (n = txt "color") then Some (mk_definition [colours] None [])
  else if decide (n = txt "margin") then Some margin_definition
  else if decide (n ∈ sides) then Some (mk_definition [margin_side] None [])
  else None.
Definition of_type (t : string) : list selector := [[[PType (txt t)]]].
Definition of_class (t : string) : list selector := [[[PClass (txt t)]]].
Definition says (n : string) (v : value) : declaration := (txt n, v, false).
Definition important (n : string) (v : value) : declaration := (txt n, v, true).
Definition named (t : string) : value := VString (txt t).
Definition author (rs : list rule) : sheet := mk_sheet Author (txt "a.css") rs.
Definition agent (rs : list rule) : sheet := mk_sheet UserAgent (txt "ua.css") rs.
Definition text_of (v : value) : str := match v with VString s => s | _ => [] end.
Definition style (ops : list op) (sheets : list sheet) (i : nat) : res (option pmap) :=
  compute_properties low demo_fits text_of VString (fun _ _ => None) (fun _ => false) demo_definitions (doc_of ops) i sheets None.
Definition styled (ops : list op) (sheets : list sheet) (i : nat) (n : string) : res (option value) :=
  let* o := style ops sheets i in Ok (o ≫= fun m => value_of (fun n => n) m (txt n)).
Definition page3 : list op := SelectorProps.box "html" "" 1 0 ++ SelectorProps.box "div" "a" 2 1 ++ SelectorProps.box "p" "b" 3 2.
Lemma page3_ok : history careful new_doc page3 (doc_of page3).
Proof. apply doc_of_ok. vm_compute. reflexivity. Qed.
Lemma demo_well_named : well_named demo_definitions.
Proof.
  intros n df r H Hr. unfold demo_definitions in H. repeat (case_decide; [simplify_eq; simpl in Hr; by simplify_eq|]). done.
Qed.

(** ** C75 *)
(** For every document, node and list of style sheets: the property has the value that, among all the values the applying
    declarations offer for it, wins by origin and importance, then by specificity, then by order of appearance. Partial: what
    shorthands offer counts as if it appeared after what is declared by name, see below, and no longhand set by a shorthand may
    be a shorthand itself. *)
Theorem C75_cascade_partial : forall lower fits show parse math round white definitions d i sheets pseudo cs m,
  well_named definitions -> collect_customs lower d i sheets = Ok cs ->
  unnested definitions (says_as_shorthand fits show parse math definitions d i cs) (applied lower d i sheets pseudo) ->
  compute_properties lower fits show parse math white definitions d i sheets pseudo = Ok (Some m) ->
  forall p v, value_of round m p = Some v <->
    exists c, wins c (offers (says_directly fits show parse math definitions d i cs) p (applied lower d i sheets pseudo) ++
                      offers (says_as_shorthand fits show parse math definitions d i cs) p (applied lower d i sheets pseudo)) /\
      v = snap round (dc_value c).
Proof.
  intros lower fits show parse math round white definitions d i sheets pseudo cs m Hw Hc Hu E p v.
  unfold value_of. rewrite (computed lower fits show parse math white definitions d i sheets pseudo m cs Hw Hc Hu E p).
  set (l := offers _ p _). set (l' := offers _ p _). setoid_rewrite <- max_decl_wins. rewrite <- max_decl_squash.
  destruct (l ++ option_list (max_decl l')) as [|x r] eqn:El; simpl.
  - split; [done|]. by intros (c&?&_).
  - unfold compute_value, max_decl. split; [intros [= <-]; eauto|]. intros (c&[= <-]&->). done.
Qed.
(** Sheets that only set longhands: the cascade as it is defined, for every property. *)
Theorem C75_longhands : forall lower fits show parse math round white definitions d i sheets pseudo cs m,
  well_named definitions -> collect_customs lower d i sheets = Ok cs -> longhands_only definitions (applied lower d i sheets pseudo) ->
  compute_properties lower fits show parse math white definitions d i sheets pseudo = Ok (Some m) ->
  forall p v, is_custom p = false -> p <> txt "content" -> value_of round m p = Some v <->
    exists c, wins c (valid_offers fits show parse math definitions d i cs p (applied lower d i sheets pseudo)) /\ v = snap round (dc_value c).
Proof.
  intros lower fits show parse math round white definitions d i sheets pseudo cs m Hw Hc Hl E p v Hp Hn.
  assert (N : forall x, x ∈ applied lower d i sheets pseudo -> says_as_shorthand fits show parse math definitions d i cs x = []).
  { intros x Hx. destruct (Hl x Hx) as [_ Hdf]. unfold says_as_shorthand. destruct (is_custom x.2.1.1); [done|]. case_decide; [done|].
    destruct (definitions x.2.1.1) as [df|] eqn:Ed; [|done]. unfold expansion. by rewrite (Hdf df Ed). }
  assert (U : unnested definitions (says_as_shorthand fits show parse math definitions d i cs) (applied lower d i sheets pseudo)).
  { intros x e df Hx He. rewrite (N x Hx) in He. by apply elem_of_nil in He. }
  rewrite (C75_cascade_partial lower fits show parse math round white definitions d i sheets pseudo cs m Hw Hc U E).
  assert (offers (says_as_shorthand fits show parse math definitions d i cs) p (applied lower d i sheets pseudo) = []) as ->.
  { unfold offers. revert N. generalize (applied lower d i sheets pseudo). induction l as [|x l IH]; intros N; [done|]. cbn [mbind list_bind].
    rewrite (N x) by left. simpl. apply IH. intros y Hy. apply N. by right. }
  rewrite app_nil_r. f_equiv. intros c. f_equiv.
  assert (offers (says_directly fits show parse math definitions d i cs) p (applied lower d i sheets pseudo) =
    valid_offers fits show parse math definitions d i cs p (applied lower d i sheets pseudo)) as ->; [|done].
  clear N E. revert Hl. unfold offers, valid_offers. generalize (applied lower d i sheets pseudo). induction l as [|x l IH]; intros Hl; [done|]. cbn [mbind list_bind].
  rewrite <- IH by (intros y Hy; apply Hl; by right). f_equal. destruct (Hl x (elem_of_list_here _ _)) as [Hb _].
  clear IH. destruct x as [[s0 sp0] [[n0 v0] b0]]. unfold says_directly. cbn [fst snd] in Hb |- *. destruct (decide (n0 = p)) as [Hx|Hx].
  - subst n0. rewrite Hp, (decide_False (P := p = txt "content")) by done. destruct (definitions p) as [df|].
    + destruct (fits_grammar _ _ _); simpl; [by rewrite decide_True|]. by rewrite decide_False.
    + simpl. by rewrite decide_True.
  - destruct (is_custom n0); [done|]. destruct (decide (n0 = txt "content")); [simpl; by rewrite decide_False|]. destruct (definitions n0) as [df|].
    + destruct (fits_grammar _ _ _); simpl; [by rewrite decide_False|]. by rewrite decide_False.
    + simpl. by rewrite decide_False.
Qed.
(** an important declaration beats a later, more specific one; an author's sheet beats the engine's; a value that is not a colour is out *)
Definition cascade_sheets : list sheet :=
  [agent [mk_rule (of_type "p") [says "color" (named "black")]];
   author [mk_rule (of_type "p") [important "color" (named "red"); says "color" (named "green")];
           mk_rule (of_class "b") [says "color" (named "blue"); says "margin-top" (px 3)]]].
Example C75_example : exists cs m, history careful new_doc page3 (doc_of page3) /\ well_named demo_definitions /\
  collect_customs low (doc_of page3) 3 cascade_sheets = Ok cs /\ longhands_only demo_definitions (applied low (doc_of page3) 3 cascade_sheets None) /\
  style page3 cascade_sheets 3 = Ok (Some m) /\ value_of (fun n => n) m (txt "color") = Some (named "red") /\
  value_of (fun n => n) m (txt "margin-top") = Some (px 3) /\ value_of (fun n => n) m (txt "margin-left") = None.
Proof.
  eexists _, _. split; [exact page3_ok|]. split; [exact demo_well_named|]. split; [vm_compute; reflexivity|]. split.
  - assert (applied low (doc_of page3) 3 cascade_sheets None = ltac:(let t := eval vm_compute in (applied low (doc_of page3) 3 cascade_sheets None) in exact t)) as ->.
    { vm_compute. reflexivity. }
    intros x Hx. repeat (apply elem_of_cons in Hx as [-> |Hx]; [split; [by vm_compute|]; intros df Hdf; vm_compute in Hdf; injection Hdf as <-; done|]).
    by apply elem_of_nil in Hx.
  - split; [vm_compute; reflexivity|]. split_and!; vm_compute; reflexivity.
Qed.
(** [margin: 0; margin-top: 5px]: the later declaration loses to the shorthand. The element's [margin-top] is 0. *)
Theorem C75_shorthand_after_refuted : styled page3 [author [mk_rule (of_type "p") [says "margin" VZero; says "margin-top" (px 5)]]] 3 "margin-top" = Ok (Some VZero).
Proof. vm_compute. reflexivity. Qed.

(** ** C76 *)
(** A shorthand for the four sides of a box, and one for two ends: the grammar is a choice repeated up to four times (twice), and
    the longhands are listed bottom, left, right, top (start, end). For every value that the grammar takes unambiguously, each
    longhand is offered its side's value, and nothing else is offered. *)
Theorem C76_four_sides_partial : forall fits p b l r t k cs rest v vt vr vb vl,
  NoDup [b; l; r; t] -> choice fits (CGroup k cs []) -> Forall no_function (to_slice v) ->
  Forall (by_one_alternative fits (CGroup k cs [Between 1 4])) (to_slice v) -> ~ waved_through (to_slice v) ->
  box (to_slice v) = Some (vt, vr, vb, vl) ->
  let df := mk_definition [CGroup k cs [Between 1 4]] (Some (mk_resolver p QuadMulti [(b, []); (l, []); (r, []); (t, [])])) rest in
  fits_grammar fits df v = true /\ expansion fits df v = [(b, vb); (l, vl); (r, vr); (t, vt)].
Proof. intros fits p b l r t k cs rest v vt vr vb vl N Hc Hv Ho Hw Hb. exact (spreads_four fits p b l r t k cs v (vt, vr, vb, vl) rest N Hc Hv Ho Hw Hb). Qed.
Theorem C76_two_ends_partial : forall fits p b e k cs rest v vb ve,
  b <> e -> choice fits (CGroup k cs []) -> Forall no_function (to_slice v) ->
  Forall (by_one_alternative fits (CGroup k cs [Between 1 2])) (to_slice v) -> ~ waved_through (to_slice v) ->
  both_ends (to_slice v) = Some (vb, ve) ->
  let df := mk_definition [CGroup k cs [Between 1 2]] (Some (mk_resolver p DuoMulti [(b, []); (e, [])])) rest in
  fits_grammar fits df v = true /\ expansion fits df v = [(b, vb); (e, ve)].
Proof. intros fits p b e k cs rest v vb ve N Hc Hv Ho Hw Hb. exact (spreads_two fits p b e k cs v (vb, ve) rest N Hc Hv Ho Hw Hb). Qed.
(** What is offered is what the element gets, if nothing else speaks about that side. *)
Theorem C76_sides_set : forall lower fits show parse math round white definitions d i sheets pseudo cs m x df,
  well_named definitions -> collect_customs lower d i sheets = Ok cs -> applied lower d i sheets pseudo = [x] ->
  is_custom x.2.1.1 = false -> x.2.1.1 <> txt "content" -> x.2.1.1 <> txt "background" ->
  definitions x.2.1.1 = Some df -> (forall e df', e ∈ expansion fits df (final show parse math d i cs x) -> definitions e.1 = Some df' -> is_shorthand df' = false) ->
  compute_properties lower fits show parse math white definitions d i sheets pseudo = Ok (Some m) ->
  NoDup (expansion fits df (final show parse math d i cs x)).*1 ->
  forall p v, (p, v) ∈ expansion fits df (final show parse math d i cs x) -> p <> x.2.1.1 -> value_of round m p = Some (snap round v).
Proof.
  intros lower fits show parse math round white definitions d i sheets pseudo cs m x df Hw Hc Ha Hcu Hn Hb Hdf Hu E N p v Hin Hp.
  assert (S : says_as_shorthand fits show parse math definitions d i cs x = expansion fits df (final show parse math d i cs x)).
  { unfold says_as_shorthand. rewrite Hcu, decide_False, Hdf by done. done. }
  rewrite (C75_cascade_partial lower fits show parse math round white definitions d i sheets pseudo cs m Hw Hc); [|rewrite Ha|exact E].
  2:{ intros y e df' Hy. apply elem_of_list_singleton in Hy as ->. rewrite S. apply Hu. }
  rewrite Ha. unfold offers. cbn [mbind list_bind]. rewrite !app_nil_r, S.
  assert (D : (e ← says_directly fits show parse math definitions d i cs x; if decide (e.1 = p) then [offer x e.2] else []) = []).
  { unfold says_directly. rewrite Hcu, decide_False, Hdf by done. destruct (fits_grammar _ _ _); [simpl; by rewrite decide_False|]. by rewrite decide_False. }
  rewrite D. simpl. clear -N Hin. revert N Hin. generalize (expansion fits df (final show parse math d i cs x)) as l.
  intros l N Hin. exists (offer x v). split; [|done].
  assert ((e ← l; if decide (e.1 = p) then [offer x e.2] else []) = [offer x v]) as ->.
  { induction l as [|[k w] l IH]; [by apply elem_of_nil in Hin|]. cbn [mbind list_bind fst snd]. simpl in N. apply NoDup_cons in N as [Hk N].
    apply elem_of_cons in Hin as [[= -> ->]|Hin].
    - rewrite decide_True by done. simpl. f_equal.
      assert (forall l : list (str * value), k ∉ l.*1 -> (e ← l; if decide (e.1 = k) then [offer x e.2] else []) = []) as Z; [|by apply Z].
      clear. induction l as [|[j u] l IH]; [done|]. simpl. intros [H1 H2]%not_elem_of_cons. rewrite decide_False by congruence. simpl. by apply IH.
    - rewrite decide_False; [simpl; by apply IH|]. simpl. intros ->. apply Hk. apply elem_of_list_fmap. by exists (p, v). }
  exists [], []. split_and!; [done|constructor|constructor].
Qed.
Example C76_example : let v := VList [px 1; named "auto"; VZero] in
  NoDup sides /\ choice demo_fits (set_multipliers [] margin_side) /\ Forall no_function (to_slice v) /\
  Forall (by_one_alternative demo_fits margin_grammar) (to_slice v) /\ ~ waved_through (to_slice v) /\ box (to_slice v) = Some (px 1, named "auto", VZero, named "auto") /\
  expansion demo_fits margin_definition v = [(txt "margin-bottom", VZero); (txt "margin-left", named "auto"); (txt "margin-right", named "auto"); (txt "margin-top", px 1)].
Proof.
  assert (C : choice demo_fits (set_multipliers [] margin_side)) by (apply choice_ok; [by intros|by vm_compute]).
  intros v. split_and!; [by apply (bool_decide_unpack _); vm_compute|done|repeat constructor| | |done|by vm_compute].
  - repeat constructor; apply one_taker_ok; (eapply (choice_parts demo_fits) || (by vm_compute) || done); exact C.
  - rewrite <- waved. by vm_compute.
Qed.
Example C76_sides_set_example : let sheets := [author [mk_rule (of_type "p") [says "margin" (VList [px 1; px 2])]]] in
  exists x m, applied low (doc_of page3) 3 sheets None = [x] /\ style page3 sheets 3 = Ok (Some m) /\
  value_of (fun n => n) m (txt "margin-top") = Some (px 1) /\ value_of (fun n => n) m (txt "margin-left") = Some (px 2).
Proof. eexists _, _. split_and!; vm_compute; reflexivity. Qed.

(** ** C77 *)
(** For every document built through the interface, every node, sheets and custom property: the value the element sees is the one
    declared at the nearest of the element and its ancestors where the property is declared at all, and there is none when it is
    declared nowhere. Partial: at one node the last declaration decides, whatever its specificity, origin and importance. *)
Theorem C77_custom_properties_partial : forall lower ops d i sheets, history careful new_doc ops d ->
  exists cs, collect_customs lower d i sheets = Ok cs /\
    forall n, is_custom n = true -> forall o, custom_value lower d sheets n i o <-> cs !! n = o.
Proof.
  intros lower ops d i sheets H. destruct (careful_new ops d H) as (_&A&T). pose proof (t_linked d T) as L.
  destruct (collect_total lower d i sheets L A) as [cs E]. exists cs. split; [done|]. intros n Hn o.
  unfold collect_customs in E. destruct (chain (depth d) d i) as [l| |] eqn:El; cbn [rbind] in E; [|done|done].
  pose proof (collect_lookup lower d sheets n _ i l cs Hn El E) as C. split; [|by intros <-].
  intros C'. by eapply custom_value_unique.
Qed.
Definition custom_sheets : list sheet :=
  [author [mk_rule (of_type "html") [says "--main" (named "red"); says "--other" (px 1)]; mk_rule (of_class "a") [says "--main" (named "blue")];
           mk_rule (of_type "p") [says "color" (VFunction (txt "var") [named "--main"])]]].
Example C77_example : history careful new_doc page3 (doc_of page3) /\
  custom_value low (doc_of page3) custom_sheets (txt "--main") 3 (Some (named "blue")) /\
  custom_value low (doc_of page3) custom_sheets (txt "--other") 3 (Some (px 1)) /\
  custom_value low (doc_of page3) custom_sheets (txt "--none") 3 None.
Proof.
  split; [exact page3_ok|]. destruct (C77_custom_properties_partial low page3 _ 3 custom_sheets page3_ok) as (cs&E&H).
  vm_compute in E. injection E as <-. split_and!; (apply H; [reflexivity|]); vm_compute; reflexivity.
Qed.
(** [.b { --main: red } p { --main: blue }]: a class is more specific than a type, but the later rule decides. The same when the
    first is important. *)
Theorem C77_specificity_refuted : 
  (forall x, x ∈ [says "--main" (named "red"); important "--main" (named "red")] ->
    styled page3 [author [mk_rule (of_class "b") [x]; mk_rule (of_type "p") [says "--main" (named "blue"); says "color" (VFunction (txt "var") [named "--main"])]]] 3 "color"
      = Ok (Some (named "blue"))) /\
  less_specific (spec_of [PType (txt "p")]) (spec_of [PClass (txt "b")]).
Proof.
  split; [|vm_compute; auto]. intros x Hx. repeat (apply elem_of_cons in Hx as [-> |Hx]; [vm_compute; reflexivity|]). by apply elem_of_nil in Hx.
Qed.

(** ** C78 *)
(** Where [var()] names a custom property that the element sees, the element is styled as if the property's value stood there.
    Partial: the value is a single token, the function stands at the top of the declared value, and fallbacks do not work. *)
Theorem C78_var_partial : forall lower fits show parse math white definitions ops d i sheets sheets' pseudo p n a args v l1 l2 imp,
  history careful new_doc ops d -> is_custom p = false -> is_custom n = true -> show a = n -> single_token v ->
  custom_value lower d sheets n i (Some v) ->
  instead (p, VList (l1 ++ VFunction (txt "var") (a :: args) :: l2), imp) (p, VList (l1 ++ v :: l2), imp) sheets sheets' ->
  compute_properties lower fits show parse math white definitions d i sheets pseudo =
  compute_properties lower fits show parse math white definitions d i sheets' pseudo.
Proof.
  intros lower fits show parse math white definitions ops d i sheets sheets' pseudo p n a args v l1 l2 imp H Hp Hn Ha Hv C I.
  destruct (C77_custom_properties_partial lower ops d i sheets H) as (cs&E&Hc). apply (Hc n Hn) in C.
  eapply (compute_instead lower fits show parse math white definitions); [| |exact E| |exact I]; [exact Hp|exact Hp|].
  intros s sp [pm f]. unfold declare. rewrite Hp.
  assert (resolve_functions show parse math (VList (l1 ++ VFunction (txt "var") (a :: args) :: l2)) d i cs = resolve_functions show parse math (VList (l1 ++ v :: l2)) d i cs) as ->; [|done].
  unfold resolve_functions. rewrite !map_app, !concat_app. cbn [map concat]. do 3 f_equal.
  cbn [resolve_one]. rewrite bool_decide_eq_false_2, bool_decide_eq_true_2 by done. cbn [resolve_var]. rewrite Ha, C. by destruct v.
Qed.
Theorem C78_var_alone_partial : forall lower fits show parse math white definitions ops d i sheets sheets' pseudo p n a args v imp,
  history careful new_doc ops d -> is_custom p = false -> p <> txt "content" -> is_custom n = true -> show a = n -> single_token v ->
  custom_value lower d sheets n i (Some v) ->
  instead (p, VFunction (txt "var") (a :: args), imp) (p, v, imp) sheets sheets' ->
  compute_properties lower fits show parse math white definitions d i sheets pseudo =
  compute_properties lower fits show parse math white definitions d i sheets' pseudo.
Proof.
  intros lower fits show parse math white definitions ops d i sheets sheets' pseudo p n a args v imp H Hp Hco Hn Ha Hv C I.
  destruct (C77_custom_properties_partial lower ops d i sheets H) as (cs&E&Hc). apply (Hc n Hn) in C.
  eapply (compute_instead lower fits show parse math white definitions); [| |exact E| |exact I]; [exact Hp|exact Hp|].
  intros s sp [pm f]. unfold declare. rewrite Hp, (bool_decide_eq_false_2 _ Hco).
  assert (resolve_functions show parse math (VFunction (txt "var") (a :: args)) d i cs = VList [v]) as ->.
  { cbn [resolve_functions resolve_one]. rewrite bool_decide_eq_false_2, bool_decide_eq_true_2 by done. cbn [resolve_var]. by rewrite Ha, C. }
  assert (resolve_functions show parse math v d i cs = v) as -> by (by destruct v).
  assert (forall g, find_value g (normalize (VList [v])) = find_value g (normalize v)) as Hg.
  { intros g. cbn [normalize map find_value find_map]. by destruct (find_value g (normalize v)). }
  assert (to_slice (normalize (VList [v])) = to_slice (normalize v)) as -> by (by destruct v).
  assert (unlist (normalize (VList [v])) = unlist (normalize v)) as -> by (by destruct v). by rewrite !Hg.
Qed.
Example C78_example : let x := says "color" (VFunction (txt "var") [named "--main"]) in let y := says "color" (named "blue") in
  custom_value low (doc_of page3) custom_sheets (txt "--main") 3 (Some (named "blue")) /\ (exists sheets', instead x y custom_sheets sheets') /\
  styled page3 custom_sheets 3 "color" = Ok (Some (named "blue")).
Proof.
  split; [apply C77_example|]. split; [|vm_compute; reflexivity].
  eexists. exists [], [], Author, (txt "a.css"), [mk_rule (of_type "html") [says "--main" (named "red"); says "--other" (px 1)]; mk_rule (of_class "a") [says "--main" (named "blue")]], [], (of_type "p"), [], []. split; [reflexivity|reflexivity].
Qed.
(** [var(--none, blue)]: the comma, not the colour, is taken for the fallback, and the declaration is lost. A custom property whose
    value names another one is not followed: the text [var(--main)] becomes the colour. *)
Theorem C78_fallback_refuted :
  styled page3 [author [mk_rule (of_type "p") [says "color" (VFunction (txt "var") [named "--none"; VComma; named "blue"])]]] 3 "color" = Ok None /\
  styled page3 [author [mk_rule (of_type "p") [says "--main" (named "blue"); says "--two" (VFunction (txt "var") [named "--main"]);
    says "color" (VFunction (txt "var") [named "--two"])]]] 3 "color" = Ok (Some (VFunction (txt "var") [named "--main"])).
Proof. split; vm_compute; reflexivity. Qed.

(** ** C79 *)
(** A declaration of a property whose grammar does not generate the value might as well not be there: for every document, node and
    sheets the element is styled as without it. Partial: not for shorthands. *)
Theorem C79_invalid_ignored_partial : forall lower fits show parse math white definitions ops d i sheets sheets' pseudo x cs,
  history careful new_doc ops d -> well_named definitions -> collect_customs lower d i sheets = Ok cs ->
  ungenerated fits show parse math definitions d i cs x -> without x sheets sheets' ->
  compute_properties lower fits show parse math white definitions d i sheets pseudo =
  compute_properties lower fits show parse math white definitions d i sheets' pseudo.
Proof.
  intros lower fits show parse math white definitions ops d i sheets sheets' pseudo x cs _ Hw Hc Hx W.
  eapply compute_without; [done|done|by apply ungenerated_not_valid|done].
Qed.
Example C79_example : exists cs, let x := says "color" (named "huge") in
  let sheets := [author [mk_rule (of_type "p") [says "color" (named "red"); x]]] in
  collect_customs low (doc_of page3) 3 sheets = Ok cs /\ ungenerated demo_fits text_of VString (fun _ _ => None) demo_definitions (doc_of page3) 3 cs x /\
  (exists sheets', without x sheets sheets') /\ styled page3 sheets 3 "color" = Ok (Some (named "red")).
Proof.
  eexists. split_and!; [vm_compute; reflexivity| | |vm_compute; reflexivity].
  - split_and!; [done|by vm_compute|by vm_compute|]. exists (mk_definition [colours] None []), colours. split_and!; [vm_compute; reflexivity|done|done|apply productive_ok; by vm_compute|].
    split; [rewrite <- waved; by vm_compute|]. intros H. cbn [loose_language language_of colours] in H. unfold loosely in H. simpl in H.
    repeat (apply Exists_cons in H as [(v&[= <-]&[(t&[= <-]&Ht)|[? _]])|H]; [vm_compute in Ht; discriminate Ht|done|]). by apply Exists_nil in H.
  - eexists. exists [], [], Author, (txt "a.css"), [], [], (of_type "p"), [says "color" (named "red")], []. split; [reflexivity|reflexivity].
Qed.
(** [margin-top: 1px; margin: 2px huge]: the second declaration is not valid, yet it sets the margins. *)
Theorem C79_shorthand_refuted :
  styled page3 [author [mk_rule (of_type "p") [says "margin-top" (px 1); says "margin" (VList [px 2; named "huge"])]]] 3 "margin-top" = Ok (Some (px 2)) /\
  fits_grammar demo_fits margin_definition (VList [px 2; named "huge"]) = false.
Proof. split; vm_compute; reflexivity. Qed.

(** ** C80 *)
(** For every document built through the interface, every node, pseudo-element and sheets, computing the style ends, without a
    crash, as long as the definitions can be worked with: what their grammars repeat takes at least one value, and shorthands stand
    for shorthands of lower rank. [C80_shipped] shows it of the definitions the engine is compiled with. *)
Theorem C80_styling_ends : forall lower fits show parse math white definitions ok rank ops d i sheets pseudo,
  history careful new_doc ops d -> workable definitions ok rank -> declares_only ok sheets ->
  exists o, compute_properties lower fits show parse math white definitions d i sheets pseudo = Ok o.
Proof.
  intros lower fits show parse math white definitions ok rank ops d i sheets pseudo H W D.
  destruct (careful_new ops d H) as (_&A&T). pose proof (t_linked d T) as L.
  apply (compute_total lower fits show parse math white definitions ok rank W); [|by apply chain_total|done].
  intros j sel ps. by apply selectors_total.
Qed.
Example C80_example : workable demo_definitions (fun _ => True) (fun n => if decide (n = txt "margin") then 1 else 0) /\ declares_only (fun _ => True) custom_sheets.
Proof.
  split; [|done]. intros n df _ H. unfold demo_definitions in H.
  assert (P : forall c, productiveb c = true -> productive c) by apply productive_ok.
  assert (Hr : (if decide (n = txt "margin") then 1 else 0) < nesting) by (unfold nesting; destruct (decide (n = txt "margin")); lia).
  destruct (decide (n = txt "color")) as [Hn|_]; [|destruct (decide (n = txt "margin")) as [Hn|_]; [|destruct (decide (n ∈ sides)) as [Hn|_]; [|done]]];
    injection H as <-; (split; [eexists; split; [reflexivity|]; apply P; by vm_compute|]); (split; [exact Hr|]); [done| |done].
  intros r p df' [= <-] Hp Hdf Hs. exfalso. assert (p.1 ∈ sides) as Hin by (apply (elem_of_list_fmap_1 fst) in Hp; exact Hp).
  unfold demo_definitions in Hdf.
  destruct (decide (p.1 = txt "color")) as [Hx|_]; [|destruct (decide (p.1 = txt "margin")) as [Hx|_]; [|destruct (decide (p.1 ∈ sides)) as [Hx|_]; [|done]]];
    [rewrite Hx in Hin; revert Hin; apply (bool_decide_unpack _); by vm_compute|rewrite Hx in Hin; revert Hin; apply (bool_decide_unpack _); by vm_compute|].
  injection Hdf as <-. done.
Qed.

Print Assumptions C75_cascade_partial.
Print Assumptions C75_longhands.
Print Assumptions C75_shorthand_after_refuted.
Print Assumptions C76_four_sides_partial.
Print Assumptions C76_two_ends_partial.
Print Assumptions C76_sides_set.
Print Assumptions C77_custom_properties_partial.
Print Assumptions C77_specificity_refuted.
Print Assumptions C78_var_partial.
Print Assumptions C78_var_alone_partial.
Print Assumptions C78_fallback_refuted.
Print Assumptions C79_invalid_ignored_partial.
Print Assumptions C79_shorthand_refuted.
Print Assumptions C80_styling_ends.
