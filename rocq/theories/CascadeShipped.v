(** The definitions the engine is compiled with, as the cascade uses them, and one pass over them. *)
From Coq Require Import FMapPositive.
From stdpp Require Import gmap.
From Verif Require Import Base Text SettingsModel DomModel DomSpec DomProofs SelectorModel SelectorSpec SelectorProofs SelectorProps
  SyntaxModel SyntaxSpec SyntaxProofs SyntaxEnds SyntaxProps GrammarData GrammarModel GrammarSpec GrammarProofs
  CascadeModel CascadeSpec CascadeProofs CascadeMore CascadeBox CascadeProps.

(** property_definitions.rs:505-545 [parse_definition_files]: shorthands are worked out before references are followed. [find] may
    mix up texts that are not bytes, so names are compared as well. *)
Definition raw_values : table syntax_def := fold_left load_value value_texts (PositiveMap.empty _).
Definition shorthand_of (vals : table syntax_def) (d : defs) (n : str) : option resolver :=
  match find n (d_properties d) with
  | Some p => resolve_shorthands 20 (fun t => s_components <$> find t vals) (fun t => p_syntax <$> find t (d_properties d)) (p_computed p) (p_syntax p) n
  | None => None
  end.
Definition definition_in (vals : table syntax_def) (d : defs) (n : str) : option definition :=
  match find_property n d with
  | Some p => if text_eqb (p_name p) n then Some (mk_definition (p_syntax p) (shorthand_of vals d n) (p_computed p)) else None
  | None => None
  end.
Definition shipped_definition : defs -> str -> option definition := definition_in raw_values.

(** ** Checks *)
(** how deep shorthands stand for shorthands *)
Fixpoint depth_of (fuel : nat) (vals : table syntax_def) (d : defs) (n : str) : nat :=
  match fuel with
  | 0 => 0
  | S fuel =>
      match definition_in vals d n with
      | Some df =>
          match df_shorthand df with
          | Some r => if is_shorthand df then S (foldr (fun p m => Nat.max (depth_of fuel vals d p.1) m) 0 (r_parts r)) else 0
          | None => 0
          end
      | None => 0
      end
  end.
Definition rank_in (vals : table syntax_def) (d : defs) : str -> nat := depth_of 8 vals d.
Definition is_size (n : str) : bool := existsb (text_eqb n) sizes.
Definition workable_entry (vals : table syntax_def) (d : defs) (p : property) : bool :=
  is_size (p_name p) ||
  (match p_syntax p with [c] => productiveb c | _ => false end &&
   let k := rank_in vals d (p_name p) in (k <? nesting) &&
   match shorthand_of vals d (p_name p) with
   | Some r => forallb (fun q => match definition_in vals d q.1 with
                                 | Some df => negb (is_shorthand df) || (negb (is_size q.1) && (rank_in vals d q.1 <? k))
                                 | None => true
                                 end) (r_parts r)
   | None => true
   end).
Definition text_eqbs (l l' : list str) : bool := (length l =? length l') && forallb (fun e => text_eqb e.1 e.2) (zip l l').
Definition repeatedb (hi : nat) (sp : spread) (names : list str) (df : definition) : bool :=
  match df_grammar df, df_shorthand df with
  | [CGroup k cs [Between 1 h]], Some (mk_resolver _ s ps) =>
      (h =? hi) && choiceb (CGroup k cs []) && text_eqbs (map fst ps) names && forallb (fun p : str * list nat => match p.2 with [] => true | _ => false end) ps &&
      match s, sp with QuadMulti, QuadMulti | DuoMulti, DuoMulti => true | _, _ => false end
  | _, _ => false
  end.
Definition plain_longhand (vals : table syntax_def) (d : defs) (n : str) : bool :=
  match definition_in vals d n with Some df => negb (is_shorthand df) | None => false end.
(** the words red and blue are the only names of colours; numbers are always in range *)
Definition two_colours (s : str) : bool := text_eqb s (txt "red") || text_eqb s (txt "blue").
Definition simple_fits : str -> str -> value -> bool := type_fits (fun _ _ => true) (fun _ => true) two_colours (fun _ => false) (fun _ _ => false).
Definition style_in (vals : table syntax_def) (d : defs) (sheets : list sheet) : res (option pmap) :=
  compute_properties low simple_fits text_of VString (fun _ _ => None) (fun _ => false) (definition_in vals d) (doc_of page3) 3 sheets None.
Definition styled_in (vals : table syntax_def) (d : defs) (sheets : list sheet) (n : string) : res (option value) :=
  let* o := style_in vals d sheets in Ok (o ≫= fun m => value_of (fun n => n) m (txt n)).
Definition p_rule (l : list declaration) : list sheet := [author [mk_rule (of_type "p") l]].
(** sheets, a property, and the value that the engine computes for it (on [page3], for its third node) *)
Definition wrong_values : list (list sheet * string * option value) :=
  [ (p_rule [says "margin" VZero; says "margin-top" (px 5)], "margin-top"%string, Some VZero);
    ([author [mk_rule (of_type "p") [says "border-top-color" (named "blue")]; mk_rule (of_class "b") [says "border" (VList [px 1; named "solid"; named "red"])]]],
       "border-top-color"%string, Some (named "blue"));
    (p_rule [says "border-width" (VList [px 1; px 2; px 3; px 4])], "border-top-width"%string, Some (px 3));
    (p_rule [says "border-color" (VList [named "red"; named "blue"])], "border-top-color"%string, Some (named "blue"));
    (p_rule [says "inset" (VList [px 1; px 2; px 3; px 4])], "top"%string, Some (px 3));
    (p_rule [says "scroll-margin" (px 1)], "scroll-margin-top"%string, None);
    (p_rule [says "margin-top" (px 1); says "margin" VInherit], "margin-top"%string, Some (px 1));
    (p_rule [says "gap" (px 5)], "column-gap"%string, Some VNone);
    (p_rule [says "background" (named "red")], "background-color"%string, None);
    (p_rule [says "margin-top" (px 1); says "margin" (VList [px 2; named "huge"])], "margin-top"%string, Some (px 2)) ].
Definition crash_sheets : list sheet := p_rule [says "width" (VFunction (txt "calc-size") [VString (txt "auto"); VComma; px 1; VString (txt "+"); px 1])].

Definition value_eqb (a b : value) : bool :=
  match a, b with
  | VNone, VNone | VZero, VZero | VInitial, VInitial | VInherit, VInherit | VComma, VComma => true
  | VString s, VString t => text_eqb s t
  | VUnit n u, VUnit m w => (n =? m)%N && text_eqb u w
  | _, _ => false
  end.
Definition answers (r : res (option value)) (o : option value) : bool :=
  match r, o with
  | Ok None, None => true
  | Ok (Some a), Some b => value_eqb a b
  | _, _ => false
  end.
Definition cascade_check (vals : table syntax_def) (r : res defs) : bool :=
  match r with
  | Ok d =>
      forallb (fun e => workable_entry vals d e.2) (PositiveMap.elements (d_resolved d)) &&
      forallb (fun '(n, ns) => match definition_in vals d n with Some df => repeatedb 4 QuadMulti ns df | None => false end && forallb (plain_longhand vals d) ns) boxes &&
      forallb (fun '(n, ns) => match definition_in vals d n with Some df => repeatedb 2 DuoMulti ns df | None => false end && forallb (plain_longhand vals d) ns) pairs &&
      forallb (fun '(sheets, n, o) => answers (styled_in vals d sheets n) o) wrong_values &&
      match style_in vals d crash_sheets with Panic => true | _ => false end
  | _ => false
  end.
Lemma cascade_shipped : cascade_check raw_values shipped_definitions = true.
Proof. vm_cast_no_check (eq_refl true). Qed.

(** ** What the pass shows *)
Lemma value_eqb_ok a b : value_eqb a b = true -> a = b.
Proof.
  destruct a, b; simpl; try done; [by intros ->%text_eqb_ok|]. intros [H1 H2]%andb_true_iff. apply N.eqb_eq in H1. apply text_eqb_ok in H2. by subst.
Qed.
Lemma answers_ok r o : answers r o = true -> r = Ok o.
Proof. destruct r as [[a|]| |], o as [b|]; simpl; try done. by intros ->%value_eqb_ok. Qed.
Lemma text_eqbs_ok l l' : text_eqbs l l' = true -> l = l'.
Proof.
  unfold text_eqbs. intros [H1 H2]%andb_true_iff. apply Nat.eqb_eq in H1. revert l' H1 H2. induction l as [|x l IH]; intros [|y l']; simpl; try done.
  intros [= H1] [H2 H3]%andb_true_iff. apply text_eqb_ok in H2 as ->. f_equal. by apply IH.
Qed.
Lemma resolver_name fuel so po computed syntax name r : resolve_shorthands fuel so po computed syntax name = Some r -> r_name r = name.
Proof.
  revert syntax r. induction fuel as [|fuel IH]; intros syntax r; [done|]. cbn [resolve_shorthands].
  destruct syntax as [|c more]; [done|]. destruct (_ <=? 1); [done|]. destruct (existsb _ _); [by intros [= <-]|].
  match goal with |- match ?x with _ => _ end = _ -> _ => destruct x as [r0|] eqn:Er end.
  { intros [= <-]. destruct c as [| | | | | | | | |k [|first cs] ms]; try done. destruct computed as [|a [|b [|e [|f [|]]]]]; try done. destruct (existsb _ _); [|done]. by injection Er as <-. }
  destruct (_ =? _); [by intros [= <-]|].
  assert (Q : forall cs r, (fun r => mk_resolver (r_name r) SNone (r_parts r)) <$> resolve_shorthands fuel so po computed cs name = Some r -> r_name r = name).
  { intros cs r'. destruct (resolve_shorthands fuel so po computed cs name) as [r1|] eqn:E; [|done]. simpl. intros [= <-]. simpl. by eapply IH. }
  destruct c; try done.
  - destruct more; [|done]. destruct (po _) as [cs|]; [|done]. apply Q.
  - destruct more; [|done]. destruct (so s) as [cs|].
    + destruct (_ <$> resolve_shorthands fuel so po computed cs name) as [r1|] eqn:E1; [intros [= <-]; by eapply Q|]. destruct (po s) as [cs'|]; [|done]. apply Q.
    + destruct (po s) as [cs'|]; [|done]. apply Q.
  - destruct (_ =? _); [by intros [= <-]|done].
Qed.
Lemma named_in vals d : well_named (definition_in vals d).
Proof.
  intros n df r. unfold definition_in. destruct (find_property n d) as [p|]; [|done]. destruct (text_eqb _ _); [|done]. intros [= <-]. simpl.
  unfold shorthand_of. destruct (find n (d_properties d)); [|done]. apply resolver_name.
Qed.
Definition sound (vals : table syntax_def) (d : defs) : Prop :=
  workable (definition_in vals d) (fun n => n ∉ sizes) (rank_in vals d) /\
  (forall n ns, (n, ns) ∈ boxes -> exists k cs rest, choiceb (CGroup k cs []) = true /\
     definition_in vals d n = Some (mk_definition [CGroup k cs [Between 1 4]] (Some (mk_resolver n QuadMulti (map (fun p => (p, [])) ns))) rest) /\
     forall p df, p ∈ ns -> definition_in vals d p = Some df -> is_shorthand df = false) /\
  (forall n ns, (n, ns) ∈ pairs -> exists k cs rest, choiceb (CGroup k cs []) = true /\
     definition_in vals d n = Some (mk_definition [CGroup k cs [Between 1 2]] (Some (mk_resolver n DuoMulti (map (fun p => (p, [])) ns))) rest) /\
     forall p df, p ∈ ns -> definition_in vals d p = Some df -> is_shorthand df = false) /\
  (forall sheets n o, (sheets, n, o) ∈ wrong_values -> styled_in vals d sheets n = Ok o) /\
  style_in vals d crash_sheets = Panic.
Lemma forallb_in {A} (f : A -> bool) l x : forallb f l = true -> x ∈ l -> f x = true.
Proof. rewrite forallb_forall. intros H Hx. apply H. by apply elem_of_list_In. Qed.
Lemma repeated_ok hi sp ns vals d n df : repeatedb hi sp ns df = true -> definition_in vals d n = Some df ->
  exists k cs rest, choiceb (CGroup k cs []) = true /\
     df = mk_definition [CGroup k cs [Between 1 hi]] (Some (mk_resolver n sp (map (fun p => (p, [])) ns))) rest.
Proof.
  unfold repeatedb. intros H Hd. destruct df as [g sh rest]. cbn [df_grammar df_shorthand] in H.
  destruct g as [|[| | | | | | | | |k cs [|[| | | |lo h| |] [|]]] [|]]; try done; destruct lo as [|[|lo]]; try done. destruct sh as [[nm s ps]|]; [|done].
  apply andb_true_iff in H as [H Hs]. apply andb_true_iff in H as [H Hp]. apply andb_true_iff in H as [H Hn]. apply andb_true_iff in H as [Hh Hc].
  apply Nat.eqb_eq in Hh as ->. apply text_eqbs_ok in Hn as <-. exists k, cs, rest. split; [done|].
  pose proof (named_in vals d _ _ _ Hd eq_refl) as Hnm. simpl in Hnm. subst nm. f_equal. f_equal. f_equal; [by destruct s, sp|].
  clear -Hp. induction ps as [|[a l] ps IH]; [done|]. simpl in *. apply andb_true_iff in Hp as [H1 H2]. destruct l; [|done]. f_equal. by apply IH.
Qed.
Lemma plain_ok vals d ns p df : forallb (plain_longhand vals d) ns = true -> p ∈ ns -> definition_in vals d p = Some df -> is_shorthand df = false.
Proof. intros H Hp Hd. pose proof (forallb_in _ _ _ H Hp) as E. unfold plain_longhand in E. rewrite Hd in E. by destruct (is_shorthand df). Qed.
Lemma cascade_facts vals d : cascade_check vals (Ok d) = true -> sound vals d.
Proof.
  unfold cascade_check. intros H.
  apply andb_true_iff in H as [H Hcrash]. apply andb_true_iff in H as [H Hwrong]. apply andb_true_iff in H as [H Hpairs]. apply andb_true_iff in H as [Hwork Hboxes].
  split; [|split; [|split; [|split]]].
  - clear Hcrash Hwrong Hpairs Hboxes. intros n df Hn Hdf. unfold definition_in in Hdf. destruct (find_property n d) as [p|] eqn:Ep; [|done]. destruct (text_eqb (p_name p) n) eqn:Et; [|done].
    injection Hdf as <-. apply text_eqb_ok in Et. cbn [df_grammar df_shorthand].
    assert (W : workable_entry vals d p = true).
    { rewrite forallb_forall in Hwork. apply (Hwork (key n, p)). clear Hwork. unfold find_property, find in Ep.
      exact (PositiveMap.elements_correct _ _ Ep). }
    clear Hwork.
    unfold workable_entry in W. rewrite Et in W. apply orb_prop in W as [W|W]; [exfalso; apply Hn, text_in; exact W|].
    apply andb_prop in W as [W1 W2]. destruct (p_syntax p) as [|c [|]]; try done. split; [exists c; split; [done|by apply productive_ok]|].
    cbv zeta in W2. apply andb_true_iff in W2 as [W2 W3]. apply Nat.ltb_lt in W2. split; [done|].
    intros r q df' Hr Hq Hdf' Hs. rewrite Hr in W3. pose proof (forallb_in _ _ _ W3 Hq) as W. cbv beta in W. rewrite Hdf', Hs in W. simpl in W.
    apply andb_true_iff in W as [W4 W5]. apply Nat.ltb_lt in W5. split; [|done]. intros Hin. apply text_in in Hin. unfold is_size in W4. by rewrite Hin in W4.
  - clear Hcrash Hwrong Hpairs Hwork. intros n ns Hin. pose proof (forallb_in _ _ _ Hboxes Hin) as W. clear Hboxes Hin. cbv beta iota in W. apply andb_true_iff in W as [W1 W2].
    destruct (definition_in vals d n) as [df|] eqn:Ed; [|done]. destruct (repeated_ok _ _ _ _ _ _ _ W1 Ed) as (k&cs&rest&Hc&->).
    exists k, cs, rest. split_and!; [done..|]. intros p df Hp Hd. by eapply plain_ok.
  - clear Hcrash Hwrong Hboxes Hwork. intros n ns Hin. pose proof (forallb_in _ _ _ Hpairs Hin) as W. clear Hpairs Hin. cbv beta iota in W. apply andb_true_iff in W as [W1 W2].
    destruct (definition_in vals d n) as [df|] eqn:Ed; [|done]. destruct (repeated_ok _ _ _ _ _ _ _ W1 Ed) as (k&cs&rest&Hc&->).
    exists k, cs, rest. split_and!; [done..|]. intros p df Hp Hd. by eapply plain_ok.
  - clear Hcrash. intros sheets n o Hin. apply answers_ok. exact (forallb_in _ _ _ Hwrong Hin).
  - clear Hwrong Hpairs Hboxes Hwork. destruct (style_in vals d crash_sheets); [discriminate Hcrash|reflexivity|discriminate Hcrash].
Qed.
Lemma cascade_sound : exists d, shipped_definitions = Ok d /\ sound raw_values d.
Proof.
  destruct shipped_loads as [d E]. exists d. split; [exact E|]. apply cascade_facts. pose proof cascade_shipped as H. by rewrite E in H.
Qed.
Global Opaque raw_values.
