(** Loading value definitions and following the references between them. *)
From Coq Require Import FMapPositive.
From stdpp Require Import numbers option list relations.
From Verif Require Import Base Text SyntaxModel SyntaxProofs GrammarModel GrammarProofs GrammarReferSpec.

Lemma rbind_Ok {A B} (r : res A) (f : A -> res B) b : rbind r f = Ok b -> exists a, r = Ok a /\ f a = Ok b.
Proof. destruct r; cbn; [eauto|done|done]. Qed.

(** ** Tables *)
Lemma find_put {A} n n' (a : A) m : find n' (put n a m) = if decide (key n' = key n) then Some a else find n' m.
Proof.
  unfold find, put. destruct (decide _) as [->|H]; [by rewrite PositiveMap.gss|by rewrite PositiveMap.gso].
Qed.
Lemma find_empty {A} n : find n (PositiveMap.empty A) = None.
Proof. apply PositiveMap.gempty. Qed.
Lemma find_key {A} n n' (m : table A) : key n = key n' -> find n m = find n' m.
Proof. unfold find. by intros ->. Qed.

Definition byte_text (t : str) : Prop := Forall (fun c => c < 256)%N t.
Lemma txt_bytes s : byte_text (txt s).
Proof.
  induction s as [|a s IH]; [constructor|]. change (Forall (fun c => c < 256)%N (Ascii.N_of_ascii a :: txt s)).
  constructor; [apply Ascii.N_ascii_bounded|exact IH].
Qed.
Lemma key_snoc t c : N.pos (key (t ++ [c])) = (N.pos (key t) * 256 + c)%N.
Proof. unfold key. rewrite fold_left_app. cbn [fold_left]. destruct (_ + c)%N eqn:E; [lia|done]. Qed.
Lemma key_inj a b : byte_text a -> byte_text b -> key a = key b -> a = b.
Proof.
  unfold byte_text. revert b. induction a as [|c a IH] using rev_ind; intros b Ha Hb E.
  - destruct b as [|x b _] using rev_ind; [done|]. pose proof (key_snoc b x) as K. rewrite <- E in K. cbn in K. lia.
  - apply Forall_app in Ha as [Ha Hc]. apply Forall_cons in Hc as [Hc _].
    destruct b as [|x b _] using rev_ind.
    + pose proof (key_snoc a c) as K. rewrite E in K. cbn in K. lia.
    + apply Forall_app in Hb as [Hb Hx]. apply Forall_cons in Hx as [Hx _].
      pose proof (key_snoc a c) as K1. pose proof (key_snoc b x) as K2. rewrite E in K1.
      assert (c = x) as -> by lia. f_equal. apply IH; [done|done|]. lia.
Qed.

(** ** References *)
Lemma ranged_ok rg c : ranged rg c (apply_range rg c).
Proof.
  induction c as [s ms|s ms|n ms|n a ms IH|s q r ms|ms|ms|ms|s ms|t r ms|k cs ms IH] using component_ind';
    cbn; try (by apply rg_other).
  - destruct r; [apply rg_leaf|by apply rg_own].
  - apply rg_group. induction IH; constructor; auto.
Qed.
Lemma ranged_refl c : ranged [] c c.
Proof.
  induction c as [s ms|s ms|n ms|n a ms IH|s q r ms|ms|ms|ms|s ms|t r ms|k cs ms IH] using component_ind';
    try (by apply rg_other).
  - destruct r; [apply rg_leaf|by apply rg_own].
  - apply rg_group. induction IH; constructor; auto.
Qed.
Lemma ranged_all rg cs : Forall2 (ranged rg) cs (match rg with [] => cs | _ => map (apply_range rg) cs end).
Proof.
  destruct rg as [|x rg].
  - induction cs; constructor; [apply ranged_refl|done].
  - induction cs; constructor; [apply ranged_ok|done].
Qed.

Section refer.
Context (S0 : table syntax_def) (P0 : table property).
Context (HP0 : forall n p, find n P0 = Some p -> byte_text (p_name p) /\ key (p_name p) = key n).
Definition types n := option_map s_components (find n S0).
Definition grammars n := option_map p_syntax (find n P0).
Notation expands := (expands types grammars).
Notation refers := (refers types grammars).

Record good (d : defs) : Prop := {
  g_props : d_properties d = P0;
  g_types n : match find n (d_syntax d) with
              | None => find n S0 = None
              | Some x => exists x0, find n S0 = Some x0 /\
                  if s_resolved x then exists prop, Forall2 (expands prop) (s_components x0) (s_components x)
                  else s_components x = s_components x0
              end;
  g_done n p : find n (d_resolved d) = Some p ->
    exists p0 nm, find n P0 = Some p0 /\ byte_text nm /\ key nm = key n /\ Forall2 (expands nm) (p_syntax p0) (p_syntax p) }.

(** Every type being read refers to the names in [c]. *)
Definition inside (d : defs) (c : component) : Prop :=
  forall n b, n ∈ d_resolving d -> mentions c b -> tc refers n b.

Definition step_ok (prop : str) (f : component -> defs -> res (component * defs)) : Prop :=
  forall c d c' d', good d -> inside d c -> f c d = Ok (c', d') ->
    expands prop c c' /\ good d' /\ d_resolving d' = d_resolving d.

Lemma each_ok prop f : step_ok prop f -> forall cs d cs' d',
  good d -> Forall (inside d) cs -> each f cs d = Ok (cs', d') ->
  Forall2 (expands prop) cs cs' /\ good d' /\ d_resolving d' = d_resolving d.
Proof.
  intros Hf. induction cs as [|c cs IH]; intros d cs' d' Hg Hi E; cbn in E; [by simplify_eq|].
  apply rbind_Ok in E as ([c1 d1] & E1 & E). apply rbind_Ok in E as ([cs2 d2] & E2 & E). simplify_eq.
  apply Forall_cons in Hi as [Hc Hi]. destruct (Hf _ _ _ _ Hg Hc E1) as (X & Hg1 & R1).
  assert (Forall (inside d1) cs) as Hi1.
  { eapply Forall_impl; [exact Hi|]. unfold inside. by rewrite R1. }
  destruct (IH _ _ _ Hg1 Hi1 E2) as (Y & Hg2 & R2). split; [by constructor|]. split; [done|congruence].
Qed.

Section rc.
Context (rc : str -> component -> defs -> res (component * defs)) (Hrc : forall prop, step_ok prop (rc prop)).

Lemma resolve_property_ok name d d' :
  byte_text name -> good d -> (forall p, find name P0 = Some p -> Forall (inside d) (p_syntax p)) ->
  resolve_property_with rc name d = Ok d' -> good d' /\ d_resolving d' = d_resolving d.
Proof.
  intros Hb Hg Hi E. unfold resolve_property_with in E. destruct (find name (d_resolved d)) eqn:Er; [by simplify_eq|].
  rewrite (g_props _ Hg) in E. destruct (find name P0) as [p|] eqn:Ep; [|by simplify_eq].
  apply rbind_Ok in E as ([cs d1] & E1 & E). simplify_eq.
  destruct (each_ok name _ (Hrc name) _ _ _ _ Hg (Hi _ eq_refl) E1) as (X & [G1 G2 G3] & R). split; [|done].
  split; [done|done|]. intros n q Hq. cbn in Hq. rewrite find_put in Hq. destruct (decide _) as [K|K]; [|by apply G3].
  simplify_eq. exists p, name. split; [|by rewrite K]. by rewrite (find_key _ _ _ K).
Qed.

Lemma reference_ok name ms d o d' :
  good d -> (forall n, n ∈ d_resolving d -> tc refers n name) ->
  reference_with rc name ms d = Ok (o, d') ->
  good d' /\ d_resolving d' = d_resolving d /\
  match o with
  | None => grammars name = None
  | Some c => exists cs cs' nm, grammars name = Some cs /\ Forall2 (expands nm) cs cs' /\ c = refer ms cs'
  end.
Proof.
  intros Hg Hi E. unfold reference_with in E. apply rbind_Ok in E as (d1 & E1 & E). injection E as <- <-.
  assert (good d1 /\ d_resolving d1 = d_resolving d /\ (find name (d_resolved d1) = None -> find name P0 = None)) as (G & R & N).
  { destruct (find name (d_resolved d)) eqn:Er; [simplify_eq; by rewrite Er|].
    rewrite (g_props _ Hg) in E1. destruct (find name P0) as [p|] eqn:Ep; [|by simplify_eq].
    destruct (HP0 _ _ Ep) as [Kb K]. destruct (resolve_property_ok (p_name p) d d1) as [G R]; [done|done| |done|].
    - intros p' Hp'. rewrite (find_key _ _ _ K), Ep in Hp'. simplify_eq. apply Forall_forall. intros c Hc n b Hn Hb.
      eapply tc_r; [by apply Hi|]. exists (p_syntax p'), c. split; [|done]. right. unfold grammars. by rewrite Ep.
    - split_and!; [done|done|]. intros H. exfalso. unfold resolve_property_with in E1.
      rewrite (find_key _ _ _ K), Er, (g_props _ Hg), (find_key _ _ _ K), Ep in E1.
      apply rbind_Ok in E1 as ([cs d2] & _ & E1). simplify_eq. cbn in H. rewrite find_put, decide_True in H; done. }
  split_and!; [done|done|]. unfold grammars. destruct (find name (d_resolved d1)) as [p|] eqn:Er.
  - destruct (g_done _ G _ _ Er) as (p0 & nm & -> & _ & _ & X). eauto 10.
  - by rewrite N.
Qed.
End rc.

Lemma filter_notin n l : n ∉ l -> List.filter (fun x => negb (text_eqb n x)) (n :: l) = l.
Proof.
  intros H. cbn. replace (text_eqb n n) with true by (symmetry; by apply text_eqb_ok). cbn.
  induction l as [|x l IH]; [done|]. apply not_elem_of_cons in H as [H1 H2]. cbn.
  destruct (text_eqb n x) eqn:E; [by apply text_eqb_ok in E|]. cbn. by rewrite IH.
Qed.

(** The local function of [resolve_component]. *)
Definition as_type (rc : str -> component -> defs -> res (component * defs)) prop name (q : bool) rg ms (d : defs)
    : res (component * defs) :=
  match find name (d_syntax d) with
  | Some x =>
      if existsb (text_eqb name) (d_resolving d) then Ok (CDefinition name q rg ms, d)
      else
        let* (x, d) :=
          if s_resolved x then Ok (x, d)
          else
            let* (cs, d) := each (rc prop) (s_components x) (start_resolving name d) in
            let x := mk_syntax cs true (s_bracketed x) in
            Ok (x, keep_syntax name x (stop_resolving name d)) in
        Ok (CGroup Juxtaposition (match rg with [] => s_components x | _ => map (apply_range rg) (s_components x) end) ms, d)
  | None =>
      if is_builtin name then Ok (CBuiltin name rg ms, d)
      else if text_eqb name prop then Panic
      else
        let* (o, d) := reference_with rc name ms d in
        match o with Some c => Ok (c, d) | None => Panic end
  end.
Lemma definition_eq fuel prop name q rg ms d :
  resolve_component (S fuel) prop (CDefinition name q rg ms) d =
  let rc := resolve_component fuel in
  if q && negb (text_eqb name prop) then
    let* (o, d) := reference_with rc name ms d in
    match o with Some c => Ok (c, d) | None => as_type rc prop name q rg ms d end
  else as_type rc prop name q rg ms d.
Proof. reflexivity. Qed.

Lemma component_ok fuel prop : step_ok prop (resolve_component fuel prop).
Proof.
  revert prop. induction fuel as [|fuel IH]; intros prop c d c' d' Hg Hi E; [done|].
  destruct c as [s ms|s ms|f a ms|name q rg ms|ms|ms|ms|s ms|t r ms|k cs ms];
    try (cbn in E; simplify_eq; split_and!; [by apply ex_other|done|done]).
  - cbn [resolve_component] in E. destruct a as [a|]; [|simplify_eq; split_and!; [by apply ex_other|done|done]].
    apply rbind_Ok in E as ([a' d1] & E1 & E). simplify_eq.
    destruct (IH prop a d a' d') as (X & G & R); [done| |done|].
    + intros n b Hn Hb. apply Hi; [done|by constructor].
    + split_and!; [by apply ex_function|done|done].
  - assert (forall n, n ∈ d_resolving d -> tc refers n name) as Hn by (intros n H; apply Hi; [done|constructor]).
    rewrite definition_eq in E. cbv zeta in E. set (rc := resolve_component fuel) in *.
    set (as_syntax := as_type rc prop name q rg ms) in *.
    assert (forall d0 c0 d1, good d0 -> d_resolving d0 = d_resolving d -> (q = true -> grammars name = None \/ name = prop) ->
              as_syntax d0 = Ok (c0, d1) ->
              expands prop (CDefinition name q rg ms) c0 /\ good d1 /\ d_resolving d1 = d_resolving d) as Has.
    { intros d0 c0 d1 G0 R0 Hq E0. unfold as_syntax, as_type in E0. pose proof (g_types _ G0 name) as T.
      destruct (find name (d_syntax d0)) as [x|] eqn:Ex.
      - destruct T as (x0 & Ex0 & T). assert (types name = Some (s_components x0)) as Ty by (unfold types; by rewrite Ex0).
        destruct (existsb _ _) eqn:Eo.
        + simplify_eq. split_and!; [|done|done]. apply ex_self; [by rewrite Ty|]. apply Hn. rewrite <- R0. by apply text_in.
        + assert (name ∉ d_resolving d0) as Hno by (intros H; apply text_in in H; congruence).
          apply rbind_Ok in E0 as ([y d2] & E1 & E0). injection E0 as <- <-.
          assert ((exists prop', Forall2 (expands prop') (s_components x0) (s_components y)) /\ good d2
                  /\ d_resolving d2 = d_resolving d0) as ((prop' & X) & G2 & R2).
          { destruct (s_resolved x) eqn:Erx; [by simplify_eq|].
            apply rbind_Ok in E1 as ([cs d3] & E1 & E2). injection E2 as <- <-.
            assert (Forall (inside (start_resolving name d0)) (s_components x)) as Hin.
            { rewrite T. apply Forall_forall. intros c Hc n b Hb1 Hb2.
              assert (refers name b) as Hr by (exists (s_components x0), c; auto).
              cbn in Hb1. apply elem_of_cons in Hb1 as [->|Hb1]; [by apply tc_once|].
              eapply tc_r; [|exact Hr]. apply Hn. by rewrite <- R0. }
            assert (good (start_resolving name d0)) as Gs by (destruct G0; by constructor).
            destruct (each_ok prop _ (IH prop) _ _ _ _ Gs Hin E1) as (X & [P T3 D3] & R3).
            rewrite T in X. split_and!; [by exists prop| |].
            - split; [done| |done]. intros n. cbn. rewrite find_put. destruct (decide _) as [K|K]; [|apply T3].
              exists x0. cbn. split; [by rewrite (find_key _ _ _ K)|eauto].
            - cbn [d_resolving keep_syntax stop_resolving]. rewrite R3. by apply filter_notin. }
          split_and!; [|done|congruence]. eapply ex_type; [exact Ty|done|exact X|apply ranged_all].
      - assert (types name = None) as Ty by (unfold types; by rewrite T).
        destruct (is_builtin name) eqn:Eb; [simplify_eq; split_and!; [by apply ex_builtin|done|done]|].
        destruct (text_eqb name prop) eqn:Ep; [done|].
        assert (name <> prop) as Hne by (intros H; apply text_eqb_ok in H; congruence).
        apply rbind_Ok in E0 as ([o d2] & E1 & E0).
        destruct (reference_ok rc IH name ms d0 o d2) as (G2 & R2 & O); [done|by rewrite R0|done|].
        destruct o as [c2|]; [|done]. simplify_eq. destruct O as (cs & cs' & nm & Hpr & X & ->).
        split_and!; [|done|congruence]. by eapply ex_property. }
    destruct (q && negb (text_eqb name prop)) eqn:Eq.
    + apply andb_true_iff in Eq as [-> Eq%negb_true_iff].
      assert (name <> prop) as Hne by (intros H; apply text_eqb_ok in H; congruence).
      apply rbind_Ok in E as ([o d2] & E1 & E).
      destruct (reference_ok rc IH name ms d o d2) as (G2 & R2 & O); [done|done|done|].
      destruct o as [c2|].
      * simplify_eq. destruct O as (cs & cs' & nm & Hpr & X & ->). split_and!; [|done|done]. by eapply ex_property.
      * apply (Has d2); auto.
    + apply (Has d); [done|done| |done]. intros ->. right. apply text_eqb_ok. by destruct (text_eqb name prop).
  - cbn [resolve_component] in E. apply rbind_Ok in E as ([cs' d1] & E1 & E). simplify_eq.
    destruct (each_ok prop _ (IH prop) cs d cs' d') as (X & G & R); [done| |done|].
    + apply Forall_forall. intros c Hc n b Hn Hb. apply Hi; [done|]. by eapply m_group.
    + split_and!; [by apply ex_group|done|done].
Qed.

Lemma all_ok fuel names d d' :
  Forall byte_text names -> good d -> d_resolving d = [] -> resolve_all fuel names d = Ok d' -> good d'.
Proof.
  revert d. induction names as [|n names IH]; intros d Hb G R E; cbn in E; [by simplify_eq|].
  apply rbind_Ok in E as (d1 & E1 & E). apply Forall_cons in Hb as [Hb Hbs].
  destruct (resolve_property_ok _ (component_ok fuel) n d d1) as [G1 R1]; [done|done| |done|].
  - intros p _. apply Forall_forall. intros c _ x b Hx. rewrite R in Hx. by apply elem_of_nil in Hx.
  - apply (IH d1); [done|done|congruence|done].
Qed.
End refer.

(** ** Loading *)
Lemma bare_name_ok e b n : named e b n -> bare_name (txt (fst e)) = (b, n).
Proof.
  intros [[H1 H2] E]. rewrite E. unfold bare_name. destruct b.
  - cbn [app]. rewrite rev_app_distr. cbn. by rewrite rev_involutive.
  - assert (match n with 60%N :: r => (true, r) | _ => (false, n) end = (false, n)) as ->.
    { destruct n as [|x n]; [done|]. cbn in H1. destruct (decide (x = 60%N)) as [->|Hx]; [done|].
      destruct x as [|x]; [done|]. do 6 (destruct x as [x|x|]; try done). }
    f_equal. destruct n as [|x n _] using rev_ind; [done|]. rewrite last_snoc in H2. rewrite rev_app_distr. cbn.
    destruct x as [|x]; [done|]. do 6 (destruct x as [x|x|]; try done).
Qed.

Lemma last_says_snoc values e b n cs :
  last_says values b n cs -> (forall cs', ~ says e b n cs') -> last_says (values ++ [e]) b n cs.
Proof.
  intros (i & x & Hi & Hx & Hl) He. exists i, x. split_and!; [by apply lookup_app_l_Some|done|].
  intros j e' cs' Hj Hje. apply lookup_app_Some in Hje as [Hje|[_ Hje]]; [by eapply Hl|].
  apply list_lookup_singleton_Some in Hje as [_ <-]. apply He.
Qed.
Lemma last_says_here values e b n cs : says e b n cs -> last_says (values ++ [e]) b n cs.
Proof.
  intros H. exists (length values), e. split_and!; [by apply list_lookup_middle|done|].
  intros j e' cs' Hj Hje. apply lookup_lt_Some in Hje. rewrite app_length in Hje. cbn in Hje. lia.
Qed.
Lemma last_says_unique values b n cs cs' : last_says values b n cs -> last_says values b n cs' -> cs = cs'.
Proof.
  intros (i & e & Hi & Hs & Hl) (j & f & Hj & Ht & Hm). destruct (lt_eq_lt_dec i j) as [[H|<-]|H].
  - by destruct (Hl j f cs' H Hj).
  - simplify_eq. destruct Hs as (_ & _ & H1), Ht as (_ & _ & H2). congruence.
  - by destruct (Hm i e cs H Hi).
Qed.

Lemma load_ok values n : byte_text n -> is_builtin n = false -> Forall (fun e => exists b m, named e b m) values ->
  match find n (fold_left load_value values (PositiveMap.empty _)) with
  | Some x => s_resolved x = false /\ last_says values (s_bracketed x) n (s_components x)
      /\ (s_bracketed x = false -> forall e cs, e ∈ values -> ~ says e true n cs)
  | None => forall e b cs, e ∈ values -> ~ says e b n cs
  end.
Proof.
  intros Hn Hb. induction values as [|e values IH] using rev_ind; intros Hv.
  { cbn [fold_left]. rewrite find_empty. intros e b cs H. by apply elem_of_nil in H. }
  apply Forall_app in Hv as [Hv He]. apply Forall_cons in He as [(b & m & He) _]. specialize (IH Hv).
  rewrite fold_left_app. cbn [fold_left]. set (T := fold_left load_value values _) in *.
  assert (byte_text m) as Hm.
  { destruct He as [_ E]. pose proof (txt_bytes (fst e)) as K. rewrite E in K. destruct b; [|done].
    unfold byte_text in K. apply Forall_app in K as [_ K]. by apply Forall_app in K as [K _]. }
  (* an entry that leaves the table as it is *)
  assert ((forall b' cs, ~ says e b' n cs) ->
    match find n T with
    | Some x => s_resolved x = false /\ last_says (values ++ [e]) (s_bracketed x) n (s_components x)
        /\ (s_bracketed x = false -> forall e0 cs, e0 ∈ values ++ [e] -> ~ says e0 true n cs)
    | None => forall e0 b0 cs, e0 ∈ values ++ [e] -> ~ says e0 b0 n cs
    end) as Same.
  { intros Hno. destruct (find n T) as [x|].
    - destruct IH as (I1 & I2 & I3). split_and!; [done|by apply last_says_snoc|].
      intros Hx e0 cs [H|H%elem_of_list_singleton]%elem_of_app; [by apply I3|subst; apply Hno].
    - intros e0 b0 cs [H|H%elem_of_list_singleton]%elem_of_app; [by apply IH|subst; apply Hno]. }
  assert (forall b' n' cs, says e b' n' cs -> b' = b /\ n' = m) as Only.
  { intros b' n' cs (H & _). apply bare_name_ok in H, He. rewrite H in He. by simplify_eq. }
  unfold load_value. destruct (txt (snd e)) as [|c0 text] eqn:Et.
  { apply Same. intros b' cs (_ & H & _). by rewrite Et in H. }
  destruct (compile (c0 :: text)) as [cs|] eqn:Ec.
  2: { apply Same. intros b' cs (_ & _ & H). rewrite Et, Ec in H. done. }
  rewrite (bare_name_ok _ _ _ He).
  assert (says e b m cs) as Hs by (split_and!; [done|by rewrite Et|by rewrite Et]).
  destruct (is_builtin m) eqn:Em.
  { apply Same. intros b' cs' H. apply Only in H as [_ ->]. congruence. }
  destruct (decide (n = m)) as [<-|Hne].
  2: { assert (forall b' cs', ~ says e b' n cs') as Hno by (intros b' cs' H; by apply Only in H as [_ ->]).
       destruct (_ && _); [by apply Same|]. rewrite find_put, decide_False; [by apply Same|]. intros K. by apply key_inj in K. }
  destruct (negb b && _) eqn:Eb.
  - apply andb_true_iff in Eb as [->%negb_true_iff Eb]. destruct (find n T) as [x|]; [|done].
    destruct IH as (I1 & I2 & I3). split_and!; [done| |by rewrite Eb].
    apply last_says_snoc; [done|]. intros cs' H. apply Only in H as [H _]. congruence.
  - rewrite find_put, decide_True by done. cbn. split_and!; [done|by apply last_says_here|].
    intros -> e0 cs0 [H|H%elem_of_list_singleton]%elem_of_app.
    + cbn in Eb. destruct (find n T) as [x|]; [|by apply IH]. destruct IH as (_ & _ & I3). by apply I3.
    + subst. intros H. by apply Only in H as [H _].
Qed.

(** The last text given for a property. *)
Lemma load_properties_ok l : forall m m', load_properties l m = Ok m' ->
  (forall n p, find n m = Some p -> byte_text (p_name p) /\ key (p_name p) = key n) ->
  (forall n p, find n m' = Some p -> byte_text (p_name p) /\ key (p_name p) = key n)
  /\ forall n p, find n m' = Some p ->
     find n m = Some p /\ (forall e, e ∈ l -> key (txt (fst (fst (fst e)))) <> key n)
     \/ exists i e, l !! i = Some e /\ key (txt (fst (fst (fst e)))) = key n
        /\ compile (txt (snd (fst (fst e)))) = Some (p_syntax p)
        /\ forall j e', i < j -> l !! j = Some e' -> key (txt (fst (fst (fst e')))) <> key n.
Proof.
  induction l as [|[[[nm s] comp] inh] l IH]; intros m m' E Hm; cbn in E.
  { simplify_eq. split; [done|]. intros n p H. left. split; [done|]. intros e He. by apply elem_of_nil in He. }
  destruct (compile (txt s)) as [cs|] eqn:Ec; [|done]. apply IH in E as [K1 K2].
  - split; [done|]. intros n p H. apply K2 in H as [[H Hl]|(i & e & Hi & Hk & Hc & Hl)].
    + rewrite find_put in H. destruct (decide _) as [K|K].
      * right. simplify_eq. exists 0, (nm, s, comp, inh). cbn. split_and!; [done|done|done|].
        intros [|j] e' Hj He; [lia|]. apply Hl. by eapply elem_of_list_lookup_2.
      * left. split; [done|]. intros e [->|He]%elem_of_cons; [cbn; congruence|by apply Hl].
    + right. exists (S i), e. split_and!; [done|done|done|]. intros [|j] e' Hj He; [lia|]. apply (Hl j); [lia|done].
  - intros n p H. rewrite find_put in H. destruct (decide _) as [K|K]; [|by apply Hm].
    simplify_eq. cbn. split; [apply txt_bytes|done].
Qed.

Lemma insert_bytes x k : byte_text x -> Forall byte_text k -> Forall byte_text (insert_name x k).
Proof.
  intros Hx Hk. induction Hk as [|y k Hy Hk IH]; cbn; [by apply Forall_cons_2; [|constructor]|].
  destruct (text_leb x y); apply Forall_cons_2; [done|by apply Forall_cons_2|done|done].
Qed.
Lemma sort_bytes l : Forall byte_text l -> Forall byte_text (sort_names l).
Proof. unfold sort_names. induction 1; cbn; [constructor|by apply insert_bytes]. Qed.
