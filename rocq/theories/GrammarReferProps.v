(** C105: the grammar a property is checked against is the one written for it, with what it refers to filled in. *)
From Coq Require Import FMapPositive.
From stdpp Require Import numbers option list relations.
From Verif Require Import Base Text SyntaxModel GrammarData GrammarModel GrammarProofs GrammarReferSpec GrammarRefer.

(** Which entry of the file of types defines a name. *)
Theorem C105_types : forall values n cs,
  Forall (fun e => exists b m, named e b m) values -> Forall (fun c => c < 256)%N n -> is_builtin n = false ->
  (exists x, find n (fold_left load_value values (PositiveMap.empty _)) = Some x /\ s_components x = cs) <-> defines values n cs.
Proof.
  intros values n cs Hv Hn Hb. pose proof (load_ok values n Hn Hb Hv) as K. destruct (find n _) as [x|].
  - destruct K as (_ & K1 & K2). split.
    + intros (y & [= <-] & <-). destruct (s_bracketed x); [by left|right]. split; [by apply K2|done].
    + intros H. exists x. split; [done|]. destruct (s_bracketed x).
      * destruct H as [H|[H _]]; [by eapply last_says_unique|].
        destruct K1 as (i & e & Hi & Hs & _). by destruct (H e _ (elem_of_list_lookup_2 _ _ _ Hi) Hs).
      * destruct H as [(i & e & Hi & Hs & _)|[_ H]]; [|by eapply last_says_unique].
        by destruct (K2 eq_refl e _ (elem_of_list_lookup_2 _ _ _ Hi) Hs).
  - split; [by intros (y & ? & _)|]. intros [H|[_ H]]; destruct H as (i & e & Hi & Hs & _);
      by destruct (K e _ _ (elem_of_list_lookup_2 _ _ _ Hi) Hs).
Qed.
Print Assumptions C105_types.

(** The grammar of a property comes from the last text given for it, by replacing the references. *)
Theorem C105_followed_partial : forall values props d n p,
  load_definitions values props = Ok d -> find_property n d = Some p -> Forall (fun c => c < 256)%N n ->
  exists grammars,
    load_properties props (PositiveMap.empty _) = Ok grammars
    /\ exists i e cs, props !! i = Some e /\ txt (fst (fst (fst e))) = n /\ compile (txt (snd (fst (fst e)))) = Some cs
       /\ (forall j e', i < j -> props !! j = Some e' -> txt (fst (fst (fst e'))) <> n)
       /\ Forall2 (expands (types (fold_left load_value values (PositiveMap.empty _))) (GrammarRefer.grammars grammars) n)
            cs (p_syntax p).
Proof.
  intros values props d n p E Hp Hn. unfold load_definitions in E. apply rbind_Ok in E as (P & EP & E). exists P. split; [done|].
  destruct (load_properties_ok _ _ _ EP) as [K1 K2]; [intros m q H; by rewrite find_empty in H|].
  set (S0 := fold_left load_value values _) in *.
  assert (good S0 P d) as G.
  { eapply all_ok; [intros m q H; by apply K1| | | |exact E]; [| |done].
    { apply sort_bytes, Forall_forall. intros x (y & -> & _)%elem_of_list_fmap. apply txt_bytes. }
    split; cbn; [done| |].
    - intros m. destruct (find m S0) as [x|] eqn:Ex; [|done]. exists x. split; [done|].
      destruct (s_resolved x) eqn:Er; [|done]. exfalso.
      assert (forall l T, (forall y, find m T = Some y -> s_resolved y = false) ->
                forall y, find m (fold_left load_value l T) = Some y -> s_resolved y = false) as A.
      { clear. induction l as [|e l IH]; intros T HT; cbn; [done|]. apply IH. intros y. unfold load_value.
        destruct (txt (snd e)); [apply HT|]. destruct (compile _); [|apply HT]. destruct (bare_name _) as [b nm].
        destruct (is_builtin nm); [apply HT|]. destruct (_ && _); [apply HT|]. rewrite find_put.
        destruct (decide _); [by intros [= <-]|apply HT]. }
      rewrite (A values (PositiveMap.empty _)) in Er; [done| |exact Ex]. intros y H. by rewrite find_empty in H.
    - intros m q H. by rewrite find_empty in H. }
  destruct (g_done _ _ _ G n p Hp) as (p0 & nm & H0 & Hb & Hk & X). apply key_inj in Hk as ->; [|done|done].
  destruct (K2 n p0 H0) as [[H _]|(i & e & Hi & He & Hc & Hl)]; [by rewrite find_empty in H|].
  assert (forall s : string, key (txt s) = key n -> txt s = n) as Inj by (intros s; apply key_inj; [apply txt_bytes|done]).
  exists i, e, (p_syntax p0). split_and!; [done|by apply Inj|done| |done].
  intros j e' Hj He' <-. by apply (Hl j e' Hj He').
Qed.
Print Assumptions C105_followed_partial.

(** Every entry the engine is compiled with has a name of one of the two forms. *)
Definition namedb (e : string * string) : bool :=
  match bare_name (txt (fst e)) with
  | (b, n) => match n with 60%N :: _ => false | _ => true end && match rev n with 62%N :: _ => false | _ => true end
              && text_eqb (txt (fst e)) (if b then [60%N] ++ n ++ [62%N] else n)
  end.
Lemma namedb_ok e : namedb e = true -> exists b m, named e b m.
Proof.
  unfold namedb. destruct (bare_name _) as [b n]. intros [[H1 H2]%andb_true_iff H3%text_eqb_ok]%andb_true_iff.
  exists b, n. split; [|done]. split.
  - destruct n as [|x n]; [done|]. cbn. intros [= ->]. done.
  - destruct n as [|x n _] using rev_ind; [done|]. rewrite last_snoc. intros [= ->]. rewrite rev_app_distr in H2. done.
Qed.
Example C105_types_example : Forall (fun e => exists b m, named e b m) value_texts.
Proof.
  assert (forallb namedb value_texts = true) as H by by vm_compute. apply Forall_forall. intros e He.
  apply namedb_ok. rewrite forallb_forall in H. apply H. by apply elem_of_list_In.
Qed.

(** A range on a reference to a type defined in both forms, and a reference to a property. *)
Definition few_values : list (string * string) := [("<size>", "<length> | <number [1,2]>"); ("size", "none")]%string.
Definition few_props : list (string * string * list string * bool) :=
  [("gap", "<size [0,9]>", [], false); ("both", "<'gap'>{2}", [], false)]%string.
Example C105_followed_example : exists d p q ms,
  load_definitions few_values few_props = Ok d
  /\ find_property (txt "gap") d = Some p /\ find_property (txt "both") d = Some q
  /\ p_syntax p = [CGroup Juxtaposition [CGroup ExactlyOne [CBuiltin (txt "length") (txt "0,9") [Once]; CBuiltin (txt "number") (txt "1,2") [Once]] [Once]] [Once]]
  /\ q = mk_property (txt "both") [] (map (set_multipliers ms) (p_syntax p)) false.
Proof. eexists _, _, _, _. split; [vm_compute; reflexivity|]. vm_compute. repeat split. Qed.
