(** More proofs about the cascade: custom properties, declarations that are not valid, and that styling ends. *)
From stdpp Require Import gmap.
From Verif Require Import Base Text SettingsModel DomModel DomSpec DomProofs SelectorModel SelectorSpec SelectorProofs SyntaxModel SyntaxSpec SyntaxProofs SyntaxEnds CascadeModel CascadeSpec CascadeProofs.

Lemma loop_app {A S} (f : A -> S -> res S) l l' s : loop f (l ++ l') s = let* s := loop f l s in loop f l' s.
Proof. revert s. induction l as [|a l IH]; intros s; simpl; [done|]. destruct (f a s); simpl; [apply IH|done|done]. Qed.

Section cascade.
Context (lower : str -> str) (fits : str -> str -> value -> bool) (show : value -> str) (parse : str -> value)
  (math : str -> list value -> option value) (round : N -> N) (white : N -> bool).
Context (definitions : str -> option definition).

(** ** Custom properties *)
Lemma customs_insert (m : customs) k v j : <[k := v]> m !! j = if decide (k = j) then Some v else m !! j.
Proof. case_decide as H; [subst; apply lookup_insert|by apply lookup_insert_ne]. Qed.
Definition or_else (o : option value) (p : option value) : option value := match o with Some v => Some v | None => p end.
Lemma last_app_else {A} (l l' : list A) : last (l ++ l') = match last l' with Some v => Some v | None => last l end.
Proof. destruct l' as [|a l'] using rev_ind; [by rewrite app_nil_r|]. by rewrite app_assoc, !last_snoc. Qed.
Lemma notes_lookup n l (s : sheet) (sp : specificity) (m : customs) : is_custom n = true ->
  foldl (fun m x => note_custom x m) m l !! n =
  or_else (last (x ← map (fun y => (s, sp, y)) l; if decide (x.2.1.1 = n) then [x.2.1.2] else [])) (m !! n).
Proof.
  intros Hn. revert m. induction l as [|[[k v] b] l IH]; intros m; [done|]. cbn [foldl map mbind list_bind]. rewrite IH. simpl.
  change (list_bind _ ?f ?l) with (mbind f l). rewrite last_app_else.
  destruct (last (x ← map (fun y => (s, sp, y)) l; if decide (x.2.1.1 = n) then [x.2.1.2] else [])) as [w|] eqn:E; [done|]. simpl.
  destruct (decide (k = n)) as [Hk|Hk].
  - subst k. rewrite Hn. simpl. rewrite customs_insert. by rewrite decide_True.
  - destruct (is_custom k); [|done]. rewrite customs_insert. by rewrite decide_False.
Qed.
Lemma customs_of_node_lookup d sheets i m m' n : is_custom n = true -> customs_of_node lower d sheets i m = Ok m' ->
  m' !! n = or_else (last (custom_values lower d sheets n i)) (m !! n).
Proof.
  intros Hn. unfold customs_of_node, custom_values. rewrite applied_selectors. revert m.
  induction (selectors_of sheets) as [|[[s r] x] l IH]; intros m; [by intros [= <-]|].
  cbn [loop mbind list_bind]. rewrite bind_app, last_app_else.
  destruct (match_selector lower d i x None) as [[b sp]| |]; cbn [rbind]; [|done|done]. intros E. rewrite (IH _ E).
  match goal with |- or_else ?o _ = or_else (match ?o with Some _ => _ | None => _ end) _ => destruct o; [done|] end. cbn [or_else]. destruct b; [|done]. by rewrite (notes_lookup n _ s sp).
Qed.
Lemma collect_lookup d sheets n k i l m' : is_custom n = true -> chain k d i = Ok l -> loop (customs_of_node lower d sheets) (rev l) ∅ = Ok m' ->
  custom_value lower d sheets n i (m' !! n).
Proof.
  intros Hn. revert i l m'. induction k as [|k IH]; intros i l m'; [done|]. simpl.
  change (get d i ≫= n_parent) with (parent d i).
  destruct (parent d i) as [p|] eqn:Ep.
  - destruct (chain k d p) as [l0| |] eqn:El; simpl; [|done|done]. intros [= <-]. simpl. rewrite loop_app.
    destruct (loop _ (rev l0) ∅) as [m1| |] eqn:Em; cbn [rbind]; [|done|done]. cbn [loop].
    destruct (customs_of_node lower d sheets i m1) as [m2| |] eqn:E2; cbn [rbind]; [|done|done]. intros [= <-].
    rewrite (customs_of_node_lookup _ _ _ _ _ _ Hn E2). specialize (IH p l0 m1 El Em).
    destruct (last (custom_values lower d sheets n i)) as [v|] eqn:Ev; [by apply cv_here|]. simpl. eapply cv_up; [|done|done]. by apply last_None.
  - intros [= <-]. simpl.
    destruct (customs_of_node lower d sheets i ∅) as [m2| |] eqn:E2; cbn [rbind]; [|done|done]. intros [= <-].
    rewrite (customs_of_node_lookup _ _ _ _ _ _ Hn E2).
    destruct (last (custom_values lower d sheets n i)) as [v|] eqn:Ev; [by apply cv_here|]. apply last_None in Ev. simpl.
    assert ((∅ : customs) !! n = None) as -> by apply lookup_empty. by apply cv_top.
Qed.

(** ** Declarations that are not valid *)
Definition same (st st' : state) : Prop := st.1 = st'.1 /\ f_list st.2 = f_list st'.2.
Definition rsame (x y : res state) : Prop :=
  match x, y with Ok a, Ok b => same a b | Panic, Panic | Diverge, Diverge => True | _, _ => False end.
Lemma rsame_bind x y f g : rsame x y -> (forall a b, same a b -> rsame (f a) (g b)) -> rsame (rbind x f) (rbind y g).
Proof. destruct x, y; simpl; try done. intros H F. by apply F. Qed.
Lemma expand_same df vs i n f g : (forall r, df_shorthand df = Some r -> r_name r = n) -> f_list f = f_list g ->
  alike (fun f g => f_list f = f_list g) (expand fits df vs (fresh i n f)) (expand fits df vs (fresh i n g)).
Proof.
  intros Hn Hl. unfold expand.
  assert (S : forall r, named n (fun _ => True) r -> alike (fun s e => f_info s = f_info e /\ f_list s = f_list e /\ count_of (f_counts s) n = count_of (f_counts e) n)
     (tree_matches fits (df_grammar df) vs r (fresh i n f)) (tree_matches fits (df_grammar df) vs r (fresh i n g))).
  { intros r Hr. apply (tree_steady n (fun _ => True)); [..|done|].
    - by intros s e (_&_&H).
    - intros _ s e _ (Hi&Hl'&Hc). simpl. rewrite !count_of_up. by rewrite Hi, Hl', Hc.
    - intros s e k v _ (Hi&Hl'&Hc). unfold insert, get_declaration. simpl. by rewrite Hi, Hl', Hc.
    - simpl. by rewrite !count_of_reset. }
  destruct (df_shorthand df) as [r|].
  - specialize (S (Some r) (conj (Hn r eq_refl) (any_parts _))). destruct (tree_matches _ _ _ _ (fresh i n f)) as [[b s]| |], (tree_matches _ _ _ _ (fresh i n g)) as [[b' s']| |]; try done.
    simpl in *. tauto.
  - specialize (S None I). destruct (tree_matches _ _ _ _ (fresh i n f)) as [[b s]| |], (tree_matches _ _ _ _ (fresh i n g)) as [[b' s']| |]; try done.
    simpl in *. tauto.
Qed.
Lemma declare_same d i m s s' sp x st st' : well_named definitions -> sh_origin s = sh_origin s' -> sh_url s = sh_url s' -> same st st' ->
  rsame (declare fits show parse math definitions d i m s sp x st) (declare fits show parse math definitions d i m s' sp x st').
Proof.
  intros Hw Ho Hu. destruct x as [[name v] imp], st as [pm f], st' as [pm' f']. intros [Hp Hf]. simpl in Hp, Hf. subst pm'.
  unfold declare. rewrite Ho, Hu. destruct (is_custom name); [done|]. destruct (bool_decide (name = txt "content")); [done|].
  destruct (definitions name) as [df|] eqn:Hdf; [|done].
  pose proof (expand_same df (to_slice (normalize (resolve_functions show parse math v d i m))) (mk_info (sh_origin s') imp (sh_url s') sp) name f f'
    (fun r Hr => Hw _ _ _ Hdf Hr) Hf) as E.
  destruct (expand _ _ _ (fresh _ _ f)) as [[b g]| |], (expand _ _ _ (fresh _ _ f')) as [[b' g']| |]; try done. destruct E as [-> Hg]. cbn [rbind].
  destruct b'; [done|]. by destruct (bool_decide (name = txt "background")).
Qed.
Lemma declare_skip d i m s sp x st : not_valid fits show parse math definitions d i m x ->
  exists st', declare fits show parse math definitions d i m s sp x st = Ok st' /\ same st st'.
Proof.
  intros (Hc&Hn&Hb&df&f0&Hdf&Hs&E). destruct x as [[name v] imp], st as [pm f]. simpl in *. unfold declare.
  rewrite Hc, (bool_decide_eq_false_2 _ Hn), Hdf. unfold expand. rewrite Hs.
  set (i0 := fresh _ _ _).
  assert (S : alike (fun _ _ => True) (tree_matches fits (df_grammar df) (to_slice (normalize (resolve_functions show parse math v d i m))) None i0)
     (tree_matches fits (df_grammar df) (to_slice (normalize (resolve_functions show parse math v d i m))) None no_fix)).
  { assert (T : alike (fun s e => count_of (f_counts s) name = count_of (f_counts e) name)
      (tree_matches fits (df_grammar df) (to_slice (normalize (resolve_functions show parse math v d i m))) None i0)
      (tree_matches fits (df_grammar df) (to_slice (normalize (resolve_functions show parse math v d i m))) None no_fix)).
    { apply (tree_steady name (fun _ => True)); [done| |done|done|].
      - intros _ s' e' _ H. simpl. by rewrite !count_of_up, H.
      - simpl. by rewrite count_of_reset. }
    destruct (tree_matches _ _ _ _ i0) as [[? ?]| |], (tree_matches _ _ _ _ no_fix) as [[? ?]| |]; try done. by destruct T. }
  rewrite E in S. destruct (tree_matches _ _ _ _ i0) as [[b g]| |]; [|done|done]. destruct S as [-> _]. cbn [rbind].
  rewrite (bool_decide_eq_false_2 _ Hb). eexists. split; [done|]. done.
Qed.
(** two lists of declarations, the second possibly without [x] *)
Definition less (x : declaration) (l l' : list declaration) : Prop := l' = l \/ exists l1 l2, l = l1 ++ x :: l2 /\ l' = l1 ++ l2.
Lemma declares_same d i m s s' sp l st st' : well_named definitions -> sh_origin s = sh_origin s' -> sh_url s = sh_url s' -> same st st' ->
  rsame (loop (declare fits show parse math definitions d i m s sp) l st) (loop (declare fits show parse math definitions d i m s' sp) l st').
Proof.
  intros Hw Ho Hu. revert st st'. induction l as [|x l IH]; intros st st' H; [done|]. cbn [loop].
  apply rsame_bind; [by apply declare_same|]. intros a b Hab. by apply IH.
Qed.
Lemma declares_less d i m s s' sp x l l' st st' : well_named definitions -> sh_origin s = sh_origin s' -> sh_url s = sh_url s' -> same st st' ->
  not_valid fits show parse math definitions d i m x -> less x l l' ->
  rsame (loop (declare fits show parse math definitions d i m s sp) l st) (loop (declare fits show parse math definitions d i m s' sp) l' st').
Proof.
  intros Hw Ho Hu H Hx [->|(l1&l2&->&->)]; [by apply declares_same|]. rewrite !loop_app. apply rsame_bind; [by apply declares_same|].
  intros a b Hab. cbn [loop]. destruct (declare_skip d i m s sp x a Hx) as (a'&->&Ha). cbn [rbind]. apply declares_same; try done.
  destruct Ha, Hab. split; congruence.
Qed.
Definition near (x : declaration) (a b : sheet * rule * selector) : Prop :=
  a.2 = b.2 /\ sh_origin a.1.1 = sh_origin b.1.1 /\ sh_url a.1.1 = sh_url b.1.1 /\ less x (rl_declarations a.1.2) (rl_declarations b.1.2).
Lemma near_refl x l : Forall2 (near x) l l.
Proof. induction l; constructor; [|done]. split_and!; try done. by left. Qed.
Lemma selectors_app l l' : selectors_of (l ++ l') = selectors_of l ++ selectors_of l'.
Proof. apply bind_app. Qed.
Lemma without_near x sheets sheets' : without x sheets sheets' -> Forall2 (near x) (selectors_of sheets) (selectors_of sheets').
Proof.
  intros (s1&s2&o&u&r1&r2&sels&d1&d2&->&->). rewrite !selectors_app. apply Forall2_app; [apply near_refl|].
  unfold selectors_of. cbn [mbind list_bind]. apply Forall2_app; [|apply near_refl]. simpl. rewrite !bind_app. cbn [mbind list_bind]. simpl.
  set (a := mk_sheet o u (r1 ++ mk_rule sels (d1 ++ x :: d2) :: r2)). set (b := mk_sheet o u (r1 ++ mk_rule sels (d1 ++ d2) :: r2)).
  assert (J : forall ra rb l, less x (rl_declarations ra) (rl_declarations rb) -> Forall2 (near x) (x ← l; [(a, ra, x)]) (x ← l; [(b, rb, x)])).
  { intros ra rb l H. induction l as [|y ys IHy]; [constructor|]. simpl. constructor; [|exact IHy]. by split_and!. }
  assert (K : forall l, Forall2 (near x) (r ← l; x ← rl_selectors r; [(a, r, x)]) (r ← l; x ← rl_selectors r; [(b, r, x)])).
  { induction l as [|r l IH]; [constructor|]. cbn [mbind list_bind]. apply Forall2_app; [|exact IH]. apply J. by left. }
  apply Forall2_app; [apply K|]. apply Forall2_app; [|apply K].
  apply J. right. by exists d1, d2.
Qed.
Lemma notes_less x l l' m : is_custom x.1.1 = false -> less x l l' -> foldl (fun m x => note_custom x m) m l = foldl (fun m x => note_custom x m) m l'.
Proof.
  intros Hx [->|(l1&l2&->&->)]; [done|]. rewrite !foldl_app. simpl. f_equal. destruct x as [[k v] b]. simpl in *. by rewrite Hx.
Qed.
Lemma customs_near x d i l l' m : is_custom x.1.1 = false -> Forall2 (near x) l l' ->
  loop (fun '(s, r, y) m => let* (b, _) := match_selector lower d i y None in
    Ok (if (b : bool) then foldl (fun m x => note_custom x m) m (rl_declarations r) else m)) l m =
  loop (fun '(s, r, y) m => let* (b, _) := match_selector lower d i y None in
    Ok (if (b : bool) then foldl (fun m x => note_custom x m) m (rl_declarations r) else m)) l' m.
Proof.
  intros Hx F. revert m. induction F as [|[[s r] y] [[s' r'] y'] l l' (Hy&_&_&Hl) F IH]; intros m; [done|]. cbn [loop].
  simpl in Hy, Hl. subst y'. destruct (match_selector lower d i y None) as [[b sp]| |]; cbn [rbind]; [|done|done].
  destruct b; [rewrite (notes_less _ _ _ _ Hx Hl)|]; apply IH.
Qed.
Lemma collect_without x d i sheets sheets' : is_custom x.1.1 = false -> without x sheets sheets' ->
  collect_customs lower d i sheets = collect_customs lower d i sheets'.
Proof.
  intros Hx W%without_near. unfold collect_customs. destruct (chain (depth d) d i) as [l| |]; cbn [rbind]; [|done|done].
  generalize (∅ : customs). induction (rev l) as [|j js IH]; intros m; [done|]. cbn [loop].
  assert (customs_of_node lower d sheets j m = customs_of_node lower d sheets' j m) as -> by (by apply (customs_near x)).
  destruct (customs_of_node lower d sheets' j m); cbn [rbind]; [apply IH|done|done].
Qed.
Lemma visits_near x d i m pseudo l l' st st' : well_named definitions -> not_valid fits show parse math definitions d i m x ->
  Forall2 (near x) l l' -> same st st' ->
  rsame (loop (visit lower fits show parse math definitions d i m pseudo) l st) (loop (visit lower fits show parse math definitions d i m pseudo) l' st').
Proof.
  intros Hw Hx F. revert st st'. induction F as [|[[s r] y] [[s' r'] y'] l l' (Hy&Ho&Hu&Hl) F IH]; intros st st' H; [done|]. cbn [loop].
  simpl in Hy, Ho, Hu, Hl. subst y'. apply rsame_bind; [|by apply IH]. unfold visit.
  destruct (match_selector lower d i y pseudo) as [[b sp]| |]; cbn [rbind]; [|done|done].
  destruct b; [|done]. by apply (declares_less _ _ _ _ _ _ x).
Qed.
Lemma nested_list fuel f g : f_list f = f_list g ->
  match resolve_nested fits definitions fuel f, resolve_nested fits definitions fuel g with
  | Ok a, Ok b => f_list a = f_list b | Panic, Panic | Diverge, Diverge => True | _, _ => False end.
Proof.
  intros E. destruct fuel as [|fuel]; [done|]. cbn [resolve_nested]. rewrite E.
  destruct (loop _ _ no_fix) as [h| |]; cbn [rbind]; [|done|done].
  destruct (match List.filter _ (f_list g) with [] => Ok h | _ :: _ => _ end); cbn [rbind]; [|done|done]. done.
Qed.
Lemma compute_without x d i sheets sheets' pseudo cs : well_named definitions ->
  collect_customs lower d i sheets = Ok cs -> not_valid fits show parse math definitions d i cs x -> without x sheets sheets' ->
  compute_properties lower fits show parse math white definitions d i sheets pseudo =
  compute_properties lower fits show parse math white definitions d i sheets' pseudo.
Proof.
  intros Hw Hc Hx W. unfold compute_properties. destruct (match pseudo with None => _ | Some _ => _ end); [done|].
  rewrite <- (collect_without x d i sheets sheets') by (try done; apply Hx). rewrite Hc. cbn [rbind].
  pose proof (visits_near x d i cs pseudo _ _ (∅, no_fix) (∅, no_fix) Hw Hx (without_near _ _ _ W) (conj eq_refl eq_refl)) as V.
  destruct (loop _ (selectors_of sheets) _) as [[pm f]| |], (loop _ (selectors_of sheets') _) as [[pm' f']| |]; try done.
  destruct V as [Hp Hf]. simpl in Hp, Hf. subst pm'. cbn [rbind].
  pose proof (nested_list nesting f f' Hf) as N.
  destruct (resolve_nested _ _ _ f) as [g| |], (resolve_nested _ _ _ f') as [g'| |]; try done. cbn [rbind]. unfold apply_fixes. by rewrite N.
Qed.

(** ** A declaration in the place of another *)
Lemma declare_sheet d i m s s' sp x : sh_origin s = sh_origin s' -> sh_url s = sh_url s' ->
  declare fits show parse math definitions d i m s sp x = declare fits show parse math definitions d i m s' sp x.
Proof. intros Ho Hu. unfold declare. by rewrite Ho, Hu. Qed.
Lemma loop_ext {A S} (f g : A -> S -> res S) l : (forall x s, f x s = g x s) -> forall s, loop f l s = loop g l s.
Proof. intros H. induction l as [|x l IH]; intros s; [done|]. cbn [loop]. rewrite H. by destruct (g x s); cbn [rbind]. Qed.
Definition swapped (x y : declaration) (l l' : list declaration) : Prop := l' = l \/ exists l1 l2, l = l1 ++ x :: l2 /\ l' = l1 ++ y :: l2.
Definition by_side (x y : declaration) (a b : sheet * rule * selector) : Prop :=
  a.2 = b.2 /\ sh_origin a.1.1 = sh_origin b.1.1 /\ sh_url a.1.1 = sh_url b.1.1 /\ swapped x y (rl_declarations a.1.2) (rl_declarations b.1.2).
Lemma by_side_refl x y l : Forall2 (by_side x y) l l.
Proof. induction l; constructor; [|done]. split_and!; try done. by left. Qed.
Lemma instead_by_side x y sheets sheets' : instead x y sheets sheets' -> Forall2 (by_side x y) (selectors_of sheets) (selectors_of sheets').
Proof.
  intros (s1&s2&o&u&r1&r2&sels&d1&d2&->&->). rewrite !selectors_app. apply Forall2_app; [apply by_side_refl|].
  unfold selectors_of. cbn [mbind list_bind]. apply Forall2_app; [|apply by_side_refl]. simpl. rewrite !bind_app. cbn [mbind list_bind]. simpl.
  set (a := mk_sheet o u (r1 ++ mk_rule sels (d1 ++ x :: d2) :: r2)). set (b := mk_sheet o u (r1 ++ mk_rule sels (d1 ++ y :: d2) :: r2)).
  assert (J : forall ra rb l, swapped x y (rl_declarations ra) (rl_declarations rb) -> Forall2 (by_side x y) (z ← l; [(a, ra, z)]) (z ← l; [(b, rb, z)])).
  { intros ra rb l H. induction l as [|z ys IHy]; [constructor|]. simpl. constructor; [|exact IHy]. by split_and!. }
  assert (K : forall l, Forall2 (by_side x y) (r ← l; z ← rl_selectors r; [(a, r, z)]) (r ← l; z ← rl_selectors r; [(b, r, z)])).
  { induction l as [|r l IH]; [constructor|]. cbn [mbind list_bind]. apply Forall2_app; [|exact IH]. apply J. by left. }
  apply Forall2_app; [apply K|]. apply Forall2_app; [|apply K]. apply J. right. by exists d1, d2.
Qed.
Lemma collect_instead x y d i sheets sheets' : is_custom x.1.1 = false -> is_custom y.1.1 = false -> instead x y sheets sheets' ->
  collect_customs lower d i sheets = collect_customs lower d i sheets'.
Proof.
  intros Hx Hy W%instead_by_side. unfold collect_customs. destruct (chain (depth d) d i) as [l| |]; cbn [rbind]; [|done|done].
  apply loop_ext. intros j m. unfold customs_of_node. revert m.
  induction W as [|[[s r] z] [[s' r'] z'] ls ls' (Hz&_&_&Hl) F IH]; intros m; [done|]. cbn [loop].
  simpl in Hz, Hl. subst z'. destruct (match_selector lower d j z None) as [[b sp]| |]; cbn [rbind]; [|done|done].
  destruct b; [|apply IH]. rewrite IH. f_equal.
  destruct Hl as [->|(l1&l2&->&->)]; [done|]. rewrite !foldl_app. simpl. f_equal. destruct x as [[k v] b], y as [[k' v'] b']. simpl in *. by rewrite Hx, Hy.
Qed.
Lemma compute_instead x y d i sheets sheets' pseudo cs : is_custom x.1.1 = false -> is_custom y.1.1 = false ->
  collect_customs lower d i sheets = Ok cs ->
  (forall s sp st, declare fits show parse math definitions d i cs s sp x st = declare fits show parse math definitions d i cs s sp y st) ->
  instead x y sheets sheets' ->
  compute_properties lower fits show parse math white definitions d i sheets pseudo =
  compute_properties lower fits show parse math white definitions d i sheets' pseudo.
Proof.
  intros Hx Hy Hc Hd W. unfold compute_properties. destruct (match pseudo with None => _ | Some _ => _ end); [done|].
  rewrite <- (collect_instead x y d i sheets sheets') by done. rewrite Hc. cbn [rbind].
  apply instead_by_side in W.
  assert (loop (visit lower fits show parse math definitions d i cs pseudo) (selectors_of sheets) (∅, no_fix) =
          loop (visit lower fits show parse math definitions d i cs pseudo) (selectors_of sheets') (∅, no_fix)) as ->; [|done].
  generalize ((∅, no_fix) : state). induction W as [|[[s r] z] [[s' r'] z'] ls ls' (Hz&Ho&Hu&Hl) F IH]; intros st; [done|]. cbn [loop].
  simpl in Hz, Ho, Hu, Hl. subst z'.
  assert (visit lower fits show parse math definitions d i cs pseudo (s, r, z) st = visit lower fits show parse math definitions d i cs pseudo (s', r', z) st) as ->.
  { unfold visit. destruct (match_selector lower d i z pseudo) as [[b sp]| |]; cbn [rbind]; [|done|done]. destruct b; [|done].
    rewrite (loop_ext _ (declare fits show parse math definitions d i cs s' sp) (rl_declarations r)) by (intros; by rewrite (declare_sheet d i cs s s')).
    destruct Hl as [->|(l1&l2&->&->)]; [done|]. rewrite !loop_app. destruct (loop _ l1 st); cbn [rbind loop]; [|done|done]. by rewrite Hd. }
  destruct (visit _ _ _ _ _ _ _ _ _ _ _ _); cbn [rbind]; [apply IH|done|done].
Qed.


(** ** Styling ends *)
Lemma put_Forall (P : str -> Prop) l n d : P n -> Forall (fun e => P e.1) l -> Forall (fun e : str * decl => P e.1) (SyntaxModel.put l n d).
Proof.
  intros Hn. induction 1 as [|[k e] l Hk Hl IH]; simpl; [by repeat constructor|]. case_bool_decide; constructor; done.
Qed.
(** the longhands entered are those the resolver knows *)
Lemma expand_names (P : str -> Prop) df vs f b g : (forall r p, df_shorthand df = Some r -> p ∈ r_parts r -> P p.1) ->
  Forall (fun e => P e.1) (f_list f) -> expand fits df vs f = Ok (b, g) -> Forall (fun e => P e.1) (f_list g).
Proof.
  intros Hp Hf. unfold expand. destruct (df_shorthand df) as [r|].
  - intros E. assert (S : alike (fun s e => s = e /\ Forall (fun e => P e.1) (f_list s)) (tree_matches fits (df_grammar df) vs (Some r) f) (tree_matches fits (df_grammar df) vs (Some r) f)).
    { apply (tree_steady (r_name r) P).
      - by intros s e [-> _].
      - by intros _ s e _ [-> H].
      - intros s e n v Hn [-> H]. split; [done|]. simpl. by apply put_Forall.
      - split; [done|]. apply Forall_forall. intros p Hin. by eapply Hp.
      - done. }
    rewrite E in S. by destruct S as (_&_&H).
  - destruct (tree_matches _ _ _ _ _) as [[? ?]| |]; simpl; [|done|done]. by intros [= _ <-].
Qed.
Lemma expand_total df vs f c : df_grammar df = [c] -> productive c -> exists b g, expand fits df vs f = Ok (b, g).
Proof.
  intros Hc Hp. assert (T : forall r f, exists b g, tree_matches fits [c] vs r f = Ok (b, g)).
  { intros r f0. unfold tree_matches. destruct (_ || _); [eauto|]. destruct (component_total fits c Hp vs r f0) as (m&s'&->). cbn [rbind]. eauto. }
  unfold expand. rewrite Hc. destruct (df_shorthand df) as [r|]; [apply T|]. destruct (T None f) as (b&g&->). cbn [rbind]. eauto.
Qed.
Section total.
Context (ok : str -> Prop) (rank : str -> nat) (W : workable definitions ok rank).
(** a longhand that can be looked into, of rank below [k] *)
Definition below (k : nat) (n : str) : Prop := forall df, definitions n = Some df -> is_shorthand df = true -> ok n /\ rank n < k.
Lemma resolve_total fuel f : Forall (fun e => below fuel e.1) (f_list f) -> exists g, resolve_nested fits definitions (S fuel) f = Ok g.
Proof.
  revert f. induction fuel as [|k IH]; intros f H; cbn [resolve_nested].
  - assert (List.filter (fun e : str * decl => match definitions e.1 with Some df => is_shorthand df | None => false end) (f_list f) = []) as ->.
    { revert H. induction (f_list f) as [|[n e] l IHl]; intros [Hn Hl]%Forall_cons || intros H; [done|]. simpl.
      destruct (definitions n) as [df|] eqn:E; [|by apply IHl]. destruct (is_shorthand df) eqn:S; [|by apply IHl].
      destruct (Hn df E S). lia. }
    simpl. eauto.
  - set (nested := List.filter _ (f_list f)).
    assert (Hn : Forall (fun e : str * decl => exists df, definitions e.1 = Some df /\ is_shorthand df = true /\ ok e.1 /\ rank e.1 < S k) nested).
    { apply Forall_forall. intros e [Hin Hs]%elem_of_list_In%filter_In. destruct (definitions e.1) as [df|] eqn:E; [|done].
      apply elem_of_list_In in Hin. rewrite Forall_forall in H. destruct (H _ Hin df E Hs). exists df. done. }
    assert (L : forall l g, Forall (fun e : str * decl => exists df, definitions e.1 = Some df /\ is_shorthand df = true /\ ok e.1 /\ rank e.1 < S k) l ->
      Forall (fun e => below k e.1) (f_list g) -> exists g', loop (fun '(name, dc) g =>
                  match definitions name with
                  | Some df => let* (_, g) := expand fits df (to_slice (dc_value dc)) g in Ok g
                  | None => Ok g
                  end) l g = Ok g' /\ Forall (fun e => below k e.1) (f_list g')).
    { induction l as [|[n e] l IHl]; intros g Hl Hg; [by exists g|]. apply Forall_cons in Hl as [(df&Hdf&_&Hok&Hr) Hl]. cbn [loop]. simpl in Hdf, Hok, Hr.
      rewrite Hdf. destruct (W n df Hok Hdf) as ((c&Hc&Hp)&_&Hlow).
      destruct (expand_total df (to_slice (dc_value e)) g c Hc Hp) as (b&g1&E1). rewrite E1. cbn [rbind]. apply IHl; [done|].
      eapply expand_names; [|exact Hg|exact E1]. intros r p Hr' Hin df' Hdf' Hs. destruct (Hlow r p df' Hr' Hin Hdf' Hs). split; [done|lia]. }
    destruct (L nested no_fix Hn) as (g&->&Hg); [constructor|]. cbn [rbind]. destruct nested; [cbn [rbind]; eauto|].
    destruct (IH g Hg) as [g' Eg]. cbn [resolve_nested] in Eg. rewrite Eg. cbn [rbind]. eauto.
Qed.
Lemma declare_total d i m s sp x st : ok x.1.1 -> Forall (fun e => below 15 e.1) (f_list st.2) ->
  exists st', declare fits show parse math definitions d i m s sp x st = Ok st' /\ Forall (fun e => below 15 e.1) (f_list st'.2).
Proof.
  destruct x as [[name v] imp], st as [pm f]. simpl. intros Hok Hf. unfold declare. destruct (is_custom name); [eauto|].
  destruct (bool_decide (name = txt "content")); [eauto|]. destruct (definitions name) as [df|] eqn:Hdf; [|eauto].
  destruct (W name df Hok Hdf) as ((c&Hc&Hp)&Hr&Hlow).
  set (i0 := fresh _ _ _). destruct (expand_total df (to_slice (normalize (resolve_functions show parse math v d i m))) i0 c Hc Hp) as (b&g&E).
  rewrite E. cbn [rbind]. assert (Hg : Forall (fun e => below 15 e.1) (f_list g)).
  { apply (expand_names (below 15) df (to_slice (normalize (resolve_functions show parse math v d i m))) i0 b g); [|exact Hf|exact E]. intros r p Hr' Hin df' Hdf' Hs. destruct (Hlow r p df' Hr' Hin Hdf' Hs). split; [done|]. unfold nesting in Hr. lia. }
  destruct b; [eauto|]. destruct (bool_decide (name = txt "background")); eauto.
Qed.
Lemma compute_total d i sheets pseudo : (forall j sel ps, exists b sp, match_selector lower d j sel ps = Ok (b, sp)) -> (exists l, chain (depth d) d i = Ok l) ->
  declares_only ok sheets -> exists o, compute_properties lower fits show parse math white definitions d i sheets pseudo = Ok o.
Proof.
  intros M [l Hl] D. unfold compute_properties. destruct (match pseudo with None => _ | Some _ => _ end); [eauto|].
  assert (exists cs, collect_customs lower d i sheets = Ok cs) as [cs ->].
  { unfold collect_customs. rewrite Hl. cbn [rbind]. generalize (∅ : customs). induction (rev l) as [|j js IH]; intros m; [by exists m|]. cbn [loop].
    assert (exists m', customs_of_node lower d sheets j m = Ok m') as [m' ->]; [|apply IH].
    unfold customs_of_node. revert m. induction (selectors_of sheets) as [|[[s r] x] sl IHs]; intros m; [by exists m|]. cbn [loop].
    destruct (M j x None) as (b&sp&->). cbn [rbind]. apply IHs. }
  cbn [rbind].
  assert (S : forall sl st, (forall s r x, (s, r, x) ∈ sl -> forall y, y ∈ rl_declarations r -> ok y.1.1) -> Forall (fun e => below 15 e.1) (f_list st.2) ->
    exists st', loop (visit lower fits show parse math definitions d i cs pseudo) sl st = Ok st' /\ Forall (fun e => below 15 e.1) (f_list st'.2)).
  { induction sl as [|[[s r] x] sl IH]; intros st Hs Hf; [by exists st|]. cbn [loop].
    assert (exists st', visit lower fits show parse math definitions d i cs pseudo (s, r, x) st = Ok st' /\ Forall (fun e => below 15 e.1) (f_list st'.2)) as (st'&->&Hf').
    { unfold visit. destruct (M i x pseudo) as (b&sp&->). cbn [rbind]. destruct b; [|eauto].
      assert (Hd : forall y, y ∈ rl_declarations r -> ok y.1.1) by (apply (Hs s r x); by left).
      revert st Hf Hd. induction (rl_declarations r) as [|y ys IHy]; intros st Hf Hd; [eauto|]. cbn [loop].
      destruct (declare_total d i cs s sp y st) as (st1&->&Hf1); [apply Hd; by left|done|]. cbn [rbind]. apply IHy; [done|]. intros z Hz. apply Hd. by right. }
    cbn [rbind]. apply IH; [|done]. intros s' r' x' Hin. apply (Hs s' r' x'). by right. }
  destruct (S (selectors_of sheets) (∅, no_fix)) as ([pm f]&->&Hf).
  - intros s r x (s0&H&Hs)%elem_of_list_bind y Hy. apply elem_of_list_bind in H as (r0&H&Hr). apply elem_of_list_bind in H as (x0&H&Hx).
    apply elem_of_list_singleton in H. injection H as -> -> ->. by eapply D.
  - constructor.
  - cbn [rbind]. destruct (resolve_total 15 f Hf) as [g Eg]. change nesting with 16. rewrite Eg. cbn [rbind]. eauto.
Qed.
End total.
End cascade.

(** ** Documents that were built carefully *)
Lemma selectors_total lower d i sel ps : linked d -> acyclic d -> exists b sp, match_selector lower d i sel ps = Ok (b, sp).
Proof.
  intros L A. induction sel as [|parts sel IH]; [by eexists _, _|]. simpl. destruct (matching_ends lower d L A i parts ps) as [b ->]. cbn [rbind].
  destruct b, (match ps with Some t => _ | None => _ end); eauto.
Qed.
Lemma collect_total lower d i sheets : linked d -> acyclic d -> exists cs, collect_customs lower d i sheets = Ok cs.
Proof.
  intros L A. unfold collect_customs. destruct (chain_total d L A i) as [l ->]. cbn [rbind]. generalize (∅ : customs).
  induction (rev l) as [|j js IH]; intros m; [by exists m|]. cbn [loop].
  assert (exists m', customs_of_node lower d sheets j m = Ok m') as [m' ->]; [|apply IH].
  unfold customs_of_node. revert m. induction (selectors_of sheets) as [|[[s r] x] sl IHs]; intros m; [by exists m|]. cbn [loop].
  destruct (selectors_total lower d j x None L A) as (b&sp&->). cbn [rbind]. apply IHs.
Qed.
Lemma custom_value_unique lower d sheets n i o o' : custom_value lower d sheets n i o -> custom_value lower d sheets n i o' -> o = o'.
Proof.
  intros H. revert o'. induction H as [i v Hl|i p o Hn Hp H IH|i Hn Hp]; intros o' H'; inversion H'; subst; try congruence.
  - by rewrite H in Hl.
  - by rewrite H in Hl.
  - by rewrite Hn in *.
  - apply IH. congruence.
  - by rewrite Hn in *.
Qed.
Lemma ungenerated_not_valid fits show parse math definitions d i m x :
  ungenerated fits show parse math definitions d i m x -> not_valid fits show parse math definitions d i m x.
Proof.
  intros (H1&H2&H3&df&c&Hdf&Hs&Hc&Hp&Hw&Hl). split_and!; try done. exists df.
  set (vs := to_slice _) in *. rewrite Hc. unfold tree_matches.
  destruct (is_css_wide_keyword vs || _ || _) eqn:E; [by apply waved in E|].
  destruct (component_total fits c Hp vs None no_fix) as (m'&s'&Em). exists s'. split_and!; [done..|]. rewrite Em. cbn [rbind].
  destruct (m_ok m') eqn:Hok; [|done]. destruct (decide (length (m_rest m') = 0)) as [Hr|Hr]; [|by rewrite (bool_decide_eq_false_2 _ Hr)].
  apply nil_length_inv in Hr. destruct (loose_sound fits c _ _ _ _ _ Em Hok) as (w & Hw' & HL). rewrite Hr, app_nil_r in Hw'. subst w. done.
Qed.
