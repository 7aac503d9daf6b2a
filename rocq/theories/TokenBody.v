(** What the HTML tokenizer makes of elements whose body is text. *)
From stdpp Require Import gmap.
From Coq Require Import ZifyBool ZifyN.
From Verif Require Import Text SettingsModel CookieModel TokenModel TokenSpec TokenProofs TokenStep TokenStep2 TokenRun TokenRefs TokenDocs TokenTable.
Local Open Scope N_scope.

Section body.
Context (tbl : list (list N * list N)) (OK : table_ok tbl) (fg : bool).
Notation goes := (goes tbl fg).
Notation to1 := (to1 tbl fg).
Notation steps := (steps tbl fg).

(** runs that also say what the temporary buffer holds: after, before and after, before *)
Definition enter (X Y : config) (tm' : list N) : Prop := forall t, core t = X -> exists t', steps t t' /\ core t' = Y /\ tmp t' = tm'.
Definition loop (X : config) (tm : list N) (Y : config) (tm' : list N) : Prop :=
  forall t, core t = X -> tmp t = tm -> exists t', steps t t' /\ core t' = Y /\ tmp t' = tm'.
Definition leave (X : config) (tm : list N) (Y : config) : Prop :=
  forall t, core t = X -> tmp t = tm -> exists t', steps t t' /\ core t' = Y.
Lemma loop_trans X tm Y tm' Z tm'' : loop X tm Y tm' -> loop Y tm' Z tm'' -> loop X tm Z tm''.
Proof.
  intros H1 H2 t C T. destruct (H1 t C T) as (t1 & S1 & C1 & T1). destruct (H2 t1 C1 T1) as (t2 & S2 & C2 & T2).
  exists t2. split_and!; [by eapply steps_trans|done..].
Qed.
Lemma enter_loop X Y tm Z tm' : enter X Y tm -> loop Y tm Z tm' -> enter X Z tm'.
Proof.
  intros H1 H2 t C. destruct (H1 t C) as (t1 & S1 & C1 & T1). destruct (H2 t1 C1 T1) as (t2 & S2 & C2 & T2).
  exists t2. split_and!; [by eapply steps_trans|done..].
Qed.
Lemma enter_leave X Y tm Z : enter X Y tm -> leave Y tm Z -> goes X Z.
Proof.
  intros H1 H2 t C. destruct (H1 t C) as (t1 & S1 & C1 & T1). destruct (H2 t1 C1 T1) as (t2 & S2 & C2).
  exists t2. split_and!; [by eapply steps_trans|done..].
Qed.

Ltac blia := unfold name_end, white, alnum, letter, digit, is_ws, is_alnum, is_alpha, is_upper, is_digit, between in *; lia.
Ltac ifs := repeat match goal with
  | |- context [if ?b then _ else _] =>
      first [replace b with true by blia | replace b with false by blia]; cbv beta iota
  end.
Ltac opening :=
  let C := fresh "C" in
  intros t C; destruct t as [p f_ s_ c_ an_ av_ at__ cu_ tm_ q_ ls_ lc e]; unfold core in C; cbn in C;
  injection C as -> -> -> -> -> -> -> -> ->; unfold step; cbn [state]; unfold end_tag_name, end_tag_open; rewrite ?read_mk; cbv beta iota zeta;
  rewrite ?shown_ws, ?shown_alpha, ?shown_upper, ?shown_eqb, ?shown_some by lia.
Ltac close1 := eexists; split; [reflexivity|]; try (unfold core; cbn - [shown lower_char kept folded app]; reflexivity).
Ltac one := opening; ifs; close1.
Ltac via H := eapply goes_trans; [apply goes_one; apply H; try done|].
Ltac via1 := eapply goes_trans; [apply goes_one; one|].

Definition lt_state K := match K with Rcdata => RCDATALessThanSign | Rawtext => RAWTEXTLessThanSign | Script => ScriptDataLessThenSign end.
Definition open_state K := match K with Rcdata => RCDATAEndTagOpen | Rawtext => RAWTEXTEndTagOpen | Script => ScriptDataEndTagOpen end.
Definition name_state K := match K with Rcdata => RCDATAEndTagName | Rawtext => RAWTEXTEndTagName | Script => ScriptDataEndTagName end.

Section steps_.
Context (an av : list N) (at_ : attr_map) (ls : list N) (K : raw_kind).
Notation cf f s c cu := (f, s, c, an, av, at_, cu, [], ls) (only parsing).

Lemma raw_lt r c cu : to1 (cf (60 :: r) (raw_state K) c cu) (cf r (lt_state K) c cu).
Proof. destruct K; one. Qed.
Lemma lt_other y r c cu : y <> 47 -> (K = Script -> y <> 33) ->
  to1 (cf (y :: r) (lt_state K) c cu) (cf (y :: r) (raw_state K) (c ++ [60]) cu).
Proof. intros H1 H2. destruct K; [one|one|specialize (H2 eq_refl); one]. Qed.
Lemma lt_slash r c cu : enter (cf (47 :: r) (lt_state K) c cu) (cf r (open_state K) c cu) [].
Proof.
  intros t C. assert (Q : queue t = []) by by injection C.
  assert (exists t', step tbl fg t = Ok (Some t') /\ core t' = cf r (open_state K) c cu /\ tmp t' = []) as (t' & E & C' & T').
  { clear Q. revert t C. destruct K; opening; ifs; eexists; (split; [reflexivity|]); done. }
  exists t'. split_and!; [by eapply steps_step; [done|done|constructor]|done..].
Qed.
Lemma open_other y r c cu : ~ letter y ->
  to1 (cf (y :: r) (open_state K) c cu) (cf (y :: r) (raw_state K) (c ++ [60; 47]) cu).
Proof.
  intros H. destruct K; opening; ifs; (eexists; split; [reflexivity|]); unfold core; cbn - [shown]; by rewrite <- app_assoc.
Qed.
Lemma name_letter y r c m tm : letter y ->
  loop (cf (y :: r) (name_state K) c (Some (EndTag m))) tm (cf r (name_state K) c (Some (EndTag (m ++ [folded y])))) (tm ++ [y]).
Proof.
  intros H t C T. assert (Q : queue t = []) by by injection C.
  assert (Hs : shown false y = y) by (unfold shown; cbn; destruct (_ && _) eqn:?; [unfold letter in *; lia|done]).
  assert (exists t', step tbl fg t = Ok (Some t') /\ core t' = cf r (name_state K) c (Some (EndTag (m ++ [folded y]))) /\ tmp t' = tm ++ [y]) as (t' & E & C' & T').
  { clear Q. rewrite (folded_letter y H). revert t C T. destruct K; opening; cbn [tmp]; intros ->; ifs; rewrite Hs; eexists; (split; [reflexivity|]); done. }
  exists t'. split_and!; [by eapply steps_step; [done|done|constructor]|done..].
Qed.
Lemma open_letter y r c cu : letter y ->
  loop (cf (y :: r) (open_state K) c cu) [] (cf r (name_state K) c (Some (EndTag [folded y]))) [y].
Proof.
  intros H. assert (Hs : shown false y = y) by (unfold shown; cbn; destruct (_ && _) eqn:?; [unfold letter in *; lia|done]).
  assert (D : K = Script \/ K <> Script) by (destruct K; auto). destruct D as [EK|NK].
  - intros t C T. assert (Q : queue t = []) by by injection C.
    assert (exists t', step tbl fg t = Ok (Some t') /\ core t' = cf r (name_state K) c (Some (EndTag [folded y])) /\ tmp t' = [y]) as (t' & E & C' & T').
    { clear Q. rewrite (folded_letter y H). rewrite EK in *. revert t C T. opening. cbn [tmp]. intros ->. ifs. rewrite Hs. eexists; (split; [reflexivity|]); done. }
    exists t'. split_and!; [by eapply steps_step; [done|done|constructor]|done..].
  - eapply loop_trans; [|apply (name_letter y r c [] [] H)].
    intros t C T. assert (Q : queue t = []) by by injection C.
    assert (exists t', step tbl fg t = Ok (Some t') /\ core t' = cf (y :: r) (name_state K) c (Some (EndTag [])) /\ tmp t' = []) as (t' & E & C' & T').
    { clear Q. revert t C T. destruct K; [| |done]; opening; cbn [tmp]; intros ->; ifs; eexists; (split; [reflexivity|]); done. }
    exists t'. split_and!; [by eapply steps_step; [done|done|constructor]|done..].
Qed.
Lemma name_letters w r c : Forall letter w -> forall m tm,
  loop (cf (w ++ r) (name_state K) c (Some (EndTag m))) tm (cf r (name_state K) c (Some (EndTag (m ++ map folded w)))) (tm ++ w).
Proof.
  induction 1 as [|y w H _ IH]; intros m tm.
  - rewrite !app_nil_r. intros t C T. exists t. split_and!; [constructor|done..].
  - cbn [app map]. eapply loop_trans; [by apply name_letter|].
    replace (m ++ folded y :: map folded w) with ((m ++ [folded y]) ++ map folded w) by by rewrite <- app_assoc.
    replace (tm ++ y :: w) with ((tm ++ [y]) ++ w) by by rewrite <- app_assoc. apply IH.
Qed.
Lemma name_fail y r c m tm : ~ letter y -> (name_end y -> m <> ls) ->
  leave (cf (y :: r) (name_state K) c (Some (EndTag m))) tm (cf (y :: r) (raw_state K) (c ++ [60; 47] ++ tm) (Some (EndTag m))).
Proof.
  intros H N t C T. assert (Q : queue t = []) by by injection C.
  assert (exists t', step tbl fg t = Ok (Some t') /\ core t' = cf (y :: r) (raw_state K) (c ++ [60; 47] ++ tm) (Some (EndTag m))) as (t' & E & C').
  { clear Q. revert t C T. rewrite app_assoc.
    assert (A : bool_decide (ls = m) = false \/ ~ name_end y).
    { destruct (decide (m = ls)) as [->|D]; [right; intros X; by apply N in X|left; apply bool_decide_eq_false; congruence]. }
    destruct K; opening; cbn [tmp] in *; intros ->; unfold appropriate; cbn [last_start cur];
      (destruct A as [->|A1]; [destruct (is_ws y), (y =? 47), (y =? 62); ifs; close1|ifs; close1]). }
  exists t'. split_and!; [by eapply steps_step; [done|done|constructor]|done..].
Qed.
Lemma raw_char x r c cu : x <> 60 -> (K = Rcdata -> x <> 38) ->
  to1 (cf (x :: r) (raw_state K) c cu) (cf r (raw_state K) (c ++ [shown true x]) cu).
Proof.
  intros H1 H2. destruct (decide (x = 0)) as [->|Z].
  - rewrite shown_zero. destruct K; one.
  - rewrite shown_true by done. destruct K; [specialize (H2 eq_refl)| |]; one.
Qed.

Lemma raw_ref u o s rest c cu : K = Rcdata -> ref tbl false u o s -> stopper rest ->
  goes (cf (38 :: u ++ rest) (raw_state K) c cu) (cf (s ++ rest) (raw_state K) (c ++ o) cu).
Proof.
  intros -> R S. via1. apply goes_one. intros t C. destruct (ref_core tbl OK false u o s rest t R S) as (t1 & E & C1); [by injection C|].
  exists (goto RCDATA t1). unfold step. replace (state t) with CharacterReferenceInRcData by (by injection C as _ <-).
  rewrite E. split; [done|]. unfold core, upd in *. cbn. congruence.
Qed.
Lemma bang r c cu : K = Script ->
  to1 (cf (33 :: r) (lt_state K) c cu) (cf r ScriptDataEscapeStart (c ++ [60; 33]) cu).
Proof. intros ->. opening. ifs. eexists. split; [reflexivity|]. unfold core. cbn - [shown]. by rewrite <- app_assoc. Qed.
Lemma escape_other y r c cu s : K = Script -> y <> 45 -> s = ScriptDataEscapeStart \/ s = ScriptDataEscapeStartDash ->
  to1 (cf (y :: r) s c cu) (cf (y :: r) (raw_state K) c cu).
Proof. intros -> H [->| ->]; one. Qed.
Lemma escape_dash r c cu : to1 (cf (45 :: r) ScriptDataEscapeStart c cu) (cf r ScriptDataEscapeStartDash (c ++ [45]) cu).
Proof. one. Qed.

(** [</w] followed by something that does not make it an end tag of the element *)
Lemma no_end_tag w y r c cu : w <> [] -> Forall letter w -> ~ letter y -> (name_end y -> map folded w <> ls) ->
  goes (cf (60 :: 47 :: w ++ y :: r) (raw_state K) c cu) (cf (y :: r) (raw_state K) (c ++ 60 :: 47 :: w) (Some (EndTag (map folded w)))).
Proof.
  intros W L Y N. destruct w as [|x w]; [done|]. apply Forall_cons in L as [Lx L].
  via raw_lt. eapply enter_leave; [eapply enter_loop; [apply lt_slash|eapply loop_trans; [by apply open_letter|by apply name_letters]]|].
  cbn [app map] in *. by apply name_fail.
Qed.

(** *** Bodies *)
Definition body_fine (b : list N) : Prop :=
  (forall a x c z, b = a ++ 60 :: 47 :: x ++ c :: z -> map folded x = ls -> ~ name_end c) /\
  (K = Script -> forall a z, b <> a ++ txt "<!--" ++ z).
Lemma body_fine_drop a b : body_fine (a ++ b) -> body_fine b.
Proof.
  intros [H1 H2]. split.
  - intros a' x c z ->. apply (H1 (a ++ a') x c z). by rewrite <- app_assoc.
  - intros E a' z ->. apply (H2 E (a ++ a') z). by rewrite <- app_assoc.
Qed.
Lemma body_char x b o : body_means tbl K (x :: b) o -> (K = Rcdata -> x <> 38) ->
  exists o', o = shown true x :: o' /\ body_means tbl K b o'.
Proof.
  intros M H. unfold body_means in *. destruct K; [|by exists (map (shown true) b)..].
  inversion M; subst; [by eexists|by destruct (H eq_refl)].
Qed.
Lemma shown_letter x : letter x -> shown true x = x.
Proof. unfold letter, shown. intros H. destruct (_ && _) eqn:?; [lia|]. cbn. by destruct (x =? 0) eqn:?; [lia|]. Qed.
Lemma body_letters w b o : Forall letter w -> body_means tbl K (w ++ b) o -> exists o', o = w ++ o' /\ body_means tbl K b o'.
Proof.
  intros L. revert o. induction L as [|x w H _ IH]; intros o M; [by exists o|]. cbn [app] in M.
  apply body_char in M as (o1 & -> & M); [|intros _; unfold letter in *; lia].
  apply IH in M as (o2 & -> & M). exists o2. by rewrite shown_letter.
Qed.
Lemma split_letters (l : list N) : exists w r, l = w ++ r /\ Forall letter w /\ starts (fun x => ~ letter x) r.
Proof.
  induction l as [|x l (w & r & -> & W & R)]; [by exists [], []|]. destruct (is_alpha x) eqn:E.
  - exists (x :: w), r. split_and!; [done| |done]. constructor; [by apply alpha_spec|done].
  - exists [], (x :: w ++ r). split_and!; [done..|]. cbn. by apply alpha_spec'.
Qed.
Lemma lt_shown : shown true 60 = 60. Proof. done. Qed.

Lemma body_run tl : forall b o c cu, body_fine b -> body_means tbl K b o ->
  exists cu', goes (cf (b ++ 60 :: tl) (raw_state K) c cu) (cf (60 :: tl) (raw_state K) (c ++ o) cu').
Proof.
  intros b. remember (length b) as n eqn:En. revert b En. induction (lt_wf n) as [n _ IH]. intros b -> o c cu B M.
  assert (next : forall a b' o1 o' cu1, b = a ++ b' -> a <> [] -> o = o1 ++ o' -> body_means tbl K b' o' ->
    goes (cf (b ++ 60 :: tl) (raw_state K) c cu) (cf (b' ++ 60 :: tl) (raw_state K) (c ++ o1) cu1) ->
    exists cu', goes (cf (b ++ 60 :: tl) (raw_state K) c cu) (cf (60 :: tl) (raw_state K) (c ++ o) cu')).
  { intros a b' o1 o' cu1 -> Ha -> M' G. destruct (IH (length b')) with (b := b') (o := o') (c := c ++ o1) (cu := cu1) as [cu' G'].
    - rewrite app_length. destruct a; [done|]. cbn. lia.
    - done.
    - by eapply body_fine_drop.
    - done.
    - exists cu'. rewrite app_assoc. by eapply goes_trans. }
  destruct b as [|x b].
  { exists cu. assert (o = []) as -> by (destruct K; cbn in M; [by inversion M|done..]). rewrite app_nil_r. apply goes_refl. }
  destruct (decide (x = 60)) as [->|Nx].
  2: { assert (D : (K = Rcdata /\ x = 38) \/ (K = Rcdata -> x <> 38)).
       { destruct (decide (x = 38)); [|by right]. destruct K; [by left|by right..]. }
       destruct D as [[EK ->]|D].
       - rewrite EK in M. cbn in M. inversion M as [|? ? ? N|u o1 s o' R M']; subst; [done|].
         destruct (ref_suffix _ _ _ _ _ R) as [p ->].
         apply (next (38 :: p) s o1 o' cu); [done..|by rewrite EK|]. cbn [app]. apply raw_ref; [done..|]. cbn. unfold alnum, letter, digit. lia.
       - apply body_char in M as (o' & -> & M); [|done]. apply (next [x] b [shown true x] o' cu); [done..|]. by apply goes_one, raw_char. }
  pose proof M as M0. apply body_char in M as (o1 & E1 & M1); [|done]. rewrite lt_shown in E1.
  (* what follows the less-than sign *)
  destruct b as [|y b].
  { apply (next [60] [] [60] o1 cu); [done..|]. cbn [app]. via raw_lt. by apply goes_one, lt_other. }
  destruct (decide (y = 47)) as [->|Ny].
  - apply body_char in M1 as (o2 & E2 & M2); [|done]. change (shown true 47) with 47 in E2.
    destruct (split_letters b) as (w & r & -> & W & R). destruct w as [|z w].
    + apply (next [60; 47] r [60; 47] o2 cu); [done|done|by rewrite E1, E2|done|]. cbn [app].
      assert (exists h t, r ++ 60 :: tl = h :: t /\ ~ letter h) as (h & t & Eh & Hh).
      { destruct r as [|h r]; [exists 60, tl|exists h, (r ++ 60 :: tl)]; split; try done. unfold letter. lia. }
      rewrite Eh. via raw_lt.
      eapply enter_leave; [apply lt_slash|]. intros t0 C _.
      destruct (open_other h t c cu Hh t0 C) as (t1 & E & C1).
      exists t1. split; [|done]. eapply steps_step; [by injection C|exact E|constructor].
    + apply body_letters in M2 as (o3 & E3 & M3); [|done].
      apply (next (60 :: 47 :: z :: w) r (60 :: 47 :: z :: w) o3 (Some (EndTag (map folded (z :: w))))); [done|done|by rewrite E1, E2, E3|done|].
      assert (exists h t, r ++ 60 :: tl = h :: t /\ ~ letter h /\ (name_end h -> map folded (z :: w) <> ls)) as (h & t & Eh & Hh & Nh).
      { destruct r as [|h r].
        - exists 60, tl. split_and!; [done|unfold letter; lia|unfold name_end, white; lia].
        - exists h, (r ++ 60 :: tl). split_and!; [done|done|]. intros X Y. destruct B as [B _].
          by apply (B [] (z :: w) h r). }
      cbn [app]. rewrite <- app_assoc. rewrite Eh. by apply (no_end_tag (z :: w)).
  - assert (D : (K = Script /\ y = 33) \/ (K = Script -> y <> 33)).
    { destruct (decide (y = 33)); [|by right]. destruct K; [by right..|by left]. }
    destruct D as [[EK ->]|D].
    + apply body_char in M1 as (o2 & E2 & M2); [|by rewrite EK]. change (shown true 33) with 33 in E2.
      destruct b as [|z b].
      { apply (next [60; 33] [] [60; 33] o2 cu); [done|done|by rewrite E1, E2|done|]. cbn [app].
        via raw_lt. via bang. apply goes_one, escape_other; [done..|by left]. }
      destruct (decide (z = 45)) as [->|Nz].
      * apply body_char in M2 as (o3 & E3 & M3); [|by rewrite EK]. change (shown true 45) with 45 in E3.
        apply (next [60; 33; 45] b [60; 33; 45] o3 cu); [done|done|by rewrite E1, E2, E3|done|]. cbn [app].
        assert (exists h t, b ++ 60 :: tl = h :: t /\ h <> 45) as (h & t & Eh & Hh).
        { destruct b as [|h b]; [by exists 60, tl|]. exists h, (b ++ 60 :: tl). split; [done|]. intros ->.
          destruct B as [_ B]. by apply (B EK [] b). }
        via raw_lt. via bang. via escape_dash. rewrite Eh. rewrite <- app_assoc. apply goes_one, escape_other; [done..|by right].
      * apply (next [60; 33] (z :: b) [60; 33] o2 cu); [done|done|by rewrite E1, E2|done|]. cbn [app].
        via raw_lt. via bang. apply goes_one, escape_other; [done..|by left].
    + apply (next [60] (y :: b) [60] o1 cu); [done..|]. cbn [app]. via raw_lt. by apply goes_one, lt_other.
Qed.
End steps_.

(** *** Its end tag *)
Lemma end_run K n2 w2 rest c cu ls : n2 <> [] -> Forall letter n2 -> map folded n2 = ls -> Forall white w2 ->
  goes (markup_source (end_tag n2 w2) ++ rest, raw_state K, c, [], [], ∅, cu, [], ls)
       (rest, Data, [], [], [], ∅, None, text_tokens c ++ [EndTag ls], match w2 with [] => [] | _ => ls end).
Proof.
  intros N L E W. destruct n2 as [|x n]; [done|]. apply Forall_cons in L as [Lx L]. cbn [markup_source app]. rewrite <- !app_assoc. cbn [app].
  assert (goes (w2 ++ 62 :: rest, name_state K, c, [], [], ∅, Some (EndTag ls), [], ls)
               (rest, Data, [], [], [], ∅, None, text_tokens c ++ [EndTag ls], match w2 with [] => [] | _ => ls end)) as G.
  { destruct W as [|y w Hy W]; cbn [app].
    - apply goes_one. destruct K; opening; unfold appropriate; cbn [last_start cur]; rewrite bool_decide_eq_true_2 by done; ifs;
        (eexists; split; [reflexivity|]); by destruct c.
    - eapply goes_trans; [apply goes_one|apply (fin_before tbl fg w rest c [] [] ∅ (Some (EndTag ls)) ls (EndTag ls) ls W)].
      + destruct K; opening; unfold appropriate; cbn [last_start cur]; rewrite bool_decide_eq_true_2 by done; ifs; close1.
      + change (kept [] [] ∅) with (∅ : attr_map). constructor. }
  via raw_lt. eapply goes_trans; [|exact G]. clear G.
  eapply enter_leave; [apply lt_slash|]. intros t C T.
  destruct (open_letter [] [] ∅ ls K x (n ++ w2 ++ 62 :: rest) c cu Lx t C T) as (t1 & S1 & C1 & T1).
  destruct (name_letters [] [] ∅ ls K n (w2 ++ 62 :: rest) c L [folded x] [x] t1 C1 T1) as (t2 & S2 & C2 & _).
  exists t2. split; [by eapply steps_trans|]. rewrite C2. cbn [map app] in *. by rewrite E.
Qed.
End body.

Lemma driven_app sw b f1 f2 t1 t2 : length f1 = length t1 ->
  driven sw b (f1 ++ f2) (t1 ++ t2) = driven sw b f1 t1 ++ driven sw (match last t1 with Some k => sw k | None => b end) f2 t2.
Proof.
  revert b t1. induction f1 as [|f f1 IH]; intros b [|k t1] L; try done. cbn [app driven]. f_equal.
  rewrite IH by (by injection L). rewrite last_cons. by destruct (last t1).
Qed.
Lemma driven_length sw b fgs ts : length fgs = length ts -> length (driven sw b fgs ts) = length ts.
Proof. revert b ts. induction fgs as [|f fgs IH]; intros b [|k ts] L; try done. cbn. f_equal. apply IH. by injection L. Qed.
Lemma emits_switch tbl p ps s0 X f s c an av at_ cu q ls t :
  p_switch p = Some s0 -> Forall (fun p => p_switch p = None) ps -> length (p :: ps) = length q ->
  goes tbl (p_foreign p) X (f, s, c, an, av, at_, cu, q, ls) -> core (goto s0 t) = X ->
  exists fuel t', pulls tbl fuel (p :: ps) t = Some (q, t') /\ core t' = (f, s, c, an, av, at_, cu, [], ls).
Proof.
  intros Hp P L G C.
  destruct (emits tbl (mk_pull (p_foreign p) None) ps X f s c an av at_ cu q ls (goto s0 t)) as (fuel & t' & E & C'); try done.
  { by constructor. }
  exists fuel, t'. split; [|done]. rewrite <- E. cbn. unfold switched. by rewrite Hp.
Qed.
Lemma quiet sw o k fgs b : (forall s, sw (Text s) = None) -> length fgs = length (text_tokens o ++ [k]) ->
  exists p ps, driven sw b fgs (text_tokens o ++ [k]) = p :: ps /\ p_switch p = b /\ Forall (fun p => p_switch p = None) ps.
Proof.
  intros H L. destruct o as [|x o]; cbn in L |- *.
  - destruct fgs as [|f fgs]; [done|]. exists (mk_pull f b), []. split_and!; [by destruct fgs|done|done].
  - destruct fgs as [|f [|f' fgs]]; [done..|]. exists (mk_pull f b), [mk_pull f' None]. cbn. rewrite H.
    split_and!; [by destruct fgs|done|by repeat constructor].
Qed.
Lemma allowed_none ps : Forall (fun p => p_switch p = None) ps -> Forall allowed ps.
Proof. intros P. eapply Forall_impl; [exact P|]. intros p Hp. unfold allowed. by rewrite Hp. Qed.

Section pages.
Context (tbl : list (list N * list N)) (OK : table_ok tbl) (sw : builder).
Context (sw_text : forall s, sw (Text s) = None).

(** text and the token after it *)
Lemma part_run b fgs o k X f an av at_ cu ls t :
  length fgs = length (text_tokens o ++ [k]) -> match b with Some s => content s | None => True end ->
  (forall fg, goes tbl fg X (f, Data, [], an, av, at_, cu, text_tokens o ++ [k], ls)) ->
  core (match b with Some s => goto s t | None => t end) = X ->
  exists fuel t', pulls tbl fuel (driven sw b fgs (text_tokens o ++ [k])) t = Some (text_tokens o ++ [k], t') /\
    core t' = (f, Data, [], an, av, at_, cu, [], ls) /\ Forall allowed (driven sw b fgs (text_tokens o ++ [k])).
Proof.
  intros L A G C. destruct (quiet sw o k fgs b sw_text L) as (p & ps & E & Hp & P).
  pose proof (driven_length sw b fgs _ L) as L'. rewrite E in *.
  destruct b as [s|].
  - destruct (emits_switch tbl p ps s X f Data [] an av at_ cu _ ls t Hp P L' (G _) C) as (fuel & t' & E1 & C1).
    exists fuel, t'. split_and!; [done..|]. constructor; [unfold allowed; by rewrite Hp|by apply allowed_none].
  - destruct (emits tbl p ps X f Data [] an av at_ cu (text_tokens o ++ [k]) ls t) as (fuel & t' & E1 & C1); [by constructor|done|apply G|done|].
    exists fuel, t'. split_and!; [done..|]. apply allowed_none. by constructor.
Qed.
Lemma raw_content K : content (raw_state K).
Proof. unfold content. destruct K; cbn; set_solver. Qed.

Lemma page_run d ts : page_means tbl d ts -> page_ok d -> switches sw d -> forall fgs t cu ls,
  length fgs = length ts -> core t = (page_source d, Data, [], [], [], ∅, cu, [], ls) ->
  exists fuel t', pulls tbl fuel (driven sw None fgs ts) t = Some (ts, t') /\ Forall allowed (driven sw None fgs ts).
Proof.
  induction 1 as [s o R|s o i ks r l ts R M D IH]; intros H SW fgs t cu ls L C.
  - destruct H as [_ H]. unfold page_source in C. cbn in C.
    enough (G : forall fg, goes tbl fg (s, Data, [], [], [], ∅, cu, [], ls) ([], Data, [], [], [], ∅, cu, text_tokens o ++ [Eof], ls)).
    { destruct (part_run None fgs o Eof _ _ _ _ _ _ _ t L I G C) as (fuel & t' & E & _ & A). by exists fuel, t'. }
    intros fg. eapply goes_trans; [rewrite <- (app_nil_r s); by apply data_text|]. apply goes_one.
    intros t0 C0. destruct t0 as [p_ f_ s_ c_ an_ av_ at__ cu_ tm q_ ls_ lc e]; unfold core in C0; cbn in C0.
    injection C0 as -> -> -> -> -> -> -> -> ->. unfold step. cbn [state]. rewrite read_mk_end. eexists. split; [reflexivity|]. by destruct o.
  - destruct H as [H HL]. apply Forall_cons in H as [[Ht Hi] H]. cbn [fst snd] in Ht, Hi.
    destruct SW as (S1 & S2 & S3 & S4). apply Forall_cons in S4 as [Si S4]. cbn [snd] in Si.
    assert (SW' : switches sw (mk_page r l)) by (split_and!; done).
    specialize (IH ltac:(done) SW').
    destruct M as [m k M|K n at1 w b n2 w2 k ob M B].
    + assert (TS : text_tokens o ++ [k] ++ ts = (text_tokens o ++ [k]) ++ ts) by by rewrite <- app_assoc.
      rewrite TS in *. rewrite app_length in L. set (q := text_tokens o ++ [k]) in *.
      rewrite <- (take_drop (length q) fgs).
      assert (L1 : length (take (length q) fgs) = length q) by (rewrite take_length; lia).
      assert (L2 : length (drop (length q) fgs) = length ts) by (rewrite drop_length; lia).
      rewrite driven_app by done. replace (match last q with Some k => sw k | None => None end) with (None : option tstate).
      2: { unfold q. rewrite last_snoc. destruct M as [n at1 w sc nvs m M F|n w|b]; [by rewrite Si|by rewrite S2|by rewrite S3]. }
      assert (G : forall fg, goes tbl fg (page_source (mk_page ((s, plain_item m) :: r) l), Data, [], [], [], ∅, cu, [], ls)
                 (page_source (mk_page r l), Data, [], [], [], ∅, None, q, name_after_token k ls)).
      { intros fg. unfold page_source. cbn. rewrite <- !app_assoc. eapply goes_trans; [|by apply (markup_run tbl OK fg m k _ o cu ls Hi M)].
        apply (data_text tbl OK _ s o _ [] [] ∅ cu ls R Ht) with (c := []). by destruct M. }
      destruct (part_run None _ o k _ _ _ _ _ _ _ t L1 I G C) as (f1 & t1 & E1 & C1 & A1).
      destruct (IH _ t1 _ _ L2 C1) as (f2 & t2 & E2 & A2).
      exists (max f1 f2), t2. split; [|by apply Forall_app]. eapply pulls_app; [eapply pulls_mono; [exact E1|lia]|eapply pulls_mono; [exact E2|lia]].
    + destruct Hi as (Hm & Ln & Hb & Ln2 & En & W2).
      set (e := EndTag (map folded n)) in *.
      assert (TS : text_tokens o ++ (k :: text_tokens ob ++ [e]) ++ ts = (text_tokens o ++ [k]) ++ (text_tokens ob ++ [e]) ++ ts) by (cbn [app]; rewrite <- !app_assoc; cbn [app]; by rewrite <- ?app_assoc).
      rewrite TS in *. rewrite !app_length in L. set (q := text_tokens o ++ [k]) in *. set (q2 := text_tokens ob ++ [e]) in *.
      rewrite <- (take_drop (length q) fgs). set (fgs2 := drop (length q) fgs). rewrite <- (take_drop (length q2) fgs2).
      assert (LL : length q = (length (text_tokens o) + length [k])%nat) by (unfold q; by rewrite app_length).
      assert (LL2 : length q2 = (length (text_tokens ob) + length [e])%nat) by (unfold q2; by rewrite app_length).
      assert (L1 : length (take (length q) fgs) = length q) by (rewrite take_length; lia).
      assert (L2 : length fgs2 = (length q2 + length ts)%nat) by (unfold fgs2; rewrite drop_length; lia).
      assert (L3 : length (take (length q2) fgs2) = length q2) by (rewrite take_length; lia).
      assert (L4 : length (drop (length q2) fgs2) = length ts) by (rewrite drop_length; lia).
      rewrite driven_app by done. rewrite driven_app by done.
      replace (match last q with Some k => sw k | None => None end) with (Some (raw_state K)).
      2: { unfold q. rewrite last_snoc. inversion M; subst. by rewrite Si. }
      replace (match last q2 with Some k => sw k | None => Some (raw_state K) end) with (None : option tstate).
      2: { unfold q2. rewrite last_snoc. unfold e. by rewrite S2. }
      set (tl := n2 ++ w2 ++ [62] ++ page_source (mk_page r l)).
      assert (G : forall fg, goes tbl fg (page_source (mk_page ((s, raw_item K n at1 w b n2 w2) :: r) l), Data, [], [], [], ∅, cu, [], ls)
                 (b ++ 60 :: 47 :: tl, Data, [], [], [], ∅, None, q, map folded n)).
      { intros fg. pose proof (markup_run tbl OK fg (start_tag n at1 w false) k (b ++ 60 :: 47 :: tl) o cu ls Hm M) as G.
        replace (name_after_token k ls) with (map folded n) in G by by inversion M.
        eapply goes_trans; [|exact G]. unfold page_source, tl. cbn [p_parts p_last map concat fst snd item_source].
        rewrite <- !app_assoc. cbn [markup_source app]. rewrite <- !app_assoc. cbn [app].
        apply (data_text tbl OK _ s o _ [] [] ∅ cu ls R Ht) with (c := []). done. }
      destruct (part_run None _ o k _ _ _ _ _ _ _ t L1 I G C) as (f1 & t1 & E1 & C1 & A1).
      assert (G2 : forall fg, goes tbl fg (b ++ 60 :: 47 :: tl, raw_state K, [], [], [], ∅, None, [], map folded n)
                 (page_source (mk_page r l), Data, [], [], [], ∅, None, q2, match w2 with [] => [] | _ => map folded n end)).
      { intros fg. destruct (body_run tbl OK fg [] [] ∅ (map folded n) K (47 :: tl) b ob [] None Hb B) as [cu' Gb].
        eapply goes_trans; [exact Gb|]. cbn [app].
        assert (Nn2 : n2 <> []) by (intros ->; destruct n; [by destruct Hm|done]).
        pose proof (end_run tbl fg K n2 w2 (page_source (mk_page r l)) ob cu' (map folded n) Nn2 Ln2 En W2) as Ge.
        cbn [markup_source app] in Ge. rewrite <- !app_assoc in Ge. exact Ge. }
      destruct (part_run (Some (raw_state K)) _ ob e _ _ _ _ _ _ _ t1 L3 (raw_content K) G2) as (f2 & t2 & E2 & C2 & A2).
      { unfold core in *. cbn. congruence. }
      destruct (IH _ t2 _ _ L4 C2) as (f3 & t3 & E3 & A3).
      exists (max f1 (max f2 f3)), t3. split; [|by repeat (apply Forall_app; split)].
      eapply pulls_app; [eapply pulls_mono; [exact E1|lia]|]. eapply pulls_app; [eapply pulls_mono; [exact E2|lia]|eapply pulls_mono; [exact E3|lia]].
Qed.
End pages.

Section page_end.
Context (tbl : list (list N * list N)) (OK : table_ok tbl).
Lemma body_functional K b o o' : body_means tbl K b o -> body_means tbl K b o' -> o = o'.
Proof. destruct K; cbn; [by apply reads_functional|congruence..]. Qed.
Lemma body_total K b : exists o, body_means tbl K b o.
Proof. destruct K; cbn; [by apply reads_total|by eexists..]. Qed.
Lemma item_functional i ks ks' : item_means tbl i ks -> item_means tbl i ks' -> ks = ks'.
Proof.
  destruct 1; inversion 1; subst.
  - f_equal. by eapply markup_functional.
  - replace k0 with k by (by eapply markup_functional). replace o0 with o by (by eapply body_functional). done.
Qed.
Lemma item_total i : exists ks, item_means tbl i ks.
Proof.
  destruct i as [m|K n l w b n2 w2].
  - destruct (markup_total tbl OK m) as [k M]. eexists. by constructor.
  - destruct (markup_total tbl OK (start_tag n l w false)) as [k M]. destruct (body_total K b) as [o B]. eexists. by constructor.
Qed.
Lemma page_functional d ts ts' : page_means tbl d ts -> page_means tbl d ts' -> ts = ts'.
Proof.
  intros H. revert ts'. induction H as [s o R|s o i ks r l ts R M D IH]; intros ts' H'; inversion H'; subst.
  - f_equal. f_equal. by eapply reads_functional.
  - replace o0 with o by (by eapply reads_functional). replace ks0 with ks by (by eapply item_functional). do 2 f_equal. by apply IH.
Qed.
Lemma page_total d : exists ts, page_means tbl d ts.
Proof.
  destruct d as [ps l]. induction ps as [|[s i] ps [ts IH]].
  - destruct (reads_total tbl OK false false l) as [o R]. eexists. by constructor.
  - destruct (reads_total tbl OK false false s) as [o R]. destruct (item_total i) as [k M]. eexists. by econstructor.
Qed.
Lemma page_pulls sw d ts fgs fuel ls :
  page_ok d -> page_means tbl d ts -> switches sw d -> length fgs = length ts ->
  (8 * length (page_source d) + 10 < fuel)%nat ->
  exists t', pulls tbl fuel (driven sw None fgs ts) (new (page_source d) Data ls) = Some (ts, t').
Proof.
  intros H M S L F.
  destruct (page_run tbl OK sw ltac:(apply S) d ts M H S fgs (new (page_source d) Data ls) None ls L) as (f & t & E & A); [done|].
  destruct (pulls_ok tbl fuel (driven sw None fgs ts) (new (page_source d) Data ls)) as (l & t' & E' & _).
  - by apply inv_new.
  - done.
  - pose proof (measure_new (page_source d) Data ls). lia.
  - exists t'. rewrite E'. pose proof (pulls_mono _ _ (max f fuel) _ _ _ E ltac:(lia)) as X.
    pose proof (pulls_mono _ _ (max f fuel) _ _ _ E' ltac:(lia)) as X'. rewrite X in X'. congruence.
Qed.
End page_end.
