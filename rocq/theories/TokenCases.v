(** Texts and single attributes as documents; checks of concrete texts. *)
From stdpp Require Import gmap.
From Coq Require Import ZifyBool ZifyN.
From Verif Require Import Text CookieModel TokenModel Entities TokenSpec TokenProofs TokenRun TokenRefs TokenDocs TokenTable TokenBody.
Local Open Scope N_scope.

Global Instance white_dec x : Decision (white x). Proof. unfold white. apply _. Defined.
Global Instance name_end_dec x : Decision (name_end x). Proof. unfold name_end. apply _. Defined.
Global Instance letter_dec x : Decision (letter x). Proof. unfold letter. apply _. Defined.
Global Instance digit_dec x : Decision (digit x). Proof. unfold digit. apply _. Defined.
Global Instance hexdigit_dec x : Decision (hexdigit x). Proof. unfold hexdigit. apply _. Defined.
Global Instance alnum_dec x : Decision (alnum x). Proof. unfold alnum. apply _. Defined.
Global Instance tag_name_dec n : Decision (tag_name_ok n). Proof. destruct n; cbn; apply _. Defined.
Global Instance value_dec v : Decision (value_ok v).
Proof. destruct v as [| ? ? v|]; cbn; [apply _| |apply _]. destruct v; apply _. Defined.
Global Instance attr_dec a : Decision (attr_ok a). Proof. unfold attr_ok. destruct (a_name a); apply _. Defined.
Global Instance starts_dec (P : N -> Prop) {D : forall x, Decision (P x)} s : Decision (starts P s). Proof. destruct s; cbn; apply _. Defined.
Global Instance quoted_dec v : Decision (is_quoted v). Proof. destruct v; cbn; apply _. Defined.
Global Instance unquoted_dec v : Decision (is_unquoted v). Proof. destruct v; cbn; apply _. Defined.
Global Instance attrs_dec b l : Decision (attrs_ok b l).
Proof. revert b. induction l as [|a l IH]; intros b; cbn; [apply _|]. destruct b as [[]|]; apply _. Defined.

(** The tokens of a text without [<] *)
Lemma text_pulls tbl : table_ok tbl -> forall s o ps fuel ls, 60 ∉ s -> reads tbl false false s o ->
  Forall (fun p => p_switch p = None) ps -> length ps = length (text_tokens o ++ [Eof]) -> (8 * length s + 10 < fuel)%nat ->
  exists t', pulls tbl fuel ps (new s Data ls) = Some (text_tokens o ++ [Eof], t').
Proof.
  intros OK s o ps fuel ls H R A L F.
  destruct (doc_pulls tbl OK (mk_doc [] s) (text_tokens o ++ [Eof]) ps fuel ls) as [t' E]; [split; [constructor|exact H]|by constructor|done..|by eexists].
Qed.
(** The tokens of one start tag with one attribute in double quotes *)
Definition one_attribute (v : list N) : list N := txt "<a b=""" ++ v ++ txt """>".
Lemma attr_pulls tbl : table_ok tbl -> forall v o ps fuel ls, 34 ∉ v -> reads tbl true true v o ->
  Forall (fun p => p_switch p = None) ps -> length ps = 2%nat -> (8 * length (one_attribute v) + 10 < fuel)%nat ->
  exists t', pulls tbl fuel ps (new (one_attribute v) Data ls) = Some ([StartTag (txt "a") false {[ txt "b" := o ]}; Eof], t').
Proof.
  intros OK v o ps fuel ls H R A L F.
  set (d := mk_doc [([], start_tag [97] [mk_attr [32] [98] (quoted [] [] 34 v)] [] false)] []).
  assert (S : doc_source d = one_attribute v) by (unfold d, doc_source, one_attribute; cbn; rewrite ?app_nil_r; change (60 :: 97 :: 32 :: 98 :: 61 :: 34 :: (v ++ [34]) ++ [62] = 60 :: 97 :: 32 :: 98 :: 61 :: 34 :: v ++ [34; 62]); by rewrite <- app_assoc).
  destruct (doc_pulls tbl OK d [StartTag (txt "a") false {[ txt "b" := o ]}; Eof] ps fuel ls) as [t' E]; try done.
  - split; [|apply not_elem_of_nil]. constructor; [|constructor]. split; [apply not_elem_of_nil|].
    cbn. unfold attr_ok, name_end, letter, white. cbn. split_and!; try done; try lia; repeat (constructor; try lia).
  - apply (means_part tbl [] [] _ _ [] [] [Eof]); [constructor| |apply (means_last tbl [] []); constructor].
    apply (means_start tbl [97] _ [] false [([98], o)]).
    + constructor; [|constructor]. split; [done|]. by constructor.
    + intros n. cbn. case_decide as C; [subst; by rewrite lookup_singleton|by rewrite lookup_singleton_ne].
  - by rewrite S.
  - exists t'. by rewrite <- S.
Qed.

Lemma pulls_total tbl input st ls ps fuel :
  st <> CharacterReferenceInAttributeValue -> Forall allowed ps -> (8 * length input + 10 < fuel)%nat ->
  exists l t', pulls tbl fuel ps (new input st ls) = Some (l, t') /\ length l = length ps /\
    ((16 * length input + 22 <= length ps)%nat -> Eof ∈ l) /\
    (forall i j k, (i <= j)%nat -> l !! i = Some Eof -> l !! j = Some k -> k = Eof) /\
    (Eof ∈ l -> future t' = []) /\
    (forall i s, l !! i = Some (Text s) -> s <> [] /\ forall s', l !! S i <> Some (Text s')).
Proof.
  intros NS A F. pose proof (measure_new input st ls) as M.
  destruct (pulls_ok tbl fuel ps (new input st ls) (inv_new _ _ _ NS) A ltac:(lia)) as (l & t' & E & _ & L & P1 & _ & _ & P4 & P5 & P6).
  exists l, t'. split_and!; try done.
  - intros H. apply P1. unfold left_over, new. cbn [queue length]. unfold new in M. lia.
  - intros i j k LE Hi. revert k. induction LE as [|j LE IH]; intros k Hj; [congruence|].
    destruct (l !! j) as [k'|] eqn:Ej.
    + rewrite (IH k' eq_refl) in Ej. by apply (P5 j).
    + apply lookup_lt_Some in Hj. apply lookup_ge_None in Ej. lia.
  - intros i s H. destruct (P6 i s H) as [X Y]. split; [done|]. intros s' H'. by apply Y in H'.
Qed.

(** Numeric references *)
Definition numeric_source (hex : option N) (ds : list N) (semicolon : bool) : list N :=
  txt "&#" ++ match hex with Some x => [x] | None => [] end ++ ds ++ (if semicolon then [59] else []).
Definition numeric_digit (hex : option N) : N -> Prop := match hex with Some _ => hexdigit | None => digit end.
Definition numeric_base (hex : option N) : N := match hex with Some _ => 16 | None => 10 end.
Lemma numeric_reads tbl a nul hex ds semi s o :
  (forall x, hex = Some x -> x = 120 \/ x = 88) -> ds <> [] -> Forall (numeric_digit hex) ds ->
  (semi = false -> starts (fun x => ~ numeric_digit hex x /\ x <> 59) s) -> reads tbl a nul s o ->
  reads tbl a nul (numeric_source hex ds semi ++ s) (referenced (number (numeric_base hex) ds) :: o).
Proof.
  intros X Ne D St R.
  assert (E : numeric_source hex ds semi ++ s = 38 :: 35 :: match hex with Some x => [x] | None => [] end ++ ds ++ (if semi then [59] else []) ++ s).
  { unfold numeric_source. change (txt "&#") with [38; 35]. by rewrite <- !app_assoc. }
  rewrite E. change (referenced (number (numeric_base hex) ds) :: o) with ([referenced (number (numeric_base hex) ds)] ++ o).
  eapply reads_ref; [|done]. destruct hex as [x|]; destruct semi.
  - apply (ref_hex_semicolon tbl a x ds s); auto.
  - apply (ref_hex tbl a x ds s); auto.
  - apply (ref_decimal_semicolon tbl a ds s); auto.
  - apply (ref_decimal tbl a ds s); auto.
Qed.
Lemma referenced_scalar n : referenced n <= 0x10FFFF /\ ~ (0xD800 <= referenced n <= 0xDFFF).
Proof.
  unfold referenced. destruct (_ || _ || _) eqn:E; [lia|].
  destruct ((0x80 <=? n) && (n <=? 0x9F)) eqn:E2; [|lia]. pose proof (windows_scalar n ltac:(lia) ltac:(lia)). lia.
Qed.

(** Checking that a name of the table is the longest one *)
Definition longest_check (tbl : list (list N * list N)) (k f : list N) : bool :=
  forallb (fun e => negb (bool_decide (e.1 `prefix_of` f)) || bool_decide (length e.1 <= length k)%nat) tbl.
Lemma longest_checked tbl k f : longest_check tbl k f = true ->
  forall k' r', (k', r') ∈ tbl -> k' `prefix_of` f -> (length k' <= length k)%nat.
Proof.
  intros H k' r' In P. unfold longest_check in H. rewrite forallb_forall in H.
  specialize (H (k', r') ltac:(by apply elem_of_list_In)). cbn in H. rewrite bool_decide_eq_true_2 in H by done. cbn in H.
  by apply bool_decide_eq_true in H.
Qed.
Lemma in_table (tbl : list (list N * list N)) (k r : list N) : existsb (fun e => bool_decide (e = (k, r))) tbl = true -> (k, r) ∈ tbl.
Proof. intros H. apply existsb_exists in H as (e & H & E). apply bool_decide_eq_true in E as ->. by apply elem_of_list_In. Qed.

Lemma terminates tbl input st ls ps fuel :
  st <> CharacterReferenceInAttributeValue -> Forall allowed ps -> (8 * length input + 10 < fuel)%nat ->
  exists l t', pulls tbl fuel ps (new input st ls) = Some (l, t') /\ length l = length ps /\
    ((16 * length input + 22 <= length ps)%nat -> Eof ∈ l) /\
    (forall i j k, (i <= j)%nat -> l !! i = Some Eof -> l !! j = Some k -> k = Eof).
Proof. intros H1 H2 H3. destruct (pulls_total tbl input st ls ps fuel H1 H2 H3) as (l & t' & E & L & P1 & P2 & _). by exists l, t'. Qed.
Lemma text_whole tbl input st ls ps fuel l t' :
  st <> CharacterReferenceInAttributeValue -> Forall allowed ps -> (8 * length input + 10 < fuel)%nat ->
  pulls tbl fuel ps (new input st ls) = Some (l, t') ->
  (forall i s, l !! i = Some (Text s) -> s <> [] /\ forall s', l !! S i <> Some (Text s')) /\
  (Eof ∈ l -> future t' = []).
Proof.
  intros H1 H2 H3 H. destruct (pulls_total tbl input st ls ps fuel H1 H2 H3) as (l1 & t1 & E & L & P1 & P2 & P3 & P4).
  rewrite E in H. by injection H as <- <-.
Qed.

Section cases.
Context (tbl : list (list N * list N)) (OK : table_ok tbl).
Lemma texts s : 60 ∉ s ->
  exists o, (forall o', reads tbl false false s o' <-> o' = o) /\
    forall ps fuel ls, Forall (fun p => p_switch p = None) ps -> length ps = length (text_tokens o ++ [Eof]) -> (8 * length s + 10 < fuel)%nat ->
    exists t', pulls tbl fuel ps (new s Data ls) = Some (text_tokens o ++ [Eof], t').
Proof.
  intros H. destruct (reads_total tbl OK false false s) as [o R]. exists o. split.
  - intros o'. split; [|by intros ->]. intros R'. by eapply reads_functional.
  - intros. by apply text_pulls.
Qed.
Lemma values v : 34 ∉ v ->
  exists o, (forall o', reads tbl true true v o' <-> o' = o) /\
    forall ps fuel ls, Forall (fun p => p_switch p = None) ps -> length ps = 2%nat -> (8 * length (one_attribute v) + 10 < fuel)%nat ->
    exists t', pulls tbl fuel ps (new (one_attribute v) Data ls) = Some ([StartTag (txt "a") false {[ txt "b" := o ]}; Eof], t').
Proof.
  intros H. destruct (reads_total tbl OK true true v) as [o R]. exists o. split.
  - intros o'. split; [|by intros ->]. intros R'. by eapply reads_functional.
  - intros. by apply attr_pulls.
Qed.
Lemma doc_meaning d : exists ts, forall ts', doc_means tbl d ts' <-> ts' = ts.
Proof.
  destruct (doc_total tbl OK d) as [ts M]. exists ts. intros ts'. split; [|by intros ->]. intros M'. by eapply doc_functional.
Qed.
Lemma page_meaning d : exists ts, forall ts', page_means tbl d ts' <-> ts' = ts.
Proof.
  destruct (page_total tbl OK d) as [ts M]. exists ts. intros ts'. split; [|by intros ->]. intros M'. by eapply page_functional.
Qed.

Lemma numeric_shape hex ds semi q s : (forall x, hex = Some x -> x = 120 \/ x = 88) -> Forall (numeric_digit hex) ds ->
  q = 34 \/ q = 60 -> q ∉ s -> q ∉ numeric_source hex ds semi ++ s.
Proof.
  intros X D Q H. unfold numeric_source. change (txt "&#") with [38; 35]. rewrite !elem_of_app. intros [[E|[E|[E|E]]]|E]; [..|done].
  - set_unfold in E. lia.
  - destruct hex as [x|]; [|by apply elem_of_nil in E]. apply elem_of_list_singleton in E. destruct (X x eq_refl); lia.
  - rewrite Forall_forall in D. specialize (D q E). destruct hex; cbn in D; unfold hexdigit, digit in D; lia.
  - destruct semi; [apply elem_of_list_singleton in E; lia|by apply elem_of_nil in E].
Qed.
Lemma numeric_text hex ds semicolon s o ps fuel ls :
  (forall x, hex = Some x -> x = 120 \/ x = 88) -> ds <> [] -> Forall (numeric_digit hex) ds ->
  (semicolon = false -> starts (fun x => ~ numeric_digit hex x /\ x <> 59) s) ->
  60 ∉ s -> reads tbl false false s o ->
  Forall (fun p => p_switch p = None) ps -> length ps = 2%nat ->
  (8 * length (numeric_source hex ds semicolon ++ s) + 10 < fuel)%nat ->
  exists t', pulls tbl fuel ps (new (numeric_source hex ds semicolon ++ s) Data ls) =
    Some ([Text (referenced (number (numeric_base hex) ds) :: o); Eof], t').
Proof.
  intros X Ne D St H R A L F.
  apply (text_pulls tbl OK _ (referenced (number (numeric_base hex) ds) :: o)); try done.
  - apply numeric_shape; auto.
  - by apply numeric_reads.
Qed.
Lemma numeric_attribute hex ds semicolon s o ps fuel ls :
  (forall x, hex = Some x -> x = 120 \/ x = 88) -> ds <> [] -> Forall (numeric_digit hex) ds ->
  (semicolon = false -> starts (fun x => ~ numeric_digit hex x /\ x <> 59) s) ->
  34 ∉ s -> reads tbl true true s o ->
  Forall (fun p => p_switch p = None) ps -> length ps = 2%nat ->
  (8 * length (one_attribute (numeric_source hex ds semicolon ++ s)) + 10 < fuel)%nat ->
  exists t', pulls tbl fuel ps (new (one_attribute (numeric_source hex ds semicolon ++ s)) Data ls) =
    Some ([StartTag (txt "a") false {[ txt "b" := referenced (number (numeric_base hex) ds) :: o ]}; Eof], t').
Proof.
  intros X Ne D St H R A L F. apply attr_pulls; try done.
  - apply numeric_shape; auto.
  - by apply numeric_reads.
Qed.
Lemma key_no q k r s : (k, r) ∈ tbl -> q = 34 \/ q = 60 -> q ∉ s -> q ∉ 38 :: k ++ s.
Proof.
  intros In Q H. rewrite elem_of_cons, elem_of_app. intros [E|[E|E]]; [lia| |done].
  destruct (keys_shape _ OK k r In) as (w & W & F & K). rewrite Forall_forall in F.
  destruct K as [->| ->].
  - specialize (F q E). unfold alnum, letter, digit in F. lia.
  - apply elem_of_app in E as [E|E]; [|apply elem_of_list_singleton in E; lia].
    specialize (F q E). unfold alnum, letter, digit in F. lia.
Qed.
Lemma named_text k r s o ps fuel ls :
  (k, r) ∈ tbl -> (forall k' r', (k', r') ∈ tbl -> k' `prefix_of` k ++ s -> (length k' <= length k)%nat) ->
  60 ∉ s -> reads tbl false false s o ->
  Forall (fun p => p_switch p = None) ps -> length ps = 2%nat -> (8 * length (38%N :: k ++ s) + 10 < fuel)%nat ->
  exists t', pulls tbl fuel ps (new (38 :: k ++ s) Data ls) = Some ([Text (r ++ o); Eof], t').
Proof.
  intros In Lo H R A L F. pose proof (values_not_empty _ OK k r In) as V. destruct r as [|c r]; [done|].
  apply (text_pulls tbl OK _ ((c :: r) ++ o)); try done.
  - eapply key_no; eauto.
  - eapply reads_ref; [|done]. apply ref_named; auto.
Qed.
Lemma named_attribute k r s o ps fuel ls :
  (k, r) ∈ tbl -> (forall k' r', (k', r') ∈ tbl -> k' `prefix_of` k ++ s -> (length k' <= length k)%nat) ->
  34 ∉ s -> reads tbl true true s o ->
  Forall (fun p => p_switch p = None) ps -> length ps = 2%nat -> (8 * length (one_attribute (38%N :: k ++ s)) + 10 < fuel)%nat ->
  let v := if bool_decide (last k = Some 59) then r else match s with x :: _ => if (x =? 61) || is_alnum x then 38 :: k else r | [] => r end in
  exists t', pulls tbl fuel ps (new (one_attribute (38 :: k ++ s)) Data ls) =
    Some ([StartTag (txt "a") false {[ txt "b" := v ++ o ]}; Eof], t').
Proof.
  intros In Lo H R A L F v. apply attr_pulls; try done; [eapply key_no; eauto|].
  eapply reads_ref; [|done]. subst v. case_bool_decide as C; [apply ref_named; auto|].
  destruct s as [|x s]; [apply ref_named; auto; right; right; exact I|].
  destruct ((x =? 61) || is_alnum x) eqn:E.
  - apply (ref_legacy _ _ k r); auto. apply orb_prop in E as [E|E]; [left; lia|right; by apply alnum_spec].
  - apply orb_false_iff in E as [E1 E2]. apply ref_named; auto. right. right. cbn. split; [lia|].
    intros Y. apply alnum_spec in Y. congruence.
Qed.
Lemma verbatim_text w s o ps fuel ls :
  Forall alnum w -> starts (fun x => ~ alnum x /\ (w = [] -> x <> 35)) s ->
  (forall k r, (k, r) ∈ tbl -> ~ k `prefix_of` w ++ s) ->
  60 ∉ s -> reads tbl false false s o ->
  Forall (fun p => p_switch p = None) ps -> length ps = 2%nat -> (8 * length (38%N :: w ++ s) + 10 < fuel)%nat ->
  exists t', pulls tbl fuel ps (new (38 :: w ++ s) Data ls) = Some ([Text (38 :: w ++ o); Eof], t').
Proof.
  intros W St K H R A L F. apply (text_pulls tbl OK _ (38 :: w ++ o)); try done.
  - rewrite elem_of_cons, elem_of_app. intros [E|[E|E]]; [lia| |done]. rewrite Forall_forall in W. specialize (W _ E). unfold alnum, letter, digit in W. lia.
  - destruct w as [|x w].
    + change (38 :: [] ++ o) with ([38] ++ o). eapply reads_ref; [|done]. apply ref_ampersand. eapply starts_impl; [done|]. intros y [? ?]. auto.
    + change (38 :: (x :: w) ++ o) with ((38 :: x :: w) ++ o). eapply reads_ref; [|done]. apply ref_unknown; auto. eapply starts_impl; [done|]. intros y [? ?]. auto.
Qed.
Lemma doc_means_split d s k n l w sc r last nvs m ts :
  doc_means tbl (mk_doc d s) (k ++ [Eof]) -> doc_means tbl (mk_doc r last) ts ->
  Forall2 (attr_means tbl) l nvs -> first_wins nvs m ->
  doc_means tbl (mk_doc (d ++ (s, start_tag n l w sc) :: r) last) (k ++ StartTag (map folded n) sc m :: ts).
Proof.
  intros D R A W. remember (mk_doc d s) as d0 eqn:E0. remember (k ++ [Eof]) as k0 eqn:Ek. revert d k E0 Ek.
  induction D as [s' o R'|s' o m' k' r' l' ts' R' M D IH]; intros d k [= <- <-] Ek.
  - apply app_inj_2 in Ek as [<- _]; [|done]. cbn. eapply means_part; [done| |done]. by econstructor.
  - assert (exists k2, k = text_tokens o ++ k' :: k2 /\ ts' = k2 ++ [Eof]) as (k2 & -> & E2).
    { assert (X : exists k2, ts' = k2 ++ [Eof]).
      { clear -D. induction D as [|? ? ? ? ? ? ? ? ? ? [k2 ->]]; [by eexists|].
        eexists (_ ++ _ :: k2). by rewrite <- app_assoc. }
      destruct X as [k2 ->]. exists k2. split; [|done]. 
      rewrite app_comm_cons, app_assoc in Ek. by apply app_inj_2 in Ek as [-> _]. }
    cbn. rewrite <- app_assoc. cbn. econstructor; [done..|]. by apply IH.
Qed.
Lemma first_wins_somewhere d s n l w sc r last nvs m k ts ps fuel ls :
  doc_ok (mk_doc (d ++ (s, start_tag n l w sc) :: r) last) ->
  doc_means tbl (mk_doc d s) (k ++ [Eof]) -> doc_means tbl (mk_doc r last) ts ->
  Forall2 (attr_means tbl) l nvs -> first_wins nvs m ->
  Forall (fun p => p_switch p = None) ps -> length ps = length (k ++ StartTag (map folded n) sc m :: ts) ->
  (8 * length (doc_source (mk_doc (d ++ (s, start_tag n l w sc) :: r) last)) + 10 < fuel)%nat ->
  exists t', pulls tbl fuel ps (new (doc_source (mk_doc (d ++ (s, start_tag n l w sc) :: r) last)) Data ls) =
    Some (k ++ StartTag (map folded n) sc m :: ts, t').
Proof. intros. apply doc_pulls; try done. by eapply doc_means_split. Qed.
End cases.

(** Checks of bodies *)
Lemma no_infix (b w : list N) :
  forallb (fun i => negb (bool_decide (w `prefix_of` drop i b))) (seq 0 (S (length b))) = true -> forall a z, b <> a ++ w ++ z.
Proof.
  intros H a z ->. rewrite forallb_forall in H. specialize (H (length a)). rewrite drop_app in H.
  rewrite bool_decide_eq_true_2 in H by (by exists z). assert (X : In (length a) (seq 0 (S (length (a ++ w ++ z))))) by (apply in_seq; rewrite !app_length; lia).
  by specialize (H X).
Qed.
Lemma no_end_tag (b n : list N) :
  forallb (fun i => negb (bool_decide (take 2 (drop i b) = [60; 47])) || negb (bool_decide (map folded (take (length n) (drop (i + 2) b)) = map folded n))
      || match drop (i + 2 + length n) b with c :: _ => negb (bool_decide (name_end c)) | [] => true end) (seq 0 (S (length b))) = true ->
  forall a x c z, b = a ++ 60 :: 47 :: x ++ c :: z -> map folded x = map folded n -> ~ name_end c.
Proof.
  intros H a x c z -> E. rewrite forallb_forall in H. specialize (H (length a)).
  assert (X : In (length a) (seq 0 (S (length (a ++ 60 :: 47 :: x ++ c :: z))))) by (apply in_seq; rewrite !app_length; lia).
  specialize (H X). assert (L : length x = length n) by (rewrite <- (map_length folded x), E; apply map_length).
  assert (D : forall i, drop (length a + i) (a ++ 60 :: 47 :: x ++ c :: z) = drop i (60 :: 47 :: x ++ c :: z)).
  { intros i. rewrite <- drop_drop, drop_app. done. }
  rewrite <- Nat.add_assoc, !D, drop_app in H. cbn [Nat.add drop take] in H.
  rewrite drop_0, take_0, <- L, take_app, drop_app, E in H. rewrite !(bool_decide_eq_true_2 (_ = _)) in H by done. cbn in H. by apply negb_true_iff, bool_decide_eq_false in H.
Qed.
Lemma reads_app tbl a nul s s' o o' : 38 ∉ s -> map (shown nul) s = o -> reads tbl a nul s' o' -> reads tbl a nul (s ++ s') (o ++ o').
Proof.
  intros H <- R. induction s as [|x s IH]; [done|]. cbn. apply not_elem_of_cons in H as [H1 H2]. constructor; [congruence|by apply IH].
Qed.
