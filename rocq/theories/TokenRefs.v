(** Character references: the tokenizer reads them as [TokenSpec.ref] says. *)
From stdpp Require Import gmap.
From Coq Require Import ZifyBool ZifyN.
From Verif Require Import Text SettingsModel CookieModel TokenModel TokenSpec.
Local Open Scope N_scope.

(** ** Characters *)
Lemma digit_spec x : is_digit x = true <-> digit x.
Proof. unfold is_digit, between, digit. lia. Qed.
Lemma hex_spec x : is_hex x = true <-> hexdigit x.
Proof. unfold is_hex, is_digit, between, hexdigit, digit. lia. Qed.
Lemma alpha_spec x : is_alpha x = true <-> letter x.
Proof. unfold is_alpha, between, letter. lia. Qed.
Lemma alnum_spec x : is_alnum x = true <-> alnum x.
Proof. unfold is_alnum, is_alpha, is_digit, between, alnum, letter, digit. lia. Qed.
Lemma white_spec x : is_ws x = true <-> white x.
Proof. unfold is_ws, white. lia. Qed.
Lemma bfalse (b : bool) (P : Prop) : (b = true <-> P) -> b = false <-> ~ P.
Proof. destruct b; intuition congruence. Qed.
Definition digit_spec' x := bfalse _ _ (digit_spec x).
Definition hex_spec' x := bfalse _ _ (hex_spec x).
Definition alpha_spec' x := bfalse _ _ (alpha_spec x).
Definition alnum_spec' x := bfalse _ _ (alnum_spec x).
Definition white_spec' x := bfalse _ _ (white_spec x).

(** ** What a step keeps: everything but the characters read, the temporary buffer and the errors *)
Definition core (t : tk) :=
  (future t, state t, consumed t, attr_name t, attr_value t, attrs t, cur t, queue t, last_start t).
(** the fields with a new rest of input and new characters *)
Definition upd (f : list N) (a : bool) (o : list N) (t : tk) :=
  (f, state t, (if a then consumed t else consumed t ++ o), attr_name t, (if a then attr_value t ++ o else attr_value t),
   attrs t, cur t, queue t, last_start t).

(** ** Numeric references *)
Lemma replacements_ok :
  forallb (fun c => default c (assoc c replacements) =?
    (if (0x80 <=? c) && (c <=? 0x9F) then nth (N.to_nat (c - 0x80)) windows_1252 c
     else if c =? 0 then 0xFFFD else c)) (map N.of_nat (seq 0 160)) = true.
Proof. vm_compute. reflexivity. Qed.
Lemma replacement_small c : c < 160 -> c <> 0 ->
  default c (assoc c replacements) = if (0x80 <=? c) && (c <=? 0x9F) then nth (N.to_nat (c - 0x80)) windows_1252 c else c.
Proof.
  intros H H0. pose proof replacements_ok as R. rewrite forallb_forall in R.
  specialize (R c). assert (In c (map N.of_nat (seq 0 160))) as I.
  { apply in_map_iff. exists (N.to_nat c). split; [lia|]. apply in_seq. lia. }
  apply R, N.eqb_eq in I. rewrite I. destruct (_ && _); [done|]. by rewrite (proj2 (N.eqb_neq c 0) H0).
Qed.
Lemma control_small c : is_control_char c || (c =? 13) = true -> c < 160 /\ c <> 0.
Proof. unfold is_control_char. destruct (existsb _ _); unfold between; lia. Qed.
Lemma not_control c : is_control_char c || (c =? 13) = false -> (0x80 <=? c) && (c <=? 0x9F) = false.
Proof. unfold is_control_char. destruct (existsb _ _) eqn:E; unfold between; [|lia]. cbn in E. lia. Qed.
Lemma windows_scalar c : c < 160 -> (0x80 <=? c) = true -> nth (N.to_nat (c - 0x80)) windows_1252 c < 55296.
Proof.
  intros H1 H2. set (i := N.to_nat (c - 0x80)). assert (i < 32)%nat by lia.
  do 32 (destruct i as [|i]; [cbn; lia|]). lia.
Qed.

Definition represents (code : option N) (v : N) : Prop := code = Some v \/ (code = None /\ 4294967295 < v).
Lemma accumulate_ok base d code v : 0 < base -> represents code v -> represents (accumulate base d code) (v * base + d).
Proof.
  intros B [->|[-> H]]; cbn.
  - destruct (4294967295 <? v * base) eqn:E1; [right; split; [done|lia]|].
    destruct (4294967295 <? v * base + d) eqn:E2; [right; split; [done|lia]|by left].
  - right. split; [done|]. nia.
Qed.

Local Arguments assoc : simpl never.
Lemma numeric_end_core a code v t : represents code v ->
  core (numeric_end a code t) = upd (future t) a [referenced v] t.
Proof.
  intros R. unfold numeric_end. cbv zeta.
  assert (X : forall c e, core (consume_temp_buffer a (set_tmp [c] e)) = upd (future e) a [c] e).
  { intros c e. unfold consume_temp_buffer, flush, core, upd. by destruct a. }
  destruct R as [->|[-> H]].
  - change (default 0 (Some v)) with v. cbn [negb]. destruct (v =? 0) eqn:E0.
    { cbn. rewrite X. unfold referenced. by rewrite E0. }
    cbn [andb]. destruct ((1114111 <? v) || false) eqn:E1.
    { cbn. rewrite X. unfold referenced. rewrite E0. replace (0x10FFFF <? v) with true by lia.
      by rewrite orb_true_r. }
    destruct (is_surrogate v) eqn:E2.
    { cbn. rewrite X. unfold referenced. rewrite E0. unfold is_surrogate, between in E2. by rewrite E2. }
    unfold referenced. rewrite E0. unfold is_surrogate, between in E2. rewrite E2.
    replace (0x10FFFF <? v) with false by lia. cbn [orb].
    destruct (is_control_char v || (v =? 13)) eqn:E3.
    + destruct (control_small _ E3) as [C1 C2]. rewrite replacement_small by done.
      set (w := if _ && _ then _ else v). assert (W : w < 55296).
      { unfold w. destruct (0x80 <=? v) eqn:E4; cbn; [|lia]. destruct (v <=? 0x9F); [|lia]. by apply windows_scalar. }
      replace (1114111 <? w) with false by lia. replace (is_surrogate w) with false by (unfold is_surrogate, between; lia).
      cbn [orb]. rewrite X. by destruct (is_noncharacter v).
    + rewrite (not_control _ E3). replace (1114111 <? v) with false by lia.
      replace (is_surrogate v) with false by (unfold is_surrogate, between; lia). cbn [orb]. rewrite X.
      by destruct (is_noncharacter v).
  - cbn. rewrite X. unfold referenced. replace (0x10FFFF <? v) with true by lia. by rewrite orb_true_r.
Qed.

Definition rdigit (h : bool) (x : N) : Prop := if h then hexdigit x else digit x.
Definition rbase (h : bool) : N := if h then 16 else 10.
Lemma digit_value_ok h x : rdigit h x -> digit_value x = if h then hex_value x else x - 48.
Proof.
  unfold rdigit, digit_value, hex_value, is_digit, between. destruct h; unfold hexdigit, digit; intros H.
  - repeat match goal with |- context [if ?b then _ else _] => destruct b eqn:? end; lia.
  - destruct (x <=? 57) eqn:?; lia.
Qed.

(** After the digits: a semicolon is taken, anything else is left. *)
Definition after_digits (r : list N) : list N := match r with x :: r' => if x =? 59 then r' else r | [] => [] end.

Lemma digits_core fuel a h code v ds r t :
  Forall (rdigit h) ds -> starts (fun x => ~ rdigit h x) r -> future t = ds ++ r -> represents code v ->
  (length (future t) < fuel)%nat ->
  exists t', numeric_digits fuel a h code t = Ok t' /\
    core t' = upd (after_digits r) a [referenced (fold_left (fun a d => a * rbase h + digit_value d) ds v)] t.
Proof.
  revert code v ds t. induction fuel as [|fuel IH]; intros code v ds t D R F P L; [lia|]. cbn [numeric_digits].
  destruct t as [p f s c an av at_ cu tm q ls lc e]. cbn in F. subst f. destruct ds as [|d ds].
  - cbn [fold_left]. cbn [app] in *. destruct r as [|x r]; cbn [stream_read_and_next future set_io].
    + eexists. split; [reflexivity|]. by rewrite (numeric_end_core _ _ v).
    + replace (h && is_hex x) with false; [|symmetry; destruct h; [apply hex_spec', R|done]].
      replace (negb h && is_digit x) with false; [|symmetry; destruct h; [done|apply digit_spec', R]].
      cbn [after_digits]. destruct (x =? 59) eqn:E; (eexists; split; [reflexivity|]); by rewrite (numeric_end_core _ _ v).
  - apply Forall_cons in D as [D1 D].
    set (t1 := mk_tk (d :: p) (ds ++ r) s c an av at_ cu tm q ls (Some d) e).
    change (stream_read_and_next _) with (Some d, t1).
    assert (K : exists t', numeric_digits fuel a h (accumulate (rbase h) (digit_value d) code) t1 = Ok t' /\
      core t' = upd (after_digits r) a [referenced (fold_left (fun a d => a * rbase h + digit_value d) (d :: ds) v)] t1).
    { cbn [fold_left]. apply (IH _ (v * rbase h + digit_value d)); try done.
      - apply accumulate_ok; [by destruct h|done].
      - cbn in L |- *. lia. }
    rewrite (digit_value_ok h d D1) in K.
    destruct h; cbn [andb negb rdigit rbase] in *.
    + rewrite (proj2 (hex_spec d) D1). destruct K as (t' & -> & K). exists t'. by rewrite K.
    + rewrite (proj2 (digit_spec d) D1). destruct K as (t' & -> & K). exists t'. by rewrite K.
Qed.

Lemma start_core a h ds r t :
  Forall (rdigit h) ds -> starts (fun x => ~ rdigit h x) r -> future t = ds ++ r ->
  exists t', numeric_start a h t = Ok t' /\
    core t' = match ds with [] => upd r a (tmp t) t | _ => upd (after_digits r) a [referenced (number (rbase h) ds)] t end.
Proof.
  intros D R F. unfold numeric_start. destruct t as [p f s c an av at_ cu tm q ls lc e]. cbn in F. subst f. destruct ds as [|d ds].
  - destruct r as [|x r].
    + eexists. split; [reflexivity|]. by destruct a.
    + change (stream_read_and_next _) with (Some x, mk_tk (x :: p) r s c an av at_ cu tm q ls (Some x) e). cbv iota beta.
      replace (if h then is_hex x else is_digit x) with false; [|symmetry; destruct h; [apply hex_spec', R|apply digit_spec', R]].
      eexists. split; [reflexivity|]. by destruct a.
  - change (stream_read_and_next _) with (Some d, mk_tk (d :: p) (ds ++ r) s c an av at_ cu tm q ls (Some d) e). cbv iota beta.
    assert (D1 : rdigit h d) by by apply Forall_cons in D as [? _].
    replace (if h then is_hex d else is_digit d) with true; [|symmetry; destruct h; [by apply hex_spec|by apply digit_spec]].
    cbv zeta. set (t1 := stream_prev _).
    destruct (digits_core (S (length (future t1))) a h (Some 0) 0 (d :: ds) r t1) as (t' & E & K); try done; [by left|lia|].
    exists t'. by rewrite E, K.
Qed.

Lemma split_run (b : N -> bool) l : exists w r, l = w ++ r /\ Forall (fun x => b x = true) w /\ starts (fun x => b x = false) r.
Proof.
  induction l as [|x l (w & r & -> & W & R)]; [by exists [], []|].
  destruct (b x) eqn:E.
  - exists (x :: w), r. split_and!; [done|by constructor|done].
  - exists [], (x :: w ++ r). by split_and!.
Qed.

(** what may follow the text that is looked at *)
Definition stopper (r : list N) : Prop := starts (fun x => ~ alnum x /\ x <> 59 /\ x <> 35 /\ x <> 61) r.
Lemma starts_app (P : N -> Prop) s r : starts P s -> (s = [] -> starts P r) -> starts P (s ++ r).
Proof. destruct s; cbn; auto. Qed.
Lemma starts_impl (P Q : N -> Prop) s : starts P s -> (forall x, P x -> Q x) -> starts Q s.
Proof. destruct s; cbn; auto. Qed.
Lemma rdigit_alnum h x : rdigit h x -> alnum x.
Proof. unfold rdigit, alnum, hexdigit, letter, digit. destruct h; lia. Qed.
Lemma run_digits h u rest : stopper rest -> exists ds r, u = ds ++ r /\ Forall (rdigit h) ds /\ starts (fun x => ~ rdigit h x) r /\
  starts (fun x => ~ rdigit h x) (r ++ rest).
Proof.
  intros S. destruct (split_run (if h then is_hex else is_digit) u) as (ds & r & -> & D & R).
  assert (R' : starts (fun x => ~ rdigit h x) r).
  { eapply starts_impl; [exact R|]. intros x H. destruct h; [by apply hex_spec'|by apply digit_spec']. }
  exists ds, r. split_and!; [done| |done|].
  - eapply Forall_impl; [exact D|]. intros x H. destruct h; [by apply hex_spec|by apply digit_spec].
  - apply starts_app; [done|]. intros _. eapply starts_impl; [exact S|]. intros x [H _] H'. by apply H, (rdigit_alnum h).
Qed.
Lemma after_digits_app r rest : stopper rest ->
  exists s, after_digits (r ++ rest) = s ++ rest /\ (r = 59 :: s \/ (r = s /\ starts (fun x => x <> 59) s)).
Proof.
  intros S. destruct r as [|x r].
  - exists []. split; [|by right]. destruct rest as [|y rest]; [done|]. cbn. destruct S as (_ & S & _).
    by rewrite (proj2 (N.eqb_neq y 59) S).
  - cbn. destruct (N.eqb_spec x 59) as [->|N]; [exists r; split; [done|by left]|]. exists (x :: r). by split; [|right].
Qed.

Section with_table.
Context (tbl : list (list N * list N)).

Lemma numeric_core a u rest t :
  stopper rest -> future t = u ++ rest -> tmp t = [38; 35] ->
  exists t' o s, numeric_reference a t = Ok t' /\ ref tbl a (35 :: u) o s /\ core t' = upd (s ++ rest) a o t.
Proof.
  intros S F T. unfold numeric_reference. destruct t as [p f st c an av at_ cu tm q ls lc e]. cbn in F, T. subst f tm.
  assert (X : (exists x u1, u = x :: u1 /\ (x = 120 \/ x = 88)) \/ starts (fun x => x <> 120 /\ x <> 88) (u ++ rest)).
  { destruct u as [|x u].
    - right. destruct rest as [|y rest]; [done|]. destruct S as (S & _). cbn. unfold alnum, letter in S. lia.
    - destruct (decide (x = 120 \/ x = 88)) as [H|H]; [left; eauto|right]. cbn. lia. }
  destruct X as [(x & u1 & -> & Hx)|X].
  - change (stream_read_and_next _) with (Some x, mk_tk (x :: p) (u1 ++ rest) st c an av at_ cu [38; 35] q ls (Some x) e).
    cbv iota beta. replace ((x =? 88) || (x =? 120)) with true by lia.
    destruct (run_digits true u1 rest S) as (ds & r & -> & D & R & R2).
    destruct (start_core a true ds (r ++ rest) (push_tmp x (mk_tk (x :: p) ((ds ++ r) ++ rest) st c an av at_ cu [38; 35] q ls (Some x) e)))
      as (t' & E & K); [done|done|cbn; by rewrite <- app_assoc|].
    rewrite E. destruct ds as [|d ds].
    + exists t', [38; 35; x], r. split; [done|]. split; [by apply ref_no_hex_digits|]. by rewrite K.
    + destruct (after_digits_app r rest S) as (s & E2 & C).
      exists t', [referenced (number 16 (d :: ds))], s. split; [done|]. split; [|by rewrite K, E2].
      destruct C as [->|[-> C]]; [by apply ref_hex_semicolon|]. apply ref_hex; try done.
      destruct s; [done|]. by split.
  - assert (G : forall t1, core t1 = core (mk_tk p (u ++ rest) st c an av at_ cu [38; 35] q ls lc e) -> tmp t1 = [38; 35] ->
      exists t' o s, numeric_start a false t1 = Ok t' /\ ref tbl a (35 :: u) o s /\
        core t' = upd (s ++ rest) a o (mk_tk p (u ++ rest) st c an av at_ cu [38; 35] q ls lc e)).
    { intros t1 C T. destruct (run_digits false u rest S) as (ds & r & -> & D & R & R2).
      destruct (start_core a false ds (r ++ rest) t1) as (t' & E & K); [done|done|injection C as -> ; by rewrite <- app_assoc|].
      assert (U : forall f o, upd f a o t1 = upd f a o (mk_tk p ((ds ++ r) ++ rest) st c an av at_ cu [38; 35] q ls lc e)).
      { intros f o. unfold upd. injection C as _ -> -> -> -> -> -> -> ->. done. }
      rewrite E. destruct ds as [|d ds].
      + exists t', [38; 35], r. split; [done|]. split; [|by rewrite K, T, U]. apply ref_no_digits.
        destruct r as [|y r]; [done|]. cbn in X, R |- *. tauto.
      + destruct (after_digits_app r rest S) as (s & E2 & C2).
        exists t', [referenced (number 10 (d :: ds))], s. split; [done|]. split; [|by rewrite K, E2, U].
        destruct C2 as [->|[-> C2]]; [by apply ref_decimal_semicolon|]. apply ref_decimal; try done.
        destruct s; [done|]. by split. }
    destruct (u ++ rest) as [|y f] eqn:F.
    + change (stream_read_and_next _) with (@None N, mk_tk p [] st c an av at_ cu [38; 35] q ls None e). cbv iota beta.
      by apply G.
    + change (stream_read_and_next _) with (Some y, mk_tk (y :: p) f st c an av at_ cu [38; 35] q ls (Some y) e).
      cbv iota beta. cbn in X. replace ((y =? 88) || (y =? 120)) with false by lia. by apply G.
Qed.

(** ** Named references *)
Lemma assoc_cons (k k' r : list N) l : assoc k ((k', r) :: l) = if decide (k = k') then Some r else assoc k l.
Proof. done. Qed.
Lemma assoc_Some k r : assoc k tbl = Some r -> (k, r) ∈ tbl.
Proof.
  induction tbl as [|[k' r'] l IH]; [done|]. rewrite assoc_cons. case_decide; [|by right; apply IH].
  intros [= ->]. subst. by left.
Qed.
Lemma assoc_In k r : NoDup (map fst tbl) -> (k, r) ∈ tbl -> assoc k tbl = Some r.
Proof.
  induction tbl as [|[k' r'] l IH]; [by intros _ ?%elem_of_nil|]. intros ND H.
  cbn in ND. apply NoDup_cons in ND as [N ND]. rewrite assoc_cons.
  apply elem_of_cons in H as [[= -> ->]|H]; [by rewrite decide_True|].
  rewrite decide_False; [by apply IH|]. intros ->. apply N. apply elem_of_list_fmap. by exists (k', r).
Qed.

Definition joined (m L : nat) (f : list N) : list N := mjoin (map display (take m (slice L f))).
Definition kchar (x : N) : Prop := alnum x \/ x = 59.
Lemma joined_S m L f : joined (S m) (S L) f = display (head f) ++ joined m L (tail f).
Proof. done. Qed.
Lemma joined_key m L f :
  (m <= L)%nat -> Forall kchar (joined m L f) -> (forall a b, joined m L f <> a ++ txt "StreamEnd" ++ b) ->
  joined m L f = take m f /\ (m <= length f)%nat.
Proof.
  revert L f. induction m as [|m IH]; intros L f ML K N; [split; [done|lia]|].
  destruct L as [|L]; [lia|]. rewrite joined_S in *. destruct f as [|x f]; cbn [head tail] in *.
  { exfalso. by apply (N [] (joined m L [])). }
  unfold display in *. destruct (is_surrogate x) eqn:E.
  { exfalso. apply Forall_app in K as [K _]. apply Forall_app in K as [K _].
    change (txt "U+") with [85; 43] in K. apply Forall_cons in K as [_ K]. apply Forall_cons in K as [K _].
    unfold kchar, alnum, letter, digit in K. lia. }
  apply Forall_app in K as [_ K]. destruct (IH L f) as [E1 E2]; [lia|done| |].
  - intros a b H. apply (N (x :: a) b). cbn. by rewrite H.
  - cbn. rewrite E1. split; [done|lia].
Qed.
Lemma key_joined k L f : Forall kchar k -> k `prefix_of` f -> (length k <= L)%nat -> joined (length k) L f = k.
Proof.
  revert L f. induction k as [|x k IH]; intros L f K P ML; [done|]. cbn in ML. destruct L as [|L]; [lia|].
  cbn [length]. rewrite joined_S. destruct P as [s ->]. cbn [head tail app]. apply Forall_cons in K as [K1 K].
  rewrite (IH L (k ++ s)); [|done|by exists s|lia]. unfold display.
  replace (is_surrogate x) with false; [done|]. unfold kchar, alnum, letter, digit in K1. unfold is_surrogate, between. lia.
Qed.

Hypothesis OK : table_ok tbl.
Lemma key_chars k r : (k, r) ∈ tbl -> Forall kchar k /\ k <> [].
Proof.
  intros H. destruct (keys_shape _ OK _ _ H) as (w & Hw & W & [->| ->]).
  - split; [|done]. eapply Forall_impl; [exact W|]. by left.
  - split; [|by destruct w]. apply Forall_app. split; [eapply Forall_impl; [exact W|by left]|]. by repeat constructor; right.
Qed.
Lemma key_length k r : (k, r) ∈ tbl -> (length k <= longest_entity tbl)%nat.
Proof.
  intros H. unfold longest_entity. pose proof (list_max_le (map (fun e => length e.1) tbl) (list_max (map (fun e => length e.1) tbl))) as [M _].
  specialize (M ltac:(lia)). rewrite List.Forall_forall in M. apply M. apply in_map_iff. exists (k, r). split; [done|]. by apply elem_of_list_In.
Qed.

Lemma find_from_Some n l k : find_from tbl n l = Some k ->
  exists m, (m <= n)%nat /\ k = mjoin (map display (take m l)) /\ is_Some (assoc k tbl) /\
    forall m', (m < m' <= n)%nat -> assoc (mjoin (map display (take m' l))) tbl = None.
Proof.
  induction n as [|n IH]; cbn [find_from]; case_bool_decide as H.
  - intros [= <-]. exists 0%nat. split_and!; [lia|done|done|lia].
  - done.
  - intros [= <-]. exists (S n). split_and!; [lia|done|done|lia].
  - intros E. destruct (IH E) as (m & L & -> & IS & X). exists m. split_and!; [lia|done|done|].
    intros m' ?. destruct (decide (m' = S n)) as [->|]; [|apply X; lia].
    by apply eq_None_not_Some.
Qed.
Lemma find_from_None n l : find_from tbl n l = None -> forall m, (m <= n)%nat -> assoc (mjoin (map display (take m l))) tbl = None.
Proof.
  induction n as [|n IH]; cbn [find_from]; case_bool_decide as H; try done; intros E m L.
  - replace m with 0%nat by lia. by apply eq_None_not_Some.
  - destruct (decide (m = S n)) as [->|]; [|apply IH; [done|lia]].
    by apply eq_None_not_Some.
Qed.

Lemma find_entity_Some t k : find_entity tbl t = Some k ->
  exists r s, (k, r) ∈ tbl /\ future t = k ++ s /\ (forall k' r', (k', r') ∈ tbl -> k' `prefix_of` future t -> (length k' <= length k)%nat).
Proof.
  intros E. unfold find_entity, get_slice in E. destruct (find_from_Some _ _ _ E) as (m & L & Hk & [r Hr] & X).
  apply assoc_Some in Hr. fold (joined m (longest_entity tbl) (future t)) in Hk.
  destruct (joined_key m (longest_entity tbl) (future t)) as [E1 E2]; [done| |intros a b; rewrite <- Hk; by eapply keys_no_end|].
  { rewrite <- Hk. by apply (key_chars _ r). }
  rewrite E1 in Hk. exists r, (drop m (future t)). split_and!; [done|subst; by rewrite take_drop|].
  intros k' r' H' P. destruct (key_chars _ _ H') as [K' _]. pose proof (key_length _ _ H') as L'.
  pose proof (key_joined k' _ (future t) K' P L') as J.
  destruct (decide (length k' <= m)%nat) as [?|G]; [subst k; rewrite take_length; lia|].
  specialize (X (length k') ltac:(lia)). fold (joined (length k') (longest_entity tbl) (future t)) in X. rewrite J in X.
  by rewrite (assoc_In _ _ (keys_distinct _ OK) H') in X.
Qed.
Lemma find_entity_None t : find_entity tbl t = None -> forall k r, (k, r) ∈ tbl -> ~ k `prefix_of` future t.
Proof.
  intros E k r H P. unfold find_entity, get_slice in E. destruct (key_chars _ _ H) as [K _]. pose proof (key_length _ _ H) as L.
  pose proof (find_from_None _ _ E (length k) L) as X. fold (joined (length k) (longest_entity tbl) (future t)) in X.
  rewrite (key_joined k _ (future t) K P L) in X. by rewrite (assoc_In _ _ (keys_distinct _ OK) H) in X.
Qed.

Lemma prefix_stop k u rest : Forall kchar k -> stopper rest -> k `prefix_of` u ++ rest -> k `prefix_of` u.
Proof.
  revert u. induction k as [|x k IH]; intros u K S P; [apply prefix_nil|]. apply Forall_cons in K as [K1 K].
  destruct u as [|y u].
  - exfalso. destruct rest as [|y rest]; [by apply prefix_nil_not in P|]. apply prefix_cons_inv_1 in P as <-.
    destruct S as (S1 & S2 & _). by destruct K1.
  - pose proof (prefix_cons_inv_1 _ _ _ _ P) as <-. apply prefix_cons_inv_2 in P. by apply prefix_cons, IH.
Qed.

Lemma next_n_core k s t : future t = k ++ s -> core (stream_next_n (length k) t) = upd s false [] t /\
  tmp (stream_next_n (length k) t) = tmp t.
Proof.
  revert t. induction k as [|x k IH]; intros t F; cbn [length stream_next_n].
  - unfold core, upd. rewrite F. by rewrite app_nil_r.
  - destruct t as [p f st c an av at_ cu tm q ls lc e]. cbn in F. subst f.
    destruct (IH (mk_tk (x :: p) (k ++ s) st c an av at_ cu tm q ls (Some x) e)) as [E1 E2]; [done|].
    by split.
Qed.

Lemma ambiguous_core fuel a w r t :
  Forall alnum w -> starts (fun x => ~ alnum x) r -> future t = w ++ r -> (length (future t) < fuel)%nat ->
  exists t', ambiguous_ampersand fuel a t = Ok t' /\ core t' = upd r a w t.
Proof.
  revert w t. induction fuel as [|fuel IH]; intros w t W R F L; [lia|]. cbn [ambiguous_ampersand].
  destruct t as [p f st c an av at_ cu tm q ls lc e]. cbn in F. subst f. destruct w as [|x w].
  - destruct r as [|x r].
    + eexists. split; [reflexivity|]. destruct a; unfold upd, core; cbn; by rewrite app_nil_r.
    + change (stream_read_and_next _) with (Some x, mk_tk (x :: p) r st c an av at_ cu tm q ls (Some x) e). cbv iota beta.
      rewrite (proj2 (alnum_spec' x) R). destruct (x =? 59); (eexists; split; [reflexivity|]);
        destruct a; unfold upd, core; cbn; by rewrite app_nil_r.
  - apply Forall_cons in W as [W1 W].
    change (stream_read_and_next _) with (Some x, mk_tk (x :: p) (w ++ r) st c an av at_ cu tm q ls (Some x) e). cbv iota beta.
    rewrite (proj2 (alnum_spec x) W1).
    destruct (IH w (flush a [x] (mk_tk (x :: p) (w ++ r) st c an av at_ cu tm q ls (Some x) e))) as (t' & E & K).
    + done.
    + done.
    + by destruct a.
    + destruct a; cbn in L |- *; lia.
    + exists t'. rewrite E, K. split; [done|]. destruct a; unfold upd; cbn; by rewrite <- app_assoc.
Qed.

Lemma named_core a x u rest t :
  stopper rest -> alnum x -> future t = (x :: u) ++ rest -> tmp t = [38] ->
  exists t' o s, named_reference tbl a t = Ok t' /\ ref tbl a (x :: u) o s /\ core t' = upd (s ++ rest) a o t.
Proof.
  intros S X F T. unfold named_reference. destruct (find_entity tbl t) as [k|] eqn:E.
  - destruct (find_entity_Some _ _ E) as (r & s' & H & F' & Long). destruct (key_chars _ _ H) as [K KN].
    destruct (prefix_stop k (x :: u) rest K S) as [s Hs]; [rewrite <- F, F'; by exists s'|].
    assert (s' = s ++ rest) as ->. { rewrite F, Hs, <- app_assoc in F'. by apply app_inv_head in F'. }
    rewrite Hs. destruct (next_n_core k (s ++ rest) t F') as [C1 T1]. set (t1 := stream_next_n _ t) in *. cbv zeta.
    assert (F1 : future t1 = s ++ rest) by by injection C1.
    assert (Long' : forall k' r', (k', r') ∈ tbl -> k' `prefix_of` k ++ s -> (length k' <= length k)%nat).
    { intros k' r' H' P. apply (Long k' r' H'). rewrite F, Hs. by apply prefix_app_r. }
    rewrite (assoc_In _ _ (keys_distinct _ OK) H).
    assert (U : forall f o, upd f a o t1 = upd f a o t).
    { intros f o. unfold upd. injection C1 as _ -> -> -> -> -> -> -> ->. by rewrite app_nil_r. }
    destruct (a && _ && _) eqn:B.
    + apply andb_true_iff in B as [B1 B]. apply andb_true_iff in B1 as [-> B1].
      apply negb_true_iff, bool_decide_eq_false in B1. rewrite F1 in B. destruct s as [|y s].
      { exfalso. cbn in B. destruct rest as [|y rest]; cbn in B; [done|]. destruct S as (S1 & _ & _ & S2).
        apply orb_true_iff in B as [B|B]; [lia|]. by apply S1, alnum_spec. }
      cbn in B. eexists _, (38 :: k), (y :: s). split; [reflexivity|]. split.
      * eapply ref_legacy; try done. apply orb_true_iff in B as [B|B]; [left; lia|right; by apply alnum_spec].
      * rewrite <- (U ((y :: s) ++ rest) (38 :: k)). rewrite T1, T. unfold core, upd, consume_temp_buffer, flush. cbn. by rewrite F1.
    + eexists _, r, s. split; [reflexivity|]. split.
      * eapply ref_named; try done. destruct a; [right|by left]. case_bool_decide as B1; [by left|right].
        rewrite F1 in B. cbn in B. destruct s as [|y s]; [done|]. cbn in B |- *. apply orb_false_iff in B as [B2 B3].
        apply alnum_spec' in B3. split; [lia|done].
      * rewrite <- (U (s ++ rest) r). case_bool_decide; unfold core, upd, flush; destruct a; cbn; by rewrite F1.
  - cbv zeta. destruct (split_run is_alnum (x :: u)) as (w & s & Hw & W & R).
    assert (WN : w <> []). { intros ->. cbn in Hw. subst s. cbn in R. apply alnum_spec' in R. done. }
    assert (W' : Forall alnum w) by (eapply Forall_impl; [exact W|]; intros; by apply alnum_spec).
    assert (R' : starts (fun x => ~ alnum x) s) by (eapply starts_impl; [exact R|]; intros; by apply alnum_spec').
    destruct (ambiguous_core (Datatypes.S (length (future (consume_temp_buffer a t)))) a w (s ++ rest) (consume_temp_buffer a t)) as (t' & E' & K).
    + done.
    + apply starts_app; [done|]. intros _. eapply starts_impl; [exact S|]. naive_solver.
    + transitivity (future t); [by destruct a|]. by rewrite F, Hw, <- app_assoc.
    + lia.
    + exists t', (38 :: w), s. split; [done|]. rewrite Hw. split.
      * apply ref_unknown; try done. intros k r H P. eapply (find_entity_None _ E k r H). rewrite F, Hw. by apply prefix_app_r.
      * rewrite K. unfold upd, consume_temp_buffer, flush. rewrite T. destruct a; cbn; by rewrite <- app_assoc.
Qed.

(** ** All references *)
Lemma ccr_core a u rest t :
  stopper rest -> future t = u ++ rest ->
  exists t' o s, consume_character_reference tbl a t = Ok t' /\ ref tbl a u o s /\ core t' = upd (s ++ rest) a o t.
Proof.
  intros S F. unfold consume_character_reference. destruct t as [p f st c an av at_ cu tm q ls lc e]. cbn in F. subst f.
  cbv zeta. destruct u as [|x u].
  - exists (match rest with
      | [] => consume_temp_buffer a (mk_tk p [] st c an av at_ cu [38] q ls None e)
      | x :: r => stream_prev (consume_temp_buffer a (mk_tk (x :: p) r st c an av at_ cu [38] q ls (Some x) e))
      end), [38], []. split; [|split; [by apply ref_ampersand|destruct rest; by destruct a]].
    destruct rest as [|x r]; [done|]. destruct S as (S1 & _ & S2 & _).
    change (stream_read_and_next _) with (Some x, mk_tk (x :: p) r st c an av at_ cu [38] q ls (Some x) e). cbv iota beta.
    rewrite (proj2 (alnum_spec' x) S1). by rewrite (proj2 (N.eqb_neq x 35) S2).
  - change (stream_read_and_next _) with (Some x, mk_tk (x :: p) (u ++ rest) st c an av at_ cu [38] q ls (Some x) e). cbv iota beta.
    destruct (is_alnum x) eqn:E.
    + apply (named_core a x u rest (mk_tk p (x :: u ++ rest) st c an av at_ cu [38] q ls (Some x) e) S); [by apply alnum_spec|done|done].
    + destruct (N.eqb_spec x 35) as [->|N].
      * destruct (numeric_core a u rest (push_tmp 35 (mk_tk (35 :: p) (u ++ rest) st c an av at_ cu [38] q ls (Some 35) e)) S) as (t' & o & s & A & B & C);
          [done|done|]. exists t', o, s. by split_and!.
      * eexists _, [38], (x :: u). split; [reflexivity|]. split; [|by destruct a].
        apply ref_ampersand. split; [by apply alnum_spec'|done].
Qed.

(** The other way round: [ref] is what happens. *)
Lemma to_number a f t : future t = 35 :: f ->
  exists t1, consume_character_reference tbl a t = numeric_reference a t1 /\ core t1 = upd f false [] t /\ tmp t1 = [38; 35].
Proof.
  intros F. destruct t as [p f_ st c an av at_ cu tm q ls lc e]. cbn in F. subst f_. eexists. split; [reflexivity|].
  split; [|done]. unfold core, upd. cbn. by rewrite app_nil_r.
Qed.
Lemma to_decimal a f t : future t = f -> starts (fun x => x <> 120 /\ x <> 88) f ->
  exists t1, numeric_reference a t = numeric_start a false t1 /\ core t1 = core t /\ tmp t1 = tmp t.
Proof.
  intros F X. destruct t as [p f_ st c an av at_ cu tm q ls lc e]. cbn in F. subst f_. unfold numeric_reference. destruct f as [|y f].
  - eexists. split; [reflexivity|]. done.
  - change (stream_read_and_next _) with (Some y, mk_tk (y :: p) f st c an av at_ cu tm q ls (Some y) e).
    cbv iota beta. cbn in X. replace ((y =? 88) || (y =? 120)) with false by lia. eexists. split; [reflexivity|]. done.
Qed.
Lemma to_hex a x f t : future t = x :: f -> x = 120 \/ x = 88 ->
  exists t1, numeric_reference a t = numeric_start a true t1 /\ core t1 = upd f false [] t /\ tmp t1 = tmp t ++ [x].
Proof.
  intros F X. destruct t as [p f_ st c an av at_ cu tm q ls lc e]. cbn in F. subst f_. unfold numeric_reference.
  change (stream_read_and_next _) with (Some x, mk_tk (x :: p) f st c an av at_ cu tm q ls (Some x) e).
  cbv iota beta. replace ((x =? 88) || (x =? 120)) with true by lia. eexists. split; [reflexivity|].
  split; [|done]. unfold core, upd. cbn. by rewrite app_nil_r.
Qed.
Lemma upd_core f a o t t1 f1 : core t1 = upd f1 false [] t -> upd f a o t1 = upd f a o t.
Proof. unfold upd. intros C. injection C as _ -> -> -> -> -> -> -> ->. by rewrite app_nil_r. Qed.
Lemma upd_core' f a o t t1 : core t1 = core t -> upd f a o t1 = upd f a o t.
Proof. unfold upd. intros C. injection C as _ -> -> -> -> -> -> -> ->. done. Qed.
Lemma stop_digits h s rest : stopper rest -> starts (fun x => ~ rdigit h x) s -> starts (fun x => ~ rdigit h x) (s ++ rest).
Proof.
  intros S H. apply starts_app; [done|]. intros _. eapply starts_impl; [exact S|]. intros x [H' _] R. by apply H', (rdigit_alnum h).
Qed.
Lemma after_none s rest : stopper rest -> starts (fun x => x <> 59) s -> after_digits (s ++ rest) = s ++ rest.
Proof.
  intros S H. destruct s as [|x s]; cbn.
  - destruct rest as [|y rest]; [done|]. cbn. destruct S as (_ & S & _). by rewrite (proj2 (N.eqb_neq y 59) S).
  - by rewrite (proj2 (N.eqb_neq x 59) H).
Qed.
Lemma decimal_core a ds s rest t : stopper rest -> Forall digit ds -> starts (fun x => ~ digit x) s -> (ds = [] -> starts (fun x => x <> 120 /\ x <> 88) s) ->
  future t = 35 :: ds ++ s ++ rest ->
  exists t', consume_character_reference tbl a t = Ok t' /\
    core t' = match ds with [] => upd (s ++ rest) a [38; 35] t | _ => upd (after_digits (s ++ rest)) a [referenced (number 10 ds)] t end.
Proof.
  intros S D R N F. destruct (to_number a _ t F) as (t1 & -> & C1 & T1).
  assert (F1 : future t1 = ds ++ s ++ rest) by by injection C1.
  destruct (to_decimal a _ t1 F1) as (t2 & -> & C2 & T2).
  { destruct ds as [|d ds]; cbn.
    - specialize (N eq_refl). apply starts_app; [done|]. intros _. eapply starts_impl; [exact S|].
      intros x [H _]. unfold alnum, letter in H. lia.
    - apply Forall_cons in D as [D _]. unfold digit in D. lia. }
  assert (F2 : future t2 = ds ++ s ++ rest) by (injection C2; congruence).
  destruct (start_core a false ds (s ++ rest) t2 D (stop_digits false _ _ S R) F2) as (t' & -> & C').
  exists t'. split; [done|]. rewrite C'. rewrite T2, T1.
  destruct ds; by rewrite (upd_core' _ _ _ _ _ C2), (upd_core _ _ _ _ _ _ C1).
Qed.
Lemma hex_core a x ds s rest t : stopper rest -> x = 120 \/ x = 88 -> Forall hexdigit ds -> starts (fun x => ~ hexdigit x) s ->
  future t = 35 :: x :: ds ++ s ++ rest ->
  exists t', consume_character_reference tbl a t = Ok t' /\
    core t' = match ds with [] => upd (s ++ rest) a [38; 35; x] t | _ => upd (after_digits (s ++ rest)) a [referenced (number 16 ds)] t end.
Proof.
  intros S X D R F. destruct (to_number a _ t F) as (t1 & -> & C1 & T1).
  assert (F1 : future t1 = x :: ds ++ s ++ rest) by by injection C1.
  destruct (to_hex a x _ t1 F1 X) as (t2 & -> & C2 & T2).
  assert (F2 : future t2 = ds ++ s ++ rest) by by injection C2.
  destruct (start_core a true ds (s ++ rest) t2 D (stop_digits true _ _ S R) F2) as (t' & -> & C').
  exists t'. split; [done|]. rewrite C'. rewrite T2, T1.
  destruct ds; by rewrite (upd_core _ _ _ _ _ _ C2), (upd_core _ _ _ _ _ _ C1).
Qed.

Lemma prefix_len (a b f : list N) : a `prefix_of` f -> b `prefix_of` f -> length a = length b -> a = b.
Proof. intros [s ->] [s' E] L. symmetry in E. apply app_inj_1 in E as [-> _]; [done|by symmetry]. Qed.
Lemma find_longest t k r s :
  (k, r) ∈ tbl -> future t = k ++ s -> (forall k' r', (k', r') ∈ tbl -> k' `prefix_of` future t -> (length k' <= length k)%nat) ->
  find_entity tbl t = Some k.
Proof.
  intros H F L. destruct (find_entity tbl t) as [k'|] eqn:E.
  - destruct (find_entity_Some _ _ E) as (r' & s' & H' & F' & L'). f_equal.
    assert (P : k `prefix_of` future t) by (rewrite F; by exists s). assert (P' : k' `prefix_of` future t) by (rewrite F'; by exists s').
    eapply prefix_len; [done..|]. apply Nat.le_antisymm; [by eapply L|by eapply L'].
  - exfalso. apply (find_entity_None _ E k r H). rewrite F. by exists s.
Qed.
Lemma to_named a x f t : future t = x :: f -> alnum x ->
  exists t1, consume_character_reference tbl a t = named_reference tbl a t1 /\ core t1 = core t /\ tmp t1 = [38].
Proof.
  intros F X. destruct t as [p f_ st c an av at_ cu tm q ls lc e]. cbn in F. subst f_. unfold consume_character_reference. cbv zeta.
  change (stream_read_and_next _) with (Some x, mk_tk (x :: p) f st c an av at_ cu [38] q ls (Some x) e). cbv iota beta.
  rewrite (proj2 (alnum_spec x) X). eexists. split; [reflexivity|]. done.
Qed.
Lemma key_head k r : (k, r) ∈ tbl -> exists x w, k = x :: w /\ alnum x.
Proof.
  intros H. destruct (keys_shape _ OK _ _ H) as (w & Hw & W & [->| ->]); (destruct w as [|x w]; [done|]);
    apply Forall_cons in W as [W _]; by eexists _, _.
Qed.
Lemma longest_more k s rest : stopper rest ->
  (forall k' r', (k', r') ∈ tbl -> k' `prefix_of` k ++ s -> (length k' <= length k)%nat) ->
  forall k' r', (k', r') ∈ tbl -> k' `prefix_of` k ++ s ++ rest -> (length k' <= length k)%nat.
Proof.
  intros S L k' r' H P. rewrite app_assoc in P. apply (L _ _ H). eapply prefix_stop; [by eapply key_chars|done|done].
Qed.

Lemma ref_core a u o s rest t :
  ref tbl a u o s -> stopper rest -> future t = u ++ rest ->
  exists t', consume_character_reference tbl a t = Ok t' /\ core t' = upd (s ++ rest) a o t.
Proof.
  intros H S F. destruct H as [s H|ds s N D H|ds s N D|x ds s X N D H|x ds s X N D|s H|x s X H|k r s H L A|k r x s H L -> A X|w s N W H K].
  - destruct t as [p f_ st c an av at_ cu tm q ls lc e]. cbn in F. subst f_. unfold consume_character_reference. cbv zeta.
    assert (H' : starts (fun x => ~ alnum x /\ x <> 35) (s ++ rest)).
    { apply starts_app; [done|]. intros _. eapply starts_impl; [exact S|]. naive_solver. }
    destruct (s ++ rest) as [|x r]; [eexists; split; [reflexivity|]; by destruct a|]. destruct H' as [H1 H2].
    change (stream_read_and_next _) with (Some x, mk_tk (x :: p) r st c an av at_ cu [38] q ls (Some x) e). cbv iota beta.
    rewrite (proj2 (alnum_spec' x) H1), (proj2 (N.eqb_neq x 35) H2). eexists. split; [reflexivity|]. by destruct a.
  - destruct (decimal_core a ds s rest t) as (t' & E & C); try done.
    + eapply starts_impl; [exact H|]. naive_solver.
    + cbn in F. by rewrite F, <- app_assoc.
    + exists t'. rewrite E, C. destruct ds; [done|]. rewrite after_none; [done|done|]. eapply starts_impl; [exact H|]. naive_solver.
  - destruct (decimal_core a ds (59 :: s) rest t) as (t' & E & C); try done.
    + cbn. unfold digit. lia.
    + cbn in F. by rewrite F, <- app_assoc.
    + exists t'. rewrite E, C. by destruct ds.
  - destruct (hex_core a x ds s rest t) as (t' & E & C); try done.
    + eapply starts_impl; [exact H|]. naive_solver.
    + cbn in F. by rewrite F, <- app_assoc.
    + exists t'. rewrite E, C. destruct ds; [done|]. rewrite after_none; [done|done|]. eapply starts_impl; [exact H|]. naive_solver.
  - destruct (hex_core a x ds (59 :: s) rest t) as (t' & E & C); try done.
    + cbn. unfold hexdigit, digit. lia.
    + cbn in F. by rewrite F, <- app_assoc.
    + exists t'. rewrite E, C. by destruct ds.
  - destruct (decimal_core a [] s rest t) as (t' & E & C); try done.
    + eapply starts_impl; [exact H|]. naive_solver.
    + intros _. eapply starts_impl; [exact H|]. naive_solver.
    + exists t'. by rewrite E, C.
  - destruct (hex_core a x [] s rest t) as (t' & E & C); try done. exists t'. by rewrite E, C.
  - destruct (key_head _ _ H) as (x & w & Ek & X). rewrite <- app_assoc in F.
    destruct (to_named a x (w ++ s ++ rest) t) as (t1 & -> & C1 & T1); [by rewrite F, Ek|done|].
    assert (F1 : future t1 = k ++ s ++ rest) by (injection C1; congruence).
    unfold named_reference. rewrite (find_longest t1 k r (s ++ rest)); [|done|done|].
    2: { intros k' r' H' P. rewrite F1 in P. eapply longest_more; done. }
    destruct (next_n_core k (s ++ rest) t1 F1) as [C2 T2]. set (t2 := stream_next_n _ t1) in *. cbv zeta.
    assert (F2 : future t2 = s ++ rest) by by injection C2.
    rewrite (assoc_In _ _ (keys_distinct _ OK) H).
    assert (U : upd (s ++ rest) a r t2 = upd (s ++ rest) a r t) by by rewrite (upd_core _ _ _ _ _ _ C2), (upd_core' _ _ _ _ _ C1).
    rewrite <- U.
    destruct (a && _ && _) eqn:B.
    + exfalso. apply andb_true_iff in B as [B1 B]. apply andb_true_iff in B1 as [-> B1].
      apply negb_true_iff, bool_decide_eq_false in B1. destruct A as [|[A|A]]; try done. rewrite F2 in B.
      assert (A' : starts (fun x => x <> 61 /\ ~ alnum x) (s ++ rest)).
      { apply starts_app; [done|]. intros _. eapply starts_impl; [exact S|]. naive_solver. }
      destruct (s ++ rest) as [|y f]; [done|]. cbn in B. destruct A' as [A1 A2]. apply orb_true_iff in B as [B|B]; [lia|].
      by apply A2, alnum_spec.
    + eexists. split; [reflexivity|]. case_bool_decide; unfold core, upd, flush; destruct a; cbn; by rewrite F2.
  - destruct (key_head _ _ H) as (x' & w & Ek & X'). rewrite <- app_assoc in F.
    destruct (to_named true x' (w ++ (x :: s) ++ rest) t) as (t1 & -> & C1 & T1); [by rewrite F, Ek|done|].
    assert (F1 : future t1 = k ++ (x :: s) ++ rest) by (injection C1; congruence).
    unfold named_reference. rewrite (find_longest t1 k r ((x :: s) ++ rest)); [|done|done|].
    2: { intros k' r' H' P. rewrite F1 in P. eapply longest_more; done. }
    destruct (next_n_core k ((x :: s) ++ rest) t1 F1) as [C2 T2]. set (t2 := stream_next_n _ t1) in *. cbv zeta.
    assert (F2 : future t2 = (x :: s) ++ rest) by by injection C2.
    rewrite bool_decide_eq_false_2 by done. rewrite F2. cbn [head app andb negb].
    replace ((x =? 61) || is_alnum x) with true; [|symmetry; apply orb_true_iff; destruct X as [->|X]; [by left|right; by apply alnum_spec]].
    eexists. split; [reflexivity|].
    rewrite <- (upd_core' _ _ _ _ _ C1), <- (upd_core _ _ _ _ _ _ C2). rewrite T2, T1.
    unfold core, upd, consume_temp_buffer, flush. cbn. by rewrite F2.
  - destruct w as [|x w]; [done|]. pose proof W as W0. apply Forall_cons in W0 as [X _]. rewrite <- app_assoc in F.
    destruct (to_named a x (w ++ s ++ rest) t) as (t1 & -> & C1 & T1); [by rewrite F|done|].
    assert (F1 : future t1 = (x :: w) ++ s ++ rest) by (injection C1; congruence).
    unfold named_reference. destruct (find_entity tbl t1) as [k|] eqn:E.
    { exfalso. destruct (find_entity_Some _ _ E) as (r & s' & H' & F' & _). apply (K _ _ H').
      eapply prefix_stop; [by eapply key_chars|exact S|]. rewrite <- app_assoc, <- F1, F'. by exists s'. }
    cbv zeta.
    destruct (ambiguous_core (Datatypes.S (length (future (consume_temp_buffer a t1)))) a (x :: w) (s ++ rest) (consume_temp_buffer a t1)) as (t' & E' & C').
    + done.
    + apply starts_app; [done|]. intros _. eapply starts_impl; [exact S|]. naive_solver.
    + transitivity (future t1); [by destruct a|done].
    + lia.
    + exists t'. split; [done|]. rewrite C'. rewrite <- (upd_core' _ _ _ _ _ C1). unfold upd, consume_temp_buffer, flush. rewrite T1.
      destruct a; cbn; by rewrite <- app_assoc.
Qed.

Lemma upd_inj f f' a o o' t : upd f a o t = upd f' a o' t -> f = f' /\ o = o'.
Proof. unfold upd. intros H. injection H as -> H1 H2. split; [done|]. destruct a; by eapply app_inv_head. Qed.
Lemma ref_functional a u o s o' s' : ref tbl a u o s -> ref tbl a u o' s' -> o = o' /\ s = s'.
Proof.
  intros H H'. set (t := new u Data []). assert (F : future t = u ++ []) by (cbn; by rewrite app_nil_r).
  destruct (ref_core a u o s [] t H I F) as (t1 & E1 & C1). destruct (ref_core a u o' s' [] t H' I F) as (t2 & E2 & C2).
  rewrite E1 in E2. injection E2 as <-. rewrite C1 in C2. apply upd_inj in C2 as [E ->]. by rewrite !app_nil_r in E.
Qed.
Lemma ref_total a u : exists o s, ref tbl a u o s.
Proof.
  destruct (ccr_core a u [] (new u Data [])) as (t' & o & s & _ & H & _); [done|cbn; by rewrite app_nil_r|]. by exists o, s.
Qed.
Lemma ref_shorter a u o s : ref tbl a u o s -> (length s <= length u)%nat.
Proof. destruct 1; cbn; rewrite ?app_length; cbn; lia. Qed.
Lemma reads_total a nul s : exists o, reads tbl a nul s o.
Proof.
  remember (length s) as n eqn:E. revert s E. induction (lt_wf n) as [n _ IH]. intros s ->.
  destruct s as [|x s]; [exists []; constructor|]. destruct (decide (x = 38)) as [->|N].
  - destruct (ref_total a s) as (o1 & s1 & H). destruct (IH (length s1)) with (s := s1) as [o H']; [cbn; apply ref_shorter in H; lia|done|].
    exists (o1 ++ o). by eapply reads_ref.
  - destruct (IH (length s)) with (s := s) as [o H']; [cbn; lia|done|]. exists (shown nul x :: o). by apply reads_char.
Qed.
Lemma reads_functional a nul s o o' : reads tbl a nul s o -> reads tbl a nul s o' -> o = o'.
Proof.
  intros H. revert o'. induction H as [|x s o N H IH|u o1 s o R H IH]; intros o' H'.
  - by inversion H'.
  - inversion H'; subst; [|done]. f_equal. by apply IH.
  - inversion H' as [|? ? ? N|? o1' s' o2 R' H2]; subst; [done|].
    destruct (ref_functional _ _ _ _ _ _ R R') as [<- <-]. f_equal. by apply IH.
Qed.
End with_table.
