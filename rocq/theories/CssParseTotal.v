(** The parser ends on every list of tokens. *)
From Verif Require Import Base Text CssTokenModel SelectorModel CssParseModel.
From Coq Require Import Lia ZifyBool.

Definition wp {A} (p : par A) (s : pst) (P : option A -> pst -> Prop) : Prop :=
  exists r s', p s = Ok (r, s') /\ P r s'.

Lemma wp_ret {A} (a : A) s (P : option A -> pst -> Prop) : P (Some a) s -> wp (ret a) s P.
Proof. intros H. by exists (Some a), s. Qed.
Lemma wp_fail {A} s (P : option A -> pst -> Prop) : P None s -> wp fail s P.
Proof. intros H. by exists None, s. Qed.
Lemma wp_mono {A} (p : par A) s (P Q : option A -> pst -> Prop) :
  wp p s P -> (forall r s', P r s' -> Q r s') -> wp p s Q.
Proof. intros (r & s' & H & HP) HQ. exists r, s'. auto. Qed.
Lemma wp_bind {A B} (p : par A) (k : A -> par B) s (P : option B -> pst -> Prop) :
  wp p s (fun r s' => match r with Some a => wp (k a) s' P | None => P None s' end) -> wp (pbind p k) s P.
Proof.
  intros (r & s' & H & HP). unfold wp, pbind. rewrite H. destruct r; [done|]. by exists None, s'.
Qed.
Lemma wp_attempt {A} (p : par A) s (P : option (option A) -> pst -> Prop) :
  wp p s (fun r s' => P (Some r) s') -> wp (attempt p) s P.
Proof. intros (r & s' & H & HP). unfold wp, attempt. rewrite H. by exists (Some r), s'. Qed.
Lemma wp_loop {A B} (I : A -> pst -> Prop) (m : A -> pst -> nat) (body : A -> par (A + B)) (P : option B -> pst -> Prop) fuel a s :
  (forall a s, I a s -> wp (body a) s (fun r s' =>
     match r with
     | None => P None s'
     | Some (inl a') => I a' s' /\ (m a' s' < m a s)%nat
     | Some (inr b) => P (Some b) s'
     end)) ->
  I a s -> (m a s < fuel)%nat -> wp (ploop fuel body a) s P.
Proof.
  intros Hb. revert a s. induction fuel as [|f IH]; intros a s HI Hm; [lia|].
  cbn [ploop]. apply wp_bind. eapply wp_mono; [by apply Hb|].
  intros r s' Hr. destruct r as [[a'|b]|]; [|by apply wp_ret|done].
  destruct Hr. apply IH; [done|lia].
Qed.

Section total.
Context (show lower : str -> str) (ignore : bool) (ts : list token) (drained : nat).
Hypothesis Hts : TEof ∉ ts.
Hypothesis Hdr : (length ts <= drained <= S (length ts))%nat.
Notation n := (length ts).
Notation tok := (tok ts).

Lemma tok_lt k : tok k <> TEof -> (k < n)%nat.
Proof.
  unfold CssParseModel.tok. intros H. apply lookup_lt_is_Some. destruct (ts !! k); [eauto|done].
Qed.
Lemma tok_eof k : tok k = TEof -> (n <= k)%nat.
Proof.
  unfold CssParseModel.tok. intros H. apply lookup_ge_None. destruct (ts !! k) eqn:E; [|done].
  cbn in H. subst. exfalso. apply Hts. by eapply elem_of_list_lookup_2.
Qed.

(** What every function keeps: the position is among the tokens fetched, and no more
    than three tokens are fetched beyond the end. *)
Definition good (s : pst) : Prop :=
  (ps_pos s <= ps_len s)%nat /\ (ps_len s <= max n (ps_pos s) + 3)%nat.

Lemma wp_consume s (P : option token -> pst -> Prop) : P (Some (tok (ps_pos s))) (mk_pst (S (ps_pos s)) (max (ps_len s) (S (ps_pos s))) (ps_allow s)) ->
  wp (consume_any ts) s P.
Proof. intros H. by eexists _, _. Qed.
Lemma wp_look k s (P : option token -> pst -> Prop) : P (Some (tok (ps_pos s + k))) (mk_pst (ps_pos s) (max (ps_len s) (ps_pos s + k + 1)) (ps_allow s)) ->
  wp (look ts k) s P.
Proof. intros H. by eexists _, _. Qed.
Lemma wp_unread s (P : option unit -> pst -> Prop) : P (Some tt) (mk_pst (pred (ps_pos s)) (ps_len s) (ps_allow s)) -> wp unread s P.
Proof. intros H. by eexists _, _. Qed.
Lemma wp_eof s (P : option bool -> pst -> Prop) : P (Some ((drained <=? ps_len s)%nat && (ps_len s <=? ps_pos s)%nat)) s -> wp (eof drained) s P.
Proof. intros H. by eexists _, _. Qed.
Lemma wp_current s (P : option token -> pst -> Prop) : P (Some (match ps_pos s with O => TEof | S p => if (ps_len s <? S p)%nat then TEof else tok p end)) s ->
  wp (current ts) s P.
Proof. intros H. by eexists _, _. Qed.
Lemma wp_push s (P : option unit -> pst -> Prop) : P (Some tt) (mk_pst (ps_pos s) (ps_len s) (S (ps_allow s))) -> wp push_allow s P.
Proof. intros H. by eexists _, _. Qed.
Lemma wp_pop s (P : option unit -> pst -> Prop) : P (Some tt) (mk_pst (ps_pos s) (ps_len s) (pred (ps_allow s))) -> wp pop_allow s P.
Proof. intros H. by eexists _, _. Qed.
Lemma wp_allowing s (P : option bool -> pst -> Prop) : P (Some (negb (ps_allow s =? 0)%nat)) s -> wp allowing s P.
Proof. intros H. by eexists _, _. Qed.

(** A function that does not go back, one that goes on, one that goes on when it succeeds. *)
Definition keeps {A} (p : par A) : Prop := forall s (P : option A -> pst -> Prop), good s ->
  (forall r s', good s' -> (ps_pos s <= ps_pos s')%nat -> P r s') -> wp p s P.
Definition steps {A} (p : par A) : Prop := forall s (P : option A -> pst -> Prop), good s ->
  (forall r s', good s' -> (ps_pos s < ps_pos s')%nat -> P r s') -> wp p s P.
Definition gains {A} (p : par (option A)) : Prop := forall s (P : option (option A) -> pst -> Prop), good s ->
  (forall r s', good s' -> (ps_pos s <= ps_pos s')%nat ->
     (forall x, r = Some (Some x) -> (ps_pos s < ps_pos s' /\ ps_pos s < n)%nat) -> P r s') -> wp p s P.

Lemma steps_keeps {A} (p : par A) : steps p -> keeps p.
Proof. intros H s P Hs HP. apply H; [done|]. intros. apply HP; [done|lia]. Qed.
Lemma gains_keeps {A} (p : par (option A)) : gains p -> keeps p.
Proof. intros H s P Hs HP. apply H; [done|]. intros. by apply HP. Qed.

Ltac case_tok t :=
  let E := fresh "E" in
  destruct t eqn:E;
  lazymatch type of E with
  | CssParseModel.tok ts ?k = TEof => let L := fresh "L" in pose proof (tok_eof _ E) as L
  | CssParseModel.tok ts ?k = _ =>
      let L := fresh "L" in assert (k < n)%nat as L by (apply tok_lt; rewrite E; discriminate)
  | _ => idtac
  end.
Ltac ps := unfold good in *; cbn [ps_pos ps_len ps_allow] in *.
Ltac arith := ps; try lia; lia.

(** One step of the symbolic execution. *)
Ltac step :=
  lazymatch goal with
  | |- wp (pbind _ _) _ _ => apply wp_bind
  | |- wp (ret _) _ _ => apply wp_ret
  | |- wp fail _ _ => apply wp_fail
  | |- wp (attempt _) _ _ => apply wp_attempt
  | |- wp (consume_any _) _ _ => apply wp_consume; cbn [ps_pos ps_len ps_allow]
  | |- wp (look _ _) _ _ => apply wp_look; cbn [ps_pos ps_len ps_allow]
  | |- wp unread _ _ => apply wp_unread; cbn [ps_pos ps_len ps_allow pred]
  | |- wp (eof _) _ _ => apply wp_eof
  | |- wp (current _) _ _ => apply wp_current
  | |- wp push_allow _ _ => apply wp_push; cbn [ps_pos ps_len ps_allow]
  | |- wp pop_allow _ _ => apply wp_pop; cbn [ps_pos ps_len ps_allow]
  | |- wp allowing _ _ => apply wp_allowing
  | |- wp (match ?t with _ => _ end) _ _ => case_tok t
  | |- wp ((fun _ => _) _) _ _ => cbv beta
  | |- match ?r with Some _ => _ | None => _ end => first [is_var r; destruct r | progress cbn beta iota]
  | H : forall (r : _) (s' : pst), good s' -> _ -> ?P r s' |- ?P _ _ => apply H; [arith|arith]
  | H : forall (r : _) (s' : pst), good s' -> _ -> _ -> ?P r s' |- ?P _ _ =>
      apply H; [arith|arith|intros; first [discriminate|arith|match goal with Hs : is_Some None |- _ => destruct Hs; discriminate end]]
  end.
(** The execution of a call known to [keep], [step] or [gain]. *)
Ltac call L := eapply L; [arith|intros].

Lemma keeps_ret {A} (a : A) : keeps (ret a).
Proof. intros s P Hs HP. repeat step. Qed.
Lemma keeps_fail {A} : keeps (fail (A := A)).
Proof. intros s P Hs HP. repeat step. Qed.

Lemma steps_expect x : steps (expect ts x).
Proof. intros s P Hs HP. unfold expect. repeat step. Qed.
Lemma steps_function : steps (consume_function ts).
Proof. intros s P Hs HP. unfold consume_function. repeat step. Qed.
Lemma steps_number : steps (consume_any_number ts).
Proof. intros s P Hs HP. unfold consume_any_number. repeat step. Qed.
Lemma steps_delim : steps (consume_any_delim ts).
Proof. intros s P Hs HP. unfold consume_any_delim. repeat step. Qed.
Lemma steps_string : steps (consume_any_string ts).
Proof. intros s P Hs HP. unfold consume_any_string. repeat step. Qed.
Lemma steps_ident_ci x : steps (consume_ident_ci ts x).
Proof. intros s P Hs HP. unfold consume_ident_ci. repeat step. Qed.
Lemma steps_ident x : steps (consume_ident ts x).
Proof. intros s P Hs HP. unfold consume_ident. repeat step. Qed.
Lemma steps_any_ident : steps (consume_any_ident ts).
Proof.
  intros s P Hs HP. unfold consume_any_ident. repeat step.
Qed.
Lemma keeps_ws : keeps (skip_ws ts).
Proof.
  intros s P Hs HP. unfold skip_ws.
  apply (wp_loop (fun _ s' => good s' /\ (ps_pos s <= ps_pos s')%nat) (fun _ s' => n - ps_pos s')%nat);
    [|done|unfold fuel; lia].
  intros [] s0 [Hg Hp]. repeat step. all: try (apply HP; arith); try (split; [split|]; arith).
Qed.

Lemma keeps_bind {A B} (p : par A) (k : A -> par B) : keeps p -> (forall a, keeps (k a)) -> keeps (pbind p k).
Proof.
  intros Hp Hk s P Hs HP. apply wp_bind, Hp; [done|]. intros [a|] s1 H1 L1; [|by apply HP].
  apply Hk; [done|]. intros. apply HP; [done|lia].
Qed.
Lemma steps_bind {A B} (p : par A) (k : A -> par B) : steps p -> (forall a, keeps (k a)) -> steps (pbind p k).
Proof.
  intros Hp Hk s P Hs HP. apply wp_bind, Hp; [done|]. intros [a|] s1 H1 L1; [|by apply HP].
  apply Hk; [done|]. intros. apply HP; [done|lia].
Qed.
Lemma steps_consume : steps (consume_any ts).
Proof. intros s P Hs HP. repeat step. Qed.
Lemma keeps_look k : (k <= 2)%nat -> keeps (look ts k).
Proof. intros Hk s P Hs HP. repeat step. Qed.
Lemma keeps_eof : keeps (eof drained).
Proof. intros s P Hs HP. repeat step. Qed.
Lemma keeps_current : keeps (current ts).
Proof. intros s P Hs HP. repeat step. Qed.
Lemma keeps_push : keeps push_allow.
Proof. intros s P Hs HP. repeat step. Qed.
Lemma keeps_pop : keeps pop_allow.
Proof. intros s P Hs HP. repeat step. Qed.
Lemma keeps_allowing : keeps allowing.
Proof. intros s P Hs HP. repeat step. Qed.
Lemma keeps_attempt {A} (p : par A) : keeps p -> keeps (attempt p).
Proof. intros Hp s P Hs HP. apply wp_attempt, Hp; [done|]. intros. by apply HP. Qed.

Lemma keeps_loop {A B} (body : A -> par (A + B)) a :
  (forall a s, good s -> wp (body a) s (fun r s' => good s' /\ (ps_pos s <= ps_pos s')%nat /\
     (forall a', r = Some (inl a') -> (ps_pos s < n /\ ps_pos s < ps_pos s')%nat))) ->
  keeps (ploop (fuel ts) body a).
Proof.
  intros Hb s P Hs HP.
  apply (wp_loop (fun _ s' => good s' /\ (ps_pos s <= ps_pos s')%nat) (fun _ s' => n - ps_pos s')%nat);
    [|done|unfold fuel; lia].
  intros a0 s0 [Hg Hp]. eapply wp_mono; [by apply Hb|]. cbn beta. intros r s' (Hg' & Hp' & Hl).
  destruct r as [[a'|b]|].
  - destruct (Hl a' eq_refl). split; [split; [done|lia]|lia].
  - apply HP; [done|lia].
  - apply HP; [done|lia].
Qed.
Ltac fin := cbv beta;
  repeat match goal with
  | H : forall x, Some (Some ?y) = Some (Some x) -> _ |- _ => specialize (H y eq_refl)
  end;
  lazymatch goal with
  | |- good _ /\ _ => split; [arith|split; [arith|intros; first [discriminate|split; arith]]]
  end.

(** Decomposes a function that does not unread. *)
Ltac kp0 :=
  lazymatch goal with
  | |- keeps (pbind _ _) => apply keeps_bind; [|intros]
  | |- steps (pbind _ _) => apply steps_bind; [|intros]
  | |- keeps (ret _) => apply keeps_ret
  | |- keeps fail => apply keeps_fail
  | |- keeps (attempt _) => apply keeps_attempt
  | |- keeps (consume_any _) => apply steps_keeps, steps_consume
  | |- steps (consume_any _) => apply steps_consume
  | |- keeps (look _ _) => apply keeps_look; lia
  | |- keeps (eof _) => apply keeps_eof
  | |- keeps (current _) => apply keeps_current
  | |- keeps push_allow => apply keeps_push
  | |- keeps pop_allow => apply keeps_pop
  | |- keeps allowing => apply keeps_allowing
  | |- keeps (skip_ws _) => apply keeps_ws
  | |- keeps (expect _ _) => apply steps_keeps, steps_expect
  | |- steps (expect _ _) => apply steps_expect
  | |- keeps (consume_delim _ _) => apply steps_keeps, steps_expect
  | |- keeps (consume_function _) => apply steps_keeps, steps_function
  | |- steps (consume_function _) => apply steps_function
  | |- keeps (consume_any_number _) => apply steps_keeps, steps_number
  | |- keeps (consume_any_delim _) => apply steps_keeps, steps_delim
  | |- keeps (consume_any_string _) => apply steps_keeps, steps_string
  | |- keeps (consume_ident_ci _ _) => apply steps_keeps, steps_ident_ci
  | |- keeps (consume_ident _ _) => apply steps_keeps, steps_ident
  | |- keeps (consume_any_ident _) => apply steps_keeps, steps_any_ident
  | |- steps (consume_any_ident _) => apply steps_any_ident
  | |- keeps (match ?t with _ => _ end) => destruct t
  | |- steps (match ?t with _ => _ end) => destruct t
  end.
Ltac kp := repeat (first [kp0|assumption|solve [auto]]).

Lemma keeps_look_sc k : (k <= 2)%nat -> keeps (look_sc ts k).
Proof.
  intros Hk s P Hs HP. unfold look_sc.
  apply (wp_loop (fun i s' => good s' /\ ps_pos s' = ps_pos s /\ (ps_pos s + i <= max n (ps_pos s + 2))%nat)
           (fun i s' => n + 3 - (ps_pos s + i))%nat); [|arith|unfold fuel; lia].
  intros i s0 (Hg & Hp & Hi). repeat step. all: try (apply HP; arith); try (split; [split|]; arith).
Qed.
Lemma keeps_raw : keeps (consume_raw_condition ts drained).
Proof.
  intros s P Hs HP. unfold consume_raw_condition, wp. cbv zeta.
  match goal with |- exists r s', ?p s = _ /\ _ => change (wp p s P) end.
  apply wp_bind.
  apply (wp_loop (fun _ s' => good s' /\ (ps_pos s <= ps_pos s')%nat) (fun _ s' => max (ps_len s') (S n) - ps_pos s')%nat);
    [|split; arith|unfold fuel; arith].
  intros [] s0 [Hg Hp]. repeat step.
  all: try (eexists _, _; split; [reflexivity|apply HP; arith]).
  all: try (apply HP; arith). all: try (split; [split|]; arith).
Qed.

(** * Values *)
Lemma steps_operator : steps (parse_operator ts).
Proof. unfold parse_operator. kp. Qed.
Lemma steps_url : steps (parse_url ts).
Proof. unfold parse_url. kp. Qed.
Lemma keeps_calc d : keeps (calc_expr show ts d).
Proof.
  induction d as [|d IH]; cbn [calc_expr]; (apply keeps_bind; [|intros; kp]).
  - apply keeps_loop. intros a s Hs. repeat step. all: fin.
  - apply keeps_loop. intros a s Hs.
    repeat first [step|match goal with |- wp (calc_expr _ _ _) _ _ => call IH end]. all: fin.
Qed.
Lemma steps_function_with args : keeps args -> steps (function_with ts drained args).
Proof. intros Ha. unfold function_with. kp. Qed.
Lemma gains_name v args : keeps args -> keeps (value_name show ts drained v args).
Proof. intros Ha. unfold value_name. pose proof (steps_keeps _ (steps_function_with _ Ha)). kp. Qed.
Lemma gains_value d args : keeps args -> gains (value_with show ts drained d args).
Proof.
  intros Ha s P Hs HP. unfold value_with.
  repeat first [step|match goal with
    | |- wp (calc_expr _ _ _) _ _ => call keeps_calc
    | |- wp (parse_url _) _ _ => call steps_url
    | |- wp (parse_operator _) _ _ => call steps_operator
    | |- wp (function_with _ _ _) _ _ => call (steps_function_with _ Ha)
    | |- wp (value_name _ _ _ _ _) _ _ => eapply (gains_name _ _ Ha); [arith|intros]
    end].
Qed.
Lemma keeps_sequence_with v : gains v -> keeps (sequence_with ts drained v).
Proof.
  intros Hv. unfold sequence_with. apply keeps_loop. intros l s Hs.
  repeat first [step|match goal with |- wp v _ _ => eapply Hv; [arith|intros] end].
  all: try fin.
Qed.
Lemma keeps_values d : keeps (value_sequence show ts drained d).
Proof. induction d as [|d IH]; cbn [value_sequence]; apply keeps_sequence_with, gains_value; [kp|done]. Qed.
Lemma steps_parse_function d : steps (parse_function show ts drained d).
Proof. apply steps_function_with. destruct d; cbn [recurse]; [kp|apply keeps_values]. Qed.

(** * Selectors *)
Lemma keeps_attribute_operator : keeps (attribute_operator ts).
Proof.
  intros s P Hs HP. unfold attribute_operator.
  repeat first [step|match goal with
    | |- wp (consume_any_delim _) _ _ => unfold consume_any_delim
    | |- wp (consume_delim _ _) _ _ => call (steps_expect (TDelim 61)) end].
Qed.
Lemma steps_class : steps (class_selector ts).
Proof. unfold class_selector. kp. Qed.
Lemma steps_nesting : steps (nesting_selector ts).
Proof. unfold nesting_selector. kp. Qed.
Lemma keeps_ident_or_asterisk : keeps (ident_or_asterisk ts).
Proof. unfold ident_or_asterisk. kp. Qed.
(** A function that goes on when it succeeds. *)
Definition wins {A} (p : par A) : Prop := forall s (P : option A -> pst -> Prop), good s ->
  (forall r s', good s' -> (ps_pos s <= ps_pos s')%nat -> (is_Some r -> (ps_pos s < ps_pos s')%nat) -> P r s') ->
  wp p s P.
Lemma wins_ident_or_asterisk : wins (ident_or_asterisk ts).
Proof. intros s P Hs HP. unfold ident_or_asterisk. repeat step. Qed.
Lemma wins_keeps {A B} (p : par A) (k : A -> par B) : wins p -> (forall a, keeps (k a)) -> wins (pbind p k).
Proof.
  intros Hp Hk s P Hs HP. apply wp_bind, Hp; [done|]. intros [a|] s1 H1 L1 W1; [|apply HP; [done..|]; intros [? ?]; done].
  specialize (W1 (ex_intro _ a eq_refl)). apply Hk; [done|]. intros. apply HP; [done|lia|lia].
Qed.
Lemma keeps_wins {A B} (p : par A) (k : A -> par B) : keeps p -> (forall a, wins (k a)) -> wins (pbind p k).
Proof.
  intros Hp Hk s P Hs HP. apply wp_bind, Hp; [done|]. intros [a|] s1 H1 L1; [|apply HP; [done..|]; intros [? ?]; done].
  apply Hk; [done|]. intros r s' ? ? W. apply HP; [done|lia|]. intros Hr. specialize (W Hr). lia.
Qed.
Lemma steps_wins {A} (p : par A) : steps p -> wins p.
Proof. intros Hp s P Hs HP. apply Hp; [done|]. intros. apply HP; [done|lia|lia]. Qed.
Lemma wins_type : wins (type_selector ts).
Proof.
  unfold type_selector. pose proof keeps_ident_or_asterisk as HK.
  apply keeps_wins; [kp|]. intros t. apply wins_keeps; [|intros; kp].
  destruct (bool_decide _); [apply steps_wins; kp|].
  apply wins_keeps; [apply wins_ident_or_asterisk|intros; kp].
Qed.
Lemma keeps_attribute_value : keeps (attribute_value ts).
Proof. unfold attribute_value. kp. Qed.
Lemma steps_attribute : steps (attribute_selector ts).
Proof. unfold attribute_selector. pose proof keeps_attribute_operator. pose proof keeps_attribute_value. kp. Qed.
Lemma steps_id : steps (id_selector ts).
Proof. unfold id_selector. kp. Qed.
Lemma keeps_check_integer v i : keeps (check_integer v i).
Proof. unfold check_integer. kp. Qed.
Lemma keeps_anplusb_b : keeps (anplusb_b show ts).
Proof. unfold anplusb_b. kp. Qed.
Lemma keeps_name_block v i a : keeps (name_block show ts v i a).
Proof. unfold name_block. pose proof keeps_anplusb_b. pose proof keeps_check_integer. kp. Qed.
Lemma keeps_dimension_block v u : keeps (dimension_block show ts v u).
Proof. unfold dimension_block. pose proof keeps_anplusb_b. kp. Qed.
Lemma keeps_anplusb : keeps (parse_anplusb show ts).
Proof.
  intros s P Hs HP. unfold parse_anplusb.
  repeat first [step|match goal with
    | |- wp (name_block _ _ _ _ _) _ _ => call keeps_name_block
    | |- wp (dimension_block _ _ _ _) _ _ => call keeps_dimension_block end].
Qed.
Lemma keeps_selector_list_with p : keeps p -> keeps (selector_list_with ts drained p).
Proof.
  intros Hp. unfold selector_list_with. apply keeps_bind; [|intros; kp]. apply keeps_loop. intros l s Hs.
  repeat first [step|match goal with |- wp p _ _ => call Hp end]. all: fin.
Qed.
Lemma keeps_ident_sequence : keeps (ident_sequence ts).
Proof.
  unfold ident_sequence. apply keeps_bind; [|intros; kp]. apply keeps_loop. intros l s Hs.
  repeat first [step|match goal with
    | |- wp (skip_ws _) _ _ => call keeps_ws
    | |- wp (consume_any_ident _) _ _ => call steps_any_ident end]. all: fin.
Qed.
Lemma keeps_nth p : keeps p -> keeps (pseudo_nth show ts drained p).
Proof.
  intros Hp. unfold pseudo_nth. apply keeps_bind; [kp|intros _].
  pose proof (keeps_selector_list_with _ Hp) as Hl.
  match goal with |- keeps (pbind _ (fun t => pbind (@?f t) ?k)) => set (K := k); set (F := f) end.
  assert (forall a, keeps (K a)) as HK by (intros a; unfold K; kp). clearbody K.
  intros s P Hs HP. unfold F. clear F.
  repeat first [step|match goal with
    | |- wp (parse_anplusb _ _) _ _ => call keeps_anplusb
    | |- wp (K _) _ _ => call HK end].
Qed.
Lemma keeps_pseudo_inner p name : keeps p -> keeps (pseudo_inner show ts drained p name).
Proof.
  intros Hp. unfold pseudo_inner, ident_list.
  pose proof (keeps_selector_list_with _ Hp). pose proof (keeps_nth _ Hp). pose proof keeps_ident_sequence.
  kp.
Qed.
Lemma steps_pseudo_element f : (forall x, keeps (f x)) -> steps (pseudo_element lower ts f).
Proof. intros Hf. unfold pseudo_element. kp. Qed.
Lemma steps_pseudo f : (forall x, keeps (f x)) -> steps (pseudo_selector lower ts f).
Proof. intros Hf. unfold pseudo_selector. kp. Qed.
Lemma steps_combinator : steps (parse_combinator ts).
Proof.
  intros s P Hs HP. unfold parse_combinator.
  repeat first [step|match goal with |- wp (skip_ws _) _ _ => call keeps_ws end].
Qed.
Lemma keeps_selector_with f : (forall x, keeps (f x)) -> keeps (selector_with lower ts drained f).
Proof.
  intros Hf. unfold selector_with. apply keeps_bind; [|intros; kp]. apply keeps_loop. intros [[l space] skip] s Hs.
  unfold simple_selector. cbv zeta.
  repeat first [step|match goal with
    | |- wp (attribute_selector _) _ _ => call steps_attribute
    | |- wp (pseudo_element _ _ _) _ _ => call (steps_pseudo_element _ Hf)
    | |- wp (pseudo_selector _ _ _) _ _ => call (steps_pseudo _ Hf)
    | |- wp (parse_combinator _) _ _ => call steps_combinator
    | |- wp (class_selector _) _ _ => call steps_class
    | |- wp (type_selector _) _ _ => call wins_type
    | |- wp (id_selector _) _ _ => call steps_id
    | |- wp (nesting_selector _) _ _ => call steps_nesting
    end].
  all: try fin.
  all: match goal with H : is_Some (Some _) -> _ |- _ => specialize (H (ex_intro _ _ eq_refl)) | _ => idtac end; fin.
Qed.
Lemma keeps_selector d : keeps (selector show lower ts drained d).
Proof.
  induction d as [|d IH]; cbn [selector]; apply keeps_selector_with; [intros; kp|].
  intros x. by apply keeps_pseudo_inner.
Qed.
Lemma keeps_selector_list d : keeps (selector_list show lower ts drained d).
Proof. apply keeps_selector_list_with, keeps_selector. Qed.

(** * Blocks *)
Lemma wp_starts_nested s (P : option bool -> pst -> Prop) : good s ->
  (forall r s', good s' -> ps_pos s' = ps_pos s -> P r s') -> wp (starts_nested_rule ts) s P.
Proof.
  intros Hs HP. unfold starts_nested_rule.
  apply (wp_loop (fun '(_, i) s' => good s' /\ ps_pos s' = ps_pos s /\ (ps_pos s + i <= max n (ps_pos s))%nat)
           (fun '(_, i) s' => n + 1 - (ps_pos s + i))%nat); [|arith|unfold fuel; lia].
  intros [depth i] s0 (Hg & Hp & Hi). do 2 step. case_tok (tok (ps_pos s0 + i)%nat); cbn [opens closes].
  all: repeat step. all: try (apply HP; arith); try (split; [split|]; arith).
Qed.
Lemma keeps_declaration_block : keeps (declaration_block_at_rule ts).
Proof.
  intros s P Hs HP. unfold declaration_block_at_rule.
  apply (wp_loop (fun i s' => good s' /\ ps_pos s' = ps_pos s /\ (ps_pos s + i <= max n (ps_pos s + 1))%nat)
           (fun i s' => n + 2 - (ps_pos s + i))%nat); [|arith|unfold fuel; lia].
  intros i s0 (Hg & Hp & Hi). repeat step. all: try (apply HP; arith); try (split; [split|]; arith).
Qed.
(** Leaving a rule: something is read unless a brace is closed at once. *)
Lemma wp_until_rule_end s (P : option unit -> pst -> Prop) : good s ->
  (forall r s', good s' -> (ps_pos s <= ps_pos s')%nat ->
     (tok (ps_pos s) <> TRCurly -> (ps_pos s < ps_pos s')%nat) -> P r s') ->
  wp (until_rule_end ts) s P.
Proof.
  intros Hs HP. unfold until_rule_end.
  apply (wp_loop (fun depth s' => good s' /\ (s' = s /\ depth = 0%nat \/ ps_pos s < ps_pos s')%nat)
           (fun _ s' => n - ps_pos s')%nat); [|split; [done|by left]|unfold fuel; lia].
  intros depth s0 (Hg & Hp). do 2 step.
  assert (ps_pos s <= ps_pos s0)%nat as Hle by (destruct Hp as [[-> _]|]; lia).
  assert (tok (ps_pos s0) = TRCurly -> tok (ps_pos s) <> TRCurly -> (ps_pos s < ps_pos s0)%nat) as Hn
    by (destruct Hp as [[-> _]|]; [done|lia]). clear Hp.
  case_tok (tok (ps_pos s0)); cbn [opens closes].
  all: repeat step.
  all: try (split; [split; [split|right]; arith|arith]).
  all: apply HP; [arith|arith|intros; first [arith|apply Hn; done]].
Qed.
Lemma keeps_until_rule_end : keeps (until_rule_end ts).
Proof. intros s P Hs HP. apply wp_until_rule_end; [done|]. intros. by apply HP. Qed.
Lemma keeps_skip_decl : keeps (skip_to_declaration_end ts).
Proof.
  unfold skip_to_declaration_end. apply keeps_loop. intros depth s Hs. do 2 step.
  case_tok (tok (ps_pos s + 0)%nat); cbn [opens closes]; repeat step. all: fin.
Qed.
Lemma keeps_skip_custom : keeps (skip_custom_property_remainder ts).
Proof.
  unfold skip_custom_property_remainder. apply keeps_loop. intros depth s Hs. do 2 step.
  case_tok (tok (ps_pos s + 0)%nat); cbn [opens closes]; repeat step. all: fin.
Qed.
Lemma keeps_until_decl : keeps (until_declaration_end ts).
Proof. unfold until_declaration_end. apply keeps_loop. intros [] s Hs. repeat step. all: fin. Qed.
Lemma steps_declaration_internal d : steps (declaration_internal show ts drained d).
Proof.
  unfold declaration_internal.
  pose proof (keeps_values d) as Hv. pose proof keeps_skip_custom as Hc.
  apply steps_bind; [kp|]. intros property. cbv zeta.
  do 6 (apply keeps_bind; [kp|intros]).
  intros s P Hs HP.
  repeat first [step|match goal with
    | |- wp (consume_ident _ _) _ _ => call (steps_ident (txt "important"))
    | |- wp (skip_ws _) _ _ => call keeps_ws end].
Qed.
Lemma steps_declaration d : steps (parse_declaration show ignore ts drained d).
Proof.
  intros s P Hs HP. unfold parse_declaration. do 2 step. call (steps_declaration_internal d).
  repeat first [step|match goal with |- wp (until_declaration_end _) _ _ => call keeps_until_decl end].
Qed.
(** A rule, valid or not: something is read unless a brace is closed at once. *)
Definition passes (p : par (option node)) : Prop := forall s (P : option (option node) -> pst -> Prop), good s ->
  (forall r s', good s' -> (ps_pos s <= ps_pos s')%nat ->
     (is_Some r -> tok (ps_pos s) <> TRCurly -> (ps_pos s < ps_pos s')%nat) -> P r s') -> wp p s P.
Lemma passes_recover p : wins p -> passes (recover ignore ts p).
Proof.
  intros Hp s P Hs HP. unfold recover. do 2 step. apply Hp; [done|]. intros r s1 H1 L1 W1.
  destruct r as [x|].
  - repeat step. apply HP; [done|done|]. intros _ _. apply W1. eauto.
  - step. step.
    + apply wp_until_rule_end; [done|]. intros [u|] s2 H2 L2 W2; repeat step.
      apply HP; [done|lia|]. intros _ Hn. destruct (decide (ps_pos s1 = ps_pos s)) as [e|]; [|lia].
      rewrite e in W2. specialize (W2 Hn). lia.
    + apply wp_fail, HP; [done|lia|]. intros [? ?]; done.
Qed.
Lemma passes_rule d blk : (forall m, keeps (blk m)) -> passes (rule_with show lower ignore ts drained d blk).
Proof.
  intros Hb. apply passes_recover. pose proof (keeps_selector_list d).
  apply keeps_wins; [kp|]. intros p. apply steps_wins. kp.
Qed.

(** At the end of the text. *)
Lemma tok_ge k : (n <= k)%nat -> tok k = TEof.
Proof. intros H. unfold CssParseModel.tok. by rewrite lookup_ge_None_2. Qed.
Lemma wp_loop1 {A B} (body : A -> par (A + B)) a s (P : option B -> pst -> Prop) :
  wp (body a) s (fun r s' =>
    match r with None => P None s' | Some (inl _) => False | Some (inr b) => P (Some b) s' end) ->
  wp (ploop (fuel ts) body a) s P.
Proof.
  intros (r & s' & H & HP). unfold wp, fuel. replace (2 * n + 32)%nat with (S (2 * n + 31)) by lia.
  cbn [ploop]. unfold pbind. rewrite H. destruct r as [[a'|b]|]; [done|by eexists _, _|by eexists _, _].
Qed.
Ltac at_end := rewrite ?tok_ge by (ps; lia).
Lemma end_starts_nested s (P : option bool -> pst -> Prop) : (n <= ps_pos s)%nat ->
  P (Some false) (mk_pst (ps_pos s) (max (ps_len s) (ps_pos s + 0 + 1)) (ps_allow s)) -> wp (starts_nested_rule ts) s P.
Proof.
  intros Hn HP. unfold starts_nested_rule. apply wp_loop1. step. step. at_end. cbn [opens closes]. by step.
Qed.
Lemma end_skip_decl s (P : option unit -> pst -> Prop) : (n <= ps_pos s)%nat ->
  P (Some tt) (mk_pst (ps_pos s) (max (ps_len s) (ps_pos s + 0 + 1)) (ps_allow s)) -> wp (skip_to_declaration_end ts) s P.
Proof.
  intros Hn HP. unfold skip_to_declaration_end. apply wp_loop1. step. step. at_end. cbn [opens closes]. by step.
Qed.
Lemma end_until_rule_end s (P : option unit -> pst -> Prop) : (n <= ps_pos s)%nat ->
  P (Some tt) (mk_pst (S (ps_pos s)) (max (ps_len s) (S (ps_pos s))) (ps_allow s)) -> wp (until_rule_end ts) s P.
Proof.
  intros Hn HP. unfold until_rule_end. apply wp_loop1. step. step. at_end. cbn [opens closes]. by step.
Qed.
Lemma end_declaration d s (P : option (option node) -> pst -> Prop) : (n <= ps_pos s)%nat ->
  (forall s', (ps_pos s < ps_pos s')%nat -> (ps_len s' = max (ps_len s) (ps_pos s'))%nat -> P (Some None) s') ->
  wp (parse_declaration show ignore ts drained d) s P.
Proof.
  intros Hn HP. unfold parse_declaration. step. step. unfold declaration_internal, consume_any_ident.
  step. step. step. at_end. step. destruct ignore.
  - step. unfold until_declaration_end. apply wp_loop1. step. step. at_end. step. step. apply HP; ps; lia.
  - step. apply HP; ps; lia.
Qed.
Lemma end_selector f s (P : option node -> pst -> Prop) : (n <= ps_pos s)%nat ->
  (forall r s', ps_pos s' = ps_pos s -> (ps_len s <= ps_len s' <= max (ps_len s) (S (ps_pos s)))%nat -> P r s') ->
  wp (selector_with lower ts drained f) s P.
Proof.
  intros Hn HP. unfold selector_with. step. apply wp_loop1. step. step.
  destruct ((drained <=? ps_len s)%nat && _).
  - step. step. apply HP; ps; lia.
  - step. step. at_end. step. cbn [simple_selector]. step. step. step. step. step. apply HP; ps; lia.
Qed.
Lemma end_selector_list d s (P : option node -> pst -> Prop) : (n <= ps_pos s)%nat ->
  (forall r s', ps_pos s' = ps_pos s -> (ps_len s <= ps_len s' <= max (ps_len s) (S (ps_pos s)))%nat -> P r s') ->
  wp (selector_list show lower ts drained d) s P.
Proof.
  intros Hn HP. unfold selector_list, selector_list_with. step. apply wp_loop1. step. step.
  destruct ((drained <=? ps_len s)%nat && _).
  - step. step. apply HP; ps; lia.
  - step. destruct d; cbn [selector]; apply end_selector; try done; intros [x|] s' H1 H2.
    all: try (apply HP; ps; lia).
    all: step; step; at_end; step; step; step; step; apply HP; ps; lia.
Qed.
Lemma end_rule d blk s (P : option (option node) -> pst -> Prop) : (n <= ps_pos s)%nat ->
  (forall r s', (is_Some r -> ps_pos s < ps_pos s' <= ps_len s' /\ ps_len s' <= max (ps_len s) (ps_pos s'))%nat -> P r s') ->
  wp (rule_with show lower ignore ts drained d blk) s P.
Proof.
  intros Hn HP. unfold rule_with, recover. step. step. step. apply end_selector_list; [done|].
  intros r s1 H1 H2.
  assert (forall r' s', (ps_pos s <= ps_pos s')%nat -> (ps_len s' <= max (ps_len s) (S (ps_pos s')))%nat -> r' = None ->
    wp (match r' with Some x => ret (Some x) | None => if ignore then until_rule_end ts;; ret None else fail end) s' P) as HK.
  { intros r' s' L1 L2 ->. destruct ignore; step.
    - apply end_until_rule_end; [lia|]. step. apply HP. ps. lia.
    - apply HP. intros [? ?]; done. }
  destruct r as [x|]; [|apply (HK None); [lia|ps; lia|done]].
  step. unfold expect. step. step. at_end. rewrite bool_decide_false by done. step. apply (HK None); [ps; lia..|done].
Qed.

Lemma wp_and {A} (p : par A) s (P Q : option A -> pst -> Prop) :
  wp p s P -> wp p s Q -> wp p s (fun r s' => P r s' /\ Q r s').
Proof. intros (r & s' & H & HP) (r' & s'' & H' & HQ). rewrite H in H'. simplify_eq. by exists r', s''. Qed.

Lemma keeps_block_with ar rl dc m : (forall b, passes (ar b)) -> passes rl -> steps dc ->
  (forall s (P : option (option node) -> pst -> Prop), (n <= ps_pos s)%nat ->
    (forall r s', (is_Some r -> ps_pos s < ps_pos s' <= ps_len s' /\ ps_len s' <= max (ps_len s) (ps_pos s'))%nat -> P r s') ->
    wp rl s P) ->
  (forall s (P : option (option node) -> pst -> Prop), (n <= ps_pos s)%nat ->
    (forall s', (ps_pos s < ps_pos s')%nat -> (ps_len s' = max (ps_len s) (ps_pos s'))%nat -> P (Some None) s') ->
    wp dc s P) ->
  keeps (block_with ignore ts drained ar rl dc m).
Proof.
  intros Ha Hr Hd Er Ed s P Hs HP. unfold block_with. cbv zeta.
  apply (wp_loop (fun _ s' => good s' /\ (ps_pos s <= ps_pos s')%nat)
    (fun '(_, sep) s' => (if decide (ps_pos s' < n)%nat then 2 * (n - ps_pos s') + 20
                          else 2 * (max (ps_len s') (S n) - ps_pos s')) + if (sep : bool) then 0 else 1)%nat);
    [|done|unfold fuel; case_decide; ps; lia].
  intros [l sep] s0 [Hg Hp].
  destruct (decide (ps_pos s0 < n)%nat) as [Hlt|Hge].
  - repeat first [step|match goal with
    | |- wp (ar _) _ _ => call Ha
    | |- wp rl _ _ => call Hr
    | |- wp dc _ _ => call Hd
    | |- wp (starts_nested_rule _) _ _ => eapply wp_starts_nested; [arith|intros]
    | |- wp (skip_to_declaration_end _) _ _ => call keeps_skip_decl
    end].
    all: try (apply HP; arith).
    all: try match goal with H : is_Some (Some ?x) -> tok ?p <> TRCurly -> _ |- _ =>
      specialize (H (ex_intro _ x eq_refl)); cbn [ps_pos] in H end.
    all: try match goal with H : tok ?p <> TRCurly -> _, E : tok ?q = _ |- _ =>
      replace p with q in H by (ps; lia); rewrite E in H; specialize (H ltac:(discriminate)) end.
    all: try (split; [split; arith|case_decide; arith]).
  - step. step. step.
    { step. apply HP; arith. }
    step. step. at_end. destruct m; [destruct sep; [|destruct ignore]|].
    + step. step. step. apply end_starts_nested; [ps; lia|]. step. apply Ed; [ps; lia|]. intros s' L1 L2.
      step. ps. split; [split; lia|]. rewrite decide_False by lia. lia.
    + step. step. step. apply end_skip_decl; [ps; lia|]. step. ps. split; [split; lia|].
      rewrite decide_False by lia. lia.
    + step. apply HP; arith.
    + step. step. step.
      eapply wp_mono; [apply (wp_and _ _ (fun _ s' => good s' /\ (ps_pos s0 <= ps_pos s')%nat)
        (fun r s' => is_Some r -> ps_pos s0 < ps_pos s' <= ps_len s' /\ ps_len s' <= max (max (ps_len s0) (S (ps_pos s0))) (ps_pos s'))%nat)|].
      { apply Hr; [arith|]. intros. done. }
      { apply Er; [ps; lia|]. intros r s' HL. exact HL. }
      cbv beta. intros [x|] s' [[G L0] L].
      * specialize (L (ex_intro _ x eq_refl)). step. ps. split; [split; lia|]. rewrite decide_False by lia.
        destruct sep; lia.
      * apply HP; [done|lia].
Qed.
(** * Preludes *)
Lemma keeps_term d : keeps (media_term show ts drained d).
Proof.
  unfold media_term. apply keeps_bind; [kp|]. intros [] s P Hs HP.
  repeat first [step|match goal with |- wp (parse_function _ _ _ _) _ _ => call (steps_parse_function d) end].
Qed.
Lemma keeps_comparison : keeps (media_comparison ts).
Proof. unfold media_comparison. kp. Qed.
Lemma keeps_feature_value d : keeps (feature_value show ts drained d).
Proof.
  unfold feature_value. intros s P Hs HP.
  repeat first [step|match goal with |- wp (parse_function _ _ _ _) _ _ => call (steps_parse_function d) end].
Qed.
Lemma steps_feature d : steps (media_feature show ts drained d).
Proof. unfold media_feature. pose proof (keeps_term d). pose proof (keeps_feature_value d). kp. Qed.
Lemma wins_range d : wins (media_range show ts drained d).
Proof.
  unfold media_range. pose proof (keeps_term d). pose proof keeps_comparison. pose proof (keeps_look_sc 0 ltac:(lia)).
  apply keeps_wins; [kp|]. intros _. apply steps_wins. kp.
Qed.
Lemma wins_feature_or_range d : wins (feature_or_range show ts drained d).
Proof.
  unfold feature_or_range. pose proof (keeps_look_sc 1 ltac:(lia)). pose proof (keeps_look_sc 2 ltac:(lia)).
  apply keeps_wins; [kp|]. intros t. apply keeps_wins; [kp|]. intros t'.
  pose proof (wins_range d). pose proof (steps_wins _ (steps_feature d)).
  destruct t; try done. by destruct (bool_decide _ || _).
Qed.
Lemma keeps_condition_calls calls d s (P : option node -> pst -> Prop) : good s ->
  (n - ps_pos s < calls)%nat ->
  (forall r s', good s' -> (ps_pos s <= ps_pos s')%nat -> P r s') -> wp (condition show ts drained calls d) s P.
Proof.
  revert s P. induction calls as [|calls IH]; intros s P Hs Hc HP; [lia|]. cbn [condition].
  apply (wp_loop (fun _ s' => good s' /\ (ps_pos s <= ps_pos s')%nat) (fun _ s' => n - ps_pos s')%nat);
    [|done|unfold fuel; lia].
  intros l s0 [Hg Hp].
  repeat first [step|match goal with
    | |- wp (feature_or_range _ _ _ _) _ _ => call (wins_feature_or_range d)
    | |- wp (expect _ _) _ _ => call steps_expect
    | |- wp (condition _ _ _ _ _) _ _ => eapply IH; [arith|arith|intros]
    end].
  all: try match goal with H : is_Some (Some ?x) -> _ |- _ => specialize (H (ex_intro _ x eq_refl)) end.
  all: try (apply HP; arith). all: try (split; [split|]; arith).
Qed.
Lemma keeps_condition d : keeps (condition show ts drained (fuel ts) d).
Proof. intros s P Hs HP. apply keeps_condition_calls; [done|unfold fuel; lia|done]. Qed.
Lemma wp_look_sc k s (P : option token -> pst -> Prop) : (k <= 2)%nat -> good s ->
  (forall r s', good s' -> ps_pos s' = ps_pos s -> P r s') -> wp (look_sc ts k) s P.
Proof.
  intros Hk Hs HP. unfold look_sc.
  apply (wp_loop (fun i s' => good s' /\ ps_pos s' = ps_pos s /\ (ps_pos s + i <= max n (ps_pos s + 2))%nat)
           (fun i s' => n + 3 - (ps_pos s + i))%nat); [|arith|unfold fuel; lia].
  intros i s0 (Hg & Hp & Hi). repeat step. all: try (apply HP; arith); try (split; [split|]; arith).
Qed.
Lemma keeps_query d : keeps (media_query show lower ts drained d).
Proof.
  unfold media_query. apply keeps_bind; [kp|]. intros []. pose proof (keeps_condition d) as Hc.
  pose proof (keeps_look_sc 0 ltac:(lia)) as H0.
  intros s P Hs HP. do 2 step.
  step. eapply wp_look_sc; [lia|arith|]. intros [t|] s1 G1 L1; [|apply HP; arith].
  case_tok (tok (ps_pos s)); try (step; apply HP; arith).
  all: destruct (bool_decide (t = TLParen)); try (step; apply HP; arith).
  all: repeat first [step|match goal with
    | |- wp (condition _ _ _ _ _) _ _ => call Hc
    | |- wp (consume_any_ident _) _ _ => call steps_any_ident
    | |- wp (consume_ident _ _) _ _ => call steps_ident
    | |- wp (look_sc _ _) _ _ => call H0
    | |- wp (skip_ws _) _ _ => call keeps_ws
    end].
Qed.
Lemma keeps_comma_list p : keeps p -> keeps (comma_list ts drained p).
Proof.
  intros Hp. unfold comma_list. apply keeps_loop. intros l s Hs.
  repeat first [step|match goal with
    | |- wp p _ _ => call Hp
    | |- wp (skip_ws _) _ _ => call keeps_ws end].
  all: fin.
Qed.
Lemma keeps_container d : keeps (container_prelude show ts drained d).
Proof.
  unfold container_prelude. pose proof (keeps_condition d) as Hc.
  intros s P Hs HP. repeat first [step|match goal with |- wp (condition _ _ _ _ _) _ _ => call Hc end].
Qed.
Lemma keeps_custom_selector d : keeps (custom_selector_prelude show lower ts drained d).
Proof. unfold custom_selector_prelude. pose proof (keeps_selector_list d). kp. Qed.
Lemma keeps_custom_media d : keeps (custom_media_prelude show lower ts drained d).
Proof. unfold custom_media_prelude. pose proof (keeps_comma_list _ (keeps_query d)). kp. Qed.
Lemma keeps_import d : keeps (import_prelude show ts drained d).
Proof.
  unfold import_prelude. pose proof (steps_keeps _ (steps_parse_function d)). pose proof (keeps_look_sc 0 ltac:(lia)).
  match goal with |- keeps (pbind _ (fun t => pbind (@?f t) ?k)) => set (K := k); set (F := f) end.
  assert (forall a, keeps (K a)) as HK by (intros a; unfold K; kp). clearbody K.
  intros s P Hs HP. unfold F. clear F.
  repeat first [step|match goal with
    | |- wp (parse_url _) _ _ => call steps_url
    | |- wp (K _) _ _ => call HK end].
Qed.
Lemma steps_layer_name : steps (layer_name ts).
Proof.
  unfold layer_name. apply steps_bind; [kp|]. intros a. apply keeps_bind; [|intros; kp].
  apply keeps_loop. intros l s Hs. do 2 step. destruct (bool_decide _) eqn:Eb.
  - apply bool_decide_eq_true in Eb.
    assert (ps_pos s + 0 < n)%nat as Hlt by (apply tok_lt; rewrite Eb; discriminate).
    repeat step. all: fin.
  - repeat step. all: fin.
Qed.
Lemma keeps_layer : keeps (layer_prelude ts drained).
Proof.
  unfold layer_prelude. apply keeps_bind; [kp|]. intros _. apply keeps_bind; [|intros; kp].
  apply keeps_loop. intros l s Hs.
  repeat first [step|match goal with
    | |- wp (layer_name _) _ _ => call steps_layer_name
    | |- wp (skip_ws _) _ _ => call keeps_ws end].
  all: fin.
Qed.
Lemma keeps_scope d : keeps (scope_prelude show lower ts drained d).
Proof. unfold scope_prelude. pose proof (keeps_selector_list d). kp. Qed.
Lemma keeps_prelude d name : keeps (at_rule_prelude show lower ts drained d name).
Proof.
  unfold at_rule_prelude, sequence_prelude. cbv zeta.
  pose proof (keeps_container d). pose proof (keeps_custom_media d). pose proof (keeps_custom_selector d).
  pose proof (keeps_import d). pose proof keeps_layer. pose proof (keeps_comma_list _ (keeps_query d)).
  pose proof (keeps_comma_list _ (keeps_selector d)). pose proof (keeps_scope d). pose proof keeps_raw.
  pose proof (keeps_values d). kp.
Qed.
Lemma keeps_at_block blk name b : (forall m, keeps (blk m)) -> keeps (at_rule_block lower ts blk name b).
Proof. intros Hb. unfold at_rule_block. pose proof keeps_declaration_block. kp. Qed.
Lemma passes_at_rule d blk b : (forall m, keeps (blk m)) -> passes (at_rule_with show lower ignore ts drained d blk b).
Proof.
  intros Hb. apply passes_recover, steps_wins.
  pose proof (keeps_prelude d). pose proof (fun n => keeps_at_block blk n b Hb). kp.
Qed.
Lemma keeps_block d m : keeps (block show lower ignore ts drained d m).
Proof.
  revert m. induction d as [|d IH]; intros m; cbn [block]; [kp|].
  apply keeps_block_with.
  - intros b. by apply passes_at_rule.
  - by apply passes_rule.
  - apply steps_declaration.
  - intros s P. apply end_rule.
  - intros s P. apply end_declaration.
Qed.
(** A brace closed outside of any block is read as an invalid rule. *)
Lemma curly_rule d blk s (P : option (option node) -> pst -> Prop) : good s -> tok (ps_pos s) = TRCurly ->
  (forall r s', good s' -> (ps_pos s < ps_pos s')%nat -> P r s') ->
  wp (rule_with show lower ignore ts drained d blk) s P.
Proof.
  intros Hs E HP. assert (ps_pos s < n)%nat as Hlt by (apply tok_lt; by rewrite E).
  assert ((drained <=? ps_len s)%nat && (ps_len s <=? ps_pos s)%nat = false) as Ee.
  { apply andb_false_iff. rewrite !Nat.leb_gt. ps. lia. }
  assert (forall f s' (Q : option node -> pst -> Prop), s' = s ->
    Q (Some (NSelector [])) (mk_pst (ps_pos s) (max (ps_len s) (S (ps_pos s))) (ps_allow s)) ->
    wp (selector_with lower ts drained f) s' Q) as Hsel.
  { intros f s' Q -> HQ. unfold selector_with. step. apply wp_loop1. step. step. rewrite Ee. step. step.
    rewrite E. cbn [simple_selector]. do 6 step. exact HQ. }
  unfold rule_with, recover, selector_list, selector_list_with. step. step. step. step. apply wp_loop1.
  step. step. rewrite Ee. step.
  destruct d; cbn [selector]; (apply Hsel; [done|]); step; step; cbn [ps_pos]; rewrite E; do 4 step; try step;
    unfold expect; step; step; cbn [ps_pos]; rewrite E, bool_decide_false by done; step.
  all: destruct ignore; step; [|apply HP; arith].
  all: call keeps_until_rule_end; repeat step; apply HP; arith.
Qed.
Lemma wp_stylesheet s (P : option (option node) -> pst -> Prop) : good s ->
  (forall r s', (match r with Some (Some x) => exists l, x = NSheet l | _ => True end) -> P r s') ->
  wp (stylesheet show lower ignore ts drained) s P.
Proof.
  intros Hs HP. unfold stylesheet. cbv zeta. step.
  apply (wp_loop (fun _ s' => good s')
    (fun _ s' => if decide (ps_pos s' < n)%nat then (n - ps_pos s') + 10
                 else max (ps_len s') (S n) - ps_pos s')%nat);
    [|done|unfold fuel; case_decide; ps; lia].
  pose proof (passes_at_rule max_depth (block show lower ignore ts drained max_depth) false (keeps_block max_depth)) as Ha.
  pose proof (passes_rule max_depth (block show lower ignore ts drained max_depth) (keeps_block max_depth)) as Hr.
  pose proof (curly_rule max_depth (block show lower ignore ts drained max_depth)) as Hcu.
  generalize dependent (at_rule_with show lower ignore ts drained max_depth (block show lower ignore ts drained max_depth) false).
  generalize dependent (rule_with show lower ignore ts drained max_depth (block show lower ignore ts drained max_depth)).
  intros rl Hr Hcu ar Ha l s0 Hg.
  destruct (decide (ps_pos s0 < n)%nat) as [Hlt|Hge].
  - step. step. step.
    { exfalso. rewrite andb_true_iff, !Nat.leb_le in E. ps. lia. }
    step. step. case_tok (tok (ps_pos s0));
    repeat first [step|match goal with
    | |- wp ar _ _ => call Ha
    | E : tok _ = TRCurly |- wp rl _ _ => eapply Hcu; [arith|exact E|intros]
    | |- wp rl _ _ => call Hr
    end].
    all: try match goal with H : is_Some (Some ?x) -> tok ?p <> TRCurly -> _ |- _ =>
      specialize (H (ex_intro _ x eq_refl)); cbn [ps_pos] in H end.
    all: try match goal with H : tok ?p <> TRCurly -> _, E : tok ?q = _ |- _ =>
      replace p with q in H by (ps; lia); rewrite E in H; specialize (H ltac:(discriminate)) end.
    all: try (split; [arith|case_decide; arith]).
    all: try (apply HP; done).
  - step. step. step.
    { step. step. apply HP. by destruct l; eauto. }
    step. step. at_end. step. ps. rewrite !decide_False by lia. lia.
Qed.
End total.
