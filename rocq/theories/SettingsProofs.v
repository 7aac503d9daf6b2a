From stdpp Require Import sets.
From Verif Require Import Base SettingsModel ConfigModel ConfigSpec.

(** ** Decimal *)
Lemma digits_acc_app acc a b :
  digits_acc acc (a ++ b) = match digits_acc acc a with Some v => digits_acc v b | None => None end.
Proof. revert acc. induction a as [|c a IH]; intros acc; simpl; [done|]. case_match; [apply IH|done]. Qed.

Lemma size_nat_div10 n : (10 <= n)%N -> (N.to_nat (N.size (n / 10)) < N.to_nat (N.size n)).
Proof.
  intros H. assert (n / 10 <= n / 2)%N as H1 by (apply N.div_le_compat_l; lia).
  assert (n / 2 <> 0)%N by (intros Hz; apply N.div_small_iff in Hz; lia).
  assert (N.size (n / 10) <= N.size (n / 2))%N as H2.
  { destruct (N.eq_dec (n / 10) 0) as [->|Hz]; [simpl; lia|].
    rewrite !N.size_log2 by lia. apply -> N.succ_le_mono. by apply N.log2_le_mono. }
  assert (N.size (n / 2) < N.size n)%N; [|lia].
  rewrite !N.size_log2 by lia. rewrite <- N.succ_lt_mono.
  rewrite <- N.div2_div, N.div2_spec, N.log2_shiftr.
  assert (0 < N.log2 n)%N by (apply N.log2_pos; lia). lia.
Qed.

Lemma size_nat_size n : N.size_nat n = N.to_nat (N.size n).
Proof. destruct n as [|p]; [done|]. simpl. induction p; simpl; rewrite ?IHp; lia. Qed.

Lemma show_digits_parse fuel n : N.to_nat (N.size n) < fuel -> digits_acc 0 (show_digits fuel n) = Some n.
Proof.
  revert n. induction fuel as [|f IH]; intros n Hf; [lia|]. simpl.
  destruct (N.ltb_spec n 10) as [Hn|Hn].
  - cbn [digits_acc]. rewrite (proj2 (N.leb_le 48 (48 + n))), (proj2 (N.leb_le (48 + n) 57)) by lia. simpl. f_equal. lia.
  - rewrite digits_acc_app, IH by (pose proof (size_nat_div10 n Hn); lia).
    pose proof (N.mod_lt n 10 ltac:(lia)) as Hm. cbn [digits_acc].
    pose proof (N.div_mod n 10 ltac:(lia)) as Hdm. revert Hm Hdm. generalize (n mod 10)%N (n / 10)%N. intros m d Hm Hdm.
    rewrite (proj2 (N.leb_le 48 (48 + m))), (proj2 (N.leb_le (48 + m) 57)) by lia. cbn [andb digits_acc]. f_equal. lia.
Qed.

Definition is_digit (c : N) : Prop := (48 <= c <= 57)%N.
Lemma show_digits_digits fuel n : Forall is_digit (show_digits fuel n).
Proof.
  revert n. induction fuel as [|f IH]; intros n; [constructor|]. simpl. destruct (N.ltb_spec n 10).
  - apply Forall_singleton. unfold is_digit; lia.
  - apply Forall_app. split; [apply IH|]. pose proof (N.mod_lt n 10 ltac:(lia)) as Hm. apply Forall_singleton. unfold is_digit.
    revert Hm. generalize (n mod 10)%N. lia.
Qed.
Lemma show_N_digits n : Forall is_digit (show_N n).
Proof. apply show_digits_digits. Qed.
Lemma show_N_nonempty n : show_N n <> [].
Proof. unfold show_N. simpl. case_match; [done|]. by destruct (show_digits _ _). Qed.
Lemma parse_show_N n : parse_digits (show_N n) = Some n.
Proof.
  unfold parse_digits. destruct (show_N n) as [|c r] eqn:E; [by destruct (show_N_nonempty n)|].
  rewrite <- E. unfold show_N. apply show_digits_parse. rewrite size_nat_size. lia.
Qed.

Lemma show_N_head n : exists c r, show_N n = c :: r /\ is_digit c /\ Forall is_digit r.
Proof.
  pose proof (show_N_digits n) as H. destruct (show_N n) as [|c r] eqn:E; [by destruct (show_N_nonempty n)|].
  inversion H; subst. by eexists _, _.
Qed.

Lemma parse_isize_digit c r : is_digit c ->
  parse_isize (c :: r) = match Z.of_N <$> parse_digits (c :: r) with Some z => if in_isize z then Some z else None | None => None end.
Proof.
  intros Hc. unfold parse_isize, is_digit in *.
  assert (c <> 45 /\ c <> 43)%N as [H1 H2] by lia.
  destruct c as [|p]; [lia|]. repeat (destruct p as [p|p|]; try done).
Qed.
Lemma parse_usize_digit c r : is_digit c ->
  parse_usize (c :: r) = match parse_digits (c :: r) with Some n => if (n <=? umax)%N then Some n else None | None => None end.
Proof.
  intros Hc. unfold parse_usize, is_digit in *.
  destruct c as [|p]; [lia|]. repeat (destruct p as [p|p|]; try done). lia.
Qed.

Lemma in_isize_true z : (imin <= z <= imax)%Z -> in_isize z = true.
Proof. intros [H1 H2]. unfold in_isize. by rewrite (proj2 (Z.leb_le _ _) H1), (proj2 (Z.leb_le _ _) H2). Qed.

Lemma parse_show_Z z : (imin <= z <= imax)%Z -> parse_isize (show_Z z) = Some z.
Proof.
  intros Hz. unfold show_Z. destruct z as [|p|p].
  - done.
  - destruct (show_N_head (Z.to_N (Zpos p))) as (c & r & E & Hc & _). rewrite E, parse_isize_digit by done.
    rewrite <- E, parse_show_N. simpl. by rewrite in_isize_true.
  - unfold parse_isize. rewrite parse_show_N. simpl. by rewrite in_isize_true.
Qed.
Lemma parse_show_usize n : (n <= umax)%N -> parse_usize (show_N n) = Some n.
Proof.
  intros Hn. destruct (show_N_head n) as (c & r & E & Hc & _). rewrite E, parse_usize_digit by done.
  rewrite <- E, parse_show_N. by rewrite (proj2 (N.leb_le _ _) Hn).
Qed.

(** ** Splitting *)
Lemma split_nonempty c s : split c s <> [].
Proof. destruct s; simpl; [done|]. case_match; [done|]. by case_match. Qed.
Lemma split_app_sep c a b : c ∉ a -> split c (a ++ c :: b) = a :: split c b.
Proof.
  induction a as [|x a IH]; intros H; simpl.
  - by rewrite N.eqb_refl.
  - apply not_elem_of_cons in H as [H1 H2]. rewrite (proj2 (N.eqb_neq x c)) by congruence. by rewrite IH.
Qed.
Lemma split_no_sep c a : c ∉ a -> split c a = [a].
Proof.
  induction a as [|x a IH]; intros H; simpl; [done|].
  apply not_elem_of_cons in H as [H1 H2]. rewrite (proj2 (N.eqb_neq x c)) by congruence. by rewrite IH.
Qed.
Lemma split_join c l : l <> [] -> Forall (fun e => c ∉ e) l -> split c (join [c] l) = l.
Proof.
  intros Hne HF. induction HF as [|a l Ha HF IH]; [done|]. destruct l as [|b l].
  - simpl. by apply split_no_sep.
  - cbn [join]. cbn [app]. rewrite split_app_sep by done. f_equal. by apply IH.
Qed.
Lemma split_elems c s : Forall (fun e => c ∉ e) (split c s).
Proof.
  induction s as [|x s IH]; simpl; [repeat constructor; by apply not_elem_of_nil|].
  destruct (N.eqb_spec x c) as [->|H].
  - constructor; [by apply not_elem_of_nil|done].
  - destruct (split c s) as [|a l]; [repeat constructor; set_solver|]. inversion IH; subst. constructor; [set_solver|done].
Qed.
Lemma join_split c s : join [c] (split c s) = s.
Proof.
  induction s as [|x s IH]; [done|]. simpl. destruct (N.eqb_spec x c) as [->|H].
  - pose proof (split_nonempty c s). destruct (split c s) as [|a l] eqn:E; [done|]. rewrite <- IH. done.
  - pose proof (split_nonempty c s). destruct (split c s) as [|a l] eqn:E; [done|]. rewrite <- IH. by destruct l.
Qed.

Section settings.
  Context {fo : float_ops}.

  Lemma from_str_display a :
    from_str (display a) =
      match a with
      | Bool b => Some (Bool b)
      | SInt z => SInt <$> parse_isize (show_Z z)
      | UInt n => UInt <$> parse_usize (show_N n)
      | Float x => Float <$> fl_parse (fl_show x)
      | String s => Some (String s)
      | Map l => Some (match join [comma] l with [] => Map [] | v => Map (split comma v) end)
      end.
  Proof. destruct a as [| | | |[]|l]; try reflexivity. unfold from_str, display. cbn. destruct (join [comma] l) eqn:E; by rewrite ?E. Qed.

  Lemma survives_round_trip a : survives a -> from_str (display a) = Some a.
  Proof.
    rewrite from_str_display. destruct a as [z|n|x|s|b|l]; simpl; intros H; try done.
    - by rewrite parse_show_Z.
    - by rewrite parse_show_usize.
    - by rewrite H.
    - destruct H as [H1 H2]. destruct l as [|e l]; [done|].
      destruct (join [comma] (e :: l)) as [|c v] eqn:E.
      + exfalso. apply H1. destruct l as [|e' l]; simpl in E; [by subst|]. by destruct e.
      + change (Some (Map (split comma (c :: v))) = Some (Map (e :: l))). rewrite <- E, split_join; done.
  Qed.

  (** the condition on maps is exact *)
  Lemma map_round_trip_iff l : from_str (display (Map l)) = Some (Map l) <-> survives (Map l).
  Proof.
    split; [|apply survives_round_trip]. rewrite from_str_display. intros [= H]. simpl. split.
    - intros ->. done.
    - destruct (join [comma] l) as [|c v] eqn:E; injection H as <-; [constructor|]. exact (split_elems comma (c :: v)).
  Qed.

  Lemma parse_isize_range s z : parse_isize s = Some z -> (imin <= z <= imax)%Z.
  Proof.
    unfold parse_isize. set (v := match s with [] => _ | _ => _ end). destruct v as [y|]; [|done].
    unfold in_isize. destruct (Z.leb_spec imin y), (Z.leb_spec y imax); simpl; try done. by intros [= <-].
  Qed.
  Lemma parse_usize_range s n : parse_usize s = Some n -> (n <= umax)%N.
  Proof.
    unfold parse_usize. set (v := match s with [] => _ | _ => _ end). destruct v as [y|]; [|done].
    destruct (N.leb_spec y umax); [|done]. by intros [= <-].
  Qed.

  (** every setting obtained from text survives being printed *)
  Lemma parsed_survives t a : from_str t = Some a -> (forall x, a = Float x -> fl_parse (fl_show x) = Some x) -> survives a.
  Proof.
    intros H Hf. destruct a as [z|n|x|s|b|l]; simpl; try done; try by apply Hf.
    all: unfold from_str in H; destruct (split_once colon t) as [[k v]|]; [|done].
    all: destruct k as [|c []]; try done.
    all: destruct c as [|p]; try done; repeat (destruct p as [p|p|]; try done).
    all: try (destruct (parse_bool v); done).
    all: try (destruct (fl_parse v); done).
    all: try (destruct v; done).
    all: try (destruct (parse_isize v) as [y|] eqn:E; [|done]; injection H as <-; by eapply parse_isize_range).
    all: try (destruct (parse_usize v) as [y|] eqn:E; [|done]; injection H as <-; by eapply parse_usize_range).
    all: try (destruct (parse_isize v); done).
    all: try (destruct (parse_usize v); done).
    - destruct v as [|d v]; injection H as <-; [split; [done|constructor]|]. split; [|exact (split_elems comma (d :: v))].
      intros E. change (split comma (d :: v) = [[]]) in E. pose proof (join_split comma (d :: v)) as J. rewrite E in J. done.
  Qed.

  Lemma to_string_value a : to_string a = value_string a.
  Proof.
    destruct a as [z|n|x|s|b|l]; try done. simpl. induction l as [|e l IH]; [done|].
    cbn [flat_map join]. destruct l as [|e' l].
    - cbn [flat_map]. rewrite app_nil_r. apply removelast_last.
    - rewrite removelast_app by (cbn [flat_map]; by destruct e'). rewrite IH, <- app_assoc. done.
  Qed.
End settings.

(** ** Constraints *)
Lemma trim_start_spec s : exists w, s = w ++ trim_start s /\ Forall (fun c => is_space c = true) w.
Proof.
  induction s as [|c s [w [Hw HF]]]; [by exists []|]. cbn [trim_start]. destruct (is_space c) eqn:E.
  - exists (c :: w). split; [by rewrite Hw at 1|by constructor].
  - exists []. split; [done|constructor].
Qed.
Lemma trim_start_head s : match trim_start s with c :: _ => is_space c = false | [] => True end.
Proof. induction s as [|c s IH]; [done|]. cbn [trim_start]. destruct (is_space c) eqn:E; [apply IH|done]. Qed.
Lemma trim_start_id s : match s with c :: _ => is_space c = false | [] => True end -> trim_start s = s.
Proof. destruct s as [|c s]; [done|]. intros H. cbn [trim_start]. by rewrite H. Qed.
Lemma trim_start_app_last s c : is_space c = false -> exists p, trim_start (s ++ [c]) = p ++ [c].
Proof.
  intros Hc. induction s as [|d s IH]; cbn [app trim_start].
  - rewrite Hc. by exists [].
  - destruct (is_space d); [done|]. by exists (d :: s).
Qed.

Definition no_outer_space (s : str) : Prop :=
  match s with c :: _ => is_space c = false | [] => True end /\
  match last s with Some c => is_space c = false | None => True end.
Lemma trim_id s : no_outer_space s -> trim s = s.
Proof.
  intros [H1 H2]. unfold trim. rewrite (trim_start_id s H1).
  rewrite trim_start_id; [apply rev_involutive|].
  destruct (rev s) as [|c r] eqn:E; [done|]. assert (s = rev r ++ [c]) as -> by (by rewrite <- (rev_involutive s), E).
  rewrite last_snoc in H2. done.
Qed.
Lemma trim_outer s : no_outer_space (trim s).
Proof.
  unfold trim. set (u := trim_start s). pose proof (trim_start_head s) as Hu. fold u in Hu.
  pose proof (trim_start_head (rev u)) as Hv. destruct (trim_start_spec (rev u)) as (w & Hw & HF).
  set (v := trim_start (rev u)) in *. split.
  - (* head of rev v is head of u when v is not empty *)
    assert (u = rev v ++ rev w) as Hu2 by (rewrite <- rev_app_distr, <- Hw; by rewrite rev_involutive).
    destruct (rev v) as [|c r]; [done|]. rewrite Hu2 in Hu. done.
  - destruct v as [|c v']; [done|]. simpl. rewrite last_snoc. done.
Qed.
Lemma trim_no_comma s : comma ∉ s -> comma ∉ trim s.
Proof.
  intros H Hin. apply H. unfold trim in Hin. apply elem_of_list_In, in_rev in Hin. rewrite <- elem_of_list_In in Hin.
  assert (forall t c, c ∈ trim_start t -> c ∈ t) as Hsub.
  { intros t c Hc. destruct (trim_start_spec t) as (w & Hw & _). rewrite Hw. set_solver. }
  apply Hsub, elem_of_list_In, in_rev in Hin. rewrite <- elem_of_list_In in Hin. by apply Hsub.
Qed.

Definition good_token (t : str) : Prop := t <> [] /\ comma ∉ t /\ no_outer_space t.
Lemma constraint_tokens_good v : Forall good_token (constraint_tokens v).
Proof.
  unfold constraint_tokens. apply Forall_forall. intros t Ht. apply elem_of_list_filter in Ht as [Hne Ht].
  apply elem_of_list_fmap in Ht as (u & -> & Hu). split; [done|]. split; [|apply trim_outer].
  apply trim_no_comma. pose proof (split_elems comma v) as HF. rewrite Forall_forall in HF. by apply HF.
Qed.
Lemma constraint_tokens_join ts : Forall good_token ts -> constraint_tokens (join [comma] ts) = ts.
Proof.
  intros HF. destruct ts as [|t ts]; [done|]. unfold constraint_tokens. rewrite split_join; [|done|].
  2:{ eapply Forall_impl; [exact HF|]. by intros x (? & ? & ?). }
  induction HF as [|x l (H1 & H2 & H3) HF IH]; [done|]. cbn [map]. rewrite filter_cons, trim_id by done.
  rewrite decide_True by done. f_equal. exact IH.
Qed.

Lemma digit_not_space c : is_digit c -> is_space c = false.
Proof.
  unfold is_digit. intros H. unfold is_space.
  repeat match goal with
  | |- context [(?a <=? ?b)%N] => destruct (N.leb_spec a b); try lia
  | |- context [(?a =? ?b)%N] => destruct (N.eqb_spec a b); try lia
  end; done.
Qed.
Definition num_char (c : N) : Prop := is_digit c \/ c = dash.
Lemma num_not_space c : num_char c -> is_space c = false.
Proof. intros [H| ->]; [by apply digit_not_space|done]. Qed.
Lemma show_Z_chars z : Forall num_char (show_Z z) /\ show_Z z <> [].
Proof.
  assert (forall n, Forall num_char (show_N n)) as HN.
  { intros n. eapply Forall_impl; [apply show_N_digits|]. by left. }
  unfold show_Z. destruct z; split; try apply HN; try apply show_N_nonempty; try done.
  constructor; [by right|apply HN].
Qed.
Lemma num_good t : Forall num_char t -> t <> [] -> good_token t.
Proof.
  intros HF Hne. split; [done|]. split; [|split].
  - intros H. rewrite Forall_forall in HF. apply HF in H as [H|H]; [|done]. unfold is_digit, comma in H. lia.
  - destruct t; [done|]. inversion HF; subst. by apply num_not_space.
  - destruct (last t) as [c|] eqn:E; [|done]. apply last_Some in E as [l ->]. apply Forall_app in HF as [_ HF].
    inversion HF; subst. by apply num_not_space.
Qed.

Lemma digits_acc_dash acc a b : digits_acc acc (a ++ dash :: b) = None.
Proof. rewrite digits_acc_app. by destruct (digits_acc acc a). Qed.
Lemma parse_digits_dash a b : parse_digits (a ++ dash :: b) = None.
Proof. unfold parse_digits. destruct (a ++ dash :: b) eqn:E; [done|]. rewrite <- E. apply digits_acc_dash. Qed.
Lemma split_once_digits a b : Forall is_digit a -> split_once dash (a ++ dash :: b) = Some (a, b).
Proof.
  induction 1 as [|c a Hc HF IH]; [done|]. simpl. unfold is_digit, dash in *.
  rewrite (proj2 (N.eqb_neq c 45)) by lia. by rewrite IH.
Qed.

(** splitting the printed form: first character, further digits *)
Lemma show_Z_shape z : exists c r, show_Z z = c :: r /\ (c < 128)%N /\ Forall is_digit r /\ (is_digit c \/ c = dash).
Proof.
  unfold show_Z. destruct z as [|p|p].
  - exists 48%N, []. split; [done|]. split; [lia|]. split; [constructor|left; unfold is_digit; lia].
  - destruct (show_N_head (Z.to_N (Zpos p))) as (c & r & E & Hc & HF). exists c, r.
    split; [done|]. split; [unfold is_digit in *; lia|]. split; [done|by left].
  - exists dash, (show_N (Npos p)). split; [done|]. split; [unfold dash; lia|]. split; [apply show_N_digits|by right].
Qed.

Lemma range_token_round lo hi :
  (imin <= lo <= imax)%Z -> (imin <= hi <= imax)%Z ->
  parse_range_token (if (lo =? hi)%Z then show_Z lo else show_Z lo ++ [dash] ++ show_Z hi) = Ok (Some (lo, hi)).
Proof.
  intros Hlo Hhi. destruct (Z.eqb_spec lo hi) as [->|Hne].
  - unfold parse_range_token. by rewrite parse_show_Z.
  - destruct (show_Z_shape lo) as (c & r & E & Hc & HF & Hd).
    unfold parse_range_token. rewrite E. cbn [app].
    assert (parse_isize (c :: r ++ dash :: show_Z hi) = None) as ->.
    { destruct Hd as [Hd| ->].
      - rewrite parse_isize_digit by done. pose proof (parse_digits_dash (c :: r) (show_Z hi)) as HP. cbn [app] in HP. by rewrite HP.
      - unfold parse_isize, dash at 1. by rewrite parse_digits_dash. }
    rewrite (proj2 (N.ltb_lt c 128)) by done. rewrite split_once_digits by done.
    rewrite <- E, !parse_show_Z by done. done.
Qed.

Lemma range_token_range t lo hi : parse_range_token t = Ok (Some (lo, hi)) -> (imin <= lo <= imax)%Z /\ (imin <= hi <= imax)%Z.
Proof.
  unfold parse_range_token. destruct (parse_isize t) as [n|] eqn:E.
  - intros [= <- <-]. apply parse_isize_range in E. done.
  - destruct t as [|c r]; [done|]. destruct (c <? 128)%N; [|done]. destruct (split_once dash r) as [[a b]|]; [|done].
    destruct (parse_isize (c :: a)) as [x|] eqn:E1; [|done]. destruct (parse_isize b) as [y|] eqn:E2; [|done].
    intros [= <- <-]. apply parse_isize_range in E1, E2. done.
Qed.
Lemma parse_ranges_range ts l : parse_ranges ts = Ok (Some l) ->
  Forall (fun r => (imin <= r.1 <= imax)%Z /\ (imin <= r.2 <= imax)%Z) l /\ (ts <> [] -> l <> []).
Proof.
  revert l. induction ts as [|t ts IH]; intros l; simpl; [intros [= <-]; split; [constructor|done]|].
  destruct (parse_range_token t) as [[[lo hi]|]| |] eqn:E; simpl; try done.
  destruct (parse_ranges ts) as [[k|]| |]; simpl; try done. intros [= <-]. destruct (IH k eq_refl) as [H _].
  split; [|done]. constructor; [|done]. by eapply range_token_range.
Qed.
Lemma parse_ranges_round l :
  Forall (fun r => (imin <= r.1 <= imax)%Z /\ (imin <= r.2 <= imax)%Z) l ->
  parse_ranges (tokens (Range l)) = Ok (Some l).
Proof.
  induction 1 as [|[lo hi] l [H1 H2] HF IH]; [done|]. cbn [tokens map parse_ranges]. simpl in H1, H2. cbn [fst snd].
  rewrite range_token_round by done. cbn [rbind]. unfold tokens in IH. rewrite IH. done.
Qed.

Lemma ranges_parse l :
  l <> [] -> Forall (fun r => (imin <= r.1 <= imax)%Z /\ (imin <= r.2 <= imax)%Z) l ->
  constraint_parse (join [comma] (tokens (Range l))) = Ok (Some (Range l)).
Proof.
  intros Hl HF. assert (Forall good_token (tokens (Range l))) as Hgood.
  { cbn [tokens]. apply Forall_forall. intros t Ht. apply elem_of_list_fmap in Ht as (r & -> & _).
    destruct (show_Z_chars r.1) as [H1 H2], (show_Z_chars r.2) as [H3 H4]. apply num_good.
    - case_match; [done|]. apply Forall_app. split; [done|]. constructor; [by right|done].
    - case_match; [done|]. by destruct (show_Z r.1). }
  unfold constraint_parse. rewrite constraint_tokens_join by done. pose proof (parse_ranges_round l HF) as HR.
  destruct (tokens (Range l)) as [|t0 ts] eqn:Et; [by destruct l|]. rewrite HR. done.
Qed.
Lemma constraint_round_trip v c :
  constraint_parse v = Ok (Some c) -> constraint_parse (join [comma] (tokens c)) = Ok (Some c).
Proof.
  intros H. pose proof (constraint_tokens_good v) as Hg.
  assert (constraint_tokens v <> []) as Hne by (intros E; unfold constraint_parse in H; rewrite E in H; done).
  assert (constraint_parse v = let* r := parse_ranges (constraint_tokens v) in
     Ok (Some (match r with Some l => Range l | None => Enum (constraint_tokens v) end))) as H0.
  { unfold constraint_parse. by destruct (constraint_tokens v). }
  rewrite H0 in H. destruct (parse_ranges (constraint_tokens v)) as [[l|]| |] eqn:E; simpl in H; try done; injection H as <-.
  - apply parse_ranges_range in E as [HF Hl]. specialize (Hl Hne).
    by apply ranges_parse.
  - cbn [tokens]. unfold constraint_parse. rewrite constraint_tokens_join by done.
    destruct (constraint_tokens v); [done|]. by rewrite E.
Qed.

(** a constraint never panics when every token starts with an ASCII character *)
Lemma constraint_total v :
  Forall (fun t => match t with c :: _ => (c < 128)%N | [] => True end) (constraint_tokens v) ->
  exists c, constraint_parse v = Ok c.
Proof.
  intros HF. pose proof (constraint_tokens_good v) as Hg.
  assert (exists r, parse_ranges (constraint_tokens v) = Ok r) as [r Hr].
  { induction (constraint_tokens v) as [|t ts IH]; [by eexists|]. inversion HF; subst. inversion Hg as [|? ? (Hne & _) Hg']; subst. simpl.
    assert (exists x, parse_range_token t = Ok x) as [x ->].
    { unfold parse_range_token. destruct (parse_isize t); [by eexists|]. destruct t as [|c t]; [done|]. rewrite (proj2 (N.ltb_lt c 128)) by done. by eexists. }
    simpl. destruct x; [|by eexists]. destruct IH as [y ->]; [done..|]. by eexists. }
  unfold constraint_parse. destruct (constraint_tokens v); [by eexists|]. rewrite Hr. by eexists.
Qed.
