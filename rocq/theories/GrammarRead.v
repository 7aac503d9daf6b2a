(** Reading back the text of a grammar ([GrammarText]). *)
From Verif Require Import Base Text SelectorModel SyntaxModel SyntaxSpec SyntaxProofs GrammarData GrammarModel GrammarSpec GrammarProofs GrammarText.

(** ** Pieces of text *)
Definition head_not (f : N -> bool) (t : str) : Prop := match t with [] => True | c :: _ => f c = false end.
Lemma span_app f a t : forallb f a = true -> head_not f t -> span f (a ++ t) = (a, t).
Proof.
  induction a as [|c a IH]; intros Ha Ht; cbn [app span].
  - destruct t as [|c t]; [done|]. cbn in Ht |- *. by rewrite Ht.
  - cbn in Ha. apply andb_prop in Ha as [Hc Ha]. rewrite Hc, IH by done. done.
Qed.
Lemma span1_app f a t : a <> [] -> forallb f a = true -> head_not f t -> span1 f (a ++ t) = Some (a, t).
Proof. intros Ha H1 H2. unfold span1. rewrite span_app by done. by destruct a. Qed.
Lemma span1_none f t : head_not f t -> span1 f t = None.
Proof. intros H. unfold span1. destruct t as [|c t]; [done|]. cbn in H |- *. by rewrite H. Qed.
Lemma skip_none f t : head_not f t -> skip f t = t.
Proof. intros H. unfold skip. destruct t as [|c t]; [done|]. cbn in H |- *. by rewrite H. Qed.
Lemma skip_some f c t : f c = true -> skip f (c :: t) = skip f t.
Proof. intros H. unfold skip. cbn. rewrite H. by destruct (span f t). Qed.
Lemma tag_app w t : tag w (w ++ t) = Some t.
Proof. induction w as [|c w IH]; [by destruct t|]. cbn. by rewrite N.eqb_refl. Qed.
Lemma tag_head c w t : head_not (N.eqb c) t -> tag (c :: w) t = None.
Proof. destruct t as [|d t]; [done|]. cbn. by intros ->. Qed.
Lemma head_not_impl (f g : N -> bool) t : (forall c, f c = true -> g c = true) -> head_not g t -> head_not f t.
Proof. intros H. destruct t as [|c t]; [done|]. cbn. intros Hg. destruct (f c) eqn:E; [|done]. apply H in E. congruence. Qed.
Lemma read_app a t : read (a ++ t) t = a.
Proof. unfold read. rewrite app_length, Nat.add_sub. apply take_app. Qed.

(** ** Numbers *)
Lemma digits_num fuel n : forallb is_num (digits fuel n) = true.
Proof.
  revert n. induction fuel as [|fuel IH]; intros n; [done|]. cbn [digits]. destruct (N.ltb_spec n 10) as [H|H].
  - cbn. unfold is_num. rewrite andb_true_r. apply andb_true_intro. split; apply N.leb_le; lia.
  - rewrite forallb_app, IH. cbn [forallb andb]. unfold is_num. rewrite andb_true_r. pose proof (N.mod_lt n 10 ltac:(done)) as Hm. revert Hm. generalize (n mod 10)%N. intros m Hm. apply andb_true_intro. split; apply N.leb_le; lia.
Qed.
Lemma digits_nonempty fuel n : 0 < fuel -> digits fuel n <> [].
Proof. destruct fuel; [lia|]. intros _. cbn [digits]. destruct (n <? 10)%N; [done|]. intros H. by apply app_eq_nil in H as [_ ?]. Qed.
Lemma digits_value_snoc ds d : digits_value (ds ++ [d]) = (10 * digits_value ds + (d - 48))%N.
Proof. unfold digits_value. by rewrite fold_left_app. Qed.
Lemma digits_ok fuel n : (N.to_nat (N.log2 n) < fuel) -> digits_value (digits fuel n) = n.
Proof.
  revert n. induction fuel as [|fuel IH]; intros n Hf; [lia|]. cbn [digits]. destruct (N.ltb_spec n 10) as [H|H].
  - unfold digits_value. cbn [fold_left]. lia.
  - rewrite digits_value_snoc, IH.
    + pose proof (N.div_mod n 10 ltac:(done)) as Hd. revert Hd. generalize (n / 10)%N (n mod 10)%N. intros; lia.
    + assert (n / 10 <= n / 2)%N by (apply N.div_le_compat_l; lia).
      assert (N.log2 (n / 10) <= N.log2 (n / 2))%N by (by apply N.log2_le_mono).
      assert (N.log2 (n / 2) < N.log2 n)%N; [|lia].
      rewrite <- N.div2_div, N.div2_spec, N.log2_shiftr. pose proof (N.log2_le_mono 2 n). change (N.log2 2) with 1%N in *. lia.
Qed.
Lemma number_num n : forallb is_num (number n) = true.
Proof. apply digits_num. Qed.
Lemma number_nonempty n : number n <> [].
Proof. apply digits_nonempty. lia. Qed.
Lemma number_value n : digits_value (number n) = n.
Proof. apply digits_ok. lia. Qed.
Lemma integer_ok n t : (n <= u32_max)%N -> head_not is_num t -> p_integer (number n ++ t) = Some (n, t).
Proof.
  intros Hn Ht. unfold p_integer. rewrite span_app by (apply number_num || done).
  pose proof (number_nonempty n). destruct (number n) as [|d ds] eqn:E; [done|]. rewrite <- E, number_value.
  destruct (N.ltb_spec n 4294967296) as [?|Hge]; [done|]. unfold u32_max in Hn. lia.
Qed.
Lemma num_blank c : is_num c = true -> is_blank c = false.
Proof. unfold is_num, is_blank. intros H. apply andb_prop in H as [H1 H2]. apply N.leb_le in H1, H2. rewrite !orb_false_iff, !N.eqb_neq. lia. Qed.
Lemma number_head n t : head_not is_blank (number n ++ t).
Proof.
  pose proof (number_nonempty n). pose proof (number_num n). destruct (number n) as [|d ds]; [done|]. cbn in *.
  apply andb_prop in H0 as [H0 _]. by apply num_blank.
Qed.
Lemma ws_integer n t : (n <= u32_max)%N -> head_not is_num t -> ws p_integer (number n ++ t) = Some (n, skip is_blank t).
Proof. intros Hn Ht. unfold ws. rewrite skip_none by apply number_head. by rewrite integer_ok. Qed.
Lemma pair_ok a b t : (a <= u32_max)%N -> (b <= u32_max)%N -> head_not is_num t -> head_not is_blank t ->
  p_pair (number a ++ txt "," ++ number b ++ t) = Some ((a, b), t).
Proof.
  intros Ha Hb H1 H2. unfold p_pair. rewrite ws_integer by done. unfold ws_tag.
  rewrite !(skip_none is_blank (txt "," ++ _)) by done. rewrite (tag_app [44%N]). rewrite (skip_none _ (number b ++ t)) by apply number_head.
  rewrite ws_integer by done. by rewrite skip_none.
Qed.
Lemma pair_not a t : (a <= u32_max)%N -> head_not is_num t -> head_not is_blank t -> head_not (N.eqb 44) t -> p_pair (number a ++ t) = None.
Proof.
  intros Ha H1 H2 H3. unfold p_pair. rewrite ws_integer by done. unfold ws_tag. rewrite (skip_none _ t) by done. rewrite (skip_none _ t) by done.
  by rewrite tag_head.
Qed.
Lemma one_ok a t : (a <= u32_max)%N -> head_not is_num t -> head_not is_blank t -> p_one (number a ++ t) = Some ((a, a), t).
Proof. intros Ha H1 H2. unfold p_one. rewrite ws_integer by done. by rewrite skip_none. Qed.
Lemma bounds_curly a b t : (a <= u32_max)%N -> (b <= u32_max)%N ->
  alt p_pair p_one (bounds a b ++ 125%N :: t) = Some ((a, b), 125%N :: t).
Proof.
  intros Ha Hb. unfold bounds, alt. destruct (N.eqb_spec a b) as [->|Hne].
  - rewrite pair_not by done. by rewrite one_ok.
  - rewrite <- !app_assoc. by rewrite pair_ok.
Qed.
Lemma open_not a t : (a <= u32_max)%N -> head_not is_num t -> head_not is_blank t -> head_not (N.eqb 44) t -> p_open_pair (number a ++ t) = None.
Proof.
  intros Ha H1 H2 H3. unfold p_open_pair. rewrite ws_integer by done. unfold ws_tag. rewrite (skip_none _ t) by done. rewrite (skip_none _ t) by done.
  by rewrite tag_head.
Qed.
Lemma bounds_list a b t : (a <= u32_max)%N -> (b <= u32_max)%N ->
  alt p_pair (alt p_open_pair p_one) (bounds a b ++ 125%N :: t) = Some ((a, b), 125%N :: t).
Proof.
  intros Ha Hb. unfold bounds, alt. destruct (N.eqb_spec a b) as [->|Hne].
  - rewrite pair_not, open_not by done. by rewrite one_ok.
  - rewrite <- !app_assoc. by rewrite pair_ok.
Qed.
Lemma bounds_open a t : (a <= u32_max)%N -> alt p_pair (alt p_open_pair p_one) (number a ++ txt "," ++ 125%N :: t) = Some ((a, u32_max), 125%N :: t).
Proof.
  intros Ha. unfold alt, p_pair, p_open_pair. rewrite ws_integer by done. unfold ws_tag.
  rewrite !(skip_none is_blank (txt "," ++ _)) by done. rewrite (tag_app [44%N]). rewrite !(skip_none is_blank (125%N :: t)) by done.
  unfold ws. rewrite (skip_none is_blank (125%N :: t)) by done. done.
Qed.

(** ** Multipliers *)
(** the characters a component may start with *)
Definition start_char (c : N) : bool :=
  word_char c || (c =? 39)%N || (c =? 60)%N || (c =? 91)%N || (c =? 64)%N || (c =? 37)%N || (c =? 47)%N || (c =? 44)%N || (c =? 58)%N || (c =? 59)%N.
(** what may follow a component: the end of the text or of a bracket; a blank and then a component or a combinator *)
Definition after (r : str) : Prop :=
  match r with
  | [] => True
  | c :: r' => c = 93%N \/ c = 41%N \/
      (c = 32%N /\ match r' with [] => False | d :: _ => start_char d = true \/ d = 124%N \/ d = 38%N end)
  end.
Ltac chars c := destruct c as [|c]; [|do 8 (try (destruct c as [c|c|]))]; try done.
Lemma start_blank c : start_char c = true -> is_blank c = false.
Proof. intros H. destruct (is_blank c) eqn:E; [|done]. unfold is_blank in E. rewrite !orb_true_iff, !N.eqb_eq in E. destruct E as [[[-> | ->] | ->] | ->]; done. Qed.
Definition is_mult (c : N) : bool := (c =? 42)%N || (c =? 43)%N || (c =? 63)%N || (c =? 33)%N || (c =? 35)%N || (c =? 123)%N.
Lemma mult_char c : is_mult c = true -> c = 42%N \/ c = 43%N \/ c = 63%N \/ c = 33%N \/ c = 35%N \/ c = 123%N.
Proof. unfold is_mult. rewrite !orb_true_iff, !N.eqb_eq. tauto. Qed.
Lemma no_multiplier t : head_not is_mult t -> head_not (N.eqb 35) (skip is_blank t) -> p_multiplier t = None.
Proof.
  intros H1 H2. assert (alt p_hash p_curly t = None) as E.
  { unfold alt, p_hash, p_list_bounds, p_curly, ws_tag. rewrite !(tag_head 35) by done. rewrite (tag_head 123); [done|].
    eapply head_not_impl; [|exact H1]. intros c. rewrite N.eqb_eq. by intros <-. }
  unfold p_multiplier. destruct t as [|c t]; [done|]. rewrite E.
  destruct (decide (c = 42%N)) as [->|]; [done|]. destruct (decide (c = 43%N)) as [->|]; [done|].
  destruct (decide (c = 63%N)) as [->|]; [done|]. destruct (decide (c = 33%N)) as [->|]; [done|].
  clear -n n0 n1 n2. chars c.
Qed.
Lemma after_skip r : after r -> head_not is_blank (skip is_blank r) /\ head_not is_mult (skip is_blank r) /\ head_not (N.eqb 35) (skip is_blank r).
Proof.
  destruct r as [|c r]; [done|]. cbn [after]. intros [->|[->|(-> & H)]]; [done..|]. destruct r as [|d r]; [done|].
  rewrite skip_some by done. destruct H as [H|[-> | ->]]; [|done..]. rewrite skip_none by (by apply start_blank). cbn [head_not].
  split; [by apply start_blank|]. destruct (is_mult d) eqn:E.
  - apply mult_char in E as [->|[->|[->|[->|[->| ->]]]]]; done.
  - split; [done|]. destruct (N.eqb_spec 35 d) as [<-|]; done.
Qed.
Lemma after_mult r : after r -> head_not is_mult r.
Proof. destruct r as [|c r]; [done|]. cbn [after]. by intros [->|[->|(-> & H)]]. Qed.
Lemma after_none r r' : after r -> r' = r \/ r' = skip is_blank r -> p_multiplier r' = None.
Proof.
  intros Hr H. destruct (after_skip r Hr) as (H1 & H2 & H3). destruct H as [-> | ->].
  - apply no_multiplier; [by apply after_mult|done].
  - apply no_multiplier; [done|]. by rewrite skip_none.
Qed.
Lemma tag1 c t : tag [c] (c :: t) = Some t.
Proof. cbn. rewrite N.eqb_refl. by destruct t. Qed.
Lemma bounds_head a b t : head_not is_blank (bounds a b ++ t).
Proof. unfold bounds. destruct (a =? b)%N; rewrite <- ?app_assoc; apply number_head. Qed.
Lemma list_bounds_read x t : head_not is_blank x -> forall a b, alt p_pair (alt p_open_pair p_one) (x ++ 125%N :: t) = Some ((a, b), 125%N :: t) ->
  p_hash (35%N :: 123%N :: x ++ 125%N :: t) = Some (CommaRepeat (N.to_nat a) b, skip is_blank t).
Proof.
  intros Hx a b H. unfold p_hash, p_list_bounds, ws_tag. rewrite (skip_none is_blank (35%N :: _)) by done.
  change (35%N :: 123%N :: x ++ 125%N :: t) with ([35%N; 123%N] ++ (x ++ 125%N :: t)). rewrite tag_app.
  rewrite (skip_none is_blank (x ++ _)) by (by destruct x). rewrite H. rewrite (skip_none is_blank (125%N :: t)) by done. by rewrite tag1.
Qed.
(** one multiplier; [#] takes the blanks behind it *)
Definition behind (m : multiplier) (t : str) : str := match m with CommaRepeat _ _ => skip is_blank t | _ => t end.
Lemma multiplier_read m t : multiplier_ok m = true ->
  (match m with CommaRepeat 1 b => (b =? u32_max)%N | _ => false end = true -> head_not (N.eqb 123) t) ->
  p_multiplier (show_multiplier m ++ t) = Some (m, behind m t).
Proof.
  intros Hm Hh. destruct m as [| | | |a b| |a b]; try done; cbn [multiplier_ok] in Hm; apply andb_prop in Hm as [H1 H2]; apply N.leb_le in H1, H2.
  - cbn [show_multiplier]. change (txt "{") with [123%N]. change (txt "}") with [125%N]. rewrite <- !app_assoc. cbn [app]. cbn [p_multiplier].
    unfold alt at 1. unfold p_hash, p_list_bounds, ws_tag. rewrite !(skip_none is_blank (123%N :: _)) by done. rewrite !(tag_head 35) by done.
    unfold p_curly. rewrite tag1, bounds_curly, tag1 by done. by rewrite !Nat2N.id.
  - cbn [show_multiplier behind]. destruct (N.eqb_spec b u32_max) as [->|Hne].
    + destruct (Nat.eqb_spec a 1) as [->|Hne].
      * specialize (Hh eq_refl). change (txt "#") with [35%N]. cbn [app p_multiplier]. unfold alt, p_hash, p_list_bounds, ws_tag.
        rewrite (skip_none is_blank (35%N :: t)) by done. rewrite tag1.
        assert (tag [35%N; 123%N] (35%N :: t) = None) as ->; [|done]. cbn [tag]. rewrite N.eqb_refl. by apply (tag_head 123 []).
      * change (txt "#{") with [35%N; 123%N]. change (txt ",}") with [44%N; 125%N]. rewrite <- !app_assoc. cbn [app p_multiplier]. unfold alt at 1.
        change (number (N.of_nat a) ++ 44%N :: 125%N :: t) with (number (N.of_nat a) ++ [44%N] ++ 125%N :: t). rewrite app_assoc.
        rewrite (list_bounds_read _ t) with (a := N.of_nat a) (b := u32_max); [by rewrite Nat2N.id|apply number_head|].
        rewrite <- app_assoc. by apply bounds_open.
    + change (txt "#{") with [35%N; 123%N]. change (txt "}") with [125%N]. rewrite <- !app_assoc. cbn [app p_multiplier]. unfold alt at 1.
      rewrite (list_bounds_read _ t) with (a := N.of_nat a) (b := b); [by rewrite Nat2N.id| |by apply bounds_list].
      rewrite <- (app_nil_r (bounds _ _)). apply bounds_head.
Qed.
Lemma show_multiplier_head m t : multiplier_ok m = true -> exists c t', show_multiplier m ++ t = c :: t' /\ is_mult c = true.
Proof.
  destruct m as [| | | |a b| |a b]; try done; intros _; [by eexists _, _..|]. cbn [show_multiplier].
  destruct (b =? u32_max)%N; [destruct (a =? 1)|]; by eexists _, _.
Qed.
Lemma mult_blank c : is_mult c = true -> is_blank c = false.
Proof. intros H. by apply mult_char in H as [->|[->|[->|[->|[->| ->]]]]]. Qed.
Lemma show_multiplier_brace m t : multiplier_ok m = true -> match m with Between _ _ => False | _ => True end -> head_not (N.eqb 123) (show_multiplier m ++ t).
Proof.
  destruct m as [| | | |a b| |a b]; try done; intros _ _. cbn [show_multiplier].
  destruct (b =? u32_max)%N; [destruct (a =? 1)|]; done.
Qed.
Lemma show_multiplier_length m : multiplier_ok m = true -> 0 < length (show_multiplier m).
Proof. intros H. destruct (show_multiplier_head m [] H) as (c & t & E & _). rewrite app_nil_r in E. rewrite E. cbn. lia. Qed.
Lemma skip_length f t : length (skip f t) <= length t.
Proof.
  unfold skip. induction t as [|c t IH]; [done|]. cbn. destruct (f c); [|done]. destruct (span f t). cbn in *. lia.
Qed.
Definition shorter (r r' : str) : Prop := r' = r \/ r' = skip is_blank r.
Lemma p_multipliers_none fuel r : p_multiplier r = None -> p_multipliers fuel r = ([], r).
Proof. intros H. destruct fuel; [done|]. cbn. by rewrite H. Qed.
(** a run of multipliers; blanks behind it may be gone too *)
Lemma multipliers_read ms fuel r : forallb multiplier_ok ms = true -> unmistakable ms = true -> after r ->
  length (show_multipliers ms ++ r) <= fuel -> exists r', p_multipliers fuel (show_multipliers ms ++ r) = (ms, r') /\ shorter r r'.
Proof.
  revert fuel. induction ms as [|m ms IH]; intros fuel Hm Hu Hr Hf.
  - exists r. split; [|by left]. apply p_multipliers_none, (after_none r); auto.
  - cbn [forallb] in Hm. apply andb_prop in Hm as [Hm Hms].
    change (show_multipliers (m :: ms)) with (show_multiplier m ++ show_multipliers ms) in *. rewrite <- app_assoc in *.
    pose proof (show_multiplier_length m Hm) as Hl. rewrite app_length in Hf. destruct fuel as [|fuel]; [lia|]. cbn [p_multipliers].
    cbn [unmistakable] in Hu. apply andb_prop in Hu as [Hu Hus].
    destruct ms as [|m' ms].
    + clear IH. cbn [show_multipliers concat map app] in Hf |- *. rewrite multiplier_read; [|done|].
      * assert (shorter r (behind m r)) as Hs by (destruct m; (by left) || by right). exists (behind m r). split; [|done].
        rewrite p_multipliers_none; [done|]. by apply (after_none r).
      * intros _. destruct r as [|c r]; [done|]. cbn in Hr |- *. by destruct Hr as [->|[->|(-> & _)]].
    + rewrite multiplier_read; [|done|].
      * cbn [forallb] in Hms. apply andb_prop in Hms as [Hm' Hms].
        assert (behind m (show_multipliers (m' :: ms) ++ r) = show_multipliers (m' :: ms) ++ r) as Eb.
        { change (show_multipliers (m' :: ms)) with (show_multiplier m' ++ show_multipliers ms). rewrite <- app_assoc.
          destruct (show_multiplier_head m' (show_multipliers ms ++ r) Hm') as (c & t & -> & Hc).
          destruct m; cbn [behind]; try done. apply skip_none. by apply mult_blank. }
        rewrite Eb. destruct (IH fuel) as (r' & -> & Hr'); [cbn [forallb]; by rewrite Hm', Hms|done|done|lia|]. eauto.
      * intros Hc. change (show_multipliers (m' :: ms)) with (show_multiplier m' ++ show_multipliers ms). rewrite <- app_assoc.
        cbn [forallb] in Hms. apply andb_prop in Hms as [Hm' Hms]. apply show_multiplier_brace; [done|].
        destruct m as [| | | | | |[|[|?]] ?]; try done. destruct m'; try done. rewrite Hc in Hu. done.
Qed.
(** the suffix of a component, as [p_component] reads it *)
Definition with_suffix (c : component) (r : str) : component * str :=
  match p_multipliers (length r) r with ([], _) => (c, r) | (ms, r') => (set_multipliers ms c, r') end.
Lemma suffix_read c ms r t : multipliers_ok ms = true -> after r -> shorter (show_multipliers ms ++ r) t -> multipliers c = [Once] ->
  exists r', with_suffix c t = (set_multipliers ms c, r') /\ shorter r r'.
Proof.
  intros Hms Hr Ht Hc. unfold multipliers_ok in Hms. apply orb_prop in Hms as [Ho|Hms].
  - destruct ms as [|[] [|]]; try done. cbn [show_multipliers show_multiplier map concat app] in Ht. exists t.
    unfold with_suffix. rewrite p_multipliers_none by (by apply (after_none r)). split; [|done]. f_equal.
    destruct c; cbn in *; by rewrite Hc.
  - destruct ms as [|m ms]; [done|]. apply andb_prop in Hms as [Hm Hu].
    assert (t = show_multipliers (m :: ms) ++ r) as ->.
    { destruct Ht as [->| ->]; [done|]. apply skip_none. cbn [forallb] in Hm. apply andb_prop in Hm as [Hm _].
      change (show_multipliers (m :: ms)) with (show_multiplier m ++ show_multipliers ms). rewrite <- app_assoc.
      destruct (show_multiplier_head m (show_multipliers ms ++ r) Hm) as (c' & t & -> & Hc'). by apply mult_blank. }
    destruct (multipliers_read (m :: ms) (length (show_multipliers (m :: ms) ++ r)) r Hm Hu Hr) as (r' & E & Hr'); [done|].
    exists r'. split; [|done]. unfold with_suffix. by rewrite E.
Qed.

(** ** One component without its multipliers *)
Definition atom (p : parser component) : parser component :=
  alt (as_value p_unit_function) (alt p_at_keyword (alt (p_function p) (alt p_property (alt p_specific
    (alt p_literal (alt (p_enclosed 91 93 p) (alt (p_enclosed 40 41 p) (alt (as_value p_unit) (alt p_datatype p_generic))))))))).
Lemma p_component_step fuel t : p_component (S fuel) t =
  match atom (p_alternatives (p_component fuel)) t with Some (c, r) => Some (with_suffix c r) | None => None end.
Proof.
  cbn [p_component]. change (alt (as_value p_unit_function) _) with (atom (p_alternatives (p_component fuel))).
  destruct (atom _ t) as [[c r]|]; [|done]. unfold with_suffix. destruct (p_multipliers (length r) r) as [[|m ms] r']; done.
Qed.
(** what stands behind it *)
Definition tailed (x : str) : Prop :=
  match x with
  | [] => True
  | c :: r' => is_mult c = true \/ c = 93%N \/ c = 41%N \/
      (c = 32%N /\ match r' with [] => False | d :: _ => start_char d = true \/ d = 124%N \/ d = 38%N end)
  end.
Lemma tail_ok ms r : multipliers_ok ms = true -> after r -> tailed (show_multipliers ms ++ r).
Proof.
  intros Hms Hr. unfold multipliers_ok in Hms. apply orb_prop in Hms as [Ho|Hms].
  - destruct ms as [|[] [|]]; try done. cbn [show_multipliers show_multiplier map concat app]. destruct r; [done|]. cbn in *. tauto.
  - destruct ms as [|m ms]; [done|]. apply andb_prop in Hms as [Hm _]. cbn [forallb] in Hm. apply andb_prop in Hm as [Hm _].
    change (show_multipliers (m :: ms)) with (show_multiplier m ++ show_multipliers ms). rewrite <- app_assoc.
    destruct (show_multiplier_head m (show_multipliers ms ++ r) Hm) as (c & t & -> & Hc). by left.
Qed.
Lemma tailed_not (f : N -> bool) x : tailed x -> forallb (fun c => negb (f c)) [42; 43; 63; 33; 35; 123; 93; 41; 32]%N = true -> head_not f x.
Proof.
  intros Hx Hf. cbn [forallb] in Hf. rewrite !andb_true_iff, !negb_true_iff in Hf.
  destruct x as [|c x]; [done|]. cbn in Hx |- *. destruct Hx as [Hc|[->|[->|[-> _]]]]; [|tauto..].
  apply mult_char in Hc as [->|[->|[->|[->|[->| ->]]]]]; tauto.
Qed.
Lemma tailed_word x : tailed x -> head_not word_char x.
Proof. intros H. by apply tailed_not. Qed.
Lemma tailed_space x : tailed x -> skip is_space x = skip is_blank x.
Proof.
  intros H. destruct x as [|c x]; [done|]. cbn in H. destruct H as [Hc|[->|[->|[-> H]]]]; [|done..|].
  - apply mult_char in Hc as [->|[->|[->|[->|[->| ->]]]]]; done.
  - rewrite !skip_some by done. destruct x as [|d x]; [done|]. assert (is_blank d = false) as Hd by (destruct H as [H|[->| ->]]; [by apply start_blank|done..]).
    rewrite (skip_none is_blank) by done. rewrite skip_none; [done|]. cbn. unfold is_blank in Hd. unfold is_space. rewrite !orb_false_iff in *. tauto.
Qed.
Lemma start_not (f : N -> bool) d : start_char d = true -> (forall c, word_char c = true -> f c = false) ->
  forallb (fun c => negb (f c)) [39; 60; 91; 64; 37; 47; 44; 58; 59]%N = true -> f d = false.
Proof.
  intros Hd Hw Hf. cbn [forallb] in Hf. rewrite !andb_true_iff, !negb_true_iff in Hf. unfold start_char in Hd. rewrite !orb_true_iff, !N.eqb_eq in Hd.
  destruct Hd as [[[[[[[[[Hd| ->]| ->]| ->]| ->]| ->]| ->]| ->]| ->]| ->]; [by apply Hw|tauto..].
Qed.
Lemma word_not (d c : N) : word_char c = true -> word_char d = false -> (d =? c)%N = false.
Proof. intros Hc Hd. apply N.eqb_neq. congruence. Qed.
Lemma tailed_skip d x : tailed x -> is_mult d = false -> start_char d = false -> d <> 93%N -> d <> 41%N -> d <> 32%N -> d <> 124%N -> d <> 38%N ->
  head_not (N.eqb d) (skip is_blank x).
Proof.
  intros H H1 H2 H3 H4 H5 H6 H7. destruct x as [|c x]; [done|]. cbn in H. destruct H as [Hc|[->|[->|[-> H]]]].
  - rewrite skip_none by (by apply mult_blank). cbn [head_not]. apply N.eqb_neq. congruence.
  - change (head_not (N.eqb d) (93%N :: x)). cbn [head_not]. by apply N.eqb_neq.
  - change (head_not (N.eqb d) (41%N :: x)). cbn [head_not]. by apply N.eqb_neq.
  - rewrite skip_some by done. destruct x as [|e x]; [done|]. rewrite skip_none.
    + cbn [head_not]. apply N.eqb_neq. destruct H as [H|[->| ->]]; congruence.
    + cbn. destruct H as [H|[->| ->]]; [by apply start_blank|done..].
Qed.
Lemma tailed_open x : tailed x -> head_not (N.eqb 40) (skip is_blank x).
Proof. intros H. by apply tailed_skip. Qed.
(** a word *)
Lemma tag_longer w s x : forallb word_char w = true -> forallb word_char s = true -> head_not word_char x -> begins_with w s = false -> tag w (s ++ x) = None.
Proof.
  revert s. induction w as [|a w IH]; intros s Hw Hs Hx Hb.
  - by unfold begins_with in Hb.
  - cbn [forallb] in Hw. apply andb_prop in Hw as [Ha Hw]. destruct s as [|b s].
    + cbn [app]. apply tag_head. destruct x as [|c x]; [done|]. cbn in *. apply N.eqb_neq. congruence.
    + cbn [forallb] in Hs. apply andb_prop in Hs as [_ Hs]. cbn [app tag]. destruct (N.eqb_spec a b) as [->|]; [|done].
      apply IH; [done..|]. unfold begins_with in *. apply bool_decide_eq_false in Hb. apply bool_decide_eq_false. cbn in Hb. congruence.
Qed.
Lemma tag_call w s x : forallb word_char w = true -> forallb word_char s = true -> head_not word_char x -> s <> w \/ head_not (N.eqb 40) x ->
  tag (w ++ [40%N]) (s ++ x) = None.
Proof.
  revert s. induction w as [|a w IH]; intros s Hw Hs Hx Hb.
  - cbn [app]. destruct s as [|b s]; cbn [app]; apply tag_head.
    + by destruct Hb.
    + cbn [head_not]. cbn [forallb] in Hs. apply andb_prop in Hs as [Hs _]. by apply word_not.
  - cbn [forallb] in Hw. apply andb_prop in Hw as [Ha Hw]. destruct s as [|b s].
    + cbn [app]. apply tag_head. destruct x as [|c x]; [done|]. cbn in *. apply N.eqb_neq. congruence.
    + cbn [forallb] in Hs. apply andb_prop in Hs as [_ Hs]. cbn [app tag]. destruct (N.eqb_spec a b) as [->|]; [|done].
      apply IH; [done..|]. destruct Hb; [left; congruence|by right].
Qed.
Lemma keyword_read s x : is_text s = true -> head_not word_char x -> p_keyword (s ++ x) = Some (s, x).
Proof. intros Hs Hx. destruct s as [|c s]; [done|]. by apply (span1_app word_char (c :: s) x). Qed.
Lemma text_words s : is_text s = true -> forallb word_char s = true.
Proof. by destruct s. Qed.
Lemma no_unit_function s x : is_text s = true -> tailed x -> as_value p_unit_function (s ++ x) = None.
Proof.
  intros Hs Hx. unfold as_value, p_unit_function. change (txt "unit(") with (txt "unit" ++ [40%N]).
  rewrite tag_call; [done|done|by apply text_words|by apply tailed_word|]. right. by apply tailed_not.
Qed.
Lemma no_function p s x : is_text s = true -> tailed x -> p_function p (s ++ x) = None.
Proof.
  intros Hs Hx. unfold p_function. rewrite keyword_read by (try done; by apply tailed_word). unfold p_empty_args, p_enclosed, ws_tag.
  rewrite tailed_space by done. rewrite !(tag_head 40) by (by apply tailed_open). done.
Qed.
(** nothing that starts like a word can be one of the signs *)
Lemma head_word s x : is_text s = true -> exists c t, s ++ x = c :: t /\ word_char c = true.
Proof. destruct s as [|c s]; [done|]. intros H. cbn [is_text forallb] in H. apply andb_prop in H as [H _]. by exists c, (s ++ x). Qed.
Lemma word_blank c : word_char c = true -> is_blank c = false.
Proof. intros H. unfold is_blank. rewrite !orb_false_iff. rewrite !(N.eqb_sym c). by rewrite !word_not by done. Qed.
Lemma no_at t c : c <> 64%N -> p_at_keyword (c :: t) = None.
Proof. intros H. unfold p_at_keyword. chars c. Qed.
Lemma no_property t c : c <> 39%N -> p_property (c :: t) = None.
Proof. intros H. unfold p_property. rewrite tag_head; [done|]. cbn [head_not]. apply N.eqb_neq. congruence. Qed.
Lemma no_literal t c : is_blank c = false -> c <> 39%N -> c <> 47%N -> c <> 44%N -> c <> 58%N -> c <> 59%N -> p_literal (c :: t) = None.
Proof. intros Hb H1 H2 H3 H4 H5. unfold p_literal. rewrite skip_none by done. clear Hb. chars c. Qed.
Lemma no_enclosed l r p t c : is_blank c = false -> c <> l -> p_enclosed l r p (c :: t) = None.
Proof. intros Hb H. unfold p_enclosed, ws_tag. rewrite skip_none by done. rewrite tag_head; [done|]. cbn [head_not]. apply N.eqb_neq. congruence. Qed.
Lemma no_datatype t c : is_blank c = false -> c <> 60%N -> p_datatype (c :: t) = None.
Proof. intros Hb H. unfold p_datatype, ws_tag. rewrite skip_none by done. rewrite tag_head; [done|]. cbn [head_not]. apply N.eqb_neq. congruence. Qed.
Lemma no_float t : head_not is_num (skip_sign t) -> head_not (N.eqb 46) (skip_sign t) -> as_value p_unit t = None.
Proof.
  intros H1 H2. unfold as_value, p_unit, p_float, p_mantissa. destruct (skip_sign t) as [|c u]; [done|]. cbn in H1. cbn [span]. rewrite H1.
  cbn in H2. clear H1. chars c.
Qed.
Ltac word_neq := match goal with H : word_char ?c = true |- ?c <> ?d => intros ->; discriminate H end.
Lemma is_keyword_split s : is_keyword s = true -> is_text s = true /\
  (exists c r, s = c :: r /\ (is_letter c = true \/ c = 45%N /\ exists d r', r = d :: r' /\ is_letter d = true)) /\
  begins_with (txt "inherit") s = false /\ begins_with (txt "initial") s = false /\ begins_with (txt "unset") s = false.
Proof.
  unfold is_keyword. rewrite !andb_true_iff, !negb_true_iff. intros ((((H1 & H2) & H3) & H4) & H5). split; [done|]. split; [|done].
  destruct s as [|c r]; [done|]. exists c, r. split; [done|]. apply orb_prop in H2 as [H2|H2]; [by left|right]. apply andb_prop in H2 as [Hc H2].
  apply N.eqb_eq in Hc. split; [done|]. destruct r as [|d r]; [done|]. eauto.
Qed.
Lemma letter_num c : is_letter c = true -> is_num c = false.
Proof. unfold is_letter, is_num. rewrite orb_true_iff, !andb_true_iff, !N.leb_le, andb_false_iff, !N.leb_gt. lia. Qed.
Lemma letter_word c : is_letter c = true -> word_char c = true.
Proof. unfold word_char. intros ->. by rewrite orb_true_r. Qed.
Lemma num_word c : is_num c = true -> word_char c = true.
Proof. unfold word_char. by intros ->. Qed.
Lemma atom_keyword p s x : is_keyword s = true -> tailed x -> atom p (s ++ x) = Some (CKeyword s [Once], x).
Proof.
  intros Hs Hx. apply is_keyword_split in Hs as (Ht & (c & r & Es & Hc) & H1 & H2 & H3).
  unfold atom, alt. rewrite no_unit_function, no_function by done. unfold p_specific. pose proof (tailed_word x Hx).
  rewrite !tag_longer by (try done; by apply text_words).
  destruct (head_word s x Ht) as (c' & t & E & Hw). rewrite E. rewrite no_at, no_property, no_literal, !no_enclosed, no_datatype by (try word_neq; by apply word_blank).
  rewrite no_float.
  - unfold p_generic. rewrite <- E. rewrite keyword_read by done. clear -Hw. chars c'.
  - rewrite <- E, Es. cbn [app]. destruct Hc as [Hc|(-> & d & r' & -> & Hd)]; [|cbn; by apply letter_num].
    replace (skip_sign (c :: r ++ x)) with (c :: r ++ x); [cbn; by apply letter_num|]. unfold skip_sign. apply letter_word in Hc as Hc'. clear -Hc. chars c.
  - rewrite <- E, Es. cbn [app]. destruct Hc as [Hc|(-> & d & r' & -> & Hd)]; [|cbn [skip_sign app head_not]; apply word_not; [by apply letter_word|done]].
    replace (skip_sign (c :: r ++ x)) with (c :: r ++ x); [cbn [head_not]; apply word_not; [by apply letter_word|done]|]. unfold skip_sign. clear -Hc. chars c.
Qed.

Lemma atom_at p s x : is_text s = true -> tailed x -> atom p (64%N :: s ++ x) = Some (CKeyword (64%N :: s) [Once], x).
Proof.
  intros Hs Hx. unfold atom, alt. replace (as_value p_unit_function (64%N :: s ++ x)) with (@None (component * str)) by done.
  unfold p_at_keyword. by rewrite keyword_read by (try done; by apply tailed_word).
Qed.
Lemma atom_percent p x : atom p (37%N :: x) = Some (CKeyword [37%N] [Once], x).
Proof.
  unfold atom, alt. replace (as_value p_unit_function (37%N :: x)) with (@None (component * str)) by done.
  replace (p_function p (37%N :: x)) with (@None (component * str)) by done.
  rewrite no_at, no_property, no_literal, !no_enclosed, no_datatype by done. rewrite no_float by done. done.
Qed.
Lemma atom_property p s x : is_text s = true -> atom p (39%N :: s ++ 39%N :: x) = Some (CProperty s [Once], x).
Proof.
  intros Hs. unfold atom, alt. replace (as_value p_unit_function (39%N :: s ++ 39%N :: x)) with (@None (component * str)) by done.
  replace (p_function p (39%N :: s ++ 39%N :: x)) with (@None (component * str)) by done.
  rewrite no_at by done. unfold p_property. rewrite tag1. rewrite keyword_read by done. by rewrite tag1.
Qed.
Lemma atom_specific p w c x : In (w, c) [(txt "inherit", CInherit [Once]); (txt "initial", CInitial [Once]); (txt "unset", CUnset [Once])] ->
  tailed x -> atom p (w ++ x) = Some (c, x).
Proof.
  intros Hw Hx. assert (is_text w = true) as Ht by (destruct Hw as [E|[E|[E|[]]]]; by injection E as <- <-).
  unfold atom, alt. rewrite no_unit_function, no_function by done.
  destruct (head_word w x Ht) as (c' & t & E & Hc). rewrite E. rewrite no_at, no_property by word_neq. rewrite <- E. clear E Ht Hc.
  destruct Hw as [E|[E|[E|[]]]]; injection E as <- <-; reflexivity.
Qed.
Lemma atom_bare p c x : bare [c] = true -> atom p (c :: x) = Some (CLiteral [c] [Once], skip is_blank x).
Proof. cbn [bare]. rewrite !orb_true_iff, !N.eqb_eq. intros [[[->| ->]| ->]| ->]; done. Qed.
Lemma literal_no_property s x : forallb (fun c => negb (c =? 39)%N) s = true -> is_text s = false -> p_property (39%N :: s ++ 39%N :: x) = None.
Proof.
  intros Hq Ht. unfold p_property. rewrite tag1. destruct (p_keyword (s ++ 39%N :: x)) as [[k t]|] eqn:E; [|done].
  assert (head_not (N.eqb 39) t); [|by rewrite tag_head]. unfold p_keyword, span1 in E.
  change (fun c => is_num c || is_letter c || (c =? 45)%N) with word_char in E.
  assert (k <> []) as Hk by (by destruct (span word_char (s ++ 39%N :: x)) as [[|] ?]; [|injection E as <- <-]).
  assert (span word_char (s ++ 39%N :: x) = (k, t)) as Es by (destruct (span word_char (s ++ 39%N :: x)) as [[|] ?]; [done|by injection E as <- <-]).
  clear E. assert (forallb word_char s = false) as Hs.
  { destruct s as [|c s]; [|done]. cbn in Es. by injection Es as <- <-. }
  clear Ht Hk. revert k Es. induction s as [|c s IH]; intros k Es; [done|]. cbn [forallb] in Hq, Hs. apply andb_prop in Hq as [Hc Hq].
  cbn [app span] in Es. destruct (word_char c) eqn:Ew.
  - destruct (span word_char (s ++ 39%N :: x)) as [a b] eqn:E'. injection Es as <- <-. by eapply IH.
  - injection Es as <- <-. cbn [head_not]. apply negb_true_iff in Hc. by rewrite N.eqb_sym.
Qed.
Lemma span_all f a c t : forallb f a = true -> f c = false -> span f (a ++ c :: t) = (a, c :: t).
Proof. intros. by apply span_app. Qed.
Lemma atom_quoted p s x : forallb (fun c => negb (c =? 39)%N) s = true -> is_text s = false -> atom p (39%N :: s ++ 39%N :: x) = Some (CLiteral s [Once], x).
Proof.
  intros Hq Ht. unfold atom, alt. replace (as_value p_unit_function (39%N :: s ++ 39%N :: x)) with (@None (component * str)) by done.
  replace (p_function p (39%N :: s ++ 39%N :: x)) with (@None (component * str)) by done.
  rewrite no_at, literal_no_property by done. replace (p_specific (39%N :: s ++ 39%N :: x)) with (@None (component * str)) by done.
  unfold p_literal. rewrite skip_none by done. by rewrite span_all by done.
Qed.
(** digits and what follows them *)
Definition stops (x : str) : Prop := match x with [] => True | c :: _ => is_num c = false /\ c <> 46%N /\ c <> 101%N /\ c <> 69%N end.
Lemma mantissa_ok ds x : ds <> [] -> forallb is_num ds = true -> stops x -> p_mantissa (ds ++ x) = Some (ds, x).
Proof.
  intros Hd Hn Hx. unfold p_mantissa. rewrite span_app; [|done|destruct x; [done|apply Hx]].
  destruct ds as [|d ds]; [done|]. destruct x as [|c x]; [done|]. destruct Hx as (_ & Hx & _). clear -Hx. chars c.
Qed.
Lemma skip_sign_num ds x : ds <> [] -> forallb is_num ds = true -> skip_sign (ds ++ x) = ds ++ x.
Proof.
  intros Hd Hn. destruct ds as [|d ds]; [done|]. cbn [forallb] in Hn. apply andb_prop in Hn as [Hn _]. cbn [app skip_sign]. clear -Hn. chars d.
Qed.
Lemma float_ok ds x : ds <> [] -> forallb is_num ds = true -> stops x -> p_float (ds ++ x) = Some (forallb (fun c => (c =? 48)%N) ds, x).
Proof.
  intros Hd Hn Hx. unfold p_float. rewrite skip_sign_num, mantissa_ok by done. destruct x as [|c x]; [done|]. destruct Hx as (_ & _ & H1 & H2). clear -H1 H2. chars c.
Qed.
Lemma float_neg ds x : ds <> [] -> forallb is_num ds = true -> stops x -> p_float (45%N :: ds ++ x) = Some (forallb (fun c => (c =? 48)%N) ds, x).
Proof.
  intros Hd Hn Hx. unfold p_float. cbn [skip_sign]. rewrite mantissa_ok by done. destruct x as [|c x]; [done|]. destruct Hx as (_ & _ & H1 & H2). clear -H1 H2. chars c.
Qed.
Lemma tailed_stops x : tailed x -> stops x.
Proof.
  intros Hx. pose proof (tailed_not is_num x Hx eq_refl). pose proof (tailed_not (N.eqb 46) x Hx eq_refl).
  pose proof (tailed_not (N.eqb 101) x Hx eq_refl). pose proof (tailed_not (N.eqb 69) x Hx eq_refl).
  destruct x as [|c x]; [done|]. cbn [head_not stops] in *. rewrite !N.eqb_neq in *. repeat split; [done|congruence..].
Qed.
Lemma no_specific c t : is_num c = true -> p_specific (c :: t) = None.
Proof.
  intros H. unfold p_specific. change (txt "inherit") with (105%N :: txt "nherit"). change (txt "initial") with (105%N :: txt "nitial"). change (txt "unset") with (117%N :: txt "nset").
  rewrite !tag_head; [done|..]; cbn [head_not]; apply N.eqb_neq; intros <-; done.
Qed.
Lemma atom_value p v x : value_ok v = true -> tailed x -> atom p (v ++ x) = Some (CBuiltin v [] [Once], x).
Proof.
  intros Hv Hx. unfold value_ok in Hv.
  assert (exists ds u, v = ds ++ u /\ ds <> [] /\ forallb is_num ds = true /\ forallb is_letter u = true /\
    (u = [] -> v = [48%N]) /\ stops (u ++ x)) as (ds & u & Ev & Hd & Hn & Hu & Hz & Hs).
  { apply orb_prop in Hv as [Hv|Hv].
    - apply bool_decide_eq_true in Hv as ->. exists [48%N], []. repeat split; try done. by apply tailed_stops.
    - destruct (span is_num v) as [ds u] eqn:E. assert (v = ds ++ u /\ forallb is_num ds = true) as [Ev Hn].
      { clear Hv. revert ds u E. induction v as [|c v IH]; intros ds u E; cbn [span] in E; [by injection E as <- <-|].
        destruct (is_num c) eqn:Ec; [|by injection E as <- <-]. destruct (span is_num v) as [a b]. injection E as <- <-.
        destruct (IH a b eq_refl) as [-> H]. cbn [forallb]. by rewrite Ec, H. }
      exists ds, u. destruct ds as [|d ds]; [done|]. destruct u as [|c u]; [done|]. apply andb_prop in Hv as [Hu He]. repeat split; try done.
      + cbn [forallb] in Hu. apply andb_prop in Hu as [Hu _]. by apply letter_num.
      + cbn [forallb] in Hu. apply andb_prop in Hu as [Hu _]. intros ->. done.
      + intros ->. done.
      + intros ->. done. }
  assert (is_text v = true) as Ht.
  { subst v. destruct ds as [|d ds]; [done|]. cbn [is_text app]. change (d :: ds ++ u) with ((d :: ds) ++ u). rewrite forallb_app, andb_true_iff, !forallb_forall.
    rewrite forallb_forall in Hn, Hu. split; intros y Hy; [by apply num_word, Hn|by apply letter_word, Hu]. }
  unfold atom, alt. rewrite no_unit_function, no_function by done.
  assert (exists d t, v ++ x = d :: t /\ is_num d = true) as (d & t & E & Hnum).
  { subst v. destruct ds as [|d ds]; [done|]. cbn [forallb] in Hn. apply andb_prop in Hn as [Hn _]. by exists d, ((ds ++ u) ++ x). }
  assert (word_char d = true) as Hw by (by apply num_word). 
  rewrite E. rewrite no_at, no_property, no_specific, no_literal, !no_enclosed by (try done; try word_neq; by apply word_blank). rewrite <- E.
  unfold as_value, p_unit. rewrite Ev at 1. rewrite <- app_assoc. rewrite float_ok by done. destruct u as [|c u].
  - rewrite Hz by done. cbn [app]. rewrite span1_none by (by apply tailed_not). rewrite Hz, app_nil_r in Ev by done. by subst ds.
  - rewrite span1_app by (try done; by apply tailed_not). by rewrite read_app.
Qed.

(** a data type *)
Definition closing (t : str) : Prop := match t with 44%N :: _ | 93%N :: _ => True | _ => False end.
Lemma closing_cases t : closing t -> exists t', t = 44%N :: t' \/ t = 93%N :: t'.
Proof.
  destruct t as [|c t]; [done|]. exists t. destruct (decide (c = 44%N)) as [->|H1]; [by left|]. destruct (decide (c = 93%N)) as [->|H2]; [by right|].
  exfalso. cbn in H. chars c.
Qed.
Lemma no_case_head a w c t : ascii_low a <> ascii_low c -> tag_no_case (a :: w) (c :: t) = None.
Proof.
  intros H. unfold tag_no_case, same_ignoring_case. rewrite bool_decide_false; [done|]. cbn [length take map]. intros E. injection E as E _. done.
Qed.
Lemma no_case_nil a w : tag_no_case (a :: w) [] = None.
Proof. done. Qed.
Lemma no_case_second a w c t : tag_no_case w t = None -> tag_no_case (a :: w) (c :: t) = None.
Proof.
  unfold tag_no_case, same_ignoring_case. case_bool_decide as H; [done|]. intros _. rewrite bool_decide_false; [done|]. cbn [length take map]. intros E. injection E as _ E. done.
Qed.
Lemma num_low c : is_num c = true -> ascii_low c = c.
Proof. unfold ascii_low, is_num. rewrite andb_true_iff, !N.leb_le. intros [H1 H2]. destruct (65 <=? c)%N eqn:E; [|done]. apply N.leb_le in E. lia. Qed.
Lemma no_infinity_num ds t : ds <> [] -> forallb is_num ds = true -> p_infinity (ds ++ t) = None.
Proof.
  intros Hd Hn. destruct ds as [|c ds]; [done|]. cbn [forallb] in Hn. apply andb_prop in Hn as [Hn _]. cbn [app]. unfold p_infinity.
  change (txt "inf") with (105%N :: txt "nf"). change (txt "-inf") with (45%N :: txt "inf"). unfold infinity.
  rewrite !no_case_head; [done|..]; rewrite (num_low c) by done; intros <-; done.
Qed.
Lemma no_infinity_neg ds t : ds <> [] -> forallb is_num ds = true -> p_infinity (45%N :: ds ++ t) = None.
Proof.
  intros Hd Hn. destruct ds as [|c ds]; [done|]. cbn [forallb] in Hn. apply andb_prop in Hn as [Hn _]. cbn [app]. unfold p_infinity.
  change (txt "inf") with (105%N :: txt "nf"). change (txt "-inf") with (45%N :: 105%N :: txt "nf"). unfold infinity.
  rewrite (no_case_head 105), (no_case_head 226) by done. rewrite !no_case_second; [done|..]; apply no_case_head; rewrite (num_low c) by done; intros <-; done.
Qed.
Lemma no_infinity_end t : closing t -> p_infinity t = None.
Proof.
  intros H. apply closing_cases in H as (t' & [->| ->]); unfold p_infinity; change (txt "inf") with (105%N :: txt "nf"); change (txt "-inf") with (45%N :: txt "inf"); unfold infinity;
  by rewrite !no_case_head by done.
Qed.
Lemma no_case_app w t : tag_no_case w (w ++ t) = Some t.
Proof. unfold tag_no_case, same_ignoring_case. by rewrite take_app, drop_app, bool_decide_true. Qed.
Lemma closing_blank t : closing t -> skip is_blank t = t.
Proof. intros H. by apply closing_cases in H as (t' & [->| ->]). Qed.
Lemma closing_stops t : closing t -> stops t.
Proof. intros H. by apply closing_cases in H as (t' & [->| ->]). Qed.
Lemma closing_letter t : closing t -> head_not is_letter t.
Proof. intros H. by apply closing_cases in H as (t' & [->| ->]). Qed.
Lemma closing_num t : closing t -> head_not is_num t.
Proof. intros H. by apply closing_cases in H as (t' & [->| ->]). Qed.
Lemma is_int_cases s : is_int s = true -> exists ds, ds <> [] /\ forallb is_num ds = true /\ (s = ds \/ s = 45%N :: ds).
Proof.
  intros H. destruct s as [|c s]; [done|]. destruct (decide (c = 45%N)) as [->|Hc].
  - destruct s as [|d s]; [done|]. exists (d :: s). split; [done|]. split; [exact H|by right].
  - exists (c :: s). split; [done|]. split; [|by left]. cbn in H. clear -Hc H. chars c.
Qed.
Lemma int_head ds t : ds <> [] -> forallb is_num ds = true -> head_not is_blank (ds ++ t).
Proof.
  intros Hd Hn. destruct ds as [|c ds]; [done|]. cbn [forallb] in Hn. apply andb_prop in Hn as [Hn _]. by apply num_blank.
Qed.
Lemma signed_num ds t : ds <> [] -> forallb is_num ds = true -> head_not is_num t -> p_signed (ds ++ t) = Some t.
Proof.
  intros Hd Hn Ht. destruct ds as [|c ds]; [done|]. assert (p_signed (c :: ds ++ t) = match span1 is_num ((c :: ds) ++ t) with Some (_, r) => Some r | None => None end) as E.
  { cbn [forallb] in Hn. apply andb_prop in Hn as [Hn _]. clear -Hn. unfold p_signed. chars c. }
  cbn [app]. rewrite E. by rewrite span1_app.
Qed.
Lemma bound_read b t : bound_ok b = true -> closing t -> p_bound (b ++ t) = t.
Proof.
  intros Hb Ht. unfold bound_ok in Hb. destruct b as [|c b].
  - cbn [app]. unfold p_bound. rewrite closing_blank, no_infinity_end by done. apply closing_cases in Ht as (t' & [->| ->]); done.
  - rewrite !orb_true_iff in Hb. destruct Hb as [[Hb|Hb]|Hb].
    + apply is_int_cases in Hb as (ds & Hd & Hn & [->| ->]); unfold p_bound.
      * rewrite (skip_none is_blank (ds ++ t)) by (by apply int_head). rewrite no_infinity_num by done. unfold p_unit.
        rewrite float_ok by (try done; by apply closing_stops). rewrite span1_none by (by apply closing_letter).
        rewrite signed_num by (try done; by apply closing_num). rewrite closing_blank by done. case (forallb (fun c => (c =? 48)%N) ds); [by apply closing_blank|done].
      * cbn [app]. rewrite (skip_none is_blank (45%N :: ds ++ t)) by done. rewrite no_infinity_neg by done. unfold p_unit.
        rewrite float_neg by (try done; by apply closing_stops). rewrite span1_none by (by apply closing_letter).
        unfold p_signed. rewrite span1_app by (try done; by apply closing_num). rewrite closing_blank by done. case (forallb (fun c => (c =? 48)%N) ds); [by apply closing_blank|done].
    + apply bool_decide_eq_true in Hb. rewrite Hb. unfold p_bound. rewrite (skip_none is_blank (infinity ++ t)) by done. unfold p_infinity.
      change (txt "inf") with (105%N :: txt "nf"). change (tag_no_case (105%N :: txt "nf") (infinity ++ t)) with (tag_no_case (105%N :: txt "nf") (226%N :: ([136; 158]%N ++ t))).
      rewrite no_case_head, no_case_app by done. by apply closing_blank.
    + apply bool_decide_eq_true in Hb. rewrite Hb. unfold p_bound. rewrite (skip_none is_blank ((45%N :: infinity) ++ t)) by done. unfold p_infinity.
      change (txt "inf") with (105%N :: txt "nf"). change (txt "-inf") with (45%N :: 105%N :: txt "nf").
      rewrite (no_case_app (45%N :: infinity)). change ((45%N :: infinity) ++ t) with (45%N :: 226%N :: ([136; 158]%N ++ t)). unfold infinity.
      rewrite (no_case_head 105), (no_case_head 226) by done. rewrite no_case_second by (by apply no_case_head). by apply closing_blank.
Qed.
Lemma bound_blank b : bound_ok b = true -> forallb (fun c => negb (is_blank c)) b = true.
Proof.
  intros Hb. unfold bound_ok in Hb. destruct b as [|c b]; [done|]. rewrite !orb_true_iff in Hb. destruct Hb as [[Hb|Hb]|Hb].
  - assert (forall ds, forallb is_num ds = true -> forallb (fun c => negb (is_blank c)) ds = true) as Hw.
    { intros ds. rewrite !forallb_forall. intros H y Hy. by rewrite num_blank by auto. }
    apply is_int_cases in Hb as (ds & Hd & Hn & [->| ->]); [by apply Hw|]. cbn [forallb]. by rewrite Hw.
  - apply bool_decide_eq_true in Hb. by rewrite Hb.
  - apply bool_decide_eq_true in Hb. by rewrite Hb.
Qed.
Lemma filter_all (f : N -> bool) l : forallb f l = true -> List.filter f l = l.
Proof. induction l as [|c l IH]; [done|]. cbn [forallb List.filter]. intros H. apply andb_prop in H as [-> H]. by rewrite IH. Qed.
Lemma range_split rg : range_ok rg = true -> rg <> [] -> exists a b, rg = a ++ 44%N :: b /\ bound_ok a = true /\ bound_ok b = true /\ rg <> [44%N].
Proof.
  intros H Hn. unfold range_ok in H. destruct rg as [|c0 rg0]; [done|]. remember (c0 :: rg0) as rg. clear Heqrg c0 rg0.
  assert (forall a r, span (fun c => negb (c =? 44)%N) rg = (a, r) -> rg = a ++ r /\ match r with c :: _ => c = 44%N | [] => True end) as Hs.
  { clear. induction rg as [|c rg IH]; intros a r E; cbn [span] in E; [by injection E as <- <-|]. destruct (N.eqb_spec c 44) as [->|Hc]; cbn [negb] in E.
    - by injection E as <- <-.
    - destruct (span _ rg) as [a' r']. injection E as <- <-. destruct (IH a' r' eq_refl) as [-> ?]. done. }
  destruct (span _ rg) as [a r]. destruct (Hs a r eq_refl) as [E Hr]. destruct r as [|c b]; [done|]. subst c. rewrite !andb_true_iff, negb_true_iff in H.
  destruct H as [[Ha Hb] Hc]. apply bool_decide_eq_false in Hc. by exists a, b.
Qed.
Lemma range_read rg x : range_ok rg = true -> rg <> [] -> p_range (32%N :: 91%N :: rg ++ 93%N :: x) = Some (rg, skip is_blank x).
Proof.
  intros H Hn. destruct (range_split rg H Hn) as (a & b & E & Ha & Hb & Hc). unfold p_range, ws_tag. rewrite skip_some by done.
  rewrite (skip_none is_blank (91%N :: _)) by done. rewrite tag1.
  assert (head_not is_blank (rg ++ 93%N :: x)) as Hh.
  { rewrite E. apply bound_blank in Ha. destruct a as [|c a]; [done|]. cbn [forallb] in Ha. apply andb_prop in Ha as [Ha _]. by apply negb_true_iff in Ha. }
  rewrite (skip_none is_blank (rg ++ _)) by done.
  assert (p_bound (rg ++ 93%N :: x) = 44%N :: b ++ 93%N :: x) as ->. { rewrite E, <- app_assoc. by apply bound_read. }
  rewrite tag1. rewrite bound_read by done. rewrite read_app. rewrite skip_none by done. rewrite tag1.
  rewrite filter_all. { by rewrite bool_decide_false. }
  rewrite E, forallb_app, bound_blank by done. cbn [forallb]. by rewrite bound_blank.
Qed.
Lemma type_name_read s x : type_ok s = true -> head_not word_char x -> head_not (N.eqb 40) x -> p_type_name (s ++ x) = Some (s, x).
Proof.
  intros Hs Hx Ho. unfold type_ok in Hs. apply orb_prop in Hs as [Hs|Hs].
  - unfold p_type_name. rewrite keyword_read by done. by rewrite tag_head.
  - apply andb_prop in Hs as [H1 H2]. apply bool_decide_eq_true in H2. assert (s = take (length s - 2) s ++ [40%N; 41%N]) as E by (by rewrite <- H2, take_drop).
    revert H1 E. generalize (take (length s - 2) s). intros k Hk ->. rewrite <- app_assoc. unfold p_type_name. by rewrite keyword_read.
Qed.
Lemma atom_type_skip p t : atom p (60%N :: t) = p_datatype (60%N :: t) \/ p_datatype (60%N :: t) = None.
Proof.
  unfold atom, alt. replace (as_value p_unit_function (60%N :: t)) with (@None (component * str)) by done.
  replace (p_function p (60%N :: t)) with (@None (component * str)) by done. replace (p_specific (60%N :: t)) with (@None (component * str)) by done.
  rewrite no_at, no_property, no_literal, !no_enclosed by done. rewrite no_float by done. destruct (p_datatype _); [by left|by right].
Qed.
Lemma text_head s x : is_text s = true -> head_not is_blank (s ++ x).
Proof. intros H. destruct (head_word s x H) as (c & t & -> & Hc). by apply word_blank. Qed.
Lemma type_head s x : type_ok s = true -> head_not is_blank (s ++ x) /\ (exists c t, s ++ x = c :: t /\ word_char c = true).
Proof.
  intros Hs. assert (exists c t, s ++ x = c :: t /\ word_char c = true) as H.
  { unfold type_ok in Hs. apply orb_prop in Hs as [Hs|Hs]; [by apply head_word|]. apply andb_prop in Hs as [H1 H2].
    destruct (head_word _ (drop (length s - 2) s ++ x) H1) as (c & t & E & Hc). rewrite app_assoc, take_drop in E. eauto. }
  split; [|done]. destruct H as (c & t & -> & Hc). by apply word_blank.
Qed.
Lemma datatype_read s rg x : type_ok s = true -> range_ok rg = true ->
  p_datatype (show 0 (CDefinition s false rg [Once]) ++ x) = Some (CDefinition s false rg [Once], skip is_blank x).
Proof.
  intros Hs Hr. destruct (type_head s [] Hs) as [_ (c & t & E & Hc)]. rewrite app_nil_r in E. unfold p_datatype, ws_tag.
  destruct (decide (rg = [])) as [->|Hn].
  - cbn [show show_multipliers show_multiplier map concat app]. change (txt "<") with [60%N]. change (txt ">") with [62%N]. rewrite app_nil_r, <- !app_assoc. cbn [app].
    rewrite skip_none, tag1 by done. rewrite skip_none by (rewrite E; by apply word_blank). unfold alt, p_plain_type. rewrite type_name_read by done.
    unfold opt_range. replace (p_range (62%N :: x)) with (@None (str * str)) by done. by rewrite skip_none, tag1.
  - assert (show 0 (CDefinition s false rg [Once]) ++ x = 60%N :: s ++ 32%N :: 91%N :: rg ++ 93%N :: 62%N :: x) as ->.
    { destruct rg; [done|]. cbn [show show_multipliers show_multiplier map concat]. change (txt "<") with [60%N]. change (txt " [") with [32%N; 91%N]. change (txt "]>") with [93%N; 62%N].
      rewrite <- !app_assoc. done. }
    rewrite skip_none, tag1 by done. rewrite skip_none by (rewrite E; by apply word_blank). unfold alt, p_plain_type. rewrite type_name_read by done.
    unfold opt_range. rewrite range_read by done. rewrite skip_none by done. by rewrite skip_none, tag1.
Qed.
Lemma quoted_read s x : type_ok s = true ->
  p_datatype (show 0 (CDefinition s true [] [Once]) ++ x) = Some (CDefinition s true [] [Once], skip is_blank x).
Proof.
  intros Hs. destruct (type_head s [] Hs) as [_ (c & t & E & Hc)]. rewrite app_nil_r in E. unfold p_datatype, ws_tag.
  cbn [show show_multipliers show_multiplier map concat app]. change (txt "<'") with [60%N; 39%N]. change (txt "'>") with [39%N; 62%N]. rewrite app_nil_r, <- !app_assoc. cbn [app].
  rewrite skip_none, tag1 by done. rewrite skip_none by done. unfold alt. replace (p_plain_type (39%N :: s ++ 39%N :: 62%N :: x)) with (@None (str * bool * str * str)) by done.
  unfold p_quoted_type, ws_tag. rewrite skip_none, tag1 by done. rewrite skip_none by (rewrite E; by apply word_blank). rewrite type_name_read by done.
  rewrite skip_none, tag1 by done. rewrite skip_none by done. 
  unfold opt_range. replace (p_range (62%N :: x)) with (@None (str * str)) by done. by rewrite skip_none, tag1.
Qed.

(** ** Components *)
Lemma after_tailed r : after r -> tailed r.
Proof. destruct r; [done|]. cbn. tauto. Qed.
Lemma start_head_not (f : N -> bool) t : (exists d t', t = d :: t' /\ start_char d = true) -> (forall c, word_char c = true -> f c = false) ->
  forallb (fun c => negb (f c)) [39; 60; 91; 64; 37; 47; 44; 58; 59]%N = true -> head_not f t.
Proof. intros (d & t' & -> & Hd) Hw Hf. by apply (start_not f). Qed.
Lemma word_start c : word_char c = true -> start_char c = true.
Proof. unfold start_char. by intros ->. Qed.
Lemma join_cons sep x l : join sep (x :: l) = x ++ concat (map (fun y => sep ++ y) l).
Proof. revert x. induction l as [|y l IH]; intros x; [by rewrite app_nil_r|]. change (join sep (x :: y :: l)) with (x ++ sep ++ join sep (y :: l)). rewrite IH. cbn [map concat]. by rewrite <- !app_assoc. Qed.
Definition starts (t : str) : Prop := exists d t', t = d :: t' /\ start_char d = true.
Lemma starts_app t r : starts t -> starts (t ++ r).
Proof. intros (d & t' & -> & H). by exists d, (t' ++ r). Qed.
Lemma text_starts s : is_text s = true -> starts s.
Proof. intros H. destruct (head_word s [] H) as (c & t & E & Hc). rewrite app_nil_r in E. exists c, t. split; [done|by apply word_start]. Qed.
Lemma show_starts c n : writable c = true -> starts (show n c).
Proof.
  revert n. induction c as [s ms|s ms|f ms|f a ms IH|s q rg ms|ms|ms|ms|s ms|v rg ms|k cs ms IH] using component_ind'; intros n Hw;
    cbn [writable multipliers] in Hw; apply andb_prop in Hw as [Hm Hw].
  - cbn [show]. apply starts_app. unfold keyword_ok in Hw. apply orb_prop in Hw as [Hw|Hw].
    + apply is_keyword_split in Hw as [Hw _]. by apply text_starts.
    + destruct s as [|c s]; [done|]. exists c, s. split; [done|]. destruct (decide (c = 64%N)) as [->|H1]; [done|]. destruct (decide (c = 37%N)) as [->|H2]; [done|].
      exfalso. assert (bool_decide (c :: s = [37%N]) = true) as Hb by (clear -Hw H1; chars c). apply bool_decide_eq_true in Hb. congruence.
  - by eexists _, _.
  - cbn [show]. apply starts_app, text_starts. rewrite !andb_true_iff in Hw. tauto.
  - cbn [show]. apply starts_app, text_starts. rewrite !andb_true_iff in Hw. tauto.
  - destruct q, rg; by eexists _, _.
  - by eexists _, _.
  - by eexists _, _.
  - by eexists _, _.
  - cbn [show]. apply starts_app. unfold literal_ok in Hw. destruct (bare s) eqn:Hb; [|by eexists _, _].
    destruct s as [|c [|]]; try done. exists c, []. split; [done|]. cbn [bare] in Hb. rewrite !orb_true_iff, !N.eqb_eq in Hb. destruct Hb as [[[->| ->]| ->]| ->]; done.
  - cbn [show]. apply starts_app. apply andb_prop in Hw as [Hw _]. unfold value_ok in Hw. apply orb_prop in Hw as [Hw|Hw].
    + apply bool_decide_eq_true in Hw as ->. by eexists _, _.
    + destruct v as [|c v]; [done|]. cbn [span] in Hw. exists c, v. split; [done|]. destruct (is_num c) eqn:E; [by apply word_start, num_word|done].
  - cbn [show]. destruct (once ms && (n <=? level k)); [|by eexists _, _]. apply andb_prop in Hw as [Hw Hl]. destruct cs as [|c cs]; [done|].
    cbn [map]. rewrite join_cons. apply starts_app. apply Forall_cons_1 in IH as [IH _]. apply IH. cbn [forallb] in Hw. by apply andb_prop in Hw as [Hw _].
Qed.
Definition reads (p : parser component) (t : str) (c : component) (r : str) : Prop := exists r', p (t ++ r) = Some (c, r') /\ shorter r r'.
Lemma reads_suffix p fuel t c ms r : multipliers_ok ms = true -> after r -> multipliers c = [Once] -> p = p_alternatives (p_component fuel) ->
  (forall x, tailed x -> exists x', atom p (t ++ x) = Some (c, x') /\ shorter x x') ->
  reads (p_component (S fuel)) (t ++ show_multipliers ms) (set_multipliers ms c) r.
Proof.
  intros Hms Hr Hc -> Ha. unfold reads. rewrite <- app_assoc, p_component_step. destruct (Ha (show_multipliers ms ++ r)) as (x' & -> & Hx); [by apply tail_ok|].
  destruct (suffix_read c ms r x' Hms Hr Hx Hc) as (r' & -> & Hr'). eauto.
Qed.
Lemma shorter_refl x : shorter x x.
Proof. by left. Qed.
Lemma atom_function p f x : is_text f = true -> f <> txt "unit" -> tailed x -> atom p (f ++ 40%N :: 41%N :: x) = Some (CFunction f None [Once], skip is_blank x).
Proof.
  intros Hf Hu Hx. unfold atom, alt. assert (as_value p_unit_function (f ++ 40%N :: 41%N :: x) = None) as ->.
  { unfold as_value, p_unit_function. change (txt "unit(") with (txt "unit" ++ [40%N]). rewrite tag_call; [done|done|by apply text_words|done|by left]. }
  destruct (head_word f (40%N :: 41%N :: x) Hf) as (c & t & E & Hc). rewrite E. rewrite no_at by word_neq. rewrite <- E.
  unfold p_function. rewrite keyword_read by done. unfold p_empty_args. rewrite (skip_none is_space (40%N :: _)), tag1 by done. rewrite (skip_none is_space (41%N :: _)), tag1 by done.
  by rewrite tailed_space.
Qed.
Lemma word_space c : word_char c = true -> is_space c = false.
Proof. intros H. unfold is_space. rewrite !orb_false_iff. rewrite !(N.eqb_sym c). by rewrite !word_not by done. Qed.
Lemma atom_call p f t a x : is_text f = true -> f <> txt "unit" -> starts t -> reads p t a (41%N :: x) ->
  atom p (f ++ 40%N :: t ++ 41%N :: x) = Some (CFunction f (Some a) [Once], skip is_blank x).
Proof.
  intros Hf Hu Ht (r' & Ea & Hr). unfold atom, alt. assert (as_value p_unit_function (f ++ 40%N :: t ++ 41%N :: x) = None) as ->.
  { unfold as_value, p_unit_function. change (txt "unit(") with (txt "unit" ++ [40%N]). rewrite tag_call; [done|done|by apply text_words|done|by left]. }
  destruct (head_word f (40%N :: t ++ 41%N :: x) Hf) as (c & u & E & Hc). rewrite E. rewrite no_at by word_neq. rewrite <- E.
  unfold p_function. rewrite keyword_read by done. apply (starts_app _ (41%N :: x)) in Ht.
  assert (p_empty_args (40%N :: t ++ 41%N :: x) = None) as ->.
  { unfold p_empty_args. rewrite (skip_none is_space (40%N :: _)), tag1 by done. rewrite skip_none by (apply start_head_not; [done|apply word_space|done]).
    rewrite tag_head; [done|]. apply start_head_not; [done|intros; by apply word_not|done]. }
  unfold p_enclosed, ws_tag, ws. rewrite (skip_none is_blank (40%N :: _)), tag1 by done.
  rewrite !(skip_none is_blank (t ++ _)) by (apply start_head_not; [done|apply word_blank|done]). rewrite Ea.
  assert (r' = 41%N :: x) as -> by (by destruct Hr). rewrite !(skip_none is_blank (41%N :: _)) by done. by rewrite tag1.
Qed.
Lemma atom_group p t c x : starts t -> reads p t c (93%N :: x) -> atom p (91%N :: t ++ 93%N :: x) = Some (c, skip is_blank x).
Proof.
  intros Ht (r' & Ea & Hr). apply (starts_app _ (93%N :: x)) in Ht. unfold atom, alt.
  replace (as_value p_unit_function (91%N :: t ++ 93%N :: x)) with (@None (component * str)) by done.
  replace (p_function p (91%N :: t ++ 93%N :: x)) with (@None (component * str)) by done. replace (p_specific (91%N :: t ++ 93%N :: x)) with (@None (component * str)) by done.
  rewrite no_at, no_property, no_literal by done. unfold p_enclosed, ws_tag. rewrite (skip_none is_blank (91%N :: _)), tag1 by done.
  rewrite (skip_none is_blank (t ++ _)) by (apply start_head_not; [done|apply word_blank|done]). rewrite Ea.
  assert (r' = 93%N :: x) as -> by (by destruct Hr). rewrite (skip_none is_blank (93%N :: _)) by done. by rewrite tag1.
Qed.

(** ** Lists of components *)
Definition combinator (n : nat) : group := match n with 0 => ExactlyOne | 1 => AtLeastOneAnyOrder | 2 => AllAnyOrder | _ => Juxtaposition end.
Definition mark (n : nat) : str := match n with 0 => [124%N] | 1 => [124%N; 124%N] | _ => [38%N; 38%N] end.
(** the reader of each level *)
Definition lev (n : nat) (p : parser component) : parser component :=
  match n with
  | 0 => p_alternatives p
  | 1 => p_list AtLeastOneAnyOrder [124%N; 124%N] (p_list AllAnyOrder [38%N; 38%N] (p_juxtaposition p))
  | 2 => p_list AllAnyOrder [38%N; 38%N] (p_juxtaposition p)
  | 3 => p_juxtaposition p
  | _ => p
  end.
(** what may follow a list of that level *)
Definition follow (n : nat) (r : str) : Prop :=
  match r with
  | [] => True
  | c :: r' => c = 93%N \/ c = 41%N \/
      (c = 32%N /\ match r' with
                  | [] => False
                  | d :: r'' => 1 <= n /\ d = 124%N /\ (exists u, r'' = 32%N :: u) \/ 2 <= n /\ d = 124%N /\ (exists u, r'' = 124%N :: u) \/
                               3 <= n /\ d = 38%N /\ (exists u, r'' = 38%N :: u) \/ 4 <= n /\ start_char d = true
                  end)
  end.
Lemma follow_after n r : follow n r -> after r.
Proof. destruct r as [|c [|d r]]; [done|cbn; tauto|]. cbn. intuition. Qed.
Lemma follow_up n r : follow n r -> follow (S n) r.
Proof. destruct r as [|c [|d r]]; [done|cbn; tauto|]. cbn. intuition (try lia). Qed.
Lemma mark_none n r t : n < 3 -> follow n r -> shorter r t -> ws_tag (mark n) t = None.
Proof.
  intros Hn Hf Ht. assert (skip is_blank t = skip is_blank r) as E.
  { destruct Ht as [->| ->]; [done|]. apply skip_none. apply follow_after in Hf. by apply after_skip in Hf as [? _]. }
  unfold ws_tag. rewrite E. clear E Ht t. destruct r as [|c r]; [by destruct n as [|[|[|]]]|]. cbn [follow] in Hf. destruct Hf as [->|[->|[-> Hf]]].
  - by destruct n as [|[|[|]]].
  - by destruct n as [|[|[|]]].
  - rewrite skip_some by done. destruct r as [|d r]; [done|]. destruct Hf as [(H1 & -> & u & ->)|[(H1 & -> & u & ->)|[(H1 & -> & u & ->)|[H1 _]]]]; [| | |lia];
      rewrite skip_none by done; destruct n as [|[|[|]]]; try done; lia.
Qed.
Lemma lev_list n p : n < 3 -> lev n p = p_list (combinator n) (mark n) (lev (S n) p).
Proof. intros H. destruct n as [|[|[|]]]; [done..|lia]. Qed.
Lemma after_space r : after r -> skip is_space r = skip is_blank r.
Proof. intros H. by apply tailed_space, after_tailed. Qed.
Lemma shorter_space n r t : follow n r -> shorter r t -> skip is_space t = skip is_blank r.
Proof.
  intros Hf Ht. apply follow_after in Hf. pose proof (after_space r Hf) as E. destruct Ht as [->| ->]; [done|].
  apply skip_none. pose proof (after_skip r Hf) as (H & _). eapply head_not_impl; [|exact H]. intros c. unfold is_space, is_blank. rewrite !orb_true_iff. tauto.
Qed.
Lemma follow_ends r : follow 3 r -> ends_list (skip is_blank r) = true.
Proof.
  destruct r as [|c r]; [done|]. cbn [follow]. intros [->|[->|[-> H]]]; [done..|]. rewrite skip_some by done. destruct r as [|d r]; [done|].
  destruct H as [(_ & -> & u & ->)|[(_ & -> & u & ->)|[(_ & -> & u & ->)|[H _]]]]; [done..|lia].
Qed.
(** the items of a list, each behind its sign *)
Definition rest_of (n : nat) (cs : list component) : str := concat (map (fun c => sign (combinator n) ++ show (S n) c) cs).
Definition item_ok (n : nat) (p : parser component) (c : component) : Prop :=
  starts (show (S n) c) /\ forall r, follow (S n) r -> reads (lev (S n) p) (show (S n) c) c r.
Lemma follow_sign n t r : n <= 3 -> starts t -> follow (S n) (sign (combinator n) ++ t ++ r).
Proof.
  intros Hn (d & t' & -> & Hd). destruct n as [|[|[|[|]]]]; [| | | |lia]; cbn; right; right; (split; [done|]).
  - left. split; [lia|]. split; [done|]. eauto.
  - right; left. split; [lia|]. split; [done|]. eauto.
  - right; right; left. split; [lia|]. split; [done|]. eauto.
  - right; right; right. split; [lia|done].
Qed.
Lemma follow_rest n p cs r : n <= 3 -> Forall (item_ok n p) cs -> follow n r -> follow (S n) (rest_of n cs ++ r).
Proof.
  intros Hn Hcs Hr. destruct cs as [|c cs]; [by apply follow_up|]. apply Forall_cons_1 in Hcs as [[Hs _] _].
  unfold rest_of. cbn [map concat]. rewrite <- !app_assoc. by apply follow_sign.
Qed.
Lemma sign_mark n t r x : n < 3 -> starts t -> shorter (sign (combinator n) ++ t ++ r) x -> ws_tag (mark n) x = Some (t ++ r).
Proof.
  intros Hn Ht Hx. assert (head_not is_blank (t ++ r)) as Hb by (apply start_head_not; [by apply starts_app|apply word_blank|done]).
  assert (skip is_blank x = mark n ++ 32%N :: t ++ r) as E by (destruct n as [|[|[|]]]; [| | |lia]; by destruct Hx as [->| ->]).
  unfold ws_tag. rewrite E, tag_app. rewrite skip_some by done. by rewrite skip_none.
Qed.
Lemma starts_length t : starts t -> 0 < length t.
Proof. intros (d & t' & -> & _). cbn. lia. Qed.
Lemma more_read n p cs fuel r x : n < 3 -> Forall (item_ok n p) cs -> follow n r -> shorter (rest_of n cs ++ r) x -> length cs <= fuel ->
  exists r', more fuel (ws_tag (mark n)) (lev (S n) p) x = (cs, r') /\ shorter r r'.
Proof.
  intros Hn. revert fuel x. induction cs as [|c cs IH]; intros fuel x Hcs Hr Hx Hf.
  - cbn [rest_of map concat app] in Hx. exists x. split; [|done]. destruct fuel; [done|]. cbn [more]. by rewrite (mark_none n r).
  - destruct fuel as [|fuel]; [cbn in Hf; lia|]. cbn [length] in Hf. cbn [more]. pose proof Hcs as Hcs0. apply Forall_cons_1 in Hcs as [[Hs Hc] Hcs].
    change (rest_of n (c :: cs)) with ((sign (combinator n) ++ show (S n) c) ++ rest_of n cs) in Hx. rewrite <- !app_assoc in Hx.
    rewrite (sign_mark n _ _ x Hn Hs Hx). destruct (Hc (rest_of n cs ++ r)) as (t2 & -> & Ht2); [by eapply follow_rest; [lia|..]|].
    destruct (IH fuel t2 Hcs Hr Ht2) as (r' & -> & Hr'); [lia|]. eauto.
Qed.
Lemma rest_length n p cs : Forall (item_ok n p) cs -> length cs <= length (rest_of n cs).
Proof.
  induction 1 as [|c cs [Hs _] _ IH]; [done|]. unfold rest_of. cbn [map concat length]. fold (rest_of n cs). rewrite !app_length.
  apply starts_length in Hs. lia.
Qed.
Lemma juxta_read p cs fuel c r x : item_ok 3 p c -> Forall (item_ok 3 p) cs -> follow 3 r -> skip is_space x = show 4 c ++ rest_of 3 cs ++ r -> length cs < fuel ->
  p_juxta fuel p x = Some (c :: cs, skip is_blank r).
Proof.
  revert fuel c x. induction cs as [|c' cs IH]; intros fuel c x [Hs Hc] Hcs Hr Hx Hf; (destruct fuel as [|fuel]; [lia|]); cbn [p_juxta]; rewrite Hx.
  - cbn [rest_of map concat app]. destruct (Hc r) as (t1 & E & Ht1); [by apply follow_up|]. cbn [lev] in E. rewrite E.
    rewrite (shorter_space 3 r t1) by done. by rewrite follow_ends.
  - cbn [length] in Hf. destruct (Hc (rest_of 3 (c' :: cs) ++ r)) as (t1 & E & Ht1); [by eapply follow_rest; [lia|..]|]. cbn [lev] in E. rewrite E.
    apply Forall_cons_1 in Hcs as [Hc' Hcs]. destruct Hc' as [Hs' Hc'].
    assert (skip is_space t1 = show 4 c' ++ rest_of 3 cs ++ r) as E1.
    { change (rest_of 3 (c' :: cs)) with ((32%N :: show 4 c') ++ rest_of 3 cs) in Ht1. rewrite <- !app_assoc in Ht1. cbn [app] in Ht1.
      assert (head_not is_blank (show 4 c' ++ rest_of 3 cs ++ r)) as Hb by (apply start_head_not; [by apply starts_app|apply word_blank|done]).
      assert (head_not is_space (show 4 c' ++ rest_of 3 cs ++ r)) as Hb' by (apply start_head_not; [by apply starts_app|apply word_space|done]).
      destruct Ht1 as [->| ->].
      - rewrite skip_some by done. by apply skip_none.
      - rewrite skip_some by done. rewrite (skip_none is_blank) by done. by apply skip_none. }
    rewrite E1. assert (ends_list (show 4 c' ++ rest_of 3 cs ++ r) = false) as ->.
    { destruct Hs' as (d & t' & -> & Hd). cbn [app ends_list]. clear -Hd. chars d. }
    rewrite (IH fuel c'); [done|done|done|done| |lia]. rewrite <- E1. apply skip_none. rewrite E1. apply start_head_not; [by apply starts_app|apply word_space|done].
Qed.
Lemma list_read n p c cs r : n <= 3 -> item_ok n p c -> Forall (item_ok n p) cs -> follow n r ->
  reads (lev n p) (show (S n) c ++ rest_of n cs) (grouped (combinator n) (c :: cs)) r.
Proof.
  intros Hn Hc Hcs Hr. unfold reads. rewrite <- app_assoc. destruct (decide (n = 3)) as [->|Hn3].
  - cbn [lev combinator]. unfold p_juxtaposition. rewrite (juxta_read p cs _ c r); [| done..| |].
    + exists (skip is_blank r). split; [done|by right].
    + apply skip_none. destruct Hc as [Hs _]. apply start_head_not; [by apply starts_app|apply word_space|done].
    + rewrite !app_length. pose proof (rest_length 3 p cs Hcs). lia.
  - rewrite lev_list by lia. unfold p_list, separated. destruct Hc as [Hs Hc]. destruct (Hc (rest_of n cs ++ r)) as (t1 & -> & Ht1); [by eapply follow_rest|].
    assert (length cs <= length t1) as Hl.
    { destruct Ht1 as [->| ->].
      - rewrite app_length. pose proof (rest_length n p cs Hcs). lia.
      - destruct cs as [|c' cs]; [cbn; lia|]. pose proof Hcs as Hcs'. apply Forall_cons_1 in Hcs as [[Hs' _] Hcs]. pose proof (rest_length n p cs Hcs) as Hl.
        unfold rest_of. cbn [map concat]. fold (rest_of n cs). rewrite <- !app_assoc. cbn [length]. apply starts_length in Hs'.
        assert (forall y, skip is_blank (sign (combinator n) ++ y) = mark n ++ 32%N :: y) as Hy by (intros y; destruct n as [|[|[|]]]; [done..|lia]).
        rewrite Hy, !app_length. cbn [length]. rewrite !app_length. lia. }
    destruct (more_read n p cs (length t1) r t1) as (r' & -> & Hr'); [lia|done..|]. eauto.
Qed.
Lemma down n p c r : n <= 3 -> item_ok n p c -> show n c = show (S n) c -> follow n r -> reads (lev n p) (show n c) c r.
Proof.
  intros Hn Hc E Hr. rewrite E. pose proof (list_read n p c [] r Hn Hc (Forall_nil_2 _) Hr) as H. by rewrite app_nil_r in H.
Qed.

Lemma show_bracketed n c : (match c with CGroup k _ ms => once ms && (n <=? level k) | _ => false end) = false -> show n c = show 4 c.
Proof.
  destruct c as [s ms|s ms|f a ms|s q rg ms|ms|ms|ms|s ms|v rg ms|k cs ms]; intros H; try done. cbn [show]. rewrite H.
  replace (once ms && (4 <=? level k)) with false; [done|]. symmetry. apply andb_false_iff. right. by destruct k.
Qed.
Lemma combinator_level k : combinator (level k) = k.
Proof. by destruct k. Qed.
Lemma level_le k : level k <= 3.
Proof. destruct k; cbn; lia. Qed.
Lemma item_length c x l (f : component -> str) sep : In x l -> length (f x) <= length (f c ++ concat (map (fun y => sep ++ f y) l)).
Proof.
  intros H. rewrite app_length. induction l as [|y l IH]; [done|]. cbn [map concat]. rewrite !app_length. destruct H as [->|H]; [lia|]. specialize (IH H). lia.
Qed.
(** from the unary form to all the levels below it *)
Lemma all_levels p c : starts (show 4 c) -> (forall r, after r -> reads p (show 4 c) c r) ->
  forall n, n <= 4 -> (match c with CGroup k _ ms => once ms && (n <=? level k) | _ => false end) = false -> forall r, follow n r -> reads (lev n p) (show n c) c r.
Proof.
  intros Hs Hp. assert (forall d n, n + d = 4 -> (match c with CGroup k _ ms => once ms && (n <=? level k) | _ => false end) = false ->
    forall r, follow n r -> reads (lev n p) (show n c) c r) as H.
  { induction d as [|d IH]; intros n Hn Hb r Hr.
    - assert (n = 4) as -> by lia. cbn [lev]. apply Hp. by eapply follow_after.
    - assert ((match c with CGroup k _ ms => once ms && (S n <=? level k) | _ => false end) = false) as Hb'.
      { destruct c; try done. apply andb_false_iff in Hb as [->|Hb]; [done|]. apply andb_false_iff. right. apply Nat.leb_gt in Hb. apply Nat.leb_gt. lia. }
      apply down; [lia| | |done].
      + split; [by rewrite show_bracketed|]. intros r' Hr'. apply IH; [lia|done|done].
      + by rewrite (show_bracketed n), (show_bracketed (S n)). }
  intros n Hn Hb. apply (H (4 - n)); [lia|done].
Qed.
(** the three kinds of reading of a group *)
Lemma group_body p k c cs : Forall (fun c => writable c = true /\ forall r, follow (S (level k)) r -> reads (lev (S (level k)) p) (show (S (level k)) c) c r) (c :: cs) ->
  cs <> [] -> forallb writable (c :: cs) = true -> forall n r, n <= level k -> follow n r ->
  reads (lev n p) (show n (CGroup k (c :: cs) [Once])) (CGroup k (c :: cs) [Once]) r.
Proof.
  intros Hcs Hn Hw. assert (Forall (item_ok (level k) p) (c :: cs)) as Hi.
  { eapply Forall_impl; [exact Hcs|]. intros x [Hx Hx']. split; [by apply show_starts|done]. }
  assert (forall n, n <= level k -> show n (CGroup k (c :: cs) [Once]) = join (sign k) (map (show (S (level k))) (c :: cs))) as Eb.
  { intros n Hle. cbn [show once andb]. apply Nat.leb_le in Hle. by rewrite Hle. }
  assert (starts (join (sign k) (map (show (S (level k))) (c :: cs)))) as Hs.
  { cbn [map]. rewrite join_cons. apply starts_app. apply Forall_cons_1 in Hi as [[? _] _]. done. }
  assert (forall d n, n + d = level k -> forall r, follow n r -> reads (lev n p) (show n (CGroup k (c :: cs) [Once])) (CGroup k (c :: cs) [Once]) r) as H.
  { induction d as [|d IH]; intros n Hd r Hr.
    - assert (n = level k) as -> by lia. rewrite Eb by done. apply Forall_cons_1 in Hi as [Hc Hi]. pose proof (list_read (level k) _ c cs r (level_le k) Hc Hi Hr) as H.
      rewrite combinator_level in H. cbn [map]. rewrite join_cons. rewrite map_map. unfold rest_of in H. rewrite combinator_level in H.
      replace (grouped k (c :: cs)) with (CGroup k (c :: cs) [Once]) in H by (by destruct cs). done.
    - pose proof (level_le k). apply down; [lia| | |done].
      + split; [rewrite Eb by lia; done|]. intros r' Hr'. apply IH; [lia|done].
      + rewrite !Eb by lia. done. }
  intros n r Hle Hr. apply (H (level k - n)); [lia|done].
Qed.
Theorem component_read c : writable c = true -> forall n fuel r, n <= 4 -> follow n r -> length (show n c) < fuel -> reads (lev n (p_component fuel)) (show n c) c r.
Proof.
  induction c as [s ms|s ms|f ms|f a ms IH|s q rg ms|ms|ms|ms|s ms|v rg ms|k cs ms IH] using component_ind'; intros Hw n fuel r Hn Hr Hf;
    pose proof Hw as Hw0; cbn [writable multipliers] in Hw; apply andb_prop in Hw as [Hm Hw];
    pose proof (show_starts _ 4 Hw0) as Hs; (destruct fuel as [|fuel]; [lia|]).
  - apply all_levels; [done| |done|done|done]. intros r' Hr'. cbn [show]. change (CKeyword s ms) with (set_multipliers ms (CKeyword s [Once])).
    eapply reads_suffix; [done..|]. intros x Hx. exists x. split; [|by left]. unfold keyword_ok in Hw. apply orb_prop in Hw as [Hw|Hw]; [by apply atom_keyword|].
    destruct s as [|c s]; [done|]. destruct (decide (c = 64%N)) as [->|H1]; [by apply atom_at|].
    assert (bool_decide (c :: s = [37%N]) = true) as Hb by (clear -Hw H1; chars c). apply bool_decide_eq_true in Hb. rewrite Hb. apply atom_percent.
  - apply all_levels; [done| |done|done|done]. intros r' Hr'. cbn [show]. change (CProperty s ms) with (set_multipliers ms (CProperty s [Once])). rewrite !app_assoc.
    eapply reads_suffix; [done..|]. intros x Hx. exists x. split; [|by left]. change (txt "'") with [39%N]. rewrite <- !app_assoc. by apply atom_property.
  - apply all_levels; [done| |done|done|done]. intros r' Hr'. cbn [show]. change (CFunction f None ms) with (set_multipliers ms (CFunction f None [Once])). rewrite !app_assoc.
    eapply reads_suffix; [done..|]. intros x Hx. exists (skip is_blank x). split; [|by right]. rewrite !andb_true_iff, negb_true_iff in Hw. destruct Hw as [[Hw Hu] _].
    apply bool_decide_eq_false in Hu. change (txt "()") with [40%N; 41%N]. rewrite <- !app_assoc. by apply atom_function.
  - apply all_levels; [done| |done|done|done]. intros r' Hr'. cbn [show]. change (CFunction f (Some a) ms) with (set_multipliers ms (CFunction f (Some a) [Once])). rewrite !app_assoc.
    eapply reads_suffix; [done..|]. intros x Hx. exists (skip is_blank x). split; [|by right]. rewrite !andb_true_iff, negb_true_iff in Hw. destruct Hw as [[Hw Hu] Ha].
    apply bool_decide_eq_false in Hu. change (txt "(") with [40%N]. change (txt ")") with [41%N]. rewrite <- !app_assoc. cbn [app].
    apply atom_call; [done|done|by apply show_starts|]. apply (IH Ha 0 fuel); [lia|cbn; tauto|]. cbn [show] in Hf. rewrite !app_length in Hf. cbn [length txt] in Hf. 
    change (length (txt "(")) with 1 in Hf. change (length (txt ")")) with 1 in Hf. lia.
  - apply all_levels; [done| |done|done|done]. intros r' Hr'. rewrite !andb_true_iff in Hw. destruct Hw as [[Ht Hrg] Hq].
    assert (show 4 (CDefinition s q rg ms) = show 0 (CDefinition s q rg [Once]) ++ show_multipliers ms) as ->.
    { destruct q, rg; cbn [show]; rewrite <- ?app_assoc; cbn [show_multipliers show_multiplier map concat app]; rewrite <- ?app_assoc; done. }
    change (CDefinition s q rg ms) with (set_multipliers ms (CDefinition s q rg [Once])).
    eapply reads_suffix; [done..|]. intros x Hx. exists (skip is_blank x). split; [|by right].
    assert (p_datatype (show 0 (CDefinition s q rg [Once]) ++ x) = Some (CDefinition s q rg [Once], skip is_blank x)) as E.
    { destruct q; [|by apply datatype_read]. cbn [negb orb] in Hq. apply bool_decide_eq_true in Hq as ->. by apply quoted_read. }
    rewrite <- E. assert (exists t, show 0 (CDefinition s q rg [Once]) ++ x = 60%N :: t) as [t Et] by (destruct q, rg; by eexists).
    rewrite Et in *. destruct (atom_type_skip (p_alternatives (p_component fuel)) t) as [H|H]; [done|congruence].
  - apply all_levels; [done| |done|done|done]. intros r' Hr'. cbn [show]. change (CInherit ms) with (set_multipliers ms (CInherit [Once])).
    eapply reads_suffix; [done..|]. intros x Hx. exists x. split; [|by left]. apply atom_specific; [cbn; tauto|done].
  - apply all_levels; [done| |done|done|done]. intros r' Hr'. cbn [show]. change (CInitial ms) with (set_multipliers ms (CInitial [Once])).
    eapply reads_suffix; [done..|]. intros x Hx. exists x. split; [|by left]. apply atom_specific; [cbn; tauto|done].
  - apply all_levels; [done| |done|done|done]. intros r' Hr'. cbn [show]. change (CUnset ms) with (set_multipliers ms (CUnset [Once])).
    eapply reads_suffix; [done..|]. intros x Hx. exists x. split; [|by left]. apply atom_specific; [cbn; tauto|done].
  - apply all_levels; [done| |done|done|done]. intros r' Hr'. cbn [show]. change (CLiteral s ms) with (set_multipliers ms (CLiteral s [Once])).
    eapply reads_suffix; [done..|]. intros x Hx. unfold literal_ok in Hw. destruct (bare s) eqn:Hb.
    + exists (skip is_blank x). split; [|by right]. destruct s as [|c [|]]; try done. by apply atom_bare.
    + exists x. split; [|by left]. cbn [orb] in Hw. apply andb_prop in Hw as [H1 H2]. apply negb_true_iff in H2. change (txt "'") with [39%N]. rewrite <- !app_assoc. by apply atom_quoted.
  - apply all_levels; [done| |done|done|done]. intros r' Hr'. cbn [show]. apply andb_prop in Hw as [Hv Hrg]. apply bool_decide_eq_true in Hrg as ->.
    change (CBuiltin v [] ms) with (set_multipliers ms (CBuiltin v [] [Once])).
    eapply reads_suffix; [done..|]. intros x Hx. exists x. split; [|by left]. by apply atom_value.
  - apply andb_prop in Hw as [Hw Hl]. destruct cs as [|c [|c' cs]]; [done..|]. remember (c' :: cs) as cs' eqn:Ecs. assert (cs' <> []) as Hne by (by subst). clear Hl Ecs c'. rename cs' into cs0.
    assert (forall fuel, length (join (sign k) (map (show (S (level k))) (c :: cs0))) < fuel -> Forall (fun c => writable c = true /\
      forall r, follow (S (level k)) r -> reads (lev (S (level k)) (p_component fuel)) (show (S (level k)) c) c r) (c :: cs0)) as Hitems.
    { intros fuel' Hf'. rewrite Forall_forall in IH |- *. intros x Hx. assert (writable x = true) as Hwx.
      { rewrite forallb_forall in Hw. apply Hw. by apply elem_of_list_In. }
      split; [done|]. intros r' Hr'. apply IH; [done|done|pose proof (level_le k); lia|done|]. cbn [map] in Hf'. rewrite join_cons, map_map in Hf'.
      apply elem_of_cons in Hx as [->|Hx]; [rewrite app_length in Hf'; lia|]. apply elem_of_list_In in Hx.
      pose proof (item_length c x cs0 (show (S (level k))) (sign k) Hx). lia. }
    destruct (once ms && (n <=? level k)) eqn:Hb.
    + apply andb_prop in Hb as [Ho Hlv]. apply Nat.leb_le in Hlv. assert (ms = [Once]) as -> by (destruct ms as [|[] [|]]; done).
      apply group_body; [|done..]. apply Hitems. cbn [show once andb] in Hf. by rewrite (proj2 (Nat.leb_le _ _) Hlv) in Hf.
    + assert (forall n, once ms && (n <=? level k) = false -> show n (CGroup k (c :: cs0) ms) = (91%N :: show 0 (CGroup k (c :: cs0) [Once]) ++ [93%N]) ++ show_multipliers ms) as Es.
      { intros m Hbm. cbn [show]. rewrite Hbm. cbn [once andb Nat.leb]. change (txt "[") with [91%N]. change (txt "]") with [93%N]. cbn [app]. by rewrite <- app_assoc. }
      apply all_levels; [done| |done|done|done]. intros r' Hr'.
      assert (once ms && (4 <=? level k) = false) as Hb4 by (apply andb_false_iff; right; by destruct k). rewrite (Es 4 Hb4).
      change (CGroup k (c :: cs0) ms) with (set_multipliers ms (CGroup k (c :: cs0) [Once])).
      eapply reads_suffix; [done..|]. intros x Hx. exists (skip is_blank x). split; [|by right]. cbn [app]. rewrite <- app_assoc.
      assert (forallb writable (c :: cs0) && (2 <=? length (c :: cs0)) = true) as Hwg by (rewrite Hw; by destruct cs0).
      apply atom_group; [apply show_starts; exact Hwg|]. change (p_alternatives (p_component fuel)) with (lev 0 (p_component fuel)). apply (group_body (p_component fuel) k c cs0); [|done|done|lia|cbn; tauto]. apply Hitems.
      rewrite (Es n Hb) in Hf. rewrite !app_length in Hf. cbn [length] in Hf. rewrite app_length in Hf. cbn [show once andb Nat.leb length] in Hf. lia.
Qed.
Theorem notation_read c : writable c = true -> compile (notation c) = Some [c].
Proof.
  intros Hw. pose proof (show_starts c 0 Hw) as Hs. unfold compile, notation.
  assert (skip is_blank (show 0 c) = show 0 c) as Es by (apply skip_none, start_head_not; [done|apply word_blank|done]).
  rewrite Es. destruct (component_read c Hw 0 (S (length (show 0 c))) []) as (r' & E & Hr); [lia|done|lia|]. rewrite app_nil_r in E. cbn [lev] in E.
  assert (r' = []) as -> by (by destruct Hr). rewrite E. destruct Hs as (d & t & -> & _). done.
Qed.

(** ** The grammars the engine is compiled with *)
Definition reads_back (t : str) : bool :=
  match compile t with Some [c] => writable c && text_eqb (unblank (notation c)) (unblank t) | _ => false end.
Lemma reads_back_ok t : reads_back t = true -> exists c, compile t = Some [c] /\ writable c = true /\ unblank (notation c) = unblank t.
Proof.
  unfold reads_back. destruct (compile t) as [[|c [|]]|]; try done. intros H. apply andb_prop in H as [Hw He]. exists c. split; [done|]. split; [done|]. by apply text_eqb_ok.
Qed.
Lemma shipped_read_back : length (List.filter reads_back shipped_texts) = 1115.
Proof. by vm_compute. Qed.
Lemma filter_sublist {A} (f : A -> bool) (l : list A) : sublist (List.filter f l) l.
Proof. induction l as [|x l IH]; [constructor|]. cbn. destruct (f x); by constructor. Qed.
Lemma shipped_value i e : value_texts !! i = Some e -> In e value_texts.
Proof. intros H. apply elem_of_list_In. by eapply elem_of_list_lookup_2. Qed.
