(** Facts about [f64] used by the proofs: its order is the order of the reals extended with
    two infinities, and addition and subtraction round monotonically. *)
From Coq Require Import ZArith Reals Lra Lia.
From Flocq Require Import Core IEEE754.BinarySingleNaN.
From Flocq Require Import Plus_error Relative.
From Verif Require Import Base F64.

Local Open Scope R_scope.

(** A number: anything but a NaN. *)
Definition num (x : f64) : Prop := is_nan x = false.
Definition finite (x : f64) : Prop := is_finite x = true.

Definition big : R := bpow radix2 1024.

(** The place of a number on the real line, the infinities at its ends. *)
Definition place (x : f64) : R :=
  match x with
  | B754_infinity true => - big
  | B754_infinity false => big
  | _ => B2R x
  end.

Lemma big_pos : 0 < big.
Proof. apply bpow_gt_0. Qed.

Lemma finite_num x : finite x -> num x.
Proof. by destruct x. Qed.

Lemma place_finite x : finite x -> place x = B2R x.
Proof. by destruct x as [|[]| |]. Qed.

Lemma B2R_lt_big (x : f64) : - big < B2R x < big.
Proof.
  pose proof (abs_B2R_lt_emax 53 1024 x) as H.
  apply Rabs_lt_inv in H. exact H.
Qed.

Lemma place_finite_bound x : finite x -> - big < place x < big.
Proof. intros H. rewrite (place_finite x H). apply B2R_lt_big. Qed.

Lemma flt_place a b : num a -> num b -> flt a b = true <-> place a < place b.
Proof.
  intros Ha Hb. unfold flt.
  destruct (is_finite a) eqn:Fa, (is_finite b) eqn:Fb.
  - rewrite (Bltb_correct 53 1024 a b Fa Fb), (place_finite a Fa), (place_finite b Fb).
    case Rlt_bool_spec; intros; split; intros; try done; lra.
  - pose proof (place_finite_bound a Fa). pose proof big_pos.
    destruct b as [|[]| |]; try done; unfold place at 2;
      destruct a as [[]|[]| |[]]; try done; cbn -[big B2R] in *; split; intros; try done; lra.
  - pose proof (place_finite_bound b Fb). pose proof big_pos.
    destruct a as [|[]| |]; try done; unfold place at 1;
      destruct b as [[]|[]| |[]]; try done; cbn -[big B2R] in *; split; intros; try done; lra.
  - pose proof big_pos.
    destruct a as [|[]| |], b as [|[]| |]; try done; cbn -[big]; split; intros; try done; lra.
Qed.

Lemma fle_place a b : num a -> num b -> fle a b = true <-> place a <= place b.
Proof.
  intros Ha Hb. unfold fle.
  destruct (is_finite a) eqn:Fa, (is_finite b) eqn:Fb.
  - rewrite (Bleb_correct 53 1024 a b Fa Fb), (place_finite a Fa), (place_finite b Fb).
    case Rle_bool_spec; intros; split; intros; try done; lra.
  - pose proof (place_finite_bound a Fa). pose proof big_pos.
    destruct b as [|[]| |]; try done; unfold place at 2;
      destruct a as [[]|[]| |[]]; try done; cbn -[big B2R] in *; split; intros; try done; lra.
  - pose proof (place_finite_bound b Fb). pose proof big_pos.
    destruct a as [|[]| |]; try done; unfold place at 1;
      destruct b as [[]|[]| |[]]; try done; cbn -[big B2R] in *; split; intros; try done; lra.
  - pose proof big_pos.
    destruct a as [|[]| |], b as [|[]| |]; try done; cbn -[big]; split; intros; try done; lra.
Qed.

Lemma feq_place a b : num a -> num b -> feq a b = true <-> place a = place b.
Proof.
  intros Ha Hb. unfold feq.
  destruct (is_finite a) eqn:Fa, (is_finite b) eqn:Fb.
  - rewrite (Beqb_correct 53 1024 a b Fa Fb), (place_finite a Fa), (place_finite b Fb).
    case Req_bool_spec; intros; split; intros; try done; lra.
  - pose proof (place_finite_bound a Fa). pose proof big_pos.
    destruct b as [|[]| |]; try done; unfold place at 2;
      destruct a as [[]|[]| |[]]; try done; cbn -[big B2R] in *; split; intros; try done; lra.
  - pose proof (place_finite_bound b Fb). pose proof big_pos.
    destruct a as [|[]| |]; try done; unfold place at 1;
      destruct b as [[]|[]| |[]]; try done; cbn -[big B2R] in *; split; intros; try done; lra.
  - pose proof big_pos.
    destruct a as [|[]| |], b as [|[]| |]; try done; cbn -[big]; split; intros; try done; lra.
Qed.

Lemma flt_num a b : flt a b = true -> num a /\ num b.
Proof. destruct a, b; done. Qed.
Lemma fle_num a b : fle a b = true -> num a /\ num b.
Proof. destruct a, b; done. Qed.
Lemma feq_num a b : feq a b = true -> num a /\ num b.
Proof. destruct a, b; done. Qed.

Lemma flt_nan_false a b : num a -> num b -> flt a b = false <-> place b <= place a.
Proof.
  intros Ha Hb. pose proof (flt_place a b Ha Hb). destruct (flt a b).
  - split; [done|]. intros. destruct H as [H _]. specialize (H eq_refl). lra.
  - split; [|done]. intros _. apply Rnot_lt_le. intros L. apply H in L. done.
Qed.

Lemma fle_false a b : num a -> num b -> fle a b = false <-> place b < place a.
Proof.
  intros Ha Hb. pose proof (fle_place a b Ha Hb). destruct (fle a b).
  - split; [done|]. intros. destruct H as [H _]. specialize (H eq_refl). lra.
  - split; [|done]. intros _. apply Rnot_le_lt. intros L. apply H in L. done.
Qed.

(** Rounding to nearest even in binary64, without overflow. *)
Definition rnd (r : R) : R := round radix2 (SpecFloat.fexp 53 1024) ZnearestE r.

Local Instance fexp_valid : Valid_exp (SpecFloat.fexp 53 1024).
Proof. apply (fexp_correct 53 1024 prec64). Qed.

Lemma rnd_le x y : x <= y -> rnd x <= rnd y.
Proof. apply round_le; apply _. Qed.

Lemma rnd_place x : finite x -> rnd (place x) = place x.
Proof.
  intros F. rewrite (place_finite x F). apply round_generic; [apply _|].
  apply generic_format_B2R.
Qed.

Lemma rnd_0 : rnd 0 = 0.
Proof. apply round_0; apply _. Qed.

Lemma overflow_place (z : f64) s :
  B2SF z = binary_overflow 53 1024 mode_NE s -> num z /\ place z = if s then - big else big.
Proof. intros H. destruct z as [|[]| |]; cbn in H; try done; by destruct s. Qed.

Lemma Bsign_place (x : f64) : finite x ->
  (Bsign x = true -> place x <= 0) /\ (Bsign x = false -> 0 <= place x).
Proof.
  intros F. rewrite (place_finite x F).
  destruct x as [|[]| |s m e H]; try done; cbn.
  - split; intros; lra.
  - destruct s; cbn -[big]; split; intros; try done.
    + apply F2R_le_0; done.
    + apply F2R_ge_0; done.
Qed.

Lemma fadd_place a b : finite a -> finite b ->
  num (fadd a b) /\
  (Rabs (rnd (place a + place b)) < big /\ finite (fadd a b) /\
     place (fadd a b) = rnd (place a + place b) \/
   big <= rnd (place a + place b) /\ place (fadd a b) = big \/
   rnd (place a + place b) <= - big /\ place (fadd a b) = - big).
Proof.
  intros Fa Fb. pose proof (Bplus_correct 53 1024 prec64 emax64 mode_NE a b Fa Fb) as H.
  rewrite (place_finite a Fa), (place_finite b Fb). unfold rnd, big.
  cbn [round_mode] in H. fold (fadd a b) in H.
  revert H. case Rlt_bool_spec; intros L H.
  - destruct H as (E & F & _). split; [by apply finite_num|]. left.
    rewrite (place_finite (fadd a b) F). done.
  - destruct H as [H S]. apply overflow_place in H as [N P]. split; [done|]. right.
    destruct (Bsign_place a Fa) as [A1 A2], (Bsign_place b Fb) as [B1 B2].
    rewrite (place_finite a Fa) in A1, A2. rewrite (place_finite b Fb) in B1, B2.
    rewrite P. unfold big.
    destruct (Bsign a).
    + right. split; [|done]. specialize (A1 eq_refl). specialize (B1 (eq_sym S)).
      assert (rnd (B2R a + B2R b) <= 0) as Z.
      { rewrite <- rnd_0. apply rnd_le. lra. }
      unfold rnd in Z. rewrite Rabs_left1 in L by exact Z. lra.
    + left. split; [|done]. specialize (A2 eq_refl). specialize (B2 (eq_sym S)).
      assert (0 <= rnd (B2R a + B2R b)) as Z.
      { rewrite <- rnd_0. apply rnd_le. lra. }
      unfold rnd in Z. rewrite Rabs_pos_eq in L by exact Z. lra.
Qed.

Lemma fsub_place a b : finite a -> finite b ->
  num (fsub a b) /\
  (Rabs (rnd (place a - place b)) < big /\ finite (fsub a b) /\
     place (fsub a b) = rnd (place a - place b) \/
   big <= rnd (place a - place b) /\ place (fsub a b) = big \/
   rnd (place a - place b) <= - big /\ place (fsub a b) = - big).
Proof.
  intros Fa Fb. pose proof (Bminus_correct 53 1024 prec64 emax64 mode_NE a b Fa Fb) as H.
  rewrite (place_finite a Fa), (place_finite b Fb). unfold rnd, big.
  cbn [round_mode] in H. fold (fsub a b) in H.
  revert H. case Rlt_bool_spec; intros L H.
  - destruct H as (E & F & _). split; [by apply finite_num|]. left.
    rewrite (place_finite (fsub a b) F). done.
  - destruct H as [H S]. apply overflow_place in H as [N P]. split; [done|]. right.
    destruct (Bsign_place a Fa) as [A1 A2], (Bsign_place b Fb) as [B1 B2].
    rewrite (place_finite a Fa) in A1, A2. rewrite (place_finite b Fb) in B1, B2.
    rewrite P. unfold big.
    destruct (Bsign a).
    + right. split; [|done]. specialize (A1 eq_refl). specialize (B2 ltac:(by destruct (Bsign b))).
      assert (rnd (B2R a - B2R b) <= 0) as Z.
      { rewrite <- rnd_0. apply rnd_le. lra. }
      unfold rnd in Z. rewrite Rabs_left1 in L by exact Z. lra.
    + left. split; [|done]. specialize (A2 eq_refl). specialize (B1 ltac:(by destruct (Bsign b))).
      assert (0 <= rnd (B2R a - B2R b)) as Z.
      { rewrite <- rnd_0. apply rnd_le. lra. }
      unfold rnd in Z. rewrite Rabs_pos_eq in L by exact Z. lra.
Qed.

Lemma place_bound x : num x -> - big <= place x <= big.
Proof.
  intros N. pose proof big_pos. destruct (is_finite x) eqn:F.
  - pose proof (place_finite_bound x F). lra.
  - destruct x as [|[]| |]; try done; cbn -[big]; lra.
Qed.

(** Adding something non-negative to a finite number never moves below it. *)
Lemma fadd_ge a b : finite a -> num b -> 0 <= place b -> num (fadd a b) /\ place a <= place (fadd a b).
Proof.
  intros Fa Nb Hb. destruct (is_finite b) eqn:Fb.
  - destruct (fadd_place a b Fa Fb) as [N [(_ & _ & E)|[[_ E]|[L E]]]]; split; try done; rewrite E.
    + rewrite <- (rnd_place a Fa) at 1. apply rnd_le. lra.
    + apply place_bound. by apply finite_num.
    + assert (place a <= rnd (place a + place b)).
      { rewrite <- (rnd_place a Fa) at 1. apply rnd_le. lra. }
      pose proof (place_finite_bound a Fa). lra.
  - pose proof big_pos. pose proof (place_finite_bound a Fa).
    destruct b as [|[]| |]; try done; cbn -[big] in Hb; [lra|].
    destruct a as [|[]| |]; try done; split; try done; cbn -[big B2R] in *; lra.
Qed.

Lemma fsub_le a b : finite a -> num b -> 0 <= place b -> num (fsub a b) /\ place (fsub a b) <= place a.
Proof.
  intros Fa Nb Hb. destruct (is_finite b) eqn:Fb.
  - destruct (fsub_place a b Fa Fb) as [N [(_ & _ & E)|[[L E]|[_ E]]]]; split; try done; rewrite E.
    + rewrite <- (rnd_place a Fa) at 2. apply rnd_le. lra.
    + assert (rnd (place a - place b) <= place a).
      { rewrite <- (rnd_place a Fa) at 2. apply rnd_le. lra. }
      pose proof (place_finite_bound a Fa). lra.
    + apply place_bound. by apply finite_num.
  - pose proof big_pos. pose proof (place_finite_bound a Fa).
    destruct b as [|[]| |]; try done; cbn -[big] in Hb; [lra|].
    destruct a as [|[]| |]; try done; split; try done; cbn -[big B2R] in *; lra.
Qed.

Lemma fadd_num a b : finite a -> num b -> num (fadd a b).
Proof.
  intros Fa Nb. destruct (is_finite b) eqn:Fb; [by apply fadd_place|].
  destruct a as [|[]| |], b as [|[]| |]; done.
Qed.

(** One addition of non-negative numbers loses at most a relative 2^-53. *)
Lemma fadd_loss a b : finite a -> num b -> 0 <= place a -> 0 <= place b ->
  num (fadd a b) /\
  (place (fadd a b) = big \/ finite (fadd a b) /\
     (place a + place b) * (1 - bpow radix2 (-53)) <= place (fadd a b)).
Proof.
  intros Fa Nb Ha Hb. destruct (is_finite b) eqn:Fb.
  - destruct (fadd_place a b Fa Fb) as [N [(_ & F & E)|[[_ E]|[L E]]]]; split; try done.
    + right. split; [done|]. rewrite E. unfold rnd.
      destruct (@FLT_plus_error_N_ex radix2 (SpecFloat.emin 53 1024) 53 prec64
                  (fun x => negb (Z.even x)) (place a) (place b)) as (eps & He & Hr).
      * rewrite (place_finite a Fa). apply (generic_format_B2R 53 1024).
      * rewrite (place_finite b Fb). apply (generic_format_B2R 53 1024).
      * change (SpecFloat.fexp 53 1024) with (FLT_exp (SpecFloat.emin 53 1024) 53).
        rewrite Hr. apply Rmult_le_compat_l; [lra|].
        assert (u_ro radix2 53 / (1 + u_ro radix2 53) <= bpow radix2 (-53)) as U.
        { unfold u_ro. replace (/ 2) with (bpow radix2 (-1)) by reflexivity.
          rewrite <- bpow_plus. change (-1 + (- (53) + 1))%Z with (-53)%Z.
          pose proof (bpow_gt_0 radix2 (-53)).
          apply Rmult_le_reg_r with (1 + bpow radix2 (-53)); [lra|].
          unfold Rdiv. rewrite Rmult_assoc, Rinv_l, Rmult_1_r by lra. nra. }
        apply Rabs_le_inv in He. lra.
    + by left.
    + exfalso. assert (0 <= rnd (place a + place b)).
      { rewrite <- rnd_0. apply rnd_le. lra. }
      pose proof big_pos. lra.
  - pose proof big_pos. destruct b as [|[]| |]; try done; cbn -[big] in Hb; [lra|].
    destruct a as [|[]| |]; try done; split; try done; by left.
Qed.

Lemma fmin_place a b : num a -> num b ->
  num (fmin a b) /\ place (fmin a b) = Rmin (place a) (place b).
Proof.
  intros Na Nb. unfold fmin. rewrite Na, Nb. pose proof (fle_place b a Nb Na) as H.
  destruct (fle b a) eqn:E.
  - split; [done|]. symmetry. apply Rmin_right. by apply H.
  - apply fle_false in E; [|done|done]. split; [done|]. symmetry. apply Rmin_left. lra.
Qed.

Lemma fmax_place a b : num a -> num b ->
  num (fmax a b) /\ place (fmax a b) = Rmax (place a) (place b).
Proof.
  intros Na Nb. unfold fmax. rewrite Na, Nb. pose proof (fle_place a b Na Nb) as H.
  destruct (fle a b) eqn:E.
  - split; [done|]. symmetry. apply Rmax_right. by apply H.
  - apply fle_false in E; [|done|done]. split; [done|]. symmetry. apply Rmax_left. lra.
Qed.

Lemma finite_place x : num x -> finite x <-> - big < place x < big.
Proof.
  intros N. split; [apply place_finite_bound|].
  destruct x as [|[]| |]; try done; cbn -[big]; intros; lra.
Qed.
