(** Rust's [f64] and [f32], bit for bit (up to the payload of a NaN): IEEE 754
    binary64 and binary32 as Flocq defines them, rounding to nearest, ties to even.
    Every operation used by the scroll and tile code is given here with the Rust
    operation it stands for. *)
From Coq Require Import ZArith.
From Flocq Require Import Core IEEE754.BinarySingleNaN.
From Verif Require Import Base.

Local Open Scope Z_scope.

(** Rust [f64] / [f32]. NaNs are one value: no code modelled here reads a payload. *)
Notation f64 := (binary_float 53 1024).
Notation f32 := (binary_float 24 128).

Definition prec64 : Prec_gt_0 53 := eq_refl.
Definition emax64 : Prec_lt_emax 53 1024 := eq_refl.
Definition prec32 : Prec_gt_0 24 := eq_refl.
Definition emax32 : Prec_lt_emax 24 128 := eq_refl.

(** [a + b], [a - b], [a * b], [a / b] on [f64]. *)
Definition fadd : f64 -> f64 -> f64 := @Bplus 53 1024 prec64 emax64 mode_NE.
Definition fsub : f64 -> f64 -> f64 := @Bminus 53 1024 prec64 emax64 mode_NE.
Definition fmul : f64 -> f64 -> f64 := @Bmult 53 1024 prec64 emax64 mode_NE.
Definition fdiv : f64 -> f64 -> f64 := @Bdiv 53 1024 prec64 emax64 mode_NE.
(** [-a], [a.abs()]. *)
Definition fneg : f64 -> f64 := Bopp.
Definition fabs : f64 -> f64 := Babs.

(** [a < b], [a <= b], [a == b]: false as soon as one side is a NaN. *)
Definition flt : f64 -> f64 -> bool := Bltb.
Definition fle : f64 -> f64 -> bool := Bleb.
Definition feq : f64 -> f64 -> bool := Beqb.

(** An integer as [f64], rounded ([z as f64]). *)
Definition fz (z : Z) : f64 := binary_normalize 53 1024 prec64 emax64 mode_NE z 0 false.
(** The literal [n / d], rounded once: [0.064] is [flit 64 1000]. Both integers must be
    below 2^53, so that they are exact and the quotient is the literal correctly rounded. *)
Definition flit (n d : Z) : f64 := fdiv (fz n) (fz d).

Definition f0 : f64 := B754_zero false.
(** [f64::MAX] *)
Definition fmax_value : f64 := @Bmax_float 53 1024 prec64 emax64.

(** [f64::max], [f64::min]: the other operand when one is a NaN. (For [max(0.0, -0.0)] Rust
    promises either zero; here the second is taken. The sign of a zero is never observed below.) *)
Definition fmax (a b : f64) : f64 :=
  if is_nan a then b else if is_nan b then a else if fle a b then b else a.
Definition fmin (a b : f64) : f64 :=
  if is_nan a then b else if is_nan b then a else if fle b a then b else a.

(** [f64::clamp]: asserts [lo <= hi] (false for NaNs); a NaN stays a NaN. *)
Definition fclamp (x lo hi : f64) : res f64 :=
  if fle lo hi then Ok (if flt x lo then lo else if flt hi x then hi else x) else Panic.

(** [f64::round] (half away from zero), [ceil], [floor]. *)
Definition fround : f64 -> f64 := @Bnearbyint 53 1024 emax64 mode_NA.
Definition fceil : f64 -> f64 := @Bnearbyint 53 1024 emax64 mode_UP.

(** [x as i32]: saturating, NaN is 0. *)
Definition to_i32 (x : f64) : Z :=
  match x with
  | B754_nan => 0
  | B754_zero _ => 0
  | B754_infinity true => - 2 ^ 31
  | B754_infinity false => 2 ^ 31 - 1
  | B754_finite _ _ _ _ => Z.max (- 2 ^ 31) (Z.min (2 ^ 31 - 1) (Btrunc x))
  end.

(** [x as u32]: saturating, NaN is 0. *)
Definition to_u32 (x : f64) : Z :=
  match x with
  | B754_nan => 0
  | B754_zero _ => 0
  | B754_infinity true => 0
  | B754_infinity false => 2 ^ 32 - 1
  | B754_finite _ _ _ _ => Z.max 0 (Z.min (2 ^ 32 - 1) (Btrunc x))
  end.

(** [f64 as f32] (rounded) and [f32 as f64] (exact). *)
Definition to_f32 (x : f64) : f32 :=
  match x with
  | B754_nan => B754_nan
  | B754_zero s => B754_zero s
  | B754_infinity s => B754_infinity s
  | B754_finite s m e _ =>
      binary_normalize 24 128 prec32 emax32 mode_NE (SpecFloat.cond_Zopp s (Zpos m)) e s
  end.
Definition of_f32 (x : f32) : f64 :=
  match x with
  | B754_nan => B754_nan
  | B754_zero s => B754_zero s
  | B754_infinity s => B754_infinity s
  | B754_finite s m e _ =>
      binary_normalize 53 1024 prec64 emax64 mode_NE (SpecFloat.cond_Zopp s (Zpos m)) e s
  end.

(** The same operations on [f32]. *)
Definition gadd : f32 -> f32 -> f32 := @Bplus 24 128 prec32 emax32 mode_NE.
Definition gsub : f32 -> f32 -> f32 := @Bminus 24 128 prec32 emax32 mode_NE.
Definition gmul : f32 -> f32 -> f32 := @Bmult 24 128 prec32 emax32 mode_NE.
Definition gdiv : f32 -> f32 -> f32 := @Bdiv 24 128 prec32 emax32 mode_NE.
Definition gabs : f32 -> f32 := Babs.
Definition glt : f32 -> f32 -> bool := Bltb.
Definition gle : f32 -> f32 -> bool := Bleb.
Definition gz (z : Z) : f32 := binary_normalize 24 128 prec32 emax32 mode_NE z 0 false.
Definition glit (n d : Z) : f32 := gdiv (gz n) (gz d).
Definition gmax (a b : f32) : f32 :=
  if is_nan a then b else if is_nan b then a else if gle a b then b else a.
(** [f32::clamp] with literal bounds [0.0] and [1.0]. *)
Definition gclamp01 (x : f32) : f32 :=
  if glt x (gz 0) then gz 0 else if glt (gz 1) x then gz 1 else x.
Definition gceil : f32 -> f32 := @Bnearbyint 24 128 emax32 mode_UP.
Definition gfloor : f32 -> f32 := @Bnearbyint 24 128 emax32 mode_DN.
