(** What smooth scrolling promises (C46), without reference to animators. *)
From Coq Require Import ZArith Reals.
From Flocq Require Import Core IEEE754.BinarySingleNaN.
From Verif Require Import Base F64 F64Facts ScrollModel.

Section spec.
  Context {A : Type}.

  (** The nearest point of the page to [x], the page reaching from 0 to [hi]. *)
  Definition within (x hi : f64) : f64 := if flt x f0 then f0 else if flt hi x then hi else x.

  (** Where the user has asked the page to be: wheel deltas add up, held inside the page each
      time; a jump goes where it says. Time and the animation style play no part. *)
  Definition goal_step (g : f64 * f64) (c : @call A) : f64 * f64 :=
    match c with
    | CScroll dx dy mx my => (within (fadd g.1 dx) mx, within (fadd g.2 dy) my)
    | CReset x y => (x, y)
    | CTick _ | CBehavior _ => g
    end.
  Definition goal (cs : list (@call A)) : f64 * f64 := foldl goal_step (f0, f0) cs.

  (** The page bounds given with the last scroll, unless a jump came after it. *)
  Definition bounds_step (o : option (f64 * f64)) (c : @call A) : option (f64 * f64) :=
    match c with
    | CScroll _ _ mx my => Some (mx, my)
    | CReset _ _ => None
    | CTick _ | CBehavior _ => o
    end.
  Definition bounds (cs : list (@call A)) : option (f64 * f64) := foldl bounds_step None cs.

  (** The style in force. *)
  Definition style_step (b : @behavior A) (c : @call A) : @behavior A :=
    match c with CBehavior b' => b' | _ => b end.
  Definition style (b : @behavior A) (cs : list (@call A)) : @behavior A := foldl style_step b cs.

  (** Calls a caller can make sensibly: deltas are numbers (infinite ones included), page sizes
      are finite and not negative, jumps go to finite places; the passed time is anything. *)
  Definition sensible (c : @call A) : Prop :=
    match c with
    | CScroll dx dy mx my =>
        num dx /\ num dy /\ finite mx /\ finite my /\ (0 <= place mx)%R /\ (0 <= place my)%R
    | CReset x y => finite x /\ finite y
    | CTick _ | CBehavior _ => True
    end.

  Definition keeps_style (c : @call A) : Prop := match c with CBehavior _ => False | _ => True end.

  (** The nearest whole pixels, halves away from zero, as far as 32 bits reach. *)
  Definition pixel (x : f64) : Z := to_i32 (fround x).

  (** The offset on the screen: what the last call that said something said. *)
  Definition shown_step (p : Z * Z) (c : @call A) (o : option (Z * Z)) : Z * Z :=
    match o with
    | Some q => q
    | None => match c with CReset x y => (pixel x, pixel y) | _ => p end
    end.
  Fixpoint shown_from (p : Z * Z) (cs : list (@call A)) (os : list (option (Z * Z))) : Z * Z :=
    match cs, os with
    | c :: cs, o :: os => shown_from (shown_step p c o) cs os
    | _, _ => p
    end.
  Definition shown := shown_from (0, 0)%Z.
End spec.

(** Real seconds of a duration. *)
Definition seconds (d : duration) : R := (IZR (secs d) + IZR (nanos d) / 1000000000)%R.
Definition duration_ok (d : duration) : Prop :=
  (0 <= secs d < 2 ^ 64 /\ 0 <= nanos d < 1000000000)%Z.

(** The time that passes in a row of ticks. *)
Definition elapsed (dts : list f64) : R := foldr (fun dt s => place dt + s)%R 0%R dts.
Definition forward (dt : f64) : Prop := num dt /\ (0 <= place dt)%R.
