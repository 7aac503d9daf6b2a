(** Model of smooth scrolling: crates/gosub_engine/src/engine/tab/scroll.rs and
    crates/gosub_shared/src/animation.rs, on exact [f64]/[f32] arithmetic (F64.v). *)
From Coq Require Import ZArith.
From Flocq Require Import IEEE754.BinarySingleNaN.
From Verif Require Import Base F64.

Local Open Scope Z_scope.

(** animation.rs:15-26 [StepPosition]. *)
Inductive step_position := JumpStart | JumpEnd | JumpNone | JumpBoth.

(** animation.rs:32-62 [Easing]. A custom curve is any function. *)
Inductive easing :=
| Linear
| Smoothstep
| Ease
| EaseIn
| EaseOut
| EaseInOut
| CubicBezier (x1 y1 x2 y2 : f32)
| Steps (n : Z) (p : step_position)
| Bounce
| Elastic
| CustomCurve (f : f32 -> f32).

(** animation.rs:102-155 [cubic_bezier]: Newton steps, then bisection. *)
Section bezier.
  Context (x1 y1 x2 y2 t : f32).
  Let cx := gmul (gz 3) x1.
  Let bx := gsub (gmul (gz 3) (gsub x2 x1)) cx.
  Let ax := gsub (gsub (gz 1) cx) bx.
  Let cy := gmul (gz 3) y1.
  Let by_ := gsub (gmul (gz 3) (gsub y2 y1)) cy.
  Let ay := gsub (gsub (gz 1) cy) by_.
  (** animation.rs:119 [sample_x] *)
  Definition sample_x (s : f32) : f32 := gmul (gadd (gmul (gadd (gmul ax s) bx) s) cx) s.
  (** animation.rs:120 [sample_dx] *)
  Definition sample_dx (s : f32) : f32 :=
    gadd (gmul (gadd (gmul (gmul (gz 3) ax) s) (gmul (gz 2) bx)) s) cx.
  (** animation.rs:121 [sample_y] *)
  Definition sample_y (s : f32) : f32 := gmul (gadd (gmul (gadd (gmul ay s) by_) s) cy) s.

  (** The literal [1e-6]. *)
  Definition tiny : f32 := glit 1 1000000.

  (** animation.rs:140-153: the bisection loop, [k] rounds left. *)
  Fixpoint bisect (k : nat) (lo hi s : f32) : f32 :=
    match k with
    | O => s
    | S k =>
        let x := sample_x s in
        if glt (gabs (gsub x t)) tiny then s
        else if glt x t then bisect k s hi (gmul (gadd s hi) (glit 1 2))
        else bisect k lo s (gmul (gadd lo s) (glit 1 2))
    end.

  (** animation.rs:124-135: the Newton loop; falling out of it goes to the bisection. *)
  Fixpoint newton (k : nat) (s : f32) : f32 :=
    match k with
    | O => sample_y (bisect 24 (gz 0) (gz 1) t)
    | S k =>
        let x := gsub (sample_x s) t in
        if glt (gabs x) tiny then sample_y s
        else
          let dx := sample_dx s in
          if glt (gabs dx) tiny then sample_y (bisect 24 (gz 0) (gz 1) t)
          else newton k (gclamp01 (gsub s (gdiv x dx)))
    end.

  Definition cubic_bezier : f32 :=
    if gle t (gz 0) then gz 0
    else if gle (gz 1) t then gz 1
    else newton 8 t.
End bezier.

(** animation.rs:158-173 [steps]. *)
Definition steps (n : Z) (p : step_position) (t : f32) : f32 :=
  let n := gz (Z.max n 1) in
  let raw := match p with JumpStart => gceil (gmul t n) | _ => gfloor (gmul t n) end in
  gclamp01
    match p with
    | JumpNone => gdiv raw (gmax (gsub n (gz 1)) (gz 1))
    | JumpBoth => gdiv (gadd raw (gz 1)) (gadd n (gz 1))
    | JumpStart | JumpEnd => gdiv raw n
    end.

(** animation.rs:176-191 [bounce]. *)
Definition bounce (t : f32) : f32 :=
  let n := glit 75625 10000 in
  let d := glit 275 100 in
  let arc t a := gadd (gmul (gmul n t) t) a in
  if glt t (gdiv (gz 1) d) then gmul (gmul n t) t
  else if glt t (gdiv (gz 2) d) then arc (gsub t (gdiv (glit 15 10) d)) (glit 75 100)
  else if glt t (gdiv (glit 25 10) d) then arc (gsub t (gdiv (glit 225 100) d)) (glit 9375 10000)
  else arc (gsub t (gdiv (glit 2625 1000) d)) (glit 984375 1000000).

Section scroll.
  (** [f32::powf] with base 2 and [f32::sin] (animation.rs:203): whatever the platform's
      library returns. *)
  Context (pow2 sin : f32 -> f32).
  (** An embedder's own animator (animation.rs:211-226, the trait [ScrollAnimator]): any state
      type with any [step] and [settled]. [step s target dt] gives the new state and value. *)
  Context {A : Type} (cstep : A -> f64 -> f64 -> A * f64) (csettled : A -> bool).

  (** animation.rs:194-204 [elastic]. [c4] is the literal [2 * PI / 3] in [f32]. *)
  Definition elastic (t : f32) : f32 :=
    if gle t (gz 0) then gz 0
    else if gle (gz 1) t then gz 1
    else
      let c4 := gdiv (gmul (gz 2) (gdiv (gz 13176795) (gz 4194304))) (gz 3) in
      gadd (gmul (pow2 (gmul (gz (-10)) t))
                 (sin (gmul (gsub (gmul t (gz 10)) (glit 75 100)) c4))) (gz 1).

  (** animation.rs:67-82 [Easing::eval]. *)
  Definition eval (e : easing) (t : f32) : f32 :=
    let t := gclamp01 t in
    match e with
    | Linear => t
    | Smoothstep => gmul (gmul t t) (gsub (gz 3) (gmul (gz 2) t))
    | Ease => cubic_bezier (glit 25 100) (glit 1 10) (glit 25 100) (gz 1) t
    | EaseIn => cubic_bezier (glit 42 100) (gz 0) (gz 1) (gz 1) t
    | EaseOut => cubic_bezier (gz 0) (gz 0) (glit 58 100) (gz 1) t
    | EaseInOut => cubic_bezier (glit 42 100) (gz 0) (glit 58 100) (gz 1) t
    | CubicBezier x1 y1 x2 y2 => cubic_bezier x1 y1 x2 y2 t
    | Steps n p => steps n p t
    | Bounce => bounce t
    | Elastic => elastic t
    | CustomCurve f => f t
    end.

  (** [std::time::Duration]: whole seconds and nanoseconds below 10^9. *)
  Record duration := Duration { secs : Z; nanos : Z }.
  (** [Duration::as_secs_f64]. *)
  Definition as_secs (d : duration) : f64 := fadd (fz (secs d)) (fdiv (fz (nanos d)) (fz 1000000000)).

  (** animation.rs:229 [MIN_TWEEN_SECS] (1e-4). *)
  Definition min_tween_secs : f64 := flit 1 10000.

  (** animation.rs:235-242 [Tween]. *)
  Record tween := Tween {
    t_easing : easing; t_duration : f64; t_from : f64; t_current : f64; t_target : f64; t_elapsed : f64 }.

  (** animation.rs:246-255 [Tween::new]. *)
  Definition tween_new (start : f64) (e : easing) (d : duration) : tween :=
    Tween e (fmax (as_secs d) min_tween_secs) start start start f0.

  (** animation.rs:259-275 [Tween::step]. *)
  Definition tween_step (w : tween) (target dt : f64) : tween * f64 :=
    let w := if feq target (t_target w) then w
             else Tween (t_easing w) (t_duration w) (t_current w) (t_current w) target f0 in
    let elapsed := fmin (fadd (t_elapsed w) (fmax dt f0)) (t_duration w) in
    let t := to_f32 (fdiv elapsed (t_duration w)) in
    let e := of_f32 (eval (t_easing w) t) in
    let current := fadd (t_from w) (fmul (fsub (t_target w) (t_from w)) e) in
    let current := if fle (t_duration w) elapsed then t_target w else current in
    (Tween (t_easing w) (t_duration w) (t_from w) current (t_target w) elapsed, current).

  (** animation.rs:277-279 [Tween::settled]. *)
  Definition tween_settled (w : tween) : bool :=
    feq (t_from w) (t_target w) || fle (t_duration w) (t_elapsed w).

  (** animation.rs:301-308 [Spring]. *)
  Record spring := Spring {
    p_stiffness : f64; p_damping : f64; p_mass : f64; p_current : f64; p_velocity : f64; p_target : f64 }.

  (** animation.rs:312-326 [Spring::new] (unit mass). *)
  Definition spring_new (start k d : f64) : spring :=
    Spring k d (fmax (fz 1) (flit 1 1000000)) start f0 start.

  (** animation.rs:335-340: one sub-step, semi-implicit Euler. *)
  Definition spring_euler (p : spring) (h : f64) : spring :=
    let force := fsub (fmul (fneg (p_stiffness p)) (fsub (p_current p) (p_target p)))
                      (fmul (p_damping p) (p_velocity p)) in
    let accel := fdiv force (p_mass p) in
    let v := fadd (p_velocity p) (fmul accel h) in
    Spring (p_stiffness p) (p_damping p) (p_mass p) (fadd (p_current p) (fmul v h)) v (p_target p).

  (** animation.rs:293-294: the snapping thresholds (0.25). *)
  Definition settle_threshold : f64 := flit 1 4.

  (** animation.rs:330-349 [Spring::step]. [dt.clamp(0.0, 0.064)] cannot panic. *)
  Definition spring_step (p : spring) (target dt : f64) : spring * f64 :=
    let p := Spring (p_stiffness p) (p_damping p) (p_mass p) (p_current p) (p_velocity p) target in
    let top := flit 64 1000 in
    let dt := if flt dt f0 then f0 else if flt top dt then top else dt in
    let sub := fmax (fceil (fdiv dt (flit 4 1000))) (fz 1) in
    let h := fdiv dt sub in
    let p := Nat.iter (Z.to_nat (to_u32 sub)) (fun p => spring_euler p h) p in
    let p :=
      if flt (fabs (fsub (p_current p) (p_target p))) settle_threshold
         && flt (fabs (p_velocity p)) settle_threshold
      then Spring (p_stiffness p) (p_damping p) (p_mass p) (p_target p) f0 (p_target p)
      else p in
    (p, p_current p).

  (** animation.rs:351-353 [Spring::settled]. *)
  Definition spring_settled (p : spring) : bool :=
    feq (p_current p) (p_target p) && feq (p_velocity p) f0.

  (** A boxed [dyn ScrollAnimator] (animation.rs:211-226). *)
  Inductive animator := ATween (w : tween) | ASpring (p : spring) | ACustom (a : A).

  (** The trait's [step] and [settled], dispatched. *)
  Definition a_step (x : animator) (target dt : f64) : animator * f64 :=
    match x with
    | ATween w => let '(w, v) := tween_step w target dt in (ATween w, v)
    | ASpring p => let '(p, v) := spring_step p target dt in (ASpring p, v)
    | ACustom a => let '(a, v) := cstep a target dt in (ACustom a, v)
    end.
  Definition a_settled (x : animator) : bool :=
    match x with
    | ATween w => tween_settled w
    | ASpring p => spring_settled p
    | ACustom a => csettled a
    end.

  (** animation.rs:370-382 [ScrollBehavior]. *)
  Inductive behavior :=
  | Instant
  | BTween (d : duration) (e : easing)
  | BSpring (k d : f64)
  | BCustom (factory : f64 -> A).

  (** animation.rs:387-394 [ScrollBehavior::make_animator]. *)
  Definition make_animator (b : behavior) (start : f64) : option animator :=
    match b with
    | Instant => None
    | BTween d e => Some (ATween (tween_new start e d))
    | BSpring k d => Some (ASpring (spring_new start k d))
    | BCustom f => Some (ACustom (f start))
    end.

  (** animation.rs:397-399 [is_instant]. *)
  Definition is_instant (b : behavior) : bool := match b with Instant => true | _ => false end.

  (** scroll.rs:23-32 [ScrollState]. *)
  Record scroll := Scroll {
    s_behavior : behavior;
    s_pos : f64 * f64;
    s_target : f64 * f64;
    s_anim : option (animator * animator) }.

  (** scroll.rs:35-42 [new]. *)
  Definition scroll_new (b : behavior) : scroll := Scroll b (f0, f0) (f0, f0) None.

  (** scroll.rs:15-20 [default_text_scroll]. *)
  Definition default_text_scroll : behavior := BTween (Duration 0 220000000) Smoothstep.

  (** scroll.rs:47-50 [set_behavior]. *)
  Definition set_behavior (s : scroll) (b : behavior) : scroll := Scroll b (s_pos s) (s_target s) None.

  (** scroll.rs:110-112 [round]. *)
  Definition round (p : f64 * f64) : Z * Z := (to_i32 (fround p.1), to_i32 (fround p.2)).

  (** scroll.rs:56-82 [scroll_by]. *)
  Definition scroll_by (s : scroll) (dx dy max_x max_y : f64) : res (scroll * option (Z * Z)) :=
    let* tx := fclamp (fadd (s_target s).1 dx) f0 max_x in
    let* ty := fclamp (fadd (s_target s).2 dy) f0 max_y in
    let target := (tx, ty) in
    if is_instant (s_behavior s) then
      Ok (Scroll (s_behavior s) target target None, Some (round target))
    else
      match s_anim s with
      | Some _ => Ok (Scroll (s_behavior s) (s_pos s) target (s_anim s), None)
      | None =>
          match make_animator (s_behavior s) (s_pos s).1, make_animator (s_behavior s) (s_pos s).2 with
          | Some ax, Some ay => Ok (Scroll (s_behavior s) (s_pos s) target (Some (ax, ay)), None)
          | _, _ => Ok (Scroll (s_behavior s) target target None, Some (round target))
          end
      end.

  (** scroll.rs:86-95 [tick]. *)
  Definition tick (s : scroll) (dt : f64) : scroll * option (Z * Z) :=
    match s_anim s with
    | None => (s, None)
    | Some (ax, ay) =>
        let '(ax, px) := a_step ax (s_target s).1 dt in
        let '(ay, py) := a_step ay (s_target s).2 dt in
        if a_settled ax && a_settled ay then
          (Scroll (s_behavior s) (s_target s) (s_target s) None, Some (round (s_target s)))
        else
          (Scroll (s_behavior s) (px, py) (s_target s) (Some (ax, ay)), Some (round (px, py)))
    end.

  (** scroll.rs:98-100 [animating]. *)
  Definition animating (s : scroll) : bool := match s_anim s with Some _ => true | None => false end.

  (** scroll.rs:103-107 [reset]. *)
  Definition reset (s : scroll) (x y : f64) : scroll := Scroll (s_behavior s) (x, y) (x, y) None.

  (** What the tab worker does with a [ScrollState] (worker.rs:1033, 1339, 1633, 1794), as one
      type of calls. *)
  Inductive call :=
  | CScroll (dx dy max_x max_y : f64)
  | CTick (dt : f64)
  | CReset (x y : f64)
  | CBehavior (b : behavior).

  Definition do_call (s : scroll) (c : call) : res (scroll * option (Z * Z)) :=
    match c with
    | CScroll dx dy mx my => scroll_by s dx dy mx my
    | CTick dt => Ok (tick s dt)
    | CReset x y => Ok (reset s x y, None)
    | CBehavior b => Ok (set_behavior s b, None)
    end.

  (** All calls in order, with what each returned. *)
  Fixpoint do_calls (s : scroll) (cs : list call) : res (scroll * list (option (Z * Z))) :=
    match cs with
    | [] => Ok (s, [])
    | c :: cs =>
        let* r := do_call s c in
        let* r' := do_calls r.1 cs in
        Ok (r'.1, r.2 :: r'.2)
    end.
End scroll.
