(** Model of the colours along a gradient (crates/gosub_render_pipeline/src/painter/commands/gradient.rs), with exact
    numbers in place of floating point ones. *)
From Coq Require Import QArith Qabs.
From stdpp Require Import numbers option list.
From Verif Require Import Base.
Local Open Scope Q_scope.

(** painter/commands/color.rs: four components *)
Record color := mk_color { c_r : Q; c_g : Q; c_b : Q; c_a : Q }.
(** [Color::TRANSPARENT] *)
Definition TRANSPARENT : color := mk_color 0 0 0 0.
(** gradient.rs:4-8: offset and colour *)
Notation stop := (Q * color)%type.
(** [f32::EPSILON], 2^-23 *)
Definition EPSILON : Q := 1 # 8388608.
(** gradient.rs:71-76 *)
Definition mix (a b : color) (f : Q) : color :=
  mk_color (c_r a + (c_r b - c_r a) * f) (c_g a + (c_g b - c_g a) * f) (c_b a + (c_b b - c_b a) * f) (c_a a + (c_a b - c_a a) * f).
(** gradient.rs:62-79, the loop over neighbouring stops *)
Fixpoint search (t : Q) (last : color) (stops : list stop) : color :=
  match stops with
  | a :: ((b :: _) as rest) =>
      if Qle_bool (fst a) t && Qle_bool t (fst b) then
        let span := fst b - fst a in
        if Qle_bool span EPSILON then snd b else mix (snd a) (snd b) ((t - fst a) / span)
      else search t last rest
  | _ => last
  end.
(** gradient.rs:50-82 *)
Definition color_at (stops : list stop) (t : Q) : color :=
  match stops with
  | [] => TRANSPARENT
  | [only] => snd only
  | first :: rest =>
      let z := List.last rest first in
      if Qle_bool t (fst first) then snd first
      else if Qle_bool (fst z) t then snd z
      else search t (snd z) stops
  end.
(** gradient.rs:36-46, [line], with the direction in place of the angle *)
Definition line (dx dy w h : Q) : (Q * Q) * (Q * Q) :=
  let half := (w * Qabs.Qabs dx + h * Qabs.Qabs dy) / 2 in
  let cx := w / 2 in
  let cy := h / 2 in
  ((cx - dx * half, cy - dy * half), (cx + dx * half, cy + dy * half)).
(** gradient.rs:85-100, the place of a point on the line, before it is clamped *)
Definition project (l : (Q * Q) * (Q * Q)) (p : Q * Q) : Q :=
  let '((x0, y0), (x1, y1)) := l in
  let dx := x1 - x0 in
  let dy := y1 - y0 in
  let len2 := dx * dx + dy * dy in
  if Qle_bool len2 0 then 0 else ((fst p - x0) * dx + (snd p - y0) * dy) / len2.
