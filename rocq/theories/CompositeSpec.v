(** What a frame should look like. *)
From Coq Require Import QArith Qround.
From stdpp Require Import numbers option list.
From Verif Require Import Base DisplayModel CompositeModel.
Local Open Scope N_scope.

(** ** Pixels *)
Record pixel := mk_pixel { A : N; R : N; G : N; B : N }.
(** the word [0xAARRGGBB] *)
Definition pack (p : pixel) : N := A p * 0x1000000 + R p * 0x10000 + G p * 0x100 + B p.
Definition bytes (p : pixel) : Prop := A p <= 255 /\ R p <= 255 /\ G p <= 255 /\ B p <= 255.
Definition premultiplied (p : pixel) : Prop := R p <= A p /\ G p <= A p /\ B p <= A p.
Definition unpack (n : N) : pixel := mk_pixel (n / 0x1000000) (n / 0x10000 mod 256) (n / 0x100 mod 256) (n mod 256).
(** [n / 255] to the nearest integer *)
Definition div255 (n : N) : N := (n + 127) / 255.
Definition each (f : N -> N) (p : pixel) : pixel := mk_pixel (f (A p)) (f (R p)) (f (G p)) (f (B p)).
(** source over destination *)
Definition over (s d : pixel) : pixel :=
  let under c := div255 (c * (255 - A s)) in
  mk_pixel (A s + under (A d)) (R s + under (R d)) (G s + under (G d)) (B s + under (B d)).
(** fading, where the opacity is a multiple of 1/255 *)
Definition fade (factor : N) (p : pixel) : pixel := each (fun c => div255 (c * factor)) p.
(** the order of bytes in memory, as a little-endian word *)
Definition read (f : pixel_format) (n : N) : pixel :=
  let p := unpack n in match f with PreMulArgb32 => p | Rgba8 => mk_pixel (A p) (B p) (G p) (R p) end.

(** ** Frames *)
(** The pixel of a tile with its corner at [left], [top] that is at a point of the screen. *)
Definition pixel_at (t : ctile) (left top x y : Z) : option pixel :=
  if ((left <=? x) && (x <? left + Z.of_nat (c_width t)) && (top <=? y) && (y <? top + Z.of_nat (c_height t)))%Z then
    read (c_format t) <$> c_data t !! (Z.to_nat (y - top) * c_width t + Z.to_nat (x - left))%nat
  else None.
(** The place of a tile on the screen, in whole device pixels (halves are rounded away from zero). *)
Definition whole (q : Q) : Z := if Qle_bool 0 q then Qfloor (q + (1 # 2))%Q else Qceiling (q - (1 # 2))%Q.
Definition screen_left (dpr : Q) (scroll : Q * Q) (t : ctile) : Z :=
  whole (dpr * match c_anchor t with
               | Scroll => c_x t - fst scroll
               | Fixed => c_x t
               | Sticky c => c_x t - fst scroll + slide (inset_left c) (rx (natural c)) (rw (natural c)) (rx (cage c)) (rw (cage c)) (fst scroll)
               end)%Q.
Definition screen_top (dpr : Q) (scroll : Q * Q) (t : ctile) : Z :=
  whole (dpr * match c_anchor t with
               | Scroll => c_y t - snd scroll
               | Fixed => c_y t
               | Sticky c => c_y t - snd scroll + slide (inset_top c) (ry (natural c)) (rh (natural c)) (ry (cage c)) (rh (cage c)) (snd scroll)
               end)%Q.
(** All tiles over the background, in order. *)
Definition shown (tiles : list ctile) (dpr : Q) (scroll : Q * Q) (x y : nat) (background : pixel) : pixel :=
  foldl (fun d t => match pixel_at t (screen_left dpr scroll t) (screen_top dpr scroll t) (Z.of_nat x) (Z.of_nat y) with
                    | Some p => over (fade (factor_of (c_opacity t)) p) d
                    | None => d
                    end) background tiles.
(** The place of a point of the screen in the buffer. *)
Definition place (g : target) (x y : nat) : nat := ((g_y g + y) * g_stride g + g_x g + x)%nat.
Definition fits (g : target) (n : nat) : Prop :=
  (g_x g + g_width g <= g_stride g)%nat /\ ((g_y g + g_height g) * g_stride g <= n)%nat.
Definition good_tile (t : ctile) : Prop :=
  (c_width t * c_height t <= length (c_data t))%nat
  /\ Forall (fun n => n < 0x100000000 /\ premultiplied (read (c_format t) n)) (c_data t).
