(** Model of how tiles are put on the screen without a GPU: the arithmetic on pixels
    (crates/gosub_interface/src/render/backend.rs lines 60-166) and the loop over tiles
    (crates/gosub_render_pipeline/src/render/tile_composite.rs). Positions, scroll offsets and opacities are exact in
    place of floating point numbers; [u32] arithmetic panics on overflow, as in debug builds. *)
From Coq Require Import QArith Qround.
From stdpp Require Import numbers option list.
From Verif Require Import Base DisplayModel.
Local Open Scope N_scope.

(** ** Pixels *)
Definition u32 (n : N) : res N := if n <? 0x100000000 then Ok n else Panic.
(** backend.rs:160-166 *)
Definition mul_div255_pair (pair factor : N) : res N :=
  let* m := u32 (pair * factor) in
  let* t := u32 (m + 0x00800080) in
  let* u := u32 (t + N.land (N.shiftr t 8) 0x00FF00FF) in
  Ok (N.land (N.shiftr u 8) 0x00FF00FF).
(** backend.rs:126-142 *)
Definition blend_over_argb_u32 (src dst : N) : res N :=
  let sa := N.shiftr src 24 in
  if sa =? 0xFF then Ok src
  else if sa =? 0 then Ok dst
  else
    let inv := 255 - sa in
    let* x := mul_div255_pair (N.land dst 0x00FF00FF) inv in
    let* rb := u32 (N.land src 0x00FF00FF + x) in
    let* y := mul_div255_pair (N.land (N.shiftr dst 8) 0x00FF00FF) inv in
    let* ag := u32 (N.land (N.shiftr src 8) 0x00FF00FF + y) in
    Ok (N.lor (N.land rb 0x00FF00FF) (N.shiftl (N.land ag 0x00FF00FF) 8)).
(** backend.rs:151 *)
Definition factor_of (opacity : Q) : N := Z.to_N (Qfloor (clamp01 opacity * 255 + (1 # 2))%Q).
(** backend.rs:147-155 *)
Definition scale_premul_argb_u32 (argb : N) (opacity : Q) : res N :=
  if Qle_bool 1 opacity then Ok argb
  else
    let* rb := mul_div255_pair (N.land argb 0x00FF00FF) (factor_of opacity) in
    let* ag := mul_div255_pair (N.land (N.shiftr argb 8) 0x00FF00FF) (factor_of opacity) in
    Ok (N.lor (N.land rb 0x00FF00FF) (N.shiftl (N.land ag 0x00FF00FF) 8)).
(** backend.rs:60-66 *)
Inductive pixel_format := PreMulArgb32 | Rgba8.
(** backend.rs:105-117, on a little-endian machine *)
Definition pixel_to_argb_u32 (f : pixel_format) (px : N) : N :=
  match f with
  | PreMulArgb32 => px
  | Rgba8 =>
      let a := N.land px 0xFF000000 in
      let g := N.land px 0x0000FF00 in
      let r := N.land px 0x000000FF in
      let b := N.land (N.shiftr px 16) 0xFF in
      N.lor (N.lor (N.lor a (N.shiftl r 16)) g) b
  end.
(** tile_composite.rs:93-104 *)
Definition argb_u32_to_rgba8 (buf : list N) : list N :=
  px ← buf; [N.land (N.shiftr px 16) 0xFF; N.land (N.shiftr px 8) 0xFF; N.land px 0xFF; 255].

(** ** Tiles *)
(** backend.rs:262-281; the data as words *)
Record ctile := mk_ctile {
  c_x : Q; c_y : Q; c_width : nat; c_height : nat; c_data : list N; c_format : pixel_format; c_opacity : Q; c_anchor : anchor }.
(** tile_composite.rs:25-32, without the buffer *)
Record target := mk_target { g_stride : nat; g_x : nat; g_y : nat; g_width : nat; g_height : nat }.
(** [f64::round] to an integer *)
Definition round (q : Q) : Z := if Qle_bool 0 q then Qfloor (q + (1 # 2))%Q else Qceiling (q - (1 # 2))%Q.
Definition minus (a b : nat) : res nat := if (b <=? a)%nat then Ok (a - b)%nat else Panic.

(** tile_composite.rs:82-86 *)
Fixpoint blend_row (t : ctile) (n src dst : nat) (buf : list N) : res (list N) :=
  match n with
  | O => Ok buf
  | S n =>
      match c_data t !! src, buf !! dst with
      | Some p, Some d =>
          let* s := scale_premul_argb_u32 (pixel_to_argb_u32 (c_format t) p) (c_opacity t) in
          let* v := blend_over_argb_u32 s d in
          blend_row t n (S src) (S dst) (<[dst := v]> buf)
      | _, _ => Panic
      end
  end.
(** tile_composite.rs:71-87 *)
Fixpoint blend_rows (g : target) (t : ctile) (col0 row0 dst_x dst_y0 : nat) (rows : list nat) (buf : list N) : res (list N) :=
  match rows with
  | [] => Ok buf
  | tile_row :: rows =>
      let dst_y := (dst_y0 + (tile_row - row0))%nat in
      if (g_height g <=? dst_y)%nat then Ok buf
      else
        let* a := minus (c_width t) col0 in
        let* b := minus (g_width g) dst_x in
        let copy_w := Nat.min a b in
        if (copy_w =? 0)%nat then Ok buf
        else
          let buf_row := ((g_y g + dst_y) * g_stride g + g_x g + dst_x)%nat in
          let src_row := (tile_row * c_width t + col0)%nat in
          let* buf := blend_row t copy_w src_row buf_row buf in
          blend_rows g t col0 row0 dst_x dst_y0 rows buf
  end.
(** tile_composite.rs:45-89; positions stay far from the limits of [i64] *)
Definition left_of (dpr : Q) (scroll : Q * Q) (t : ctile) : Z :=
  round (fst (anchored_tile_pos (c_x t) (c_y t) (fst scroll) (snd scroll) (c_anchor t)) * dpr)%Q.
Definition top_of_tile (dpr : Q) (scroll : Q * Q) (t : ctile) : Z :=
  round (snd (anchored_tile_pos (c_x t) (c_y t) (fst scroll) (snd scroll) (c_anchor t)) * dpr)%Q.
Definition composite_tile (dpr : Q) (scroll : Q * Q) (g : target) (t : ctile) (buf : list N) : res (list N) :=
  let px := left_of dpr scroll t in
  let py := top_of_tile dpr scroll t in
  if ((Z.of_nat (g_width g) <=? px) || (Z.of_nat (g_height g) <=? py)
      || (px + Z.of_nat (c_width t) <=? 0) || (py + Z.of_nat (c_height t) <=? 0))%Z then Ok buf
  else
    let col0 := Z.to_nat (- px) in
    let row0 := Z.to_nat (- py) in
    blend_rows g t col0 row0 (Z.to_nat px) (Z.to_nat py) (seq row0 (c_height t - row0)) buf.
Fixpoint composite_tiles (tiles : list ctile) (dpr : Q) (scroll : Q * Q) (g : target) (buf : list N) : res (list N) :=
  match tiles with
  | [] => Ok buf
  | t :: tiles => let* buf := composite_tile dpr scroll g t buf in composite_tiles tiles dpr scroll g buf
  end.
