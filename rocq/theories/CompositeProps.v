(** Pixels and frames. *)
From Coq Require Import QArith Qround Lqa.
From stdpp Require Import numbers option list.
From Verif Require Import Base DisplayModel CompositeModel CompositeSpec CompositeProofs.
Local Open Scope N_scope.

(** ** C114: blending *)
(** Words are pixels. *)
Theorem C114_words n : n < 0x100000000 -> exists p, bytes p /\ n = pack p /\ forall q, bytes q -> n = pack q -> q = p.
Proof.
  intros H. destruct (pack_unpack n H) as [E Hb]. exists (unpack n). split; [done|]. split; [done|]. intros q Hq ->. by rewrite unpack_pack.
Qed.
Print Assumptions C114_words.
(** [div255] is the nearest integer. *)
Theorem C114_nearest n : 255 * div255 n <= n + 127 /\ n <= 255 * div255 n + 127.
Proof.
  unfold div255. pose proof (N.div_mod (n + 127) 255 ltac:(done)). pose proof (N.mod_lt (n + 127) 255 ltac:(done)).
  set (q := (n + 127) / 255) in *. set (r := (n + 127) mod 255) in *. clearbody q r. lia.
Qed.
Print Assumptions C114_nearest.
(** A pixel is put over another, channel by channel and without overflow. *)
Theorem C114_over s d :
  bytes s -> premultiplied s -> bytes d ->
  blend_over_argb_u32 (pack s) (pack d) = Ok (pack (over s d))
  /\ bytes (over s d)
  /\ (premultiplied d -> premultiplied (over s d))
  /\ (A d = 255 -> A (over s d) = 255)
  /\ (A s = 255 -> over s d = s)
  /\ (A s = 0 -> over s d = d).
Proof.
  intros Hs Hp Hd. split_and!; [by apply blend_ok|by apply over_bytes|by apply over_premultiplied|by apply over_opaque| |].
  - intros E. unfold over. rewrite E. change (255 - 255) with 0. rewrite !N.mul_0_r, div255_0, !N.add_0_r, <- E. by destruct s.
  - intros E. unfold over. rewrite E. change (255 - 0) with 255. rewrite !div255_mul. destruct Hp as (P1 & P2 & P3).
    replace (R s) with 0 by lia. replace (G s) with 0 by lia. replace (B s) with 0 by lia. by destruct d.
Qed.
Print Assumptions C114_over.
(** A pixel fades, channel by channel and without overflow. *)
Theorem C114_fade p o :
  bytes p ->
  scale_premul_argb_u32 (pack p) o = Ok (pack (fade (factor_of o) p))
  /\ bytes (fade (factor_of o) p)
  /\ (premultiplied p -> premultiplied (fade (factor_of o) p))
  /\ ((1 <= o)%Q -> fade (factor_of o) p = p)
  /\ ((0 <= o <= 1)%Q -> (inject_Z (Z.of_N (factor_of o)) - (1 # 2) <= o * 255 < inject_Z (Z.of_N (factor_of o)) + (1 # 2))%Q).
Proof.
  intros Hp. split_and!; [by apply scale_ok|apply fade_bytes; [apply factor_le|done]|apply fade_premultiplied| |apply factor_near].
  intros H. rewrite (factor_one o H). unfold fade, each. rewrite !div255_mul. by destruct p.
Qed.
Print Assumptions C114_fade.
(** Both orders of bytes are read right, and frames are handed over in the order red, green, blue. *)
Theorem C114_bytes p :
  bytes p ->
  pixel_to_argb_u32 PreMulArgb32 (B p + G p * 0x100 + R p * 0x10000 + A p * 0x1000000) = pack p
  /\ pixel_to_argb_u32 Rgba8 (R p + G p * 0x100 + B p * 0x10000 + A p * 0x1000000) = pack p
  /\ forall before after, argb_u32_to_rgba8 (before ++ pack p :: after) = argb_u32_to_rgba8 before ++ [R p; G p; B p; 255] ++ argb_u32_to_rgba8 after.
Proof.
  intros Hp. pose proof Hp as (HA & HR & HG & HB). split_and!; [cbn; unfold pack; lia| |].
  - set (q := mk_pixel (A p) (B p) (G p) (R p)). assert (bytes q) as Hq by by split_and!.
    replace (R p + G p * 0x100 + B p * 0x10000 + A p * 0x1000000) with (pack q) by (unfold pack, q; cbn [A R G B]; lia).
    destruct (read_ok Rgba8 (pack q)) as [-> _]; [by apply pack_word|]. unfold read. rewrite unpack_pack by done. by destruct p.
  - intros before after. unfold argb_u32_to_rgba8. rewrite bind_app. cbn [mbind list_bind]. f_equal. cbn [app].
    pose proof (unpack_pack p Hp) as E. unfold unpack in E. change 0xFF with (N.ones 8). rewrite !N.land_ones, !N.shiftr_div_pow2.
    change (2 ^ 16) with 0x10000. change (2 ^ 8) with 0x100. rewrite <- E at 4 5 6. done.
Qed.
Print Assumptions C114_bytes.
Example C114_example :
  let s := mk_pixel 128 64 0 128 in let d := mk_pixel 255 200 100 50 in
  premultiplied s /\ over s d = mk_pixel 255 164 50 153 /\ blend_over_argb_u32 0x80400080 0xFFC86432 = Ok 0xFFA43299
  /\ scale_premul_argb_u32 0xFFC86432 (1 # 2) = Ok 0x80643219.
Proof. vm_compute. split_and!; done. Qed.
(** With a source that is not premultiplied, channels wrap around: light over white turns dark. *)
Theorem C114_straight_refuted :
  ~ forall s d, bytes s -> bytes d -> exists p, bytes p /\ blend_over_argb_u32 (pack s) (pack d) = Ok (pack p) /\ N.min (R s) (R d) <= R p.
Proof.
  intros K. destruct (K (mk_pixel 128 255 255 255) (mk_pixel 255 255 255 255)) as (p & Hb & E & H); [by vm_compute..|].
  pose proof (unpack_pack p Hb) as U. change (blend_over_argb_u32 _ _) with (Ok 0xFF7E7E7E) in E. injection E as E. rewrite <- E in U. change (unpack _) with (mk_pixel 255 126 126 126) in U.
  rewrite <- U in H. by vm_compute in H.
Qed.
Print Assumptions C114_straight_refuted.

(** ** C115: a frame is the tiles over the background, in order, each at its place *)
Theorem C115_frame tiles dpr scroll g buf :
  Forall good_tile tiles -> fits g (length buf) -> Forall (fun n => n < 0x100000000) buf ->
  exists buf', composite_tiles tiles dpr scroll g buf = Ok buf' /\ length buf' = length buf
    /\ (forall x y d, (x < g_width g)%nat -> (y < g_height g)%nat -> bytes d -> buf !! place g x y = Some (pack d) ->
          buf' !! place g x y = Some (pack (shown tiles dpr scroll x y d)) /\ bytes (shown tiles dpr scroll x y d))
    /\ (forall i, (forall x y, (x < g_width g)%nat -> (y < g_height g)%nat -> i <> place g x y) -> buf' !! i = buf !! i).
Proof. apply tiles_ok. Qed.
Print Assumptions C115_frame.
(** An opaque background stays opaque. *)
Theorem C115_opaque tiles dpr scroll x y d :
  Forall good_tile tiles -> A d = 255 -> A (shown tiles dpr scroll x y d) = 255.
Proof.
  intros Ht. revert d. induction Ht as [|t tiles [_ Ht] Hts IH]; intros d Hd; [done|]. unfold shown in *. cbn [foldl]. apply IH.
  unfold pixel_at. destruct (_ && _); [|done]. destruct (c_data t !! _) as [p|] eqn:E; [|done]. cbn [fmap option_fmap option_map].
  eapply Forall_lookup_1 in Ht as [Hp _]; [|exact E]. apply over_opaque; [|done]. apply fade_bytes; [apply factor_le|by apply read_ok].
Qed.
Print Assumptions C115_opaque.
(** Tiles that are side by side on the page are side by side on the screen, unless their place is halfway between pixels. *)
Theorem C115_seams_partial t u dpr scroll :
  c_anchor u = c_anchor t -> ~ (dpr == 0)%Q ->
  let at_ := anchored_tile_pos (c_x t) (c_y t) (fst scroll) (snd scroll) (c_anchor t) in
  ((c_x u == c_x t + inject_Z (Z.of_nat (c_width t)) / dpr)%Q -> (forall k, ~ (fst at_ * dpr == inject_Z k + (1 # 2))%Q) ->
     screen_left dpr scroll u = (screen_left dpr scroll t + Z.of_nat (c_width t))%Z)
  /\ ((c_y u == c_y t + inject_Z (Z.of_nat (c_height t)) / dpr)%Q -> (forall k, ~ (snd at_ * dpr == inject_Z k + (1 # 2))%Q) ->
     screen_top dpr scroll u = (screen_top dpr scroll t + Z.of_nat (c_height t))%Z).
Proof. intros Ha Hd at_. rewrite <- !left_ok, <- !top_ok. split; intros Hx Hn; [by apply side_by_side|by apply one_above_other]. Qed.
Print Assumptions C115_seams_partial.
Definition white_tile (x : Q) : ctile := mk_ctile x 0 2 1 [0xFFFFFFFF; 0xFFFFFFFF] Rgba8 1 Scroll.
Example C115_example :
  let red := mk_ctile 0 0 1 1 [0xFF0000FF] Rgba8 (1 # 2) Fixed in
  let g := mk_target 4 1 1 3 2 in
  let buf := replicate 12 0xFF000000 in
  good_tile (white_tile 1) /\ good_tile red /\ fits g 12
  /\ composite_tiles [white_tile 1; red] 1 (0, -1)%Q g buf
     = Ok [0xFF000000; 0xFF000000; 0xFF000000; 0xFF000000;
           0xFF000000; 0xFF800000; 0xFF000000; 0xFF000000;
           0xFF000000; 0xFF000000; 0xFFFFFFFF; 0xFFFFFFFF].
Proof.
  cbv zeta. split_and!; [split; [cbn; lia|repeat constructor; by vm_compute]|split; [cbn; lia|repeat constructor; by vm_compute]|split; cbn; lia|by vm_compute].
Qed.
(** Scrolled by half a pixel, the background shows between two tiles. *)
Theorem C115_seam_refuted :
  ~ forall t u scroll x, good_tile t -> good_tile u -> c_anchor t = Scroll -> c_anchor u = Scroll ->
      (c_y t == 0)%Q -> (c_y u == 0)%Q -> (c_x u == c_x t + inject_Z (Z.of_nat (c_width t)))%Q ->
      c_height t = 1%nat -> c_height u = 1%nat ->
      (screen_left 1 (scroll, 0%Q) t <= Z.of_nat x < screen_left 1 (scroll, 0%Q) u + Z.of_nat (c_width u))%Z ->
      is_Some (pixel_at t (screen_left 1 (scroll, 0%Q) t) 0 (Z.of_nat x) 0) \/ is_Some (pixel_at u (screen_left 1 (scroll, 0%Q) u) 0 (Z.of_nat x) 0).
Proof.
  intros K. specialize (K (white_tile 0) (white_tile 2) (1 # 2)%Q 1%nat). destruct K as [[p E]|[p E]]; try done.
  - split; [cbn; lia|repeat constructor; by vm_compute].
  - split; [cbn; lia|repeat constructor; by vm_compute].
Qed.
Print Assumptions C115_seam_refuted.
