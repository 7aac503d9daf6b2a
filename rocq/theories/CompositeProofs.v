From Coq Require Import QArith Qround Lqa.
From stdpp Require Import numbers option list.
From Verif Require Import Base DisplayModel DisplayProofs CompositeModel CompositeSpec.
Local Open Scope N_scope.

(** ** Pixels *)
Lemma lor_add a b : N.land a b = 0 -> N.lor a b = a + b.
Proof. intros H. by rewrite N.add_nocarry_lxor, N.lxor_lor. Qed.
Lemma lor_low x i y : y < 2 ^ i -> N.lor (x * 2 ^ i) y = x * 2 ^ i + y.
Proof.
  intros Hy. apply lor_add. apply N.bits_inj_0. intros k. rewrite N.land_spec. destruct (N.lt_ge_cases k i) as [Hk|Hk].
  - by rewrite N.mul_pow2_bits_low.
  - rewrite <- (N.mod_small y (2 ^ i)) by done. by rewrite N.mod_pow2_bits_high, andb_false_r.
Qed.
Lemma land_byte n i : N.land n (N.shiftl (N.ones 8) i) = n / 2 ^ i mod 256 * 2 ^ i.
Proof.
  assert (N.land n (N.shiftl (N.ones 8) i) = N.shiftl (N.land (N.shiftr n i) (N.ones 8)) i) as ->.
  { apply N.bits_inj. intros k. rewrite N.land_spec. destruct (N.lt_ge_cases k i).
    - rewrite !N.shiftl_spec_low by done. by rewrite andb_false_r.
    - rewrite !N.shiftl_spec_high' by done. rewrite N.land_spec, N.shiftr_spec'. by replace (k - i + i) with k by lia. }
  by rewrite N.land_ones, N.shiftr_div_pow2, N.shiftl_mul_pow2.
Qed.
Lemma land_mask n : N.land n 0x00FF00FF = n / 65536 mod 256 * 65536 + n mod 256.
Proof.
  change 0x00FF00FF with (N.lor (N.shiftl (N.ones 8) 16) (N.ones 8)). rewrite N.land_lor_distr_r, N.land_ones, land_byte.
  apply lor_low. change (2 ^ 8) with 256. change (2 ^ 16) with 65536. pose proof (N.mod_lt n 256 ltac:(done)). lia.
Qed.
Lemma lor_pair r a : N.lor (N.land r 0x00FF00FF) (N.shiftl (N.land a 0x00FF00FF) 8) = N.land r 0x00FF00FF + N.land a 0x00FF00FF * 256.
Proof.
  rewrite lor_add; [by rewrite N.shiftl_mul_pow2|]. rewrite N.shiftl_land.
  rewrite (N.land_comm (N.shiftl a 8)), <- N.land_assoc, (N.land_assoc 0x00FF00FF).
  change (N.land 0x00FF00FF (N.shiftl 0x00FF00FF 8)) with 0. by rewrite N.land_0_l, N.land_0_r.
Qed.
Lemma mask_pair x y : x <= 255 -> y <= 255 -> N.land (x * 65536 + y) 0x00FF00FF = x * 65536 + y.
Proof.
  intros. rewrite land_mask. rewrite N.div_add_l by done. rewrite (N.div_small y) by lia. rewrite N.add_0_r, (N.mod_small x) by lia.
  replace (x * 65536 + y) with (y + (x * 256) * 256) by lia. rewrite N.mod_add by done. rewrite N.mod_small by lia. lia.
Qed.
Lemma div255_ok a : a <= 65025 -> (a + 128 + (a + 128) / 256) / 256 = div255 a.
Proof.
  intros Ha. unfold div255. set (q := (a + 127) / 255). pose proof (N.div_mod (a + 127) 255 ltac:(lia)) as E. fold q in E.
  pose proof (N.mod_lt (a + 127) 255 ltac:(lia)) as Hr. set (r := (a + 127) mod 255) in *. clearbody q r.
  assert (q <= 255) by lia. symmetry. destruct (N.lt_ge_cases (r + 1) q) as [K|K].
  - assert ((a + 128) / 256 = q - 1) as -> by (symmetry; apply (N.div_unique _ _ _ (256 + r + 1 - q)); lia).
    apply (N.div_unique _ _ _ r); lia.
  - assert ((a + 128) / 256 = q) as -> by (symmetry; apply (N.div_unique _ _ _ (r + 1 - q)); lia).
    apply (N.div_unique _ _ _ (r + 1)); lia.
Qed.
Lemma div255_le a b : a <= b -> div255 a <= div255 b.
Proof. intros. unfold div255. apply N.div_le_mono; lia. Qed.
Lemma div255_mul c : div255 (c * 255) = c.
Proof. unfold div255. rewrite N.div_add_l by done. rewrite (N.div_small 127) by lia. lia. Qed.
Lemma div255_0 : div255 0 = 0.
Proof. done. Qed.
Lemma div255_bound c f : c <= 255 -> div255 (c * f) <= f.
Proof. intros. rewrite <- (div255_mul f) at 2. apply div255_le. rewrite N.mul_comm. apply N.mul_le_mono_l. done. Qed.
Lemma div255_bound' c f : f <= 255 -> div255 (c * f) <= c.
Proof. intros. rewrite N.mul_comm. by apply div255_bound. Qed.
Lemma pair_ok x y f : x <= 255 -> y <= 255 -> f <= 255 -> mul_div255_pair (x * 65536 + y) f = Ok (div255 (x * f) * 65536 + div255 (y * f)).
Proof.
  intros Hx Hy Hf. unfold mul_div255_pair, u32.
  assert (x * f <= 65025) as H1 by (change 65025 with (255 * 255); by apply N.mul_le_mono).
  assert (y * f <= 65025) as H2 by (change 65025 with (255 * 255); by apply N.mul_le_mono).
  pose proof (div255_ok _ H1) as E1. pose proof (div255_ok _ H2) as E2.
  assert ((x * 65536 + y) * f = x * f * 65536 + y * f) as -> by lia. set (a := x * f) in *. set (b := y * f) in *. clearbody a b.
  rewrite (proj2 (N.ltb_lt _ _)) by lia. cbn [rbind]. rewrite (proj2 (N.ltb_lt _ _)) by lia. cbn [rbind].
  assert (N.land (N.shiftr (a * 65536 + b + 0x00800080) 8) 0x00FF00FF = (a + 128) / 256 * 65536 + (b + 128) / 256) as ->.
  { rewrite land_mask, N.shiftr_div_pow2. change (2 ^ 8) with 256. rewrite N.div_div by done. change (256 * 65536) with (65536 * 256). rewrite <- N.div_div by done.
    assert ((a * 65536 + b + 0x00800080) / 65536 = a + 128) as -> by (symmetry; apply (N.div_unique _ _ _ (b + 128)); lia).
    rewrite (N.mod_small ((a + 128) / 256)); [|apply N.div_lt_upper_bound; lia]. f_equal.
    replace (a * 65536 + b + 0x00800080) with ((a + 128) * 256 * 256 + (b + 128)) by lia. rewrite N.div_add_l by done.
    rewrite N.add_comm, N.mod_add by done. apply N.mod_small. apply N.div_lt_upper_bound; lia. }
  set (p := (a + 128) / 256) in *. set (q := (b + 128) / 256) in *.
  assert (p <= 254) by (apply N.lt_succ_r; apply N.div_lt_upper_bound; lia). assert (q <= 254) by (apply N.lt_succ_r; apply N.div_lt_upper_bound; lia).
  clearbody p q. rewrite (proj2 (N.ltb_lt _ _)) by lia. cbn [rbind]. f_equal. rewrite <- E1, <- E2.
  rewrite land_mask, N.shiftr_div_pow2. change (2 ^ 8) with 256. rewrite N.div_div by done. change (256 * 65536) with (65536 * 256). rewrite <- N.div_div by done.
  replace (a * 65536 + b + 0x00800080 + (p * 65536 + q)) with ((a + 128 + p) * 65536 + (b + 128 + q)) by lia.
  assert (((a + 128 + p) * 65536 + (b + 128 + q)) / 65536 = a + 128 + p) as -> by (symmetry; apply (N.div_unique _ _ _ (b + 128 + q)); lia).
  rewrite (N.mod_small ((a + 128 + p) / 256)); [|apply N.div_lt_upper_bound; lia]. f_equal.
  replace ((a + 128 + p) * 65536 + (b + 128 + q)) with ((a + 128 + p) * 256 * 256 + (b + 128 + q)) by lia. rewrite N.div_add_l by done.
  rewrite N.add_comm, N.mod_add by done. apply N.mod_small. apply N.div_lt_upper_bound; lia.
Qed.
Lemma pack_rb p : bytes p -> N.land (pack p) 0x00FF00FF = R p * 65536 + B p.
Proof.
  intros (HA & HR & HG & HB). rewrite land_mask. unfold pack.
  assert ((A p * 16777216 + R p * 65536 + G p * 256 + B p) / 65536 = A p * 256 + R p) as -> by (symmetry; apply (N.div_unique _ _ _ (G p * 256 + B p)); lia).
  rewrite N.add_comm, (N.add_comm _ (R p)), N.mod_add, (N.mod_small (R p)) by lia.
  replace (A p * 16777216 + R p * 65536 + G p * 256 + B p) with (B p + (A p * 65536 + R p * 256 + G p) * 256) by lia. rewrite N.mod_add, N.mod_small by lia. lia.
Qed.
Lemma pack_ag p : bytes p -> N.land (N.shiftr (pack p) 8) 0x00FF00FF = A p * 65536 + G p.
Proof.
  intros (HA & HR & HG & HB). rewrite land_mask, N.shiftr_div_pow2. unfold pack. change (2 ^ 8) with 256.
  assert ((A p * 16777216 + R p * 65536 + G p * 256 + B p) / 256 = A p * 65536 + R p * 256 + G p) as -> by (symmetry; apply (N.div_unique _ _ _ (B p)); lia).
  assert ((A p * 65536 + R p * 256 + G p) / 65536 = A p) as -> by (symmetry; apply (N.div_unique _ _ _ (R p * 256 + G p)); lia).
  rewrite (N.mod_small (A p)) by lia. f_equal.
  replace (A p * 65536 + R p * 256 + G p) with (G p + (A p * 256 + R p) * 256) by lia. rewrite N.mod_add, N.mod_small by lia. lia.
Qed.
Lemma pack_a p : bytes p -> N.shiftr (pack p) 24 = A p.
Proof.
  intros (HA & HR & HG & HB). rewrite N.shiftr_div_pow2. unfold pack. change (2 ^ 24) with 16777216.
  symmetry. apply (N.div_unique _ _ _ (R p * 65536 + G p * 256 + B p)); lia.
Qed.
Lemma pack_join p : bytes p -> N.lor (N.land (R p * 65536 + B p) 0x00FF00FF) (N.shiftl (N.land (A p * 65536 + G p) 0x00FF00FF) 8) = pack p.
Proof. intros (HA & HR & HG & HB). rewrite lor_pair, !mask_pair by done. unfold pack. lia. Qed.
Lemma unpack_pack p : bytes p -> unpack (pack p) = p.
Proof.
  intros (HA & HR & HG & HB). unfold unpack. assert (pack p / 0x1000000 = A p) as -> by (symmetry; apply (N.div_unique _ _ _ (R p * 65536 + G p * 256 + B p)); unfold pack; lia).
  assert (pack p / 0x10000 = R p + A p * 256) as -> by (symmetry; apply (N.div_unique _ _ _ (G p * 256 + B p)); unfold pack; lia).
  assert (pack p / 0x100 = G p + (A p * 256 + R p) * 256) as -> by (symmetry; apply (N.div_unique _ _ _ (B p)); unfold pack; lia).
  assert (pack p = B p + (A p * 65536 + R p * 256 + G p) * 256) as -> by (unfold pack; lia).
  rewrite !N.mod_add, !N.mod_small by lia. by destruct p.
Qed.
Lemma pack_unpack n : n < 0x100000000 -> pack (unpack n) = n /\ bytes (unpack n).
Proof.
  intros Hn. unfold pack, unpack, bytes. cbn [A R G B].
  pose proof (N.div_mod n 256 ltac:(lia)) as E1. pose proof (N.div_mod (n / 256) 256 ltac:(lia)) as E2. pose proof (N.div_mod (n / 256 / 256) 256 ltac:(lia)) as E3.
  change 0x10000 with (256 * 256). change 0x1000000 with (256 * (256 * 256)). rewrite <- !N.div_div by done.
  pose proof (N.mod_lt n 256 ltac:(lia)). pose proof (N.mod_lt (n / 256) 256 ltac:(lia)). pose proof (N.mod_lt (n / 256 / 256) 256 ltac:(lia)).
  set (c := n / 256 / 256 / 256) in *. set (c' := (n / 256 / 256) mod 256) in *. set (b := n / 256 / 256) in *. set (b' := (n / 256) mod 256) in *. set (a := n / 256) in *. set (a' := n mod 256) in *.
  clearbody c c' b b' a a'. split; [lia|]. split_and!; lia.
Qed.
Lemma over_bytes s d : bytes s -> premultiplied s -> bytes d -> bytes (over s d).
Proof.
  intros (H1 & H2 & H3 & H4) (P1 & P2 & P3) (D1 & D2 & D3 & D4). unfold over, bytes. cbn [A R G B].
  pose proof (div255_bound (A d) (255 - A s) D1). pose proof (div255_bound (R d) (255 - A s) D2).
  pose proof (div255_bound (G d) (255 - A s) D3). pose proof (div255_bound (B d) (255 - A s) D4). split_and!; lia.
Qed.
Lemma over_premultiplied s d : premultiplied s -> premultiplied d -> premultiplied (over s d).
Proof.
  intros (P1 & P2 & P3) (D1 & D2 & D3). unfold over, premultiplied. cbn [A R G B].
  pose proof (div255_le (R d * (255 - A s)) (A d * (255 - A s)) ltac:(by apply N.mul_le_mono_r)).
  pose proof (div255_le (G d * (255 - A s)) (A d * (255 - A s)) ltac:(by apply N.mul_le_mono_r)).
  pose proof (div255_le (B d * (255 - A s)) (A d * (255 - A s)) ltac:(by apply N.mul_le_mono_r)). split_and!; lia.
Qed.
Lemma over_opaque s d : bytes s -> A d = 255 -> A (over s d) = 255.
Proof. intros (H & _) E. unfold over. cbn [A]. rewrite E, N.mul_comm, div255_mul. lia. Qed.
Lemma fade_premultiplied f p : premultiplied p -> premultiplied (fade f p).
Proof. intros (P1 & P2 & P3). unfold fade, each, premultiplied. cbn [A R G B]. split_and!; apply div255_le; by apply N.mul_le_mono_r. Qed.
Lemma fade_bytes f p : f <= 255 -> bytes p -> bytes (fade f p).
Proof.
  intros Hf (H1 & H2 & H3 & H4). unfold fade, each, bytes. cbn [A R G B].
  pose proof (div255_bound' (A p) f Hf). pose proof (div255_bound' (R p) f Hf). pose proof (div255_bound' (G p) f Hf). pose proof (div255_bound' (B p) f Hf). split_and!; lia.
Qed.
Lemma blend_ok s d : bytes s -> premultiplied s -> bytes d -> blend_over_argb_u32 (pack s) (pack d) = Ok (pack (over s d)).
Proof.
  intros Hs Hp Hd. pose proof (over_bytes s d Hs Hp Hd) as Ho. unfold blend_over_argb_u32. rewrite (pack_a s Hs). destruct (N.eqb_spec (A s) 0xFF) as [E|E].
  { f_equal. f_equal. unfold over. rewrite E. change (255 - 255) with 0. rewrite !N.mul_0_r, div255_0, !N.add_0_r, <- E. by destruct s. }
  destruct (N.eqb_spec (A s) 0) as [E0|E0].
  { f_equal. f_equal. unfold over. rewrite E0. change (255 - 0) with 255. rewrite !div255_mul. destruct Hp as (P1 & P2 & P3).
    replace (R s) with 0 by lia. replace (G s) with 0 by lia. replace (B s) with 0 by lia. by destruct d. }
  rewrite (pack_rb s Hs), (pack_rb d Hd), (pack_ag s Hs), (pack_ag d Hd). destruct Hd as (D1 & D2 & D3 & D4).
  rewrite pair_ok by lia. cbn [rbind]. destruct Ho as (O1 & O2 & O3 & O4). pose proof (conj O1 (conj O2 (conj O3 O4)) : bytes (over s d)) as Ho.
  unfold over in O1, O2, O3, O4. cbn [A R G B] in *. unfold u32.
  rewrite (proj2 (N.ltb_lt _ _)) by lia. cbn [rbind]. rewrite pair_ok by lia. cbn [rbind]. rewrite (proj2 (N.ltb_lt _ _)) by lia. cbn [rbind]. f_equal.
  rewrite <- (pack_join _ Ho). unfold over. cbn [A R G B]. f_equal; [f_equal; lia|f_equal; f_equal; lia].
Qed.
Lemma factor_le o : factor_of o <= 255.
Proof.
  unfold factor_of. assert (clamp01 o <= 1)%Q as H.
  { unfold clamp01. destruct (less o 0) eqn:E1; [lra|]. destruct (less 1 o) eqn:E2; [lra|]. unfold less in E2. apply negb_false_iff, Qle_bool_iff in E2. done. }
  assert (Qfloor (clamp01 o * 255 + (1 # 2)) <= 255)%Z; [|lia].
  transitivity (Qfloor (255 + (1 # 2))); [|done]. apply Qfloor_resp_le. lra.
Qed.
Lemma factor_one o : (1 <= o)%Q -> factor_of o = 255.
Proof.
  intros H. unfold factor_of. assert (clamp01 o == 1)%Q as ->; [|done].
  unfold clamp01. destruct (less o 0) eqn:E1; [apply less_iff in E1; lra|]. destruct (less 1 o) eqn:E2; [done|]. unfold less in E2. apply negb_false_iff, Qle_bool_iff in E2. lra.
Qed.
Lemma scale_ok p o : bytes p -> scale_premul_argb_u32 (pack p) o = Ok (pack (fade (factor_of o) p)).
Proof.
  intros Hp. pose proof (factor_le o) as Hf. unfold scale_premul_argb_u32. destruct (Qle_bool 1 o) eqn:E.
  { apply Qle_bool_iff in E. rewrite (factor_one o E). unfold fade, each. rewrite !div255_mul. by destruct p. }
  rewrite (pack_rb p Hp), (pack_ag p Hp). pose proof (fade_bytes (factor_of o) p Hf Hp) as Hb. destruct Hp as (P1 & P2 & P3 & P4).
  rewrite !pair_ok by lia. cbn [rbind]. f_equal. by rewrite <- (pack_join _ Hb).
Qed.
Lemma read_ok f n : n < 0x100000000 -> pixel_to_argb_u32 f n = pack (read f n) /\ bytes (read f n).
Proof.
  intros Hn. destruct (pack_unpack n Hn) as [E (HA & HR & HG & HB)]. destruct f; [done|]. split; [|by split_and!].
  cbn [pixel_to_argb_u32 read]. unfold pack. cbn [A R G B].
  change 0xFF000000 with (N.shiftl (N.ones 8) 24). change 0x0000FF00 with (N.shiftl (N.ones 8) 8). change 0x000000FF with (N.ones 8).
  rewrite !land_byte, !N.land_ones, N.shiftl_mul_pow2, N.shiftr_div_pow2. unfold unpack in *. cbn [A R G B] in *.
  change (2 ^ 24) with 0x1000000. change (2 ^ 16) with 0x10000. change (2 ^ 8) with 0x100. rewrite (N.mod_small (n / 0x1000000)) by lia.
  set (a := n / 0x1000000) in *. set (r := n / 0x10000 mod 0x100) in *. set (g := n / 0x100 mod 0x100) in *. set (b := n mod 0x100) in *. clearbody a r g b.
  change (a * 0x1000000) with (a * 2 ^ 24). rewrite (lor_low a 24 (b * 0x10000)) by (change (2 ^ 24) with 0x1000000; lia).
  replace (a * 2 ^ 24 + b * 0x10000) with ((a * 0x100 + b) * 2 ^ 16) by (change (2 ^ 24) with 0x1000000; change (2 ^ 16) with 0x10000; lia).
  rewrite (lor_low _ 16 (g * 0x100)) by (change (2 ^ 16) with 0x10000; lia).
  replace ((a * 0x100 + b) * 2 ^ 16 + g * 0x100) with ((a * 0x10000 + b * 0x100 + g) * 2 ^ 8) by (change (2 ^ 8) with 0x100; change (2 ^ 16) with 0x10000; lia).
  rewrite (lor_low _ 8 r) by (change (2 ^ 8) with 0x100; lia). change (2 ^ 8) with 0x100. change (2 ^ 24) with 0x1000000. lia.
Qed.

(** ** Frames *)
Definition word (n : N) : Prop := n < 0x100000000.
Definition mix (t : ctile) (p d : N) : N := pack (over (fade (factor_of (c_opacity t)) (read (c_format t) p)) (unpack d)).
Definition good_word (t : ctile) (n : N) : Prop := n < 0x100000000 /\ premultiplied (read (c_format t) n).
Lemma pack_word p : bytes p -> word (pack p).
Proof. intros (H1 & H2 & H3 & H4). unfold word, pack. lia. Qed.
Lemma mix_bytes t p d : good_word t p -> bytes d -> bytes (over (fade (factor_of (c_opacity t)) (read (c_format t) p)) d).
Proof.
  intros [Hp Hm] Hd. destruct (read_ok (c_format t) p Hp) as [_ Hb]. apply over_bytes; [apply fade_bytes; [apply factor_le|done]|by apply fade_premultiplied|done].
Qed.
Lemma step_ok t p d : good_word t p -> word d ->
  (let* s := scale_premul_argb_u32 (pixel_to_argb_u32 (c_format t) p) (c_opacity t) in blend_over_argb_u32 s d) = Ok (mix t p d) /\ word (mix t p d).
Proof.
  intros [Hp Hm] Hd. destruct (read_ok (c_format t) p Hp) as [-> Hb]. destruct (pack_unpack d Hd) as [Ed Hbd]. rewrite scale_ok by done. cbn [rbind].
  split; [|apply pack_word, mix_bytes; done]. rewrite <- Ed at 1. apply blend_ok; [apply fade_bytes; [apply factor_le|done]|by apply fade_premultiplied|done].
Qed.
Local Open Scope nat_scope.
Lemma row_ok t n src dst buf : Forall (good_word t) (c_data t) -> src + n <= length (c_data t) -> dst + n <= length buf -> Forall word buf ->
  exists buf', blend_row t n src dst buf = Ok buf' /\ length buf' = length buf /\ Forall word buf'
    /\ (forall k p d, k < n -> c_data t !! (src + k) = Some p -> buf !! (dst + k) = Some d -> buf' !! (dst + k) = Some (mix t p d))
    /\ (forall i, i < dst \/ dst + n <= i -> buf' !! i = buf !! i).
Proof.
  intros Ht. revert src dst buf. induction n as [|n IH]; intros src dst buf Hs Hd Hw.
  { exists buf. split_and!; try done. intros; lia. }
  cbn [blend_row]. destruct (lookup_lt_is_Some_2 (c_data t) src ltac:(lia)) as [p Ep]. destruct (lookup_lt_is_Some_2 buf dst ltac:(lia)) as [d Ed].
  rewrite Ep, Ed. destruct (step_ok t p d) as [E W]; [by eapply Forall_lookup_1|by eapply Forall_lookup_1 in Hw|].
  destruct (scale_premul_argb_u32 _ _) as [s| |]; try done. cbn [rbind] in *. rewrite E. cbn [rbind].
  destruct (IH (S src) (S dst) (<[dst:=mix t p d]> buf)) as (buf' & E' & L & F & H1 & H2); [lia|rewrite insert_length; lia|by apply Forall_insert|].
  rewrite insert_length in L. exists buf'. split_and!; try done.
  - intros [|k] p' d' Hk Ep' Ed'.
    + rewrite Nat.add_0_r in *. rewrite H2 by lia. rewrite list_lookup_insert by lia. by simplify_eq.
    + replace (dst + S k) with (S dst + k) in * by lia. apply H1; [lia|by replace (S src + k) with (src + S k) by lia|].
      rewrite list_lookup_insert_ne by lia. done.
  - intros i Hi. rewrite H2 by lia. apply list_lookup_insert_ne. lia.
Qed.
Lemma place_inj g x y x' y' : g_x g + g_width g <= g_stride g -> x < g_width g -> x' < g_width g -> place g x y = place g x' y' -> x = x' /\ y = y'.
Proof.
  unfold place. intros Hg Hx Hx' E. destruct (Nat.lt_trichotomy y y') as [K|[->|K]]; [|split; lia|].
  - assert ((g_y g + y + 1) * g_stride g <= (g_y g + y') * g_stride g) by (apply Nat.mul_le_mono_r; lia). lia.
  - assert ((g_y g + y' + 1) * g_stride g <= (g_y g + y) * g_stride g) by (apply Nat.mul_le_mono_r; lia). lia.
Qed.
Lemma rows_ok g t col0 row0 dst_x dst_y0 n r buf :
  let cw := Nat.min (c_width t - col0) (g_width g - dst_x) in
  good_tile t -> fits g (length buf) -> Forall word buf -> col0 <= c_width t -> dst_x <= g_width g -> row0 <= r -> r + n <= c_height t ->
  exists buf', blend_rows g t col0 row0 dst_x dst_y0 (seq r n) buf = Ok buf' /\ length buf' = length buf /\ Forall word buf'
    /\ (forall x y p d, x < g_width g -> y < g_height g -> dst_x <= x < dst_x + cw -> dst_y0 + (r - row0) <= y < dst_y0 + (r + n - row0) ->
          c_data t !! ((y - dst_y0 + row0) * c_width t + (x - dst_x + col0)) = Some p -> buf !! place g x y = Some d -> buf' !! place g x y = Some (mix t p d))
    /\ (forall i, (forall x y, x < g_width g -> y < g_height g -> dst_x <= x < dst_x + cw -> dst_y0 + (r - row0) <= y < dst_y0 + (r + n - row0) -> i <> place g x y) ->
          buf' !! i = buf !! i).
Proof.
  intros cw [Hl Ht] Hg Hw Hc Hx. revert r buf Hg Hw. induction n as [|n IH]; intros r buf [Hg1 Hg2] Hw Hr Hh.
  { exists buf. split_and!; try done. intros; lia. }
  cbn [seq blend_rows]. destruct (Nat.leb_spec (g_height g) (dst_y0 + (r - row0))) as [Hb|Hb].
  { exists buf. split_and!; try done. intros; lia. }
  unfold minus. rewrite (proj2 (Nat.leb_le _ _)) by done. cbn [rbind]. rewrite (proj2 (Nat.leb_le _ _)) by done. cbn [rbind]. fold cw.
  destruct (Nat.eqb_spec cw 0) as [E0|E0].
  { exists buf. split_and!; try done. intros; lia. }
  assert ((r + 1) * c_width t <= length (c_data t)) as B1.
  { etrans; [|exact Hl]. rewrite (Nat.mul_comm (c_width t)). apply Nat.mul_le_mono_r. lia. }
  assert ((g_y g + (dst_y0 + (r - row0)) + 1) * g_stride g <= length buf) as B2.
  { etrans; [|exact Hg2]. apply Nat.mul_le_mono_r. lia. }
  destruct (row_ok t cw (r * c_width t + col0) ((g_y g + (dst_y0 + (r - row0))) * g_stride g + g_x g + dst_x) buf) as (b1 & E1 & L1 & F1 & R1 & R2); [done|lia|lia|done|].
  rewrite E1. cbn [rbind]. destruct (IH (S r) b1) as (b2 & E2 & L2 & F2 & H1 & H2); [by rewrite L1|done|lia|lia|].
  exists b2. split_and!; [done|lia|done| |].
  - intros x y p d Hxg Hyg Hxr Hyr Ep Ed. destruct (decide (y = dst_y0 + (r - row0))) as [->|Hy].
    + rewrite H2.
      * replace (place g x (dst_y0 + (r - row0))) with ((g_y g + (dst_y0 + (r - row0))) * g_stride g + g_x g + dst_x + (x - dst_x)) in * by (unfold place; lia).
        apply R1; [lia| |done]. rewrite <- Ep. f_equal. replace (dst_y0 + (r - row0) - dst_y0 + row0) with r by lia. lia.
      * intros x' y' Hx' Hy' _ Hy2 K. apply place_inj in K as [_ K]; [lia|done..].
    + apply H1; [done|done|done|lia|done|]. rewrite R2; [done|]. unfold place.
      destruct (Nat.lt_ge_cases y (dst_y0 + (r - row0))) as [K|K]; [lia|].
      assert ((g_y g + (dst_y0 + (r - row0)) + 1) * g_stride g <= (g_y g + y) * g_stride g) by (apply Nat.mul_le_mono_r; lia). lia.
  - intros i Hi. rewrite H2.
    + apply R2. destruct (Nat.lt_ge_cases i ((g_y g + (dst_y0 + (r - row0))) * g_stride g + g_x g + dst_x)) as [K|K]; [by left|].
      destruct (Nat.lt_ge_cases i ((g_y g + (dst_y0 + (r - row0))) * g_stride g + g_x g + dst_x + cw)) as [K'|K']; [|by right].
      exfalso. apply (Hi (i - ((g_y g + (dst_y0 + (r - row0))) * g_stride g + g_x g)) (dst_y0 + (r - row0))); try lia. unfold place. lia.
    + intros x y Hxg Hyg Hxr Hyr. apply Hi; try done. lia.
Qed.
Definition result (t : ctile) (dpr : Q) (scroll : Q * Q) (x y : nat) (d : pixel) : pixel :=
  match pixel_at t (screen_left dpr scroll t) (screen_top dpr scroll t) (Z.of_nat x) (Z.of_nat y) with
  | Some p => over (fade (factor_of (c_opacity t)) p) d
  | None => d
  end.
Lemma result_bytes t dpr scroll x y d : good_tile t -> bytes d -> bytes (result t dpr scroll x y d).
Proof.
  intros [_ Ht] Hd. unfold result, pixel_at. destruct (_ && _); [|done]. destruct (c_data t !! _) as [p|] eqn:E; [|done]. cbn.
  apply mix_bytes; [|done]. by eapply Forall_lookup_1 in Ht.
Qed.
Lemma whole_eq a b : (a == b)%Q -> round a = whole b.
Proof.
  intros E. unfold round, whole. assert (Qle_bool 0 a = Qle_bool 0 b) as -> by (by apply Qleb_comp).
  destruct (Qle_bool 0 b); [apply Qfloor_comp|apply Qceiling_comp]; lra.
Qed.
Lemma left_ok dpr scroll t : left_of dpr scroll t = screen_left dpr scroll t.
Proof. unfold left_of, screen_left. apply whole_eq. destruct (c_anchor t); cbn; apply Qmult_comm. Qed.
Lemma top_ok dpr scroll t : top_of_tile dpr scroll t = screen_top dpr scroll t.
Proof. unfold top_of_tile, screen_top. apply whole_eq. destruct (c_anchor t); cbn; apply Qmult_comm. Qed.
Lemma tile_ok t dpr scroll g buf : good_tile t -> fits g (length buf) -> Forall word buf ->
  exists buf', composite_tile dpr scroll g t buf = Ok buf' /\ length buf' = length buf /\ Forall word buf'
    /\ (forall x y d, x < g_width g -> y < g_height g -> bytes d -> buf !! place g x y = Some (pack d) -> buf' !! place g x y = Some (pack (result t dpr scroll x y d)))
    /\ (forall i, (forall x y, x < g_width g -> y < g_height g -> i <> place g x y) -> buf' !! i = buf !! i).
Proof.
  intros Ht Hg Hw. unfold composite_tile, result. rewrite <- left_ok, <- top_ok. set (L := left_of dpr scroll t). set (T := top_of_tile dpr scroll t). clearbody L T.
  destruct (_ || _) eqn:E.
  { exists buf. split_and!; try done. intros x y d Hx Hy _ Ed. unfold pixel_at.
    destruct ((L <=? Z.of_nat x) && (Z.of_nat x <? L + Z.of_nat (c_width t)) && (T <=? Z.of_nat y) && (Z.of_nat y <? T + Z.of_nat (c_height t)))%Z eqn:K; [exfalso; lia|done]. }
  destruct (rows_ok g t (Z.to_nat (- L)) (Z.to_nat (- T)) (Z.to_nat L) (Z.to_nat T) (c_height t - Z.to_nat (- T)) (Z.to_nat (- T)) buf) as (buf' & E' & L' & F' & H1 & H2); [done|done|done|lia|lia|lia|lia|].
  exists buf'. split_and!; try done.
  - intros x y d Hx Hy Hd Ed. unfold pixel_at.
    destruct ((L <=? Z.of_nat x) && (Z.of_nat x <? L + Z.of_nat (c_width t)) && (T <=? Z.of_nat y) && (Z.of_nat y <? T + Z.of_nat (c_height t)))%Z eqn:K.
    + destruct Ht as [Hl Ht]. assert (Z.to_nat (Z.of_nat y - T) < c_height t) as Q1 by lia. assert (Z.to_nat (Z.of_nat x - L) < c_width t) as Q2 by lia.
      assert ((Z.to_nat (Z.of_nat y - T) + 1) * c_width t <= c_width t * c_height t) as Q3 by (rewrite (Nat.mul_comm (c_width t)); apply Nat.mul_le_mono_r; lia).
      destruct (lookup_lt_is_Some_2 (c_data t) (Z.to_nat (Z.of_nat y - T) * c_width t + Z.to_nat (Z.of_nat x - L)) ltac:(lia)) as [p Ep]. rewrite Ep. cbn [fmap option_fmap option_map].
      rewrite (H1 x y p (pack d)); [|done|done|lia|lia| |done].
      * unfold mix. by rewrite unpack_pack.
      * rewrite <- Ep. f_equal. f_equal; [f_equal; lia|lia].
    + rewrite H2; [done|]. intros x' y' Hx' Hy' Hx2 Hy2 Eq. destruct Hg as [Hg _]. apply place_inj in Eq as [-> ->]; [lia|done..].
  - intros i Hi. apply H2. intros x y Hx Hy _ _. by apply Hi.
Qed.
Lemma tiles_ok tiles dpr scroll g buf : Forall good_tile tiles -> fits g (length buf) -> Forall word buf ->
  exists buf', composite_tiles tiles dpr scroll g buf = Ok buf' /\ length buf' = length buf
    /\ (forall x y d, x < g_width g -> y < g_height g -> bytes d -> buf !! place g x y = Some (pack d) ->
          buf' !! place g x y = Some (pack (shown tiles dpr scroll x y d)) /\ bytes (shown tiles dpr scroll x y d))
    /\ (forall i, (forall x y, x < g_width g -> y < g_height g -> i <> place g x y) -> buf' !! i = buf !! i).
Proof.
  intros Ht. revert buf. induction Ht as [|t tiles Ht Hts IH]; intros buf Hg Hw.
  { exists buf. split_and!; done. }
  cbn [composite_tiles]. destruct (tile_ok t dpr scroll g buf Ht Hg Hw) as (b1 & E1 & L1 & F1 & H1 & H2). rewrite E1. cbn [rbind].
  destruct (IH b1) as (b2 & E2 & L2 & H3 & H4); [by rewrite L1|done|]. exists b2. split_and!; [done|lia| |].
  - intros x y d Hx Hy Hd Ed. unfold shown. cbn [foldl]. apply H3; [done|done| |by apply H1]. by apply result_bytes.
  - intros i Hi. by rewrite H4, H2.
Qed.

(** ** Seams *)
Local Open Scope Q_scope.
Definition no_tie (q : Q) : Prop := forall k : Z, ~ q == inject_Z k + (1 # 2).
Lemma round_near q : no_tie q -> inject_Z (round q) - (1 # 2) < q /\ q < inject_Z (round q) + (1 # 2).
Proof.
  intros Hq. unfold round. destruct (Qle_bool 0 q).
  - pose proof (Qfloor_le (q + (1 # 2))) as H1. pose proof (Qlt_floor (q + (1 # 2))) as H2. rewrite inject_Z_plus in H2. change (inject_Z 1) with 1 in H2.
    set (z := Qfloor (q + (1 # 2))) in *. split; [|lra]. destruct (Qlt_le_dec (inject_Z z - (1 # 2)) q) as [|K]; [done|].
    exfalso. apply (Hq (z - 1)%Z). unfold Z.sub. rewrite inject_Z_plus, inject_Z_opp. change (inject_Z 1) with 1. lra.
  - pose proof (Qle_ceiling (q - (1 # 2))) as H1. pose proof (Qceiling_lt (q - (1 # 2))) as H2. unfold Z.sub in H2. rewrite inject_Z_plus, inject_Z_opp in H2. change (inject_Z 1) with 1 in H2.
    set (z := Qceiling (q - (1 # 2))) in *. split; [lra|]. destruct (Qlt_le_dec q (inject_Z z + (1 # 2))) as [|K]; [done|].
    exfalso. apply (Hq z). lra.
Qed.
Lemma near_unique (a b : Z) q : inject_Z a - (1 # 2) < q /\ q < inject_Z a + (1 # 2) -> inject_Z b - (1 # 2) < q /\ q < inject_Z b + (1 # 2) -> a = b.
Proof.
  intros [H1 H2] [H3 H4]. assert (forall u v : Z, inject_Z u < inject_Z v + 1 -> (u < v + 1)%Z) as K.
  { intros u v H. apply inject_lt. rewrite inject_Z_plus. exact H. }
  pose proof (K a b ltac:(lra)). pose proof (K b a ltac:(lra)). lia.
Qed.
Lemma round_shift q q' (n : Z) : no_tie q -> q' == q + inject_Z n -> round q' = (round q + n)%Z.
Proof.
  intros Hq E. assert (no_tie q') as Hq'.
  { intros k K. apply (Hq (k - n)%Z). unfold Z.sub. rewrite inject_Z_plus, inject_Z_opp. lra. }
  apply (near_unique _ _ q'); [by apply round_near|]. rewrite inject_Z_plus. pose proof (round_near q Hq). lra.
Qed.
Lemma factor_near o : 0 <= o <= 1 -> inject_Z (Z.of_N (factor_of o)) - (1 # 2) <= o * 255 < inject_Z (Z.of_N (factor_of o)) + (1 # 2).
Proof.
  intros [H0 H1]. unfold factor_of. assert (clamp01 o == o) as E.
  { unfold clamp01. destruct (less o 0) eqn:E1; [apply less_iff in E1; lra|]. destruct (less 1 o) eqn:E2; [apply less_iff in E2; lra|done]. }
  rewrite E. rewrite Z2N.id.
  - pose proof (Qfloor_le (o * 255 + (1 # 2))) as K1. pose proof (Qlt_floor (o * 255 + (1 # 2))) as K2. rewrite inject_Z_plus in K2. change (inject_Z 1) with 1 in K2. lra.
  - change 0%Z with (Qfloor (1 # 2)). apply Qfloor_resp_le. lra.
Qed.
Lemma side_by_side t u dpr scroll : c_anchor u = c_anchor t -> c_x u == c_x t + inject_Z (Z.of_nat (c_width t)) / dpr -> ~ dpr == 0 ->
  no_tie (fst (anchored_tile_pos (c_x t) (c_y t) (fst scroll) (snd scroll) (c_anchor t)) * dpr) ->
  left_of dpr scroll u = (left_of dpr scroll t + Z.of_nat (c_width t))%Z.
Proof.
  intros Ea Ex Hd Ht. unfold left_of. eapply round_shift; [exact Ht|]. rewrite Ea. destruct (c_anchor t) as [| |c]; cbn.
  3: destruct (offset c (fst scroll) (snd scroll)) as [dx dy]; cbn.
  all: rewrite Ex; field; done.
Qed.
Lemma one_above_other t u dpr scroll : c_anchor u = c_anchor t -> c_y u == c_y t + inject_Z (Z.of_nat (c_height t)) / dpr -> ~ dpr == 0 ->
  no_tie (snd (anchored_tile_pos (c_x t) (c_y t) (fst scroll) (snd scroll) (c_anchor t)) * dpr) ->
  top_of_tile dpr scroll u = (top_of_tile dpr scroll t + Z.of_nat (c_height t))%Z.
Proof.
  intros Ea Ex Hd Ht. unfold top_of_tile. eapply round_shift; [exact Ht|]. rewrite Ea. destruct (c_anchor t) as [| |c]; cbn.
  3: destruct (offset c (fst scroll) (snd scroll)) as [dx dy]; cbn.
  all: rewrite Ex; field; done.
Qed.
