From Coq Require Import ZArith Reals Lra Lia.
From stdpp Require Import gmap sorting.
From Flocq Require Import Core IEEE754.BinarySingleNaN.
From Verif Require Import Base F64 F64Facts TileModel TileSpec.

Local Open Scope R_scope.

(** * Windows *)

Lemma fz1_place : finite (fz 1) /\ place (fz 1) = 1.
Proof.
  split; [done|]. rewrite (place_finite (fz 1)) by done.
  assert (B2SF (fz 1) = SpecFloat.S754_finite false 4503599627370496 (-52)) as E by by vm_compute.
  destruct (fz 1) as [| | |s m e H]; try done. cbn in E. injection E as -> -> ->.
  unfold B2R, F2R. cbn [Fnum Fexp SpecFloat.cond_Zopp].
  change (bpow radix2 (-52)) with (/ IZR (2 ^ 52)).
  change (2 ^ 52)%Z with 4503599627370496%Z. field.
Qed.

Lemma fz1_val : exists H, fz 1 = B754_finite false 4503599627370496 (-52) H.
Proof.
  assert (B2SF (fz 1) = SpecFloat.S754_finite false 4503599627370496 (-52)) as E by by vm_compute.
  destruct (fz 1) as [| | |s m e H]; try done. cbn in E. injection E as -> -> ->. by exists H.
Qed.

Lemma fmul_1 x : fmul (fz 1) x = x.
Proof.
  destruct fz1_place as [F1 P1]. rewrite (place_finite _ F1) in P1.
  destruct fz1_val as [H1 E1].
  destruct (is_finite x) eqn:F.
  - pose proof (Bmult_correct 53 1024 prec64 emax64 mode_NE (fz 1) x) as C.
    fold (fmul (fz 1) x) in C. rewrite P1, Rmult_1_l in C. cbn [round_mode] in C.
    rewrite <- (place_finite x F) in C. fold (rnd (place x)) in C. rewrite (rnd_place x F) in C.
    pose proof (place_finite_bound x F) as B. unfold big in B.
    rewrite Rlt_bool_true in C by (apply Rabs_lt; lra).
    destruct C as (C1 & C2 & C3). rewrite F1, F in C2. cbn in C2.
    rewrite (place_finite x F) in C1. apply B2R_Bsign_inj; [done|done|done|].
    rewrite C3 by (apply finite_num; exact C2). rewrite E1. cbn. by destruct (Bsign x).
  - rewrite E1. destruct x as [|[]| |]; done.
Qed.

Lemma near_overlaps sy vh y h :
  let w := raster_window sy vh in
  overlaps y h w.1 w.2 = true <-> near_view sy vh y h.
Proof.
  unfold raster_window, overlaps, near_view. rewrite fmul_1. cbn [fst snd].
  by rewrite andb_true_iff.
Qed.

Lemma on_view_near sy vh y h : finite sy -> finite vh -> 0 <= place vh ->
  on_view sy vh y h -> near_view sy vh y h.
Proof.
  intros Fs Fv Pv [V1 V2]. unfold near_view.
  destruct (flt_num _ _ V1) as [Ny N1]. destruct (flt_num _ _ V2) as [_ N2].
  pose proof (finite_num _ Fs) as Ns. pose proof (finite_num _ Fv) as Nv.
  apply flt_place in V1; [|done|done]. apply flt_place in V2; [|done|done].
  destruct (fsub_le sy vh Fs Nv Pv) as [N3 L3].
  assert (num (fadd (fadd sy vh) vh) /\ place (fadd sy vh) <= place (fadd (fadd sy vh) vh)) as [N4 L4].
  { destruct (is_finite (fadd sy vh)) eqn:F; [by apply fadd_ge|].
    destruct (fadd_ge sy vh Fs Nv Pv) as [_ L].
    pose proof (place_finite_bound sy Fs). pose proof big_pos.
    destruct (fadd sy vh) as [|[]| |]; try done; [cbn -[big B2R] in *; lra|].
    destruct vh as [|[]| |]; try done; (split; [done|apply Rle_refl]). }
  split; apply flt_place; try done; lra.
Qed.

(** * Gathering *)

Local Open Scope N_scope.

Notation feed_item := (key * rect * pixels * bool)%type.
Definition f_key (x : feed_item) : key := x.1.1.1.
Definition f_rect (x : feed_item) : rect := x.1.1.2.
Definition f_px (x : feed_item) : pixels := x.1.2.
Definition f_pin (x : feed_item) : bool := x.2.
Definition to_item (x : feed_item) : item :=
  Item (f_key x) (r_y (f_rect x)) (r_h (f_rect x)) (f_px x) (f_pin x).
Definition feed (tiles : list tile) (cache : list cache_entry) : list feed_item :=
  (of_tile <$> tiles) ++ (of_entry <$> cache).

Lemma items_feed tiles cache : items tiles cache = to_item <$> feed tiles cache.
Proof.
  unfold items, feed. rewrite fmap_app, <- !list_fmap_compose. f_equal.
  - apply list_fmap_ext. intros i t _. unfold tile_item, to_item, compose, of_tile, f_key, f_rect, f_px, f_pin. cbn.
    f_equal. by destruct (b_anchor t).
  - apply list_fmap_ext. intros i c _. destruct c as [[k hsh] [[w h] px]]. done.
Qed.

Fixpoint pget (k : key) (ps : list (key * pos_info)) : option pos_info :=
  match ps with
  | [] => None
  | (k', i) :: ps => if decide (k = k') then Some i else pget k ps
  end.

Lemma pget_elem k i ps : NoDup ps.*1 -> (k, i) ∈ ps <-> pget k ps = Some i.
Proof.
  induction ps as [|[k' i'] ps IH]; cbn; intros ND.
  - split; [by intros ?%elem_of_nil|done].
  - apply NoDup_cons in ND as [N1 N2]. rewrite elem_of_cons. destruct (decide (k = k')) as [->|n].
    + split.
      * intros [[= ->]|E]; [done|]. exfalso. apply N1. apply elem_of_list_fmap. by exists (k', i).
      * intros [= ->]. by left.
    + rewrite <- (IH N2). split; [intros [[= -> ->]|E]; done|by right].
Qed.

Lemma pget_keys k ps : k ∈ ps.*1 <-> is_Some (pget k ps).
Proof.
  induction ps as [|[k' i'] ps IH]; cbn.
  - split; [by intros ?%elem_of_nil|intros [? [=]]].
  - rewrite elem_of_cons. destruct (decide (k = k')) as [->|n].
    + split; [eauto|by left].
    + rewrite <- IH. split; [intros [?|?]; done|by right].
Qed.

Lemma pget_add k' k r b p ps :
  pget k' (add_pos k r b p ps) =
  if decide (k' = k) then
    Some match pget k ps with
         | None => PosInfo b p r
         | Some i => PosInfo (i_bytes i + b) (i_protected i || p) (i_rect i)
         end
  else pget k' ps.
Proof.
  induction ps as [|[k2 i2] ps IH]; cbn.
  - by destruct (decide (k' = k)).
  - destruct (decide (k = k2)) as [->|n]; cbn.
    + by destruct (decide (k' = k2)).
    + rewrite IH. destruct (decide (k' = k2)) as [->|n2]; [|done].
      rewrite decide_False by congruence. done.
Qed.

Lemma add_keys k r b p ps : NoDup ps.*1 ->
  NoDup (add_pos k r b p ps).*1 /\ forall k', k' ∈ (add_pos k r b p ps).*1 <-> k' = k \/ k' ∈ ps.*1.
Proof.
  intros ND. assert (forall k', k' ∈ (add_pos k r b p ps).*1 <-> k' = k \/ k' ∈ ps.*1) as K.
  { intros k'. rewrite !pget_keys, pget_add. destruct (decide (k' = k)) as [->|]; [|].
    - split; [by left|eauto].
    - split; [by right|intros [?|?]; done]. }
  split; [|done].
  clear K. induction ps as [|[k2 i2] ps IH]; cbn in *.
  - apply NoDup_singleton.
  - apply NoDup_cons in ND as [N1 N2]. destruct (decide (k = k2)) as [->|n]; cbn.
    + by apply NoDup_cons.
    + apply NoDup_cons. split; [|by apply IH].
      rewrite pget_keys, pget_add. rewrite decide_False by congruence. by rewrite <- pget_keys.
Qed.

Lemma add_total k r b p ps : total_bytes (add_pos k r b p ps) = total_bytes ps + b.
Proof.
  unfold total_bytes. induction ps as [|[k2 i2] ps IH]; cbn; [lia|].
  destruct (decide (k = k2)); cbn; [lia|]. rewrite IH. lia.
Qed.

(** Bytes of a list of buffers, each once. *)
Definition sumd (l : list (N * N)) : N := foldr (fun b n => b.2 + n) 0 (remove_dups l).

Lemma bytes_sumd xs : bytes xs = sumd (buffers xs).
Proof. done. Qed.

Lemma sum_perm (l l' : list (N * N)) : l ≡ₚ l' ->
  foldr (fun b n => b.2 + n) 0 l = foldr (fun b n => b.2 + n) 0 l'.
Proof. induction 1; cbn; lia. Qed.

Lemma sumd_ext l l' : (forall b, b ∈ l <-> b ∈ l') -> sumd l = sumd l'.
Proof.
  intros H. apply sum_perm. apply NoDup_Permutation; [apply NoDup_remove_dups|apply NoDup_remove_dups|].
  intros b. rewrite !elem_of_remove_dups. apply H.
Qed.

Lemma sumd_cons b l : sumd (b :: l) = if decide (b ∈ l) then sumd l else b.2 + sumd l.
Proof.
  unfold sumd. cbn [remove_dups]. destruct (decide_rel elem_of b l) as [i|n];
    destruct (decide (b ∈ l)); done.
Qed.

Lemma sumd_snoc b l : sumd (l ++ [b]) = if decide (b ∈ l) then sumd l else b.2 + sumd l.
Proof.
  rewrite (sumd_ext (l ++ [b]) (b :: l)); [apply sumd_cons|].
  intros x. rewrite elem_of_app, !elem_of_cons, elem_of_nil. tauto.
Qed.

Lemma sumd_disjoint l1 l2 : (forall b, b ∈ l1 -> b ∉ l2) -> sumd (l1 ++ l2) = sumd l1 + sumd l2.
Proof.
  induction l1 as [|b l1 IH]; intros D; cbn [app]; [done|].
  rewrite !sumd_cons, IH by (intros x Hx; apply D; by right).
  destruct (decide (b ∈ l1 ++ l2)) as [i|n], (decide (b ∈ l1)) as [i'|n']; try done.
  - apply elem_of_app in i as [i|i]; [done|]. exfalso. eapply D; [|exact i]. by left.
  - exfalso. apply n. apply elem_of_app. by left.
  - lia.
Qed.

Lemma buffers_app xs ys : buffers (xs ++ ys) = buffers xs ++ buffers ys.
Proof. apply omap_app. Qed.

Lemma elem_of_buffers b xs : b ∈ buffers xs <-> exists x, x ∈ xs /\ buffer x = Some b.
Proof. apply elem_of_list_omap. Qed.

Definition at_key (k : key) (xs : list item) : list item := filter (fun x => x_key x = k) xs.

(** Whether one fed item protects its position. *)
Definition f_prot (band : f64 * f64) (x : feed_item) : bool :=
  f_pin x || match f_px x with Gpu _ => true | _ => false end ||
  overlaps (r_y (f_rect x)) (r_h (f_rect x)) band.1 band.2.

Record gathered (band : f64 * f64) (xs : list feed_item)
    (acc : list (N * N) * list (key * pos_info)) : Prop := {
  ga_counted : forall b, b ∈ acc.1 <-> b ∈ buffers (to_item <$> xs);
  ga_nodup : NoDup acc.2.*1;
  ga_keys : forall k, k ∈ acc.2.*1 <-> k ∈ f_key <$> xs;
  ga_prot : forall k i, pget k acc.2 = Some i ->
    (i_protected i = true <-> exists x, x ∈ xs /\ f_key x = k /\ f_prot band x = true);
  ga_rect : forall k i, pget k acc.2 = Some i ->
    exists x, head (filter (fun x => f_key x = k) xs) = Some x /\ f_rect x = i_rect i;
  ga_total : total_bytes acc.2 = bytes (to_item <$> xs);
  ga_bytes : unshared (to_item <$> xs) -> forall k i, pget k acc.2 = Some i ->
    i_bytes i = bytes (at_key k (to_item <$> xs)) }.

Lemma unshared_app xs ys : unshared (xs ++ ys) -> unshared xs.
Proof.
  intros U x x' b H H'. apply U; apply elem_of_app; by left.
Qed.

Lemma gathered_all band xs : gathered band xs (foldl (add band) ([], []) xs).
Proof.
  induction xs as [|x xs IH] using rev_ind.
  { split; try done. apply NoDup_nil_2. }
  rewrite foldl_app. cbn [foldl]. set (acc := foldl (add band) ([], []) xs) in *.
  destruct IH as [C ND K P R T B].
  destruct x as [[[k r] px] pin]. unfold add.
  (* the buffer of the new item *)
  assert (exists n g c, add_bytes px acc.1 = (n, g, c) /\
    (g = match px with Gpu _ => true | _ => false end) /\
    (forall b, b ∈ c <-> b ∈ buffers (to_item <$> xs) \/ buffer (to_item (k, r, px, pin)) = Some b) /\
    n = match px with
        | Cpu p l => if decide ((p, l) ∈ buffers (to_item <$> xs)) then 0 else l
        | Gpu _ => 0 end) as (n & g & c & E & Eg & Ec & En).
  { unfold add_bytes. destruct px as [p l|id].
    - destruct (bool_decide ((p, l) ∈ acc.1)) eqn:D.
      + apply bool_decide_eq_true in D. eexists _, _, _. split; [done|]. split; [done|].
        split; [|rewrite decide_True; [done|by apply C]].
        intros b. rewrite C. split; [by left|]. intros [?|Q]; [done|].
        unfold buffer in Q. cbn in Q. injection Q as <-. by apply C.
      + apply bool_decide_eq_false in D. eexists _, _, _. split; [done|]. split; [done|].
        split; [|rewrite decide_False; [done|by rewrite <- C]].
        intros b. rewrite elem_of_cons, C. unfold buffer. cbn.
        split; [intros [->|?]; [by right|by left]|intros [?|[= <-]]; [by right|by left]].
    - eexists _, _, _. split; [done|]. split; [done|]. split; [|done].
      intros b. rewrite C. unfold buffer. cbn. split; [by left|intros [?|?]; done]. }
  rewrite E. cbn [fst snd].
  assert (buffers (to_item <$> xs ++ [(k, r, px, pin)]) =
          buffers (to_item <$> xs) ++ buffers [to_item (k, r, px, pin)]) as EB.
  { by rewrite fmap_app, buffers_app. }
  destruct (add_keys k r n (pin || g || overlaps (r_y r) (r_h r) band.1 band.2) acc.2 ND) as [ND' K'].
  split; cbn [fst snd].
  - intros b. rewrite Ec, EB, elem_of_app. f_equiv. rewrite elem_of_buffers.
    split; [intros H; eexists; split; [by left|done]|].
    intros (y & Hy & Hb). by apply elem_of_list_singleton in Hy as ->.
  - done.
  - intros k'. rewrite K', K, fmap_app, elem_of_app. cbn. rewrite elem_of_list_singleton. cbn. tauto.
  - intros k' i. rewrite pget_add. destruct (decide (k' = k)) as [->|nk].
    + intros [= <-]. set (x := (k, r, px, pin)).
      assert (pin || g || overlaps (r_y r) (r_h r) band.1 band.2 = f_prot band x) as -> by (by subst g).
      assert ((exists x0, x0 ∈ xs ++ [x] /\ f_key x0 = k /\ f_prot band x0 = true) <->
              (exists x0, x0 ∈ xs /\ f_key x0 = k /\ f_prot band x0 = true) \/ f_prot band x = true) as ->.
      { split.
        - intros (x0 & [H|H]%elem_of_app & H1 & H2); [left; eauto|].
          apply elem_of_list_singleton in H as ->. by right.
        - intros [(x0 & H & H1 & H2)|H]; [exists x0; split; [apply elem_of_app; by left|done]|].
          exists x. split; [apply elem_of_app; right; by left|done]. }
      destruct (pget k acc.2) as [i|] eqn:G; cbn [i_protected].
      * rewrite orb_true_iff, (P k i G). done.
      * split; [by right|]. intros [(x0 & H & H1 & H2)|H]; [|done]. exfalso.
        assert (k ∈ acc.2.*1) as Q by (apply K, elem_of_list_fmap; eauto).
        apply pget_keys in Q as [? Q]. congruence.
    + intros G. rewrite (P k' i G). split.
      * intros (x0 & H & H1 & H2). exists x0. split; [apply elem_of_app; by left|done].
      * intros (x0 & [H|H]%elem_of_app & H1 & H2); [eauto|].
        apply elem_of_list_singleton in H as ->. done.
  - intros k' i. rewrite pget_add, filter_app. destruct (decide (k' = k)) as [->|nk].
    + destruct (pget k acc.2) as [i0|] eqn:G; intros [= <-]; cbn [i_rect].
      * destruct (R k i0 G) as (x & H & H2). exists x. split; [|done].
        destruct (filter (λ x0, f_key x0 = k) xs); [done|exact H].
      * assert (filter (λ x0 : feed_item, f_key x0 = k) xs = []) as ->.
        { destruct (filter (λ x0 : feed_item, f_key x0 = k) xs) as [|y ys] eqn:F; [done|].
          exfalso. assert (y ∈ filter (λ x0 : feed_item, f_key x0 = k) xs) as H by (rewrite F; by left).
          apply elem_of_list_filter in H as [H1 H2].
          assert (k ∈ acc.2.*1) as Q by (apply K, elem_of_list_fmap; eauto).
          apply pget_keys in Q as [? Q]. congruence. }
        cbn. rewrite decide_True by done. eauto.
    + intros G. destruct (R k' i G) as (x & H & H2). exists x. split; [|done].
      destruct (filter (λ x0, f_key x0 = k') xs); [done|exact H].
  - rewrite add_total, T, !bytes_sumd, EB. rewrite En.
    destruct px as [p l|id]; cbn [buffers omap list_omap buffer to_item f_px x_pixels fst snd].
    + rewrite sumd_snoc. destruct (decide _); cbn [snd]; lia.
    + rewrite app_nil_r. lia.
  - intros U k' i. rewrite fmap_app in U |- *. specialize (B (unshared_app _ _ U)).
    rewrite pget_add. unfold at_key. rewrite filter_app, bytes_sumd, buffers_app.
    destruct (decide (k' = k)) as [->|nk].
    + cbn [fmap list_fmap]. rewrite (filter_cons_True _ (to_item (k, r, px, pin)) []) by done.
      cbn [filter list_filter].
      assert (forall m, m = sumd (buffers (filter (fun x => x_key x = k) (to_item <$> xs))) ->
        m + n = sumd (buffers (filter (fun x => x_key x = k) (to_item <$> xs)) ++ buffers [to_item (k, r, px, pin)])) as Q.
      { intros m ->. rewrite En.
        destruct px as [p l|id]; cbn [buffers omap list_omap buffer to_item f_px x_pixels fst snd].
        - rewrite sumd_snoc.
          assert ((p, l) ∈ buffers (to_item <$> xs) <->
                  (p, l) ∈ buffers (filter (λ x, x_key x = k) (to_item <$> xs))) as I.
          { rewrite !elem_of_buffers. split; intros (y & Hy & Hb); exists y; split; try done.
            - apply elem_of_list_filter. split; [|done].
              apply (U y (to_item (k, r, Cpu p l, pin)) (p, l)); try done.
              + apply elem_of_app. by left.
              + apply elem_of_app. right. by left.
            - by apply elem_of_list_filter in Hy as [_ Hy]. }
          destruct (decide ((p, l) ∈ buffers (to_item <$> xs))) as [i1|n1];
            destruct (decide ((p, l) ∈ buffers (filter (λ x, x_key x = k) (to_item <$> xs)))) as [i2|n2];
            try tauto; cbn [snd]; lia.
        - rewrite app_nil_r. lia. }
      destruct (pget k acc.2) as [i0|] eqn:G; intros [= <-]; cbn [i_bytes].
      * apply Q. by apply (B k i0).
      * rewrite <- (Q 0); [done|].
        assert (filter (λ x : item, x_key x = k) (to_item <$> xs) = []) as ->; [|done].
        destruct (filter (λ x : item, x_key x = k) (to_item <$> xs)) as [|y ys] eqn:F; [done|].
        exfalso. assert (y ∈ filter (λ x : item, x_key x = k) (to_item <$> xs)) as H by (rewrite F; by left).
        apply elem_of_list_filter in H as [H1 H2]. apply elem_of_list_fmap in H2 as (z & -> & Hz).
        assert (k ∈ acc.2.*1) as Q2 by (apply K, elem_of_list_fmap; exists z; by split).
        apply pget_keys in Q2 as [? Q2]. congruence.
    + intros G. rewrite (B k' i G). unfold at_key. rewrite bytes_sumd.
      cbn [fmap list_fmap]. rewrite (filter_cons_False _ (to_item (k, r, px, pin)) []) by (cbn; congruence).
      cbn. by rewrite app_nil_r.
Qed.

(** * The order of the candidates *)

Definition key_lt (a b : key) : Prop :=
  (a.1.1 < b.1.1 \/ a.1.1 = b.1.1 /\ (a.1.2 < b.1.2 \/ a.1.2 = b.1.2 /\ a.2 <= b.2))%Z.

Lemma cand_le_spec a b : cand_le a b <->
  c_tick a < c_tick b \/ c_tick a = c_tick b /\
    ((c_dist b < c_dist a)%Z \/ c_dist b = c_dist a /\ key_lt (c_key a) (c_key b)).
Proof.
  unfold cand_le, cand_cmp, key_cmp, key_lt.
  destruct (N.compare_spec (c_tick a) (c_tick b)); [|split; [by left|done]|split; [done|lia]].
  destruct (Z.compare_spec (c_dist b) (c_dist a)); [|split; [lia|done]|split; [done|lia]].
  destruct (c_key a) as [[x1 x2] x3], (c_key b) as [[y1 y2] y3]. cbn.
  destruct (Z.compare_spec x1 y1); [|split; [lia|done]|split; [done|lia]].
  destruct (Z.compare_spec x2 y2); [|split; [lia|done]|split; [done|lia]].
  destruct (Z.compare_spec x3 y3); split; done || lia.
Qed.

Global Instance cand_le_trans : Transitive cand_le.
Proof.
  intros a b c. rewrite !cand_le_spec. unfold key_lt.
  destruct (c_key a) as [[x1 x2] x3], (c_key b) as [[y1 y2] y3], (c_key c) as [[z1 z2] z3]. cbn. lia.
Qed.
Global Instance cand_le_total : Total cand_le.
Proof.
  intros a b. rewrite !cand_le_spec. unfold key_lt.
  destruct (c_key a) as [[x1 x2] x3], (c_key b) as [[y1 y2] y3]. cbn. lia.
Qed.
Lemma cand_le_key a b : cand_le a b -> cand_le b a -> c_key a = c_key b.
Proof.
  rewrite !cand_le_spec. unfold key_lt.
  destruct (c_key a) as [[x1 x2] x3], (c_key b) as [[y1 y2] y3]. cbn. intros.
  assert (x1 = y1) by lia. assert (x2 = y2) by lia. assert (x3 = y3) by lia. by subst.
Qed.

Lemma sorted_perm (l1 l2 : list candidate) :
  StronglySorted cand_le l1 -> StronglySorted cand_le l2 -> l1 ≡ₚ l2 -> NoDup (c_key <$> l1) -> l1 = l2.
Proof.
  revert l2. induction l1 as [|x l1 IH]; intros l2 S1 S2 P ND.
  - by apply Permutation_nil_l in P.
  - destruct l2 as [|y l2]; [by apply Permutation_nil_r in P|].
    apply StronglySorted_inv in S1 as [S1 F1]. apply StronglySorted_inv in S2 as [S2 F2].
    rewrite Forall_forall in F1, F2.
    assert (x = y) as <-.
    { assert (x ∈ y :: l2) as Hx by (rewrite <- P; left).
      assert (y ∈ x :: l1) as Hy by (rewrite P; left).
      apply elem_of_cons in Hx as [|Hx]; [done|]. apply elem_of_cons in Hy as [|Hy]; [done|].
      pose proof (cand_le_key x y (F1 y Hy) (F2 x Hx)) as E.
      cbn in ND. apply NoDup_cons in ND as [N1 _]. exfalso. apply N1, elem_of_list_fmap. eauto. }
    f_equal. cbn in ND. apply NoDup_cons in ND as [_ ND]. apply IH; try done. by apply Permutation_cons_inv in P.
Qed.

Definition csum (l : list candidate) : N := foldr (fun c n => c_bytes c + n) 0 l.
Lemma csum_app l l' : csum (l ++ l') = csum l + csum l'.
Proof. unfold csum in *. induction l as [|c l IH]; cbn; [done|]. rewrite IH. lia. Qed.

Lemma take_excess_spec cs : forall excess, exists rest,
  cs = take_excess excess cs ++ rest /\
  (rest <> [] -> excess <= csum (take_excess excess cs)) /\
  (forall out' c, take_excess excess cs = out' ++ [c] -> csum out' < excess).
Proof.
  induction cs as [|c cs IH]; intros ex; cbn [take_excess].
  - exists []. split; [done|]. split; [done|]. intros [|] ?; done.
  - destruct (N.eqb_spec ex 0) as [->|n].
    + exists (c :: cs). split; [done|]. split; [lia|]. intros [|] ?; done.
    + destruct (IH (ex - c_bytes c)) as (rest & E & E1 & E2). exists rest.
      split; [cbn; by f_equal|]. split.
      * intros H. specialize (E1 H). change (ex <= c_bytes c + csum (take_excess (ex - c_bytes c) cs)). lia.
      * intros [|c0 out'] c' Ho; [cbn; lia|]. cbn in Ho. injection Ho as <- Ho.
        specialize (E2 _ _ Ho). change (c_bytes c + csum out' < ex). lia.
Qed.

(** * The outcome *)

Lemma filter_all {A} (P : A -> Prop) `{!forall x, Decision (P x)} (l : list A) : (forall x, x ∈ l -> P x) -> filter P l = l.
Proof.
  induction l as [|x l IH]; intros HP; [done|].
  rewrite filter_cons_True by (apply HP; left). f_equal. apply IH. intros. apply HP. by right.
Qed.

Section outcome.
  Context (iter : list (key * pos_info) -> list (key * pos_info)) (Hfair : fair iter).
  Context (st : budget) (tiles : list tile) (cache : list cache_entry) (sy vh : f64) (limit : N).

  Local Notation band := (raster_window sy vh).
  Local Notation ps := (gather band tiles cache).
  Local Notation lu := (retain (fun k => mem_key k ps.*1) (b_last_used st)).
  Local Notation resident := (total_bytes ps).
  Definition spare (x : key * pos_info) : Prop := negb (i_protected x.2) && (0 <? i_bytes x.2) = true.
  Global Instance spare_dec x : Decision (spare x).
  Proof. unfold spare. apply _. Defined.
  Definition cands : list candidate :=
    merge_sort cand_le (to_candidate lu sy vh <$> filter spare (iter ps)).
  Definition out : list candidate :=
    if (limit =? 0) || (resident <=? limit) then [] else take_excess (resident - limit) cands.
  Local Notation kill := (c_key <$> out).

  Lemma enforce_eq :
    enforce iter st tiles cache sy vh limit =
    (Budget (b_tick st) (retain (fun k => negb (mem_key k kill)) lu) (b_evicted st ++ (c_rect <$> out)) (b_rastered st),
     filter (fun t => mem_key (pos_key t) kill = false) tiles,
     filter (fun c => mem_key (entry_key c) kill = false) cache,
     Report (length (remove_dups kill)) (csum out) (resident - csum out)).
  Proof.
    unfold enforce, out. destruct ((limit =? 0) || (resident <=? limit)); [|done].
    cbn. rewrite app_nil_r, N.sub_0_r. rewrite !filter_all by done.
    f_equal. f_equal. f_equal. f_equal. unfold retain. symmetry. by apply map_filter_id.
  Qed.

  Lemma gath : gathered band (feed tiles cache) (foldl (add band) ([], []) (feed tiles cache)).
  Proof. apply gathered_all. Qed.

  Lemma cands_elem c : c ∈ cands <-> exists k i, pget k ps = Some i /\ i_protected i = false /\
    i_bytes i <> 0 /\ c = to_candidate lu sy vh (k, i).
  Proof.
    unfold cands. rewrite merge_sort_Permutation, elem_of_list_fmap. split.
    - intros ([k i] & -> & H). apply elem_of_list_filter in H as [H1 H2].
      rewrite (Hfair ps) in H2. apply pget_elem in H2; [|apply gath]. unfold spare in H1. cbn in H1.
      apply andb_true_iff in H1 as [H3 H4]. exists k, i. split_and!; try done.
      + by destruct (i_protected i).
      + apply N.ltb_lt in H4. lia.
    - intros (k & i & H1 & H2 & H3 & ->). exists (k, i). split; [done|].
      apply elem_of_list_filter. split.
      + unfold spare. cbn. rewrite H2. cbn. apply N.ltb_lt. lia.
      + rewrite (Hfair ps). apply pget_elem; [apply gath|done].
  Qed.

  Lemma cands_keys : NoDup (c_key <$> cands).
  Proof.
    unfold cands. rewrite merge_sort_Permutation. rewrite <- list_fmap_compose.
    change (c_key ∘ to_candidate lu sy vh) with (@fst key pos_info).
    assert (NoDup (iter ps).*1) as N by (rewrite (Hfair ps); apply gath).
    induction (iter ps) as [|x l IH]; [done|]. cbn in N. apply NoDup_cons in N as [N1 N2].
    cbn. destruct (decide (spare x)); [|by apply IH]. cbn. apply NoDup_cons. split; [|by apply IH].
    intros (y & E & H)%elem_of_list_fmap. apply N1, elem_of_list_fmap. exists y. split; [done|].
    by apply elem_of_list_filter in H as [_ H].
  Qed.

  Lemma cands_sorted : StronglySorted cand_le cands.
  Proof. apply StronglySorted_merge_sort; apply _. Qed.

  Lemma cands_sum : csum cands <= resident.
  Proof.
    unfold cands.
    assert (forall l l', l ≡ₚ l' -> csum l = csum l') as P by (unfold csum; induction 1; cbn; lia).
    rewrite (P _ _ (merge_sort_Permutation _ _)). clear P.
    assert (forall l l', l ≡ₚ l' -> total_bytes l = total_bytes l') as P by (unfold total_bytes; induction 1; cbn; lia).
    rewrite <- (P _ _ (Hfair ps)). unfold total_bytes, csum. clear P.
    induction (iter ps) as [|x l IH]; cbn; [lia|].
    destruct (decide (spare x)); [exact (proj1 (N.add_le_mono_l _ _ (i_bytes x.2)) IH)|].
    etransitivity; [exact IH|lia].
  Qed.

  Lemma out_spec : exists rest,
    (cands = out ++ rest \/ out = [] /\ rest = cands) /\
    (limit <> 0 -> rest <> [] -> resident - csum out <= limit) /\
    (forall out' c, out = out' ++ [c] -> limit < resident - csum out').
  Proof.
    unfold out. destruct ((limit =? 0) || (resident <=? limit)) eqn:E.
    - exists cands. split; [by right|]. split.
      + intros L _. apply orb_true_iff in E as [E|E]; [apply N.eqb_eq in E; done|].
        apply N.leb_le in E. cbn. lia.
      + intros [|] ?; done.
    - apply orb_false_iff in E as [E1 E2]. apply N.eqb_neq in E1. apply N.leb_gt in E2.
      destruct (take_excess_spec cands (resident - limit)) as (rest & H1 & H2 & H3). exists rest.
      split; [by left|]. split.
      + intros _ H. specialize (H2 H). lia.
      + intros out' c H. specialize (H3 _ _ H). lia.
  Qed.

  Lemma out_cands c : c ∈ out -> c ∈ cands.
  Proof.
    destruct out_spec as (rest & [E|[E _]] & _); [|rewrite E; by intros ?%elem_of_nil].
    intros H. rewrite E. apply elem_of_app. by left.
  Qed.
  Lemma out_keys : NoDup kill.
  Proof.
    pose proof cands_keys as N. destruct out_spec as (rest & [E|[E _]] & _); [|rewrite E; apply NoDup_nil_2].
    rewrite E, fmap_app in N. by apply NoDup_app in N as [N _].
  Qed.
  Lemma out_sum : csum out <= resident.
  Proof.
    pose proof cands_sum as S. destruct out_spec as (rest & [E|[E _]] & _); [|rewrite E; cbn; lia].
    rewrite E, csum_app in S. lia.
  Qed.
  Lemma kill_elem k : k ∈ kill -> exists i, pget k ps = Some i /\ i_protected i = false /\ i_bytes i <> 0 /\
    to_candidate lu sy vh (k, i) ∈ out.
  Proof.
    intros H. apply elem_of_list_fmap in H as (c & -> & H).
    destruct (proj1 (cands_elem c) (out_cands c H)) as (k & i & H1 & H2 & H3 & ->). cbn. eauto.
  Qed.
  Lemma out_le c k i : c ∈ out -> pget k ps = Some i -> i_protected i = false -> i_bytes i <> 0 ->
    k ∉ kill -> cand_le c (to_candidate lu sy vh (k, i)).
  Proof.
    intros Hc H1 H2 H3 Hk.
    assert (to_candidate lu sy vh (k, i) ∈ cands) as Hin by (apply cands_elem; eauto 10).
    destruct out_spec as (rest & [E|[E _]] & _); [|rewrite E in Hc; by apply elem_of_nil in Hc].
    pose proof cands_sorted as S. rewrite E in S, Hin. apply elem_of_app in Hin as [Hin|Hin].
    - exfalso. apply Hk. apply elem_of_list_fmap. by exists (to_candidate lu sy vh (k, i)).
    - by eapply elem_of_StronglySorted_app.
  Qed.
  Lemma out_enough : limit <> 0 -> resident - csum out <= limit \/
    forall k i, pget k ps = Some i -> i_protected i = false -> i_bytes i <> 0 -> k ∈ kill.
  Proof.
    intros L. destruct out_spec as ([|c rest] & E & H & _).
    - destruct E as [E|[E1 E2]].
      + right. intros k i H1 H2 H3.
        assert (to_candidate lu sy vh (k, i) ∈ cands) as Hin by (apply cands_elem; eauto 10).
        rewrite E, app_nil_r in Hin. apply elem_of_list_fmap. by exists (to_candidate lu sy vh (k, i)).
      + right. intros k i H1 H2 H3.
        assert (to_candidate lu sy vh (k, i) ∈ cands) as Hin by (apply cands_elem; eauto 10).
        rewrite <- E2 in Hin. by apply elem_of_nil in Hin.
    - left. by apply H.
  Qed.
  Lemma out_last : out <> [] -> exists out' c, out = out' ++ [c] /\ limit < resident - csum out' /\
    (forall c', c' ∈ out -> cand_le c' c).
  Proof.
    intros N. destruct (exists_last N) as (out' & c & E). exists out', c. split; [done|].
    destruct out_spec as (rest & F & _ & H). split; [by eapply H|].
    destruct F as [F|[F _]]; [|done]. pose proof cands_sorted as S. rewrite F in S.
    apply StronglySorted_app_inv_l in S. rewrite E in S |- *. intros c' [Hc|Hc]%elem_of_app.
    - eapply elem_of_StronglySorted_app; [exact S|done|by left].
    - apply elem_of_list_singleton in Hc as ->. unfold cand_le, cand_cmp.
      rewrite N.compare_refl, Z.compare_refl. unfold key_cmp. by rewrite !Z.compare_refl.
  Qed.
End outcome.

(** The order in which the map is walked does not matter. *)
Lemma enforce_iter iter iter' st tiles cache sy vh limit : fair iter -> fair iter' ->
  enforce iter st tiles cache sy vh limit = enforce iter' st tiles cache sy vh limit.
Proof.
  intros F F'. rewrite !enforce_eq.
  assert (cands iter st tiles cache sy vh = cands iter' st tiles cache sy vh) as E.
  { apply sorted_perm; try apply cands_sorted.
    - unfold cands. rewrite !merge_sort_Permutation. apply fmap_Permutation.
      assert (forall l l' : list (key * pos_info), l ≡ₚ l' -> filter spare l ≡ₚ filter spare l') as P.
      { induction 1 as [|x l l' H IH|x y l|l1 l2 l3 H1 IH1 H2 IH2].
        - done.
        - cbn. destruct (decide (spare x)); [by constructor|done].
        - cbn. destruct (decide (spare x)), (decide (spare y)); try done. constructor.
        - by etransitivity. }
      apply P. by rewrite (F _), (F' _).
    - by apply cands_keys. }
  unfold out. by rewrite E.
Qed.

(** * In terms of the items *)

Lemma prot_item sy vh x : f_prot (raster_window sy vh) x = true <-> untouchable sy vh (to_item x).
Proof.
  unfold f_prot, untouchable, to_item. cbn [x_y x_h x_pinned x_pixels]. rewrite !orb_true_iff.
  rewrite near_overlaps. destruct (f_px x) as [p l|id]; split.
  - intros [[?|?]|?]; [auto|done|auto].
  - intros [?|[?|[? [=]]]]; auto.
  - intros [[?|?]|?]; eauto.
  - intros [?|[?|?]]; auto.
Qed.

Lemma bytes_pos xs : bytes xs <> 0 <-> exists x p l, x ∈ xs /\ x_pixels x = Cpu p l /\ l <> 0.
Proof.
  rewrite bytes_sumd. unfold sumd.
  assert (forall l : list (N * N), foldr (fun b n => b.2 + n) 0 l <> 0 <-> exists b, b ∈ l /\ b.2 <> 0) as H.
  { induction l as [|b l IH]; cbn.
    - split; [done|]. by intros (b & ?%elem_of_nil & _).
    - split.
      + intros Hn. destruct (decide (b.2 = 0)) as [E|E]; [|exists b; split; [by left|done]].
        destruct (proj1 IH) as (b' & H1 & H2); [lia|]. exists b'. split; [by right|done].
      + intros (b' & [->|H1]%elem_of_cons & H2); [lia|].
        assert (foldr (fun b n => b.2 + n) 0 l <> 0) by (apply IH; eauto). lia. }
  rewrite H. split.
  - intros ([p l] & H1 & H2). rewrite elem_of_remove_dups in H1. apply elem_of_buffers in H1 as (x & Hx & Hb).
    exists x, p, l. split; [done|]. unfold buffer in Hb. destruct (x_pixels x); [|done]. by injection Hb as -> ->.
  - intros (x & p & l & Hx & Hp & Hl). exists (p, l). split; [|done]. rewrite elem_of_remove_dups.
    apply elem_of_buffers. exists x. split; [done|]. unfold buffer. by rewrite Hp.
Qed.

Definition without (ks : list key) (xs : list item) : list item := filter (fun x => x_key x ∉ ks) xs.
Definition only (ks : list key) (xs : list item) : list item := filter (fun x => x_key x ∈ ks) xs.

Lemma unshared_split (P : item -> Prop) `{!forall x, Decision (P x)} xs ys zs :
  unshared xs -> (forall x, x ∈ ys -> x ∈ xs) -> (forall x, x ∈ zs -> x ∈ xs) ->
  (forall y z, y ∈ ys -> z ∈ zs -> x_key y <> x_key z) ->
  sumd (buffers ys ++ buffers zs) = bytes ys + bytes zs.
Proof.
  intros U Hy Hz D. rewrite sumd_disjoint; [by rewrite !bytes_sumd|].
  intros b (y & H1 & H2)%elem_of_buffers (z & H3 & H4)%elem_of_buffers.
  apply (D y z H1 H3). apply (U y z b); auto.
Qed.

Lemma bytes_split ks xs : unshared xs -> bytes xs = bytes (without ks xs) + bytes (only ks xs).
Proof.
  intros U. rewrite <- (unshared_split (fun _ => True) xs); try done.
  - rewrite bytes_sumd. apply sumd_ext. intros b. rewrite elem_of_app, !elem_of_buffers. split.
    + intros (x & H1 & H2). destruct (decide (x_key x ∈ ks)); [right|left]; exists x; (split; [|done]);
        apply elem_of_list_filter; done.
    + intros [(x & H1 & H2)|(x & H1 & H2)]; apply elem_of_list_filter in H1 as [_ H1]; eauto.
  - by intros x [_ H]%elem_of_list_filter.
  - by intros x [_ H]%elem_of_list_filter.
  - intros y z [H1 _]%elem_of_list_filter [H2 _]%elem_of_list_filter E. rewrite E in H1. done.
Qed.

Lemma bytes_only ks xs (f : key -> N) : unshared xs -> NoDup ks ->
  (forall k, k ∈ ks -> f k = bytes (at_key k xs)) ->
  bytes (only ks xs) = foldr (fun k n => f k + n) 0 ks.
Proof.
  intros U ND. induction ND as [|k ks Nk ND IH]; intros F; cbn [foldr].
  - unfold only. assert (filter (fun x => x_key x ∈ []) xs = []) as ->; [|done].
    induction xs as [|x xs IHx]; [done|]. rewrite filter_cons_False by apply not_elem_of_nil. apply IHx.
    + intros a b c Ha Hb. apply U; by right.
    + intros k Hk. by apply elem_of_nil in Hk.
  - rewrite F by left. rewrite <- IH by (intros; apply F; by right).
    rewrite <- (unshared_split (fun _ => True) xs); try done.
    + rewrite bytes_sumd. apply sumd_ext. intros b. rewrite elem_of_app, !elem_of_buffers. split.
      * intros (x & [H1 H2]%elem_of_list_filter & H3). apply elem_of_cons in H1 as [H1|H1];
          [left|right]; exists x; (split; [|done]); by apply elem_of_list_filter.
      * intros [(x & [H1 H2]%elem_of_list_filter & H3)|(x & [H1 H2]%elem_of_list_filter & H3)];
          exists x; (split; [|done]); apply elem_of_list_filter; (split; [|done]); apply elem_of_cons; auto.
    + by intros x [_ H]%elem_of_list_filter.
    + by intros x [_ H]%elem_of_list_filter.
    + intros y z [H1 _]%elem_of_list_filter [H2 _]%elem_of_list_filter E. congruence.
Qed.

Section outcome_items.
  Context (iter : list (key * pos_info) -> list (key * pos_info)) (Hfair : fair iter).
  Context (st : budget) (tiles : list tile) (cache : list cache_entry) (sy vh : f64) (limit : N).
  Local Notation xs := (items tiles cache).
  Local Notation ps := (gather (raster_window sy vh) tiles cache).
  Local Notation out := (out iter st tiles cache sy vh limit).
  Local Notation kill := (c_key <$> out).
  Local Notation tiles' := (filter (fun t => mem_key (pos_key t) kill = false) tiles).
  Local Notation cache' := (filter (fun c => mem_key (entry_key c) kill = false) cache).

  Lemma mem_key_false k ks : mem_key k ks = false <-> k ∉ ks.
  Proof. unfold mem_key. apply bool_decide_eq_false. Qed.

  Lemma fmap_filter_item {A} (f : A -> item) (g : A -> key) ks (l : list A) : (forall a, x_key (f a) = g a) ->
    f <$> filter (fun a => mem_key (g a) ks = false) l = without ks (f <$> l).
  Proof.
    intros E. induction l as [|a l IH]; [done|]. unfold without in *. cbn [fmap list_fmap].
    destruct (decide (g a ∈ ks)) as [H|H].
    - rewrite filter_cons_False by (rewrite mem_key_false; tauto).
      rewrite filter_cons_False by (rewrite E; tauto). done.
    - rewrite filter_cons_True by (by rewrite mem_key_false).
      rewrite filter_cons_True by (by rewrite E). cbn [fmap list_fmap]. by f_equal.
  Qed.

  Lemma items_after : items tiles' cache' = without kill xs.
  Proof.
    unfold items. unfold without at 1. rewrite filter_app. f_equal.
    - by apply (fmap_filter_item tile_item pos_key).
    - apply (fmap_filter_item entry_item entry_key). by intros [[k hsh] [[w h] px]].
  Qed.

  Lemma keys_item k : k ∈ x_key <$> xs <-> is_Some (pget k ps).
  Proof.
    rewrite <- pget_keys. unfold gather. rewrite (ga_keys _ _ _ (gath tiles cache sy vh)).
    rewrite items_feed, <- list_fmap_compose. done.
  Qed.

  Lemma gone_kill k : gone xs (items tiles' cache') k <-> k ∈ kill.
  Proof.
    unfold gone. rewrite items_after. split.
    - intros [H1 H2]. destruct (decide (k ∈ kill)) as [|n]; [done|]. exfalso. apply H2.
      apply elem_of_list_fmap in H1 as (x & -> & Hx). apply elem_of_list_fmap. exists x. split; [done|].
      by apply elem_of_list_filter.
    - intros H. split.
      + destruct (kill_elem iter Hfair st tiles cache sy vh limit k H) as (i & Hi & _).
        apply keys_item. eauto.
      + intros (x & -> & [Hx _]%elem_of_list_filter)%elem_of_list_fmap. done.
  Qed.

  Lemma prot_pos k i : pget k ps = Some i ->
    i_protected i = true <-> exists x, x ∈ xs /\ x_key x = k /\ untouchable sy vh x.
  Proof.
    intros H. rewrite (ga_prot _ _ _ (gath tiles cache sy vh) k i H). rewrite items_feed. split.
    - intros (x & H1 & H2 & H3). exists (to_item x). split; [apply elem_of_list_fmap; eauto|].
      split; [done|]. by apply prot_item.
    - intros (x & (z & -> & Hz)%elem_of_list_fmap & H2 & H3). exists z. split; [done|].
      split; [done|]. by apply prot_item.
  Qed.

  Lemma spare_evictable k : unshared xs ->
    evictable sy vh xs k <-> exists i, pget k ps = Some i /\ i_protected i = false /\ i_bytes i <> 0.
  Proof.
    intros U. unfold evictable. split.
    - intros [(x & p & l & H1 & H2 & H3 & H4) H5].
      assert (is_Some (pget k ps)) as [i Hi] by (apply keys_item, elem_of_list_fmap; eauto).
      exists i. split; [done|]. split.
      + destruct (i_protected i) eqn:E; [|done]. apply (prot_pos k i Hi) in E as (y & Y1 & Y2 & Y3).
        by destruct (H5 y Y1 Y2).
      + rewrite items_feed in *. rewrite (ga_bytes _ _ _ (gath tiles cache sy vh) U k i Hi).
        apply bytes_pos. exists x, p, l. split; [by apply elem_of_list_filter|done].
    - intros (i & Hi & H1 & H2). split.
      + rewrite items_feed in *. rewrite (ga_bytes _ _ _ (gath tiles cache sy vh) U k i Hi) in H2.
        apply bytes_pos in H2 as (x & p & l & [Hk Hx]%elem_of_list_filter & H3). exists x, p, l. tauto.
      + intros x Hx Hk Hu. assert (i_protected i = true) as E by (apply (prot_pos k i Hi); eauto). congruence.
  Qed.

  Lemma bytes_all : total_bytes ps = bytes xs.
  Proof. rewrite items_feed. apply (ga_total _ _ _ (gath tiles cache sy vh)). Qed.

  Lemma cand_bytes : unshared xs -> forall l, (forall c, c ∈ l -> c ∈ out) -> NoDup (c_key <$> l) ->
    csum l = bytes (only (c_key <$> l) xs).
  Proof.
    intros U l Hl ND. rewrite (bytes_only _ _ (fun k => bytes (at_key k xs))); [|done|done|done].
    unfold csum. clear ND. induction l as [|c l IH]; [done|]. cbn [fmap list_fmap foldr].
    rewrite <- IH by (intros; apply Hl; by right). f_equal.
    specialize (Hl c ltac:(by left)). apply out_cands in Hl.
    apply (cands_elem iter Hfair) in Hl as (k & i & H1 & H2 & H3 & ->). cbn.
    rewrite items_feed in *. by apply (ga_bytes _ _ _ (gath tiles cache sy vh) U k i).
  Qed.

  Lemma bytes_after : unshared xs -> bytes (items tiles' cache') = total_bytes ps - csum out.
  Proof.
    intros U. rewrite items_after, bytes_all, (bytes_split kill xs U).
    rewrite (cand_bytes U out) by (done || by apply out_keys). lia.
  Qed.
End outcome_items.

(** * Distances *)

Definition nonneg_bits (x : f64) : Prop := Bsign x = false.

Lemma bounded_facts m e : SpecFloat.bounded 53 1024 m e = true ->
  (Z.pos m < 2 ^ 53 /\ (-1074 <= e <= 971) /\ (Z.pos m < 2 ^ 52 -> e = -1074))%Z.
Proof.
  intros H. unfold SpecFloat.bounded in H. apply andb_true_iff in H as [H1 H2].
  unfold SpecFloat.canonical_mantissa in H1. apply Zeq_bool_eq in H1. apply Zle_bool_imp_le in H2.
  unfold SpecFloat.fexp, SpecFloat.emin in H1.
  rewrite Digits.Zpos_digits2_pos in H1.
  pose proof (Digits.Zdigits_correct radix2 (Z.pos m)) as D.
  change (Z.abs (Z.pos m)) with (Z.pos m) in D.
  set (d := Digits.Zdigits radix2 (Z.pos m)) in *.
  assert (0 < d)%Z by (apply Digits.Zdigits_gt_0; done).
  change (Z.pow_pos 2) with (Z.pow 2) in *.
  change (radix_val radix2) with 2%Z in D.
  assert (d <= 53)%Z by lia.
  split_and!; try lia.
  - assert (2 ^ d <= 2 ^ 53)%Z by (apply Z.pow_le_mono_r; lia). lia.
  - intros L. destruct (Z.eq_dec d 53%Z) as [E|E]; [|lia]. rewrite E in D.
    change (53 - 1)%Z with 52%Z in D. lia.
Qed.

Lemma to_bits_lt x y : nonneg_bits x -> nonneg_bits y -> flt x y = true -> (to_bits x < to_bits y)%Z.
Proof.
  unfold nonneg_bits. destruct x as [[]|[]| |[] m1 e1 B1], y as [[]|[]| |[] m2 e2 B2]; try done; intros _ _ L.
  - cbn [to_bits]. destruct (bounded_facts _ _ B2) as (F1 & F2 & F3).
    destruct (Z.ltb_spec (Z.pos m2) (2 ^ 52)); lia.
  - cbn [to_bits]. destruct (bounded_facts _ _ B1) as (F1 & F2 & F3).
    destruct (Z.ltb_spec (Z.pos m1) (2 ^ 52)); lia.
  - cbn [to_bits]. destruct (bounded_facts _ _ B1) as (F1 & F2 & F3).
    destruct (bounded_facts _ _ B2) as (G1 & G2 & G3).
    assert (e1 < e2 \/ e1 = e2 /\ Z.pos m1 < Z.pos m2)%Z as C.
    { unfold flt, Bltb, SpecFloat.SFltb in L. cbn [B2SF SpecFloat.SFcompare] in L.
      destruct (Z.compare_spec e1 e2) as [E|E|E]; [right|by left|done].
      split; [done|]. change (Pos.compare_cont Eq m1 m2) with (Pos.compare m1 m2) in L.
      destruct (Pos.compare_spec m1 m2); try done. }
    destruct (Z.ltb_spec (Z.pos m1) (2 ^ 52)), (Z.ltb_spec (Z.pos m2) (2 ^ 52)); lia.
Qed.

Lemma fabs_nonneg x : nonneg_bits (fabs x).
Proof. by destruct x. Qed.

(** * Stamps *)

Definition stamp (st : budget) (k : key) : N := default 0 (b_last_used st !! k).

Lemma retain_lookup p m k : retain p m !! k = if p k then m !! k else None.
Proof.
  unfold retain. destruct (m !! k) as [n|] eqn:E.
  - destruct (p k) eqn:P.
    + by apply map_filter_lookup_Some_2.
    + apply map_filter_lookup_None_2. right. intros n' _. cbn. congruence.
  - rewrite map_filter_lookup_None_2 by (by left). by destruct (p k).
Qed.

Lemma touch_lookup (tick : N) (sx sy vw vh : f64) (ts : list tile) (m : gmap key N) (k : key) :
  foldl (fun m t => if on_screen sx sy vw vh t then <[pos_key t := tick]> m else m) m ts !! k =
  if bool_decide (k ∈ pos_key <$> filter (fun t => on_screen sx sy vw vh t = true) ts) then Some tick
  else m !! k.
Proof.
  revert m. induction ts as [|t ts IH]; intros m; cbn [foldl]; [done|].
  rewrite IH. destruct (on_screen sx sy vw vh t) eqn:E.
  - rewrite filter_cons_True by done. cbn [fmap list_fmap].
    destruct (bool_decide (k ∈ pos_key <$> filter (fun t => on_screen sx sy vw vh t = true) ts)) eqn:B.
    + apply bool_decide_eq_true in B. rewrite bool_decide_eq_true_2; [done|by right].
    + apply bool_decide_eq_false in B. destruct (decide (k = pos_key t)) as [->|n].
      * rewrite lookup_insert. rewrite bool_decide_eq_true_2; [done|by left].
      * rewrite lookup_insert_ne by done. rewrite bool_decide_eq_false_2; [done|].
        by intros [?|?]%elem_of_cons.
  - rewrite filter_cons_False by (by rewrite E). done.
Qed.

Lemma enforce_lookup iter st ts ca sy vh limit k : fair iter ->
  let r := enforce iter st ts ca sy vh limit in
  b_last_used r.1.1.1 !! k =
  if bool_decide (k ∈ x_key <$> items r.1.1.2 r.1.2) then b_last_used st !! k else None.
Proof.
  intros F. rewrite enforce_eq. cbn [fst snd b_last_used]. rewrite !retain_lookup.
  rewrite items_after. set (kl := c_key <$> out iter st ts ca sy vh limit).
  destruct (mem_key k kl) eqn:M; cbn [negb].
  - rewrite bool_decide_eq_false_2; [done|].
    intros (x & -> & [H _]%elem_of_list_filter)%elem_of_list_fmap.
    apply H. by apply bool_decide_eq_true in M.
  - apply mem_key_false in M. unfold mem_key.
    assert (k ∈ (gather (raster_window sy vh) ts ca).*1 <-> k ∈ x_key <$> without kl (items ts ca)) as Q;
      [|by rewrite (bool_decide_ext _ _ Q)].
    rewrite pget_keys, <- keys_item. split.
    + intros (x & -> & Hx)%elem_of_list_fmap. apply elem_of_list_fmap. exists x. split; [done|].
      by apply elem_of_list_filter.
    + intros (x & -> & [_ Hx]%elem_of_list_filter)%elem_of_list_fmap. apply elem_of_list_fmap. eauto.
Qed.

Lemma stamps rops : Forall op_ok rops ->
  b_tick (after (rev rops)) = composites rops /\
  forall k, stamp (after (rev rops)) k = last_shown rops k.
Proof.
  induction rops as [|o rops IH]; intros F; [done|].
  apply Forall_cons in F as [Fo F]. destruct (IH F) as [T S].
  cbn [rev]. unfold after in *. rewrite foldl_app. cbn [foldl]. set (st := foldl apply budget_new (rev rops)) in *.
  destruct o; cbn [apply composites last_shown].
  - done.
  - done.
  - done.
  - unfold touch, stamp. cbn [b_tick b_last_used]. rewrite T. split; [done|]. intros k.
    rewrite touch_lookup. destruct (bool_decide _); [done|apply S].
  - split; [by rewrite enforce_eq|]. intros k. unfold stamp.
    rewrite (enforce_lookup iter _ _ _ _ _ _ _ Fo). fold st. unfold after. fold st.
    destruct (bool_decide _); [apply S|done].
Qed.

(** * What is thrown away, and what is kept *)

Definition result (r : budget * list tile * list cache_entry * report) : list item := items r.1.1.2 r.1.2.

Lemma result_sublist iter st ts ca sy vh limit :
  let r := enforce iter st ts ca sy vh limit in
  sublist r.1.1.2 ts /\ sublist r.1.2 ca.
Proof.
  rewrite enforce_eq. cbn [fst snd].
  assert (forall {A} (P : A -> Prop) `{!forall x, Decision (P x)} (l : list A), sublist (filter P l) l) as S.
  { intros A P H l. induction l as [|x l IH]; [done|]. cbn. destruct (decide (P x)).
    - by apply sublist_skip.
    - by apply sublist_cons. }
  split; apply S.
Qed.

(** A position goes whole or stays whole. *)
Lemma result_whole iter st ts ca sy vh limit : fair iter ->
  let r := enforce iter st ts ca sy vh limit in
  (forall t, t ∈ ts -> t ∉ r.1.1.2 -> gone (items ts ca) (result r) (pos_key t)) /\
  (forall c, c ∈ ca -> c ∉ r.1.2 -> gone (items ts ca) (result r) (entry_key c)).
Proof.
  intros F. rewrite enforce_eq. unfold result. cbn [fst snd]. split; intros a Ha Hn; apply (gone_kill iter F);
    match goal with |- ?P => destruct (decide P) as [|n]; [done|] end; exfalso; apply Hn, elem_of_list_filter;
    (split; [by apply mem_key_false|done]).
Qed.

Lemma gone_not_prot iter st ts ca sy vh limit k : fair iter ->
  gone (items ts ca) (result (enforce iter st ts ca sy vh limit)) k ->
  forall x, x ∈ items ts ca -> x_key x = k -> ~ untouchable sy vh x.
Proof.
  intros F. rewrite enforce_eq. unfold result. cbn [fst snd]. rewrite (gone_kill iter F). intros Hk x Hx Ek Hu.
  destruct (kill_elem iter F st ts ca sy vh limit k Hk) as (i & H1 & H2 & _).
  assert (i_protected i = true) by (apply (prot_pos ts ca sy vh k i H1); eauto). congruence.
Qed.

Lemma gone_evictable iter st ts ca sy vh limit k : fair iter -> unshared (items ts ca) ->
  gone (items ts ca) (result (enforce iter st ts ca sy vh limit)) k -> evictable sy vh (items ts ca) k.
Proof.
  intros F U. rewrite enforce_eq. unfold result. cbn [fst snd]. rewrite (gone_kill iter F). intros Hk.
  destruct (kill_elem iter F st ts ca sy vh limit k Hk) as (i & H1 & H2 & H3 & _).
  apply spare_evictable; eauto.
Qed.

Lemma report_true iter st ts ca sy vh limit : fair iter -> unshared (items ts ca) ->
  let r := enforce iter st ts ca sy vh limit in
  e_resident r.2 = bytes (result r) /\
  (bytes (items ts ca) = e_bytes r.2 + e_resident r.2) /\
  (exists ks, NoDup ks /\ length ks = e_tiles r.2 /\ forall k, k ∈ ks <-> gone (items ts ca) (result r) k).
Proof.
  intros F U. rewrite enforce_eq. unfold result. cbn [fst snd e_resident e_bytes e_tiles].
  split_and!.
  - symmetry. by apply bytes_after.
  - rewrite <- (bytes_all ts ca sy vh). pose proof (out_sum iter F st ts ca sy vh limit). lia.
  - eexists. split; [apply NoDup_remove_dups|]. split; [done|].
    intros k. rewrite elem_of_remove_dups. symmetry. by apply gone_kill.
Qed.

Lemma never_underflows iter st ts ca sy vh limit : fair iter ->
  e_bytes (enforce iter st ts ca sy vh limit).2 <= bytes (items ts ca).
Proof.
  intros F. rewrite enforce_eq. cbn [fst snd e_bytes]. rewrite <- (bytes_all ts ca sy vh). by apply out_sum.
Qed.

Lemma within_budget iter st ts ca sy vh limit : fair iter -> unshared (items ts ca) -> limit <> 0 ->
  let r := enforce iter st ts ca sy vh limit in
  bytes (result r) <= limit \/ forall k, ~ evictable sy vh (result r) k.
Proof.
  intros F U L. rewrite enforce_eq. unfold result. cbn [fst snd].
  destruct (out_enough iter F st ts ca sy vh limit L) as [H|H].
  - left. by rewrite (bytes_after iter F).
  - right. intros k [(x & p & l & H1 & H2 & H3 & H4) H5]. rewrite items_after in H1, H5.
    apply elem_of_list_filter in H1 as [N1 H1].
    assert (evictable sy vh (items ts ca) k) as E.
    { split; [eauto 10|]. intros y Hy Hk. apply H5; [|done]. apply elem_of_list_filter. split; [|done].
      congruence. }
    apply (spare_evictable ts ca sy vh k U) in E as (i & E1 & E2 & E3). specialize (H k i E1 E2 E3). congruence.
Qed.

Lemma unlimited iter st ts ca sy vh limit : limit = 0 \/ bytes (items ts ca) <= limit ->
  let r := enforce iter st ts ca sy vh limit in r.1.1.2 = ts /\ r.1.2 = ca /\ e_tiles r.2 = 0%nat.
Proof.
  intros H. unfold enforce. rewrite (bytes_all ts ca sy vh).
  assert ((limit =? 0) || (bytes (items ts ca) <=? limit) = true) as ->; [|done].
  apply orb_true_iff. destruct H; [left; by apply N.eqb_eq|right; by apply N.leb_le].
Qed.

Lemma feed_y ts ca x : x ∈ feed ts ca -> r_y (f_rect x) = from_bits (f_key x).1.2.
Proof.
  intros [(t & -> & _)%elem_of_list_fmap|(c & -> & _)%elem_of_list_fmap]%elem_of_app; [done|].
  by destruct c as [[k hsh] [[w h] px]].
Qed.

Lemma rect_item ts ca sy vh k i x : uniform (items ts ca) ->
  pget k (gather (raster_window sy vh) ts ca) = Some i -> x ∈ items ts ca -> x_key x = k ->
  r_y (i_rect i) = x_y x /\ r_h (i_rect i) = x_h x.
Proof.
  intros U H Hx Hk. destruct (ga_rect _ _ _ (gath ts ca sy vh) k i H) as (z & Hz & <-).
  assert (z ∈ filter (fun x => f_key x = k) (feed ts ca)) as Hz'.
  { destruct (filter (fun x => f_key x = k) (feed ts ca)); [done|]. injection Hz as ->. left. }
  apply elem_of_list_filter in Hz' as [Kz Ez].
  rewrite items_feed in Hx, U. pose proof Hx as Hx'. apply elem_of_list_fmap in Hx' as (w & -> & Hw).
  split.
  - cbn. rewrite (feed_y _ _ _ Ez), (feed_y _ _ _ Hw). cbn in Hk. congruence.
  - change (r_h (f_rect z)) with (x_h (to_item z)). apply U; [apply elem_of_list_fmap; eauto|done|].
    cbn in Hk |- *. congruence.
Qed.

Lemma stamp_pos st ts ca sy vh k i : pget k (gather (raster_window sy vh) ts ca) = Some i ->
  c_tick (to_candidate (retain (fun k => mem_key k (gather (raster_window sy vh) ts ca).*1) (b_last_used st)) sy vh (k, i))
  = stamp st k.
Proof.
  intros H. cbn [to_candidate c_tick fst]. rewrite retain_lookup. unfold mem_key.
  rewrite bool_decide_eq_true_2; [done|]. apply pget_keys. eauto.
Qed.

Lemma oldest_first iter st ts ca sy vh limit k k' : fair iter -> unshared (items ts ca) ->
  let r := enforce iter st ts ca sy vh limit in
  gone (items ts ca) (result r) k -> k' ∈ x_key <$> result r -> evictable sy vh (items ts ca) k' ->
  stamp st k <= stamp st k' /\
  (uniform (items ts ca) -> stamp st k = stamp st k' ->
   forall x x', x ∈ items ts ca -> x_key x = k -> x' ∈ items ts ca -> x_key x' = k' ->
   flt (far sy vh (x_y x) (x_h x)) (far sy vh (x_y x') (x_h x')) = false).
Proof.
  intros F U. rewrite enforce_eq. unfold result. cbn [fst snd]. intros G K E.
  assert (k' ∉ c_key <$> out iter st ts ca sy vh limit) as NK.
  { rewrite items_after in K. by apply elem_of_list_fmap in K as (x & -> & [K _]%elem_of_list_filter). }
  apply (gone_kill iter F) in G. destruct (kill_elem iter F st ts ca sy vh limit k G) as (i & H1 & H2 & H3 & H4).
  apply (spare_evictable ts ca sy vh k' U) in E as (i' & E1 & E2 & E3).
  pose proof (out_le iter F st ts ca sy vh limit _ k' i' H4 E1 E2 E3 NK) as L.
  apply cand_le_spec in L. rewrite !stamp_pos in L by done.
  split; [lia|]. intros UN EQ x x' X1 X2 X3 X4.
  destruct L as [L|[_ L]]; [lia|].
  destruct (rect_item ts ca sy vh k i x UN H1 X1 X2) as [<- <-].
  destruct (rect_item ts ca sy vh k' i' x' UN E1 X3 X4) as [<- <-].
  cbn [to_candidate c_dist snd] in L.
  destruct (flt _ _) eqn:Q; [|done]. exfalso.
  apply to_bits_lt in Q; [|apply fabs_nonneg|apply fabs_nonneg].
  change (far sy vh) with (fun y h => distance sy vh (Rect f0 y f0 h)) in Q. cbn beta in Q.
  change (distance sy vh (Rect f0 (r_y (i_rect i)) f0 (r_h (i_rect i)))) with (distance sy vh (i_rect i)) in Q.
  change (distance sy vh (Rect f0 (r_y (i_rect i')) f0 (r_h (i_rect i')))) with (distance sy vh (i_rect i')) in Q.
  lia.
Qed.

Lemma no_more_than_needed iter st ts ca sy vh limit k0 : fair iter -> unshared (items ts ca) ->
  let r := enforce iter st ts ca sy vh limit in
  gone (items ts ca) (result r) k0 ->
  exists k, gone (items ts ca) (result r) k /\
    (forall k', gone (items ts ca) (result r) k' -> stamp st k' <= stamp st k) /\
    limit < bytes (result r ++ filter (fun x => x_key x = k) (items ts ca)).
Proof.
  intros F U. rewrite enforce_eq. unfold result. cbn [fst snd]. intros G.
  apply (gone_kill iter F) in G.
  destruct (out_last iter st ts ca sy vh limit) as (out' & c & E & L & M).
  { intros E. rewrite E in G. by apply elem_of_nil in G. }
  assert (forall c', c' ∈ out iter st ts ca sy vh limit -> stamp st (c_key c') = c_tick c') as ST.
  { intros c' Hc. apply out_cands in Hc. apply (cands_elem iter F) in Hc as (k & i & H1 & _ & _ & ->).
    rewrite stamp_pos by done. done. }
  assert (c ∈ out iter st ts ca sy vh limit) as Hc by (rewrite E; apply elem_of_app; right; by left).
  exists (c_key c). split_and!.
  - apply (gone_kill iter F). apply elem_of_list_fmap. eauto.
  - intros k' Hk. apply (gone_kill iter F) in Hk. apply elem_of_list_fmap in Hk as (c' & -> & Hc').
    rewrite !ST by done. specialize (M c' Hc'). apply cand_le_spec in M. lia.
  - eapply N.lt_le_trans; [exact L|]. rewrite (bytes_all ts ca sy vh).
    rewrite (cand_bytes iter F st ts ca sy vh limit U out').
    2: { intros c' H. rewrite E. apply elem_of_app. by left. }
    2: { pose proof (out_keys iter F st ts ca sy vh limit) as N. rewrite E, fmap_app in N. by apply NoDup_app in N as [N _]. }
    rewrite (bytes_split (c_key <$> out') _ U).
    assert (bytes (without (c_key <$> out') (items ts ca)) =
      bytes (items (filter (λ t, mem_key (pos_key t) (c_key <$> out iter st ts ca sy vh limit) = false) ts)
            (filter (λ c0, mem_key (entry_key c0) (c_key <$> out iter st ts ca sy vh limit) = false) ca) ++
          filter (λ x, x_key x = c_key c) (items ts ca))) as ->; [|lia].
    rewrite items_after, !bytes_sumd. apply sumd_ext. intros b. rewrite !elem_of_buffers.
    pose proof (out_keys iter F st ts ca sy vh limit) as ND. rewrite E, fmap_app in *.
    apply NoDup_app in ND as (_ & ND & _).
    f_equiv. intros x. f_equiv. rewrite elem_of_app. unfold without. rewrite !elem_of_list_filter.
    cbn [fmap list_fmap]. rewrite elem_of_app, elem_of_list_singleton.
    split.
    + intros [H1 H2]. destruct (decide (x_key x = c_key c)); [by right|]. left. tauto.
    + intros [[H1 H2]|[H1 H2]]; [tauto|]. split; [|done]. rewrite H1. intros H3. apply (ND _ H3). by left.
Qed.

(** * Coming back *)

Local Open Scope R_scope.

Lemma half_val : exists H, flit 1 2 = B754_finite false 4503599627370496 (-53) H.
Proof.
  assert (B2SF (flit 1 2) = SpecFloat.S754_finite false 4503599627370496 (-53)) as E by by vm_compute.
  destruct (flit 1 2) as [| | |s m e H]; try done. cbn in E. injection E as -> -> ->. by exists H.
Qed.

Lemma half_place : finite (flit 1 2) /\ place (flit 1 2) = /2.
Proof.
  destruct half_val as [H E]. rewrite E. split; [done|].
  rewrite place_finite by done. unfold B2R, F2R. cbn [Fnum Fexp SpecFloat.cond_Zopp].
  change (bpow radix2 (-53)) with (/ IZR (2 ^ 53)). change (2 ^ 53)%Z with 9007199254740992%Z. field.
Qed.

Lemma fhalf x : finite x -> 0 <= place x ->
  finite (fmul (flit 1 2) x) /\ 0 <= place (fmul (flit 1 2) x) <= place x.
Proof.
  intros F P. destruct half_place as [F1 P1]. rewrite (place_finite _ F1) in P1.
  pose proof (Bmult_correct 53 1024 prec64 emax64 mode_NE (flit 1 2) x) as C.
  fold (fmul (flit 1 2) x) in C. rewrite P1 in C. cbn [round_mode] in C.
  rewrite <- (place_finite x F) in C. fold (rnd (/ 2 * place x)) in C.
  pose proof (place_finite_bound x F) as B. unfold big in B.
  assert (0 <= rnd (/2 * place x) <= place x) as R.
  { split.
    - rewrite <- rnd_0 at 1. apply rnd_le. lra.
    - rewrite <- (rnd_place x F) at 2. apply rnd_le. lra. }
  rewrite Rlt_bool_true in C by (apply Rabs_lt; lra).
  destruct C as (C1 & C2 & _). rewrite F1, F in C2. cbn in C2.
  assert (finite (fmul (flit 1 2) x)) as FF by exact C2.
  split; [done|]. rewrite (place_finite _ FF), C1. done.
Qed.

Lemma f0_place : num f0 /\ place f0 = 0.
Proof. done. Qed.

Lemma fadd_ge' a b : num a -> - big < place a -> num b -> 0 <= place b -> num (fadd a b) /\ place a <= place (fadd a b).
Proof.
  intros Na Ba Nb Pb. destruct (is_finite a) eqn:F; [by apply fadd_ge|].
  pose proof big_pos.
  destruct a as [|[]| |]; try done; [cbn -[big] in *; lra|].
  destruct b as [|[]| |]; try done; try (split; [done|apply Rle_refl]).
  cbn -[big] in Pb. lra.
Qed.

(** The part of the page the refresh looks at, in places. *)
Lemma refresh_places sy vh page : finite sy -> finite vh -> 0 <= place vh -> num page ->
  let w := clamp_to_page (refresh_window sy vh) page in
  let half := fmul (flit 1 2) vh in
  num w.1 /\ num w.2 /\
  place w.1 = Rmax (place (fsub sy half)) 0 /\
  place w.2 = Rmax (Rmin (place (fadd (fadd sy vh) half)) (Rmax (place page) 0)) 0.
Proof.
  intros Fs Fv Pv Np. cbn zeta. unfold clamp_to_page, refresh_window. cbn [fst snd].
  destruct (fhalf vh Fv Pv) as [Fh Ph].
  destruct (fsub_le sy (fmul (flit 1 2) vh) Fs (finite_num _ Fh) ltac:(lra)) as [N1 L1].
  destruct (fadd_ge sy vh Fs (finite_num _ Fv) Pv) as [N2 L2].
  pose proof (place_finite_bound sy Fs) as Bs.
  destruct (fadd_ge' (fadd sy vh) (fmul (flit 1 2) vh) N2 ltac:(lra) (finite_num _ Fh) ltac:(lra)) as [N3 L3].
  destruct f0_place as [N0 P0].
  destruct (fmax_place _ _ N1 N0) as [M1 E1].
  destruct (fmax_place _ _ Np N0) as [M2 E2].
  destruct (fmin_place _ _ N3 M2) as [M3 E3].
  destruct (fmax_place _ _ M3 N0) as [M4 E4].
  rewrite E1, E4, E3, E2, P0. done.
Qed.

Lemma raster_places sy vh page : finite sy -> finite vh -> 0 <= place vh -> num page ->
  let w := clamp_to_page (raster_window sy vh) page in
  num w.1 /\ num w.2 /\
  place w.1 = Rmax (place (fsub sy vh)) 0 /\
  place w.2 = Rmax (Rmin (place (fadd (fadd sy vh) vh)) (Rmax (place page) 0)) 0.
Proof.
  intros Fs Fv Pv Np. cbn zeta. unfold clamp_to_page, raster_window. cbn [fst snd]. rewrite fmul_1.
  destruct (fsub_le sy vh Fs (finite_num _ Fv) ltac:(lra)) as [N1 L1].
  destruct (fadd_ge sy vh Fs (finite_num _ Fv) Pv) as [N2 L2].
  pose proof (place_finite_bound sy Fs) as Bs.
  destruct (fadd_ge' (fadd sy vh) vh N2 ltac:(lra) (finite_num _ Fv) ltac:(lra)) as [N3 L3].
  destruct f0_place as [N0 P0].
  destruct (fmax_place _ _ N1 N0) as [M1 E1].
  destruct (fmax_place _ _ Np N0) as [M2 E2].
  destruct (fmin_place _ _ N3 M2) as [M3 E3].
  destruct (fmax_place _ _ M3 N0) as [M4 E4].
  rewrite E1, E4, E3, E2, P0. done.
Qed.

Lemma evicted_grow st ops : Forall not_redrawn ops ->
  forall r, r ∈ b_evicted st -> r ∈ b_evicted (foldl apply st ops).
Proof.
  revert st. induction ops as [|o ops IH]; intros st F r H; [done|].
  apply Forall_cons in F as [Fo F]. cbn [foldl]. apply IH; [done|].
  destruct o; try done. cbn [apply]. rewrite enforce_eq. cbn. apply elem_of_app. by left.
Qed.

Lemma rerender_gone iter st ts ca sy vh limit ops sy' vh' page k x :
  fair iter -> uniform (items ts ca) -> Forall not_redrawn ops ->
  let r := enforce iter st ts ca sy vh limit in
  gone (items ts ca) (result r) k -> x ∈ items ts ca -> x_key x = k ->
  finite sy' -> finite vh' -> 0 <= place vh' ->
  on_view sy' vh' (x_y x) (x_h x) ->
  flt (x_y x) page = true -> flt f0 (fadd (x_y x) (x_h x)) = true ->
  needs_rerender (foldl apply r.1.1.1 ops) sy' vh' page = true.
Proof.
  intros F U FO. rewrite enforce_eq. unfold result. cbn [fst snd]. intros G Hx Hk Fs Fv Pv [V1 V2] Vp Vt.
  apply (gone_kill iter F) in G. destruct (kill_elem iter F st ts ca sy vh limit k G) as (i & H1 & _ & _ & H4).
  destruct (rect_item ts ca sy vh k i x U H1 Hx Hk) as [Ey Eh].
  unfold needs_rerender.
  destruct (flt_num _ _ Vp) as [Ny Np].
  destruct (refresh_places sy' vh' page Fs Fv Pv Np) as (W1 & W2 & E1 & E2).
  destruct (clamp_to_page (refresh_window sy' vh') page) as [lo hi] eqn:W. cbn [fst snd] in *.
  assert (existsb (fun r => overlaps (r_y r) (r_h r) lo hi)
    (b_evicted (foldl apply (Budget (b_tick st)
       (retain (fun k0 => negb (mem_key k0 (c_key <$> out iter st ts ca sy vh limit)))
          (retain (fun k0 => mem_key k0 (gather (raster_window sy vh) ts ca).*1) (b_last_used st)))
       (b_evicted st ++ (c_rect <$> out iter st ts ca sy vh limit)) (b_rastered st)) ops)) = true) as ->; [|done].
  apply existsb_exists. exists (i_rect i). split.
  - apply elem_of_list_In. apply evicted_grow; [done|]. cbn [b_evicted]. apply elem_of_app. right.
    apply elem_of_list_fmap. exists (to_candidate (retain (fun k0 => mem_key k0 (gather (raster_window sy vh) ts ca).*1) (b_last_used st)) sy vh (k, i)).
    done.
  - unfold overlaps. rewrite Ey, Eh.
    destruct (flt_num _ _ V1) as [_ N1]. destruct (flt_num _ _ V2) as [Ns N2].
    apply flt_place in V1; [|done|done]. apply flt_place in V2; [|done|done].
    apply flt_place in Vp; [|done|done]. destruct f0_place as [N0 P0].
    apply flt_place in Vt; [|done|done]. rewrite P0 in Vt.
    destruct (fhalf vh' Fv Pv) as [Fh Ph].
    destruct (fsub_le sy' (fmul (flit 1 2) vh') Fs (finite_num _ Fh) ltac:(lra)) as [_ L1].
    pose proof (place_finite_bound sy' Fs) as Bs.
    destruct (fadd_ge sy' vh' Fs (finite_num _ Fv) Pv) as [M2 L2].
    destruct (fadd_ge' (fadd sy' vh') (fmul (flit 1 2) vh') M2 ltac:(lra) (finite_num _ Fh) ltac:(lra)) as [_ L3].
    apply andb_true_iff. split.
    + apply flt_place; [done|done|]. rewrite E2.
      eapply Rlt_le_trans; [|apply Rmax_l]. apply Rmin_glb_lt; [lra|].
      eapply Rlt_le_trans; [|apply Rmax_l]. lra.
    + apply flt_place; [done|done|]. rewrite E1. apply Rmax_lub_lt; lra.
Qed.

(** Calls that draw on, or clean up, with the page where it is. *)
Lemma evicted_far iter st ts ca sy vh limit : fair iter ->
  forall r, r ∈ b_evicted (enforce iter st ts ca sy vh limit).1.1.1 ->
  r ∈ b_evicted st \/ ~ near_view sy vh (r_y r) (r_h r).
Proof.
  intros F r. rewrite enforce_eq. cbn [fst b_evicted]. intros [H|H]%elem_of_app; [by left|]. right.
  apply elem_of_list_fmap in H as (c & -> & Hc). apply out_cands in Hc.
  apply (cands_elem iter F) in Hc as (k & i & H1 & H2 & _ & ->). cbn [to_candidate c_rect snd].
  intros N. destruct (ga_rect _ _ _ (gath ts ca sy vh) k i H1) as (z & Hz & Er).
  assert (z ∈ filter (fun x => f_key x = k) (feed ts ca)) as Hz'.
  { destruct (filter (fun x => f_key x = k) (feed ts ca)); [done|]. injection Hz as ->. left. }
  apply elem_of_list_filter in Hz' as [Kz Ez].
  assert (i_protected i = true); [|congruence].
  apply (prot_pos ts ca sy vh k i H1). exists (to_item z). split; [|split; [done|]].
  - rewrite items_feed. apply elem_of_list_fmap. eauto.
  - left. cbn. by rewrite Er.
Qed.

Lemma settled st sy vh page :
  finite sy -> finite vh -> 0 <= place sy -> 0 <= place vh -> num page ->
  b_rastered st = Some (clamp_to_page (raster_window sy vh) page) ->
  (forall r, r ∈ b_evicted st -> ~ near_view sy vh (r_y r) (r_h r)) ->
  needs_rerender st sy vh page = false.
Proof.
  intros Fs Fv Ps Pv Np HR HE. unfold needs_rerender. rewrite HR.
  destruct (refresh_places sy vh page Fs Fv Pv Np) as (W1 & W2 & E1 & E2).
  destruct (raster_places sy vh page Fs Fv Pv Np) as (R1 & R2 & G1 & G2).
  destruct (clamp_to_page (refresh_window sy vh) page) as [lo hi] eqn:W. cbn [fst snd] in *.
  destruct (clamp_to_page (raster_window sy vh) page) as [rlo rhi] eqn:R. cbn [fst snd] in *.
  destruct (fhalf vh Fv Pv) as [Fh Ph].
  destruct (fsub_le sy (fmul (flit 1 2) vh) Fs (finite_num _ Fh) ltac:(lra)) as [K1 L1].
  destruct (fsub_le sy vh Fs (finite_num _ Fv) ltac:(lra)) as [K2 L2].
  pose proof (place_finite_bound sy Fs) as Bs. pose proof (place_finite_bound vh Fv) as Bv.
  destruct (fadd_ge sy vh Fs (finite_num _ Fv) Pv) as [K3 L3].
  destruct (fadd_ge' (fadd sy vh) (fmul (flit 1 2) vh) K3 ltac:(lra) (finite_num _ Fh) ltac:(lra)) as [K4 L4].
  destruct (fadd_ge' (fadd sy vh) vh K3 ltac:(lra) (finite_num _ Fv) ltac:(lra)) as [K5 L5].
  (* the two monotonicity facts *)
  assert (place (fsub sy vh) <= place (fsub sy (fmul (flit 1 2) vh))) as M1.
  { destruct (fsub_place sy vh Fs Fv) as [_ A]. destruct (fsub_place sy _ Fs Fh) as [_ B].
    pose proof (rnd_le (place sy - place vh) (place sy - place (fmul (flit 1 2) vh)) ltac:(lra)).
    pose proof (place_bound _ K1). pose proof (place_bound _ K2).
    assert (rnd (place sy - place vh) <= place sy).
    { rewrite <- (rnd_place sy Fs) at 2. apply rnd_le. lra. }
    assert (- place vh <= rnd (place sy - place vh)).
    { replace (- place vh) with (rnd (- place vh)).
      - apply rnd_le. lra.
      - unfold rnd. rewrite round_NE_opp. fold (rnd (place vh)). by rewrite rnd_place. }
    assert (rnd (place sy - place (fmul (flit 1 2) vh)) <= place sy).
    { rewrite <- (rnd_place sy Fs) at 2. apply rnd_le. lra. }
    destruct A as [(_ & _ & A)|[[A1 A]|[A1 A]]], B as [(_ & _ & B)|[[B1 B]|[B1 B]]]; lra. }
  assert (place (fadd (fadd sy vh) (fmul (flit 1 2) vh)) <= place (fadd (fadd sy vh) vh)) as M2.
  { destruct (is_finite (fadd sy vh)) eqn:FF.
    - destruct (fadd_place (fadd sy vh) vh FF Fv) as [_ A]. destruct (fadd_place (fadd sy vh) _ FF Fh) as [_ B].
      pose proof (rnd_le (place (fadd sy vh) + place (fmul (flit 1 2) vh)) (place (fadd sy vh) + place vh) ltac:(lra)).
      pose proof (place_bound _ K4). pose proof (place_bound _ K5).
      destruct A as [(A1 & _ & A)|[[A1 A]|[A1 A]]], B as [(B1 & _ & B)|[[B1 B]|[B1 B]]]; try lra.
    - destruct (fadd sy vh) as [|[]| |] eqn:Q; try done; [cbn -[big] in L3; lra|].
      destruct vh as [|[]| |]; try done; destruct (fmul _ _) as [|[]| |]; try done; apply Rle_refl. }
  assert (place lo = place lo) as _ by done.
  assert (0 <= place (fadd (fadd sy vh) (fmul (flit 1 2) vh))) as Z1 by lra.
  assert (forall a, Rmax a 0 >= 0) as Z2 by (intros; apply Rle_ge, Rmax_r).
  assert (existsb (fun r => overlaps (r_y r) (r_h r) lo hi) (b_evicted st) = false) as ->.
  { apply not_true_is_false. intros (r & Hr & Ho)%existsb_exists. apply elem_of_list_In in Hr.
    apply (HE r Hr). unfold overlaps in Ho. apply andb_true_iff in Ho as [O1 O2].
    destruct (flt_num _ _ O1) as [N1 _]. destruct (flt_num _ _ O2) as [_ N2].
    apply flt_place in O1; [|done|done]. apply flt_place in O2; [|done|done].
    rewrite E2 in O1. rewrite E1 in O2. split; apply flt_place; try done.
    - eapply Rlt_le_trans; [exact O1|]. apply Rmax_lub; [|lra].
      eapply Rle_trans; [apply Rmin_l|lra].
    - eapply Rle_lt_trans; [|exact O2]. eapply Rle_trans; [exact M1|apply Rmax_l]. }
  destruct half_place as [Fe Pe]. pose proof (finite_num _ Fe) as Ne.
  assert (- big < place rlo) by (rewrite G1; pose proof big_pos; pose proof (Rmax_r (place (fsub sy vh)) 0); lra).
  assert (num (fsub rlo (flit 1 2)) /\ place (fsub rlo (flit 1 2)) <= place rlo) as [T1 T2].
  { destruct (is_finite rlo) eqn:FR; [apply fsub_le; [done|done|lra]|].
    pose proof (place_bound _ K2). assert (place rlo <= place sy) by (rewrite G1; apply Rmax_lub; lra).
    pose proof big_pos. destruct rlo as [|[]| |]; try done; cbn -[big] in *; lra. }
  assert (num (fadd rhi (flit 1 2)) /\ place rhi <= place (fadd rhi (flit 1 2))) as [T3 T4].
  { apply fadd_ge'; [done| |done|lra]. rewrite G2. pose proof big_pos.
    pose proof (Rmax_r (Rmin (place (fadd (fadd sy vh) vh)) (Rmax (place page) 0)) 0). lra. }
  apply orb_false_iff. split; apply flt_nan_false; try done.
  - eapply Rle_trans; [exact T2|]. rewrite G1, E1. apply Rle_max_compat_r. exact M1.
  - eapply Rle_trans; [|exact T4]. rewrite G2, E2. apply Rle_max_compat_r. apply Rle_min_compat_r. exact M2.
Qed.

(** * Deferring *)

Lemma defer_exact anchor_of sy vh ts i t : ts !! i = Some t ->
  let d := defer_tiles anchor_of sy vh ts in
  let pending := g_state t = TDirty /\ anchor_of (g_layer t) = AScroll /\
                 ~ near_view sy vh (r_y (g_rect t)) (r_h (g_rect t)) in
  (pending -> d.1 !! i = Some (GridTile (g_layer t) TDeferred (g_rect t))) /\
  (~ pending -> d.1 !! i = Some t).
Proof.
  intros H. cbn zeta. unfold defer_tiles.
  pose proof (near_overlaps sy vh (r_y (g_rect t)) (r_h (g_rect t))) as NO. cbn zeta in NO.
  destruct (raster_window sy vh) as [lo hi]. cbn [fst snd] in *.
  rewrite !list_lookup_fmap, H. cbn [fmap option_fmap option_map]. unfold defer_one.
  destruct (decide (g_state t = TDirty)) as [D|D].
  - rewrite bool_decide_eq_true_2 by done. cbn [negb].
    destruct (anchor_of (g_layer t)) eqn:A; cbn [is_scroll negb].
    + destruct (overlaps _ _ _ _) eqn:O; split; intros P; try done.
      * destruct P as (_ & _ & P). by destruct P; apply NO.
      * exfalso. apply P. split_and!; try done. rewrite <- NO. done.
    + split; [intros (_ & ? & _); done|done].
    + split; [intros (_ & ? & _); done|done].
  - rewrite bool_decide_eq_false_2 by done. split; [intros (? & _); done|done].
Qed.

Lemma defer_count anchor_of sy vh ts :
  let d := defer_tiles anchor_of sy vh ts in
  (d.2 + length (filter (fun t => g_state t = TDeferred) ts))%nat =
  length (filter (fun t => g_state t = TDeferred) d.1).
Proof.
  cbn zeta. unfold defer_tiles. destruct (raster_window sy vh) as [lo hi]. cbn [fst snd].
  induction ts as [|t ts IH]; [done|]. cbn [fmap list_fmap] in *. unfold defer_one at 1 3.
  destruct (decide (g_state t = TDirty)) as [D|D].
  - rewrite (bool_decide_eq_true_2 (g_state t = TDirty)) by done. cbn [negb].
    rewrite (filter_cons_False _ t ts) by congruence.
    destruct (is_scroll (anchor_of (g_layer t))); cbn [negb].
    + destruct (overlaps _ _ _ _); cbn [fst snd].
      * rewrite filter_cons_False by done. rewrite (filter_cons_False _ t) by congruence. done.
      * rewrite filter_cons_True by done. rewrite filter_cons_True by done. cbn [length]. lia.
    + cbn [fst snd]. rewrite filter_cons_False by done. rewrite (filter_cons_False _ t) by congruence. done.
  - rewrite (bool_decide_eq_false_2 (g_state t = TDirty)) by done. cbn [negb fst snd].
    rewrite (filter_cons_False _ false) by done.
    destruct (decide (g_state t = TDeferred)).
    + rewrite !(filter_cons_True _ t) by done. cbn [length]. lia.
    + rewrite !(filter_cons_False _ t) by done. done.
Qed.

Lemma protects iter st ts ca sy vh limit : fair iter ->
  let r := enforce iter st ts ca sy vh limit in
  sublist r.1.1.2 ts /\ sublist r.1.2 ca /\
  (forall t, t ∈ ts -> untouchable sy vh (tile_item t) -> t ∈ r.1.1.2) /\
  (forall c, c ∈ ca -> untouchable sy vh (entry_item c) -> c ∈ r.1.2).
Proof.
  intros F. cbn zeta. destruct (result_sublist iter st ts ca sy vh limit) as [S1 S2].
  split; [exact S1|]. split; [exact S2|]. clear S1 S2.
  pose proof (gone_not_prot iter st ts ca sy vh limit) as G. rewrite enforce_eq in *. unfold result in G.
  cbn [fst snd] in *. split.
  - intros t Ht Hu. apply elem_of_list_filter. split; [|done]. apply mem_key_false. intros K.
    apply (G (pos_key t) F (proj2 (gone_kill iter F st ts ca sy vh limit _) K) (tile_item t)); try done.
    apply elem_of_app. left. apply elem_of_list_fmap. eauto.
  - intros c Hc Hu. apply elem_of_list_filter. split; [|done]. apply mem_key_false. intros K.
    apply (G (entry_key c) F (proj2 (gone_kill iter F st ts ca sy vh limit _) K) (entry_item c)); try done.
    + apply elem_of_app. right. apply elem_of_list_fmap. eauto.
    + by destruct c as [[k hsh] [[w h] px]].
Qed.

Lemma keeps_view iter st ts ca sy vh limit : fair iter -> finite sy -> finite vh -> 0 <= place vh ->
  let r := enforce iter st ts ca sy vh limit in
  forall t, t ∈ ts -> on_view sy vh (from_bits (b_y t)) (fn (b_h t)) -> t ∈ r.1.1.2.
Proof.
  intros F Fs Fv Pv r t Ht V. destruct (protects iter st ts ca sy vh limit F) as (_ & _ & P & _).
  apply P; [done|]. left. by apply on_view_near.
Qed.

Lemma oldest_history iter ops ts ca sy vh limit k k' : fair iter -> Forall op_ok ops ->
  unshared (items ts ca) ->
  let r := enforce iter (after ops) ts ca sy vh limit in
  gone (items ts ca) (items r.1.1.2 r.1.2) k ->
  evictable sy vh (items ts ca) k' -> k' ∈ x_key <$> items r.1.1.2 r.1.2 ->
  (last_shown (rev ops) k <= last_shown (rev ops) k')%N /\
  (uniform (items ts ca) -> last_shown (rev ops) k = last_shown (rev ops) k' ->
   forall x x', x ∈ items ts ca -> x_key x = k -> x' ∈ items ts ca -> x_key x' = k' ->
   flt (far sy vh (x_y x) (x_h x)) (far sy vh (x_y x') (x_h x')) = false).
Proof.
  intros F O U r G E K. destruct (stamps (rev ops)) as [_ S];
    [rewrite Forall_forall in O |- *; intros o Ho; apply O; by rewrite elem_of_list_In, in_rev, <- elem_of_list_In|].
  rewrite rev_involutive in S. rewrite <- !S. by apply (oldest_first iter _ ts ca sy vh limit).
Qed.

Lemma excess_history iter ops ts ca sy vh limit k0 : fair iter -> Forall op_ok ops ->
  unshared (items ts ca) ->
  let r := enforce iter (after ops) ts ca sy vh limit in
  gone (items ts ca) (items r.1.1.2 r.1.2) k0 ->
  exists k, gone (items ts ca) (items r.1.1.2 r.1.2) k /\
    (forall k', gone (items ts ca) (items r.1.1.2 r.1.2) k' ->
       (last_shown (rev ops) k' <= last_shown (rev ops) k)%N) /\
    (limit < bytes (items r.1.1.2 r.1.2 ++ filter (fun x => x_key x = k) (items ts ca)))%N.
Proof.
  intros F O U r G. destruct (stamps (rev ops)) as [_ S];
    [rewrite Forall_forall in O |- *; intros o Ho; apply O; by rewrite elem_of_list_In, in_rev, <- elem_of_list_In|].
  rewrite rev_involutive in S.
  destruct (no_more_than_needed iter (after ops) ts ca sy vh limit k0 F U G) as (k & H1 & H2 & H3).
  exists k. split; [exact H1|]. split; [|exact H3]. intros k' Hk. rewrite <- !S. by apply H2.
Qed.

Lemma settles st sy vh page ops :
  finite sy -> finite vh -> 0 <= place sy -> 0 <= place vh -> num page ->
  Forall (fun o => match o with
                   | OTouch _ _ _ _ _ => True
                   | OEnforce iter _ _ sy' vh' _ => fair iter /\ sy' = sy /\ vh' = vh
                   | _ => False end) ops ->
  needs_rerender (foldl apply (apply (apply st (ORastered sy vh page)) OFull) ops) sy vh page = false.
Proof.
  intros Fs Fv Ps Pv Np FO. apply settled; try done.
  - cbn [apply].
    assert (b_rastered (note_full_raster (note_rastered st sy vh page)) =
      Some (clamp_to_page (raster_window sy vh) page)) as E by done.
    revert E. generalize (note_full_raster (note_rastered st sy vh page)) as s0.
    induction ops as [|o ops IH]; intros s0 E; [done|]. apply Forall_cons in FO as [Fo FO].
    cbn [foldl]. apply IH; [done|]. destruct o; try done. cbn [apply]. by rewrite enforce_eq.
  - cbn [apply].
    assert (forall r, r ∈ b_evicted (note_full_raster (note_rastered st sy vh page)) ->
      ~ near_view sy vh (r_y r) (r_h r)) as E by (intros r H; by apply elem_of_nil in H).
    revert E. generalize (note_full_raster (note_rastered st sy vh page)) as s0.
    induction ops as [|o ops IH]; intros s0 E; [done|]. apply Forall_cons in FO as [Fo FO].
    cbn [foldl]. apply IH; [done|]. destruct o; try done. destruct Fo as (Fi & -> & ->).
    intros r Hr. cbn [apply] in Hr. by apply (evicted_far iter s0 tiles cache sy vh limit Fi) in Hr as [Hr|Hr]; auto.
Qed.
