From Coq Require Import ZArith Reals Lra Lia.
From Flocq Require Import Core IEEE754.BinarySingleNaN.
From Flocq Require Import Plus_error Relative.
From Verif Require Import Base F64 F64Facts ScrollModel ScrollSpec.

Local Open Scope R_scope.

Section proofs.
  Context (pow2 sin : f32 -> f32) {A : Type}
    (cstep : A -> f64 -> f64 -> A * f64) (csettled : A -> bool).
  Local Notation tick := (tick pow2 sin cstep csettled).
  Local Notation do_call := (do_call pow2 sin cstep csettled).
  Local Notation do_calls := (do_calls pow2 sin cstep csettled).
  Local Notation tween_step := (tween_step pow2 sin).

  Lemma place_f0 : place f0 = 0.
  Proof. done. Qed.

  Lemma fclamp_within x hi : finite hi -> 0 <= place hi -> fclamp x f0 hi = Ok (within x hi).
  Proof.
    intros F H. unfold fclamp, within.
    destruct (fle f0 hi) eqn:E; [done|].
    apply fle_false in E; [|done|by apply finite_num]. rewrite place_f0 in E. lra.
  Qed.

  Lemma within_bounds x hi : num x -> finite hi -> 0 <= place hi ->
    finite (within x hi) /\ 0 <= place (within x hi) <= place hi.
  Proof.
    intros N F H. unfold within. destruct (flt x f0) eqn:E1.
    { rewrite place_f0. split; [done|]. lra. }
    apply flt_nan_false in E1; [|done|done]. rewrite place_f0 in E1.
    destruct (flt hi x) eqn:E2; [split; [done|lra]|].
    apply flt_nan_false in E2; [|by apply finite_num|done].
    split; [|lra]. apply finite_place; [done|].
    pose proof (place_finite_bound hi F). pose proof big_pos. lra.
  Qed.

  Definition in_bounds (o : option (f64 * f64)) (g : f64 * f64) : Prop :=
    match o with
    | Some (mx, my) => 0 <= place g.1 <= place mx /\ 0 <= place g.2 <= place my
    | None => True
    end.

  Lemma goal_bounds cs : Forall sensible cs ->
    finite (goal (A:=A) cs).1 /\ finite (goal cs).2 /\ in_bounds (bounds cs) (goal cs).
  Proof.
    unfold goal, bounds. intros H. induction cs as [|c cs IH] using rev_ind; [done|].
    rewrite !foldl_app. cbn [foldl]. apply Forall_app in H as [H1 H2].
    apply Forall_cons in H2 as [Hc _]. destruct (IH H1) as (F1 & F2 & B).
    set (g := foldl goal_step _ cs) in *. destruct c as [dx dy mx my|dt|x y|b]; cbn in *.
    - destruct Hc as (N1 & N2 & Fx & Fy & Hx & Hy).
      destruct (within_bounds (fadd g.1 dx) mx) as [G1 G2]; [by apply fadd_num|done|done|].
      destruct (within_bounds (fadd g.2 dy) my) as [G3 G4]; [by apply fadd_num|done|done|].
      done.
    - done.
    - by destruct Hc.
    - done.
  Qed.

  Lemma do_calls_app s cs1 cs2 :
    do_calls s (cs1 ++ cs2) =
    (let* r := do_calls s cs1 in
     let* r' := do_calls r.1 cs2 in
     Ok (r'.1, r.2 ++ r'.2)).
  Proof.
    revert s. induction cs1 as [|c cs1 IH]; intros s; cbn [app ScrollModel.do_calls rbind].
    - cbn [fst snd]. destruct (do_calls s cs2) as [[]| |]; done.
    - destruct (do_call s c) as [[s1 o]| |]; cbn [rbind fst]; [|done|done].
      rewrite IH. destruct (do_calls s1 cs1) as [[s2 os]| |]; cbn [rbind fst snd]; [|done|done].
      destruct (do_calls s2 cs2) as [[]| |]; done.
  Qed.

  Lemma do_calls_length s cs s' os : do_calls s cs = Ok (s', os) -> length os = length cs.
  Proof.
    revert s s' os. induction cs as [|c cs IH]; intros s s' os; cbn.
    - by intros [= <- <-].
    - destruct (do_call s c) as [[s1 o]| |]; cbn; try done.
      destruct (do_calls s1 cs) as [[s2 os2]| |] eqn:E; cbn; try done.
      intros [= <- <-]. cbn. f_equal. by eapply IH.
  Qed.

  Lemma shown_from_snoc p cs os c o : length os = length cs ->
    shown_from (A:=A) p (cs ++ [c]) (os ++ [o]) = shown_step (shown_from p cs os) c o.
  Proof.
    revert p os. induction cs as [|c' cs IH]; intros p os L; destruct os as [|o' os]; try done.
    cbn. apply IH. cbn in L. lia.
  Qed.

  (** What holds after every history of sensible calls. *)
  Record good (b : @behavior A) (cs : list (@call A)) (s : @scroll A) (os : list (option (Z * Z))) : Prop := {
    g_len : length os = length cs;
    g_target : s_target s = goal cs;
    g_style : s_behavior s = style b cs;
    g_shown : shown cs os = (pixel (s_pos s).1, pixel (s_pos s).2);
    g_idle : Forall keeps_style cs -> s_anim s = None -> s_pos s = s_target s;
    g_instant : Forall keeps_style cs -> s_behavior s = Instant -> s_anim s = None }.

  Lemma calls_good b cs : Forall sensible cs ->
    exists s os, do_calls (scroll_new b) cs = Ok (s, os) /\ good b cs s os.
  Proof.
    induction cs as [|c cs IH] using rev_ind; intros H.
    { exists (scroll_new b), []. by split. }
    apply Forall_app in H as [H1 H2]. apply Forall_cons in H2 as [Hc _].
    destruct (IH H1) as (s & os & E & G). destruct G as [GL GT GS GV GI GN].
    rewrite do_calls_app, E. cbn [rbind fst snd ScrollModel.do_calls].
    assert (forall s' o,
      do_call s c = Ok (s', o) ->
      s_target s' = goal (cs ++ [c]) ->
      s_behavior s' = style b (cs ++ [c]) ->
      shown_step (pixel (s_pos s).1, pixel (s_pos s).2) c o = (pixel (s_pos s').1, pixel (s_pos s').2) ->
      (Forall keeps_style cs -> keeps_style c -> s_anim s' = None -> s_pos s' = s_target s') ->
      (Forall keeps_style cs -> keeps_style c -> s_behavior s' = Instant -> s_anim s' = None) ->
      exists s0 os0,
        (let* r' := let* r := do_call s c in Ok (r.1, [r.2]) in Ok (r'.1, os ++ r'.2)) = Ok (s0, os0) /\
        good b (cs ++ [c]) s0 os0) as K.
    { intros s' o D HT HS HV HI HN. rewrite D. cbn [rbind fst snd].
      exists s', (os ++ [o]). split; [done|]. split; try done.
      - by rewrite !app_length, GL.
      - unfold shown. rewrite shown_from_snoc by done. fold (shown cs os). by rewrite GV.
      - intros F. apply Forall_app in F as [F1 F2]. apply Forall_cons in F2 as [F2 _]. by apply HI.
      - intros F. apply Forall_app in F as [F1 F2]. apply Forall_cons in F2 as [F2 _]. by apply HN. }
    assert (goal (cs ++ [c]) = goal_step (goal cs) c) as Gg
      by (unfold goal; by rewrite foldl_app).
    assert (style b (cs ++ [c]) = style_step (style b cs) c) as Gs
      by (unfold style; by rewrite foldl_app).
    destruct (do_call s c) as [[s' o]| |] eqn:D.
    - apply (K s' o); clear K; try done; rewrite ?Gg, ?Gs.
      all: destruct c as [dx dy mx my|dt|x y|b']; cbn [ScrollModel.do_call goal_step style_step keeps_style] in *.
      all: try (injection D as <- <-; cbn; try done; rewrite <- ?GT; try done).
      1,3,5,7,9: unfold scroll_by in D; destruct Hc as (N1 & N2 & Fx & Fy & Hx & Hy);
        rewrite (fclamp_within _ mx), (fclamp_within _ my) in D by done; cbn [rbind] in D;
        rewrite GT in D;
        destruct (s_behavior s) eqn:EB; cbn [is_instant make_animator] in D;
        destruct (s_anim s) as [[]|] eqn:EA; injection D as <- <-; cbn; try done.
      all: try (unfold ScrollModel.tick in D; destruct (s_anim s) as [[ax ay]|] eqn:EA;
        [ destruct (a_step _ _ _ ax _ _) as [ax' px]; destruct (a_step _ _ _ ay _ _) as [ay' py];
          destruct (_ && _); injection D as <- <-; cbn; try done
        | injection D as <- <-; cbn; try done ]).
      all: try (intros; by auto).
      all: try (intros F _ I; exfalso; by specialize (GN F I)).
    - exfalso. clear K. destruct c as [dx dy mx my|dt|x y|b']; cbn [ScrollModel.do_call] in D; try done.
      unfold scroll_by in D. destruct Hc as (N1 & N2 & Fx & Fy & Hx & Hy).
      rewrite (fclamp_within _ mx), (fclamp_within _ my) in D by done. cbn [rbind] in D.
      destruct (s_behavior s), (s_anim s); done.
    - exfalso. clear K. destruct c as [dx dy mx my|dt|x y|b']; cbn [ScrollModel.do_call] in D; try done.
      unfold scroll_by in D. destruct Hc as (N1 & N2 & Fx & Fy & Hx & Hy).
      rewrite (fclamp_within _ mx), (fclamp_within _ my) in D by done. cbn [rbind] in D.
      destruct (s_behavior s), (s_anim s); done.
  Qed.

  (** * Tweens finish *)

  Local Definition u : R := bpow radix2 (-53).

  Lemma u_val : u = / IZR (2 ^ 53).
  Proof. done. Qed.

  Lemma rnd_up x : x = 0 \/ bpow radix2 (-1000) <= x -> rnd x <= x * (1 + u).
  Proof.
    intros [->|H]; [rewrite rnd_0; lra|].
    pose proof (bpow_gt_0 radix2 (-1000)).
    destruct (relative_error_N_FLT_ex radix2 (SpecFloat.emin 53 1024) 53 eq_refl
                (fun x => negb (Z.even x)) x) as (eps & He & Hr).
    { rewrite Rabs_pos_eq by lra. eapply Rle_trans; [|exact H]. apply bpow_le. done. }
    unfold rnd. change (SpecFloat.fexp 53 1024) with (FLT_exp (SpecFloat.emin 53 1024) 53).
    rewrite Hr. apply Rmult_le_compat_l; [lra|].
    assert (/ 2 * bpow radix2 (- (53) + 1) = u) as E.
    { change (/ 2) with (bpow radix2 (-1)). rewrite <- bpow_plus. done. }
    rewrite E in He. apply Rabs_le_inv in He. lra.
  Qed.

  Lemma rnd_pos x : 0 <= x -> 0 <= rnd x.
  Proof. intros H. rewrite <- rnd_0. by apply rnd_le. Qed.

  Lemma huge_lt_big : bpow radix2 1000 < big.
  Proof. apply bpow_lt. done. Qed.

  Lemma u_small : 0 < u < 1 / 1000.
  Proof. rewrite u_val. split; [apply Rinv_0_lt_compat; lra|]. apply Rmult_lt_reg_r with (IZR (2 ^ 53)); [cbn; lra|]. cbn. lra. Qed.

  Lemma fz_place z : (0 <= z < 2 ^ 64)%Z ->
    finite (fz z) /\ 0 <= place (fz z) <= IZR z * (1 + u) /\ place (fz z) = rnd (IZR z).
  Proof.
    intros H. pose proof (binary_normalize_correct 53 1024 prec64 emax64 mode_NE z 0 false) as C.
    cbv zeta in C. fold (fz z) in C.
    assert (F2R (Float radix2 z 0) = IZR z) as E.
    { unfold F2R. cbn. lra. }
    rewrite E in C. cbn [round_mode] in C. fold (rnd (IZR z)) in C.
    assert (0 <= IZR z) as P by (apply IZR_le; lia).
    assert (rnd (IZR z) <= IZR z * (1 + u)) as L.
    { apply rnd_up. destruct (decide (z = 0%Z)) as [->|]; [by left|]. right.
      apply Rle_trans with 1.
      - change 1 with (bpow radix2 0). apply bpow_le. done.
      - apply IZR_le. lia. }
    assert (IZR z <= bpow radix2 64) as L2.
    { rewrite <- (IZR_Zpower radix2) by done. apply IZR_le. cbn. lia. }
    pose proof (rnd_pos _ P). pose proof u_small. pose proof huge_lt_big.
    assert (bpow radix2 64 * 2 < bpow radix2 1000) as L3.
    { change 2 with (bpow radix2 1). rewrite <- bpow_plus. apply bpow_lt. done. }
    assert (Rabs (rnd (IZR z)) < big) as L4.
    { rewrite Rabs_pos_eq by done. nra. }
    revert C. unfold big in L4. case Rlt_bool_spec; intros Q C; [|lra].
    destruct C as (C1 & C2 & _). rewrite (place_finite _ C2), C1. split; [done|]. split; [lra|done].
  Qed.

  Lemma as_secs_place d : duration_ok d ->
    finite (as_secs d) /\ 0 <= place (as_secs d) <= seconds d * ((1 + u) * (1 + u)).
  Proof.
    intros [Hs Hn]. unfold as_secs, seconds.
    destruct (fz_place (secs d) Hs) as (F1 & P1 & _).
    destruct (fz_place (nanos d)) as (F2 & P2 & E2); [lia|].
    assert (place (fz (nanos d)) = IZR (nanos d)) as E2'.
    { rewrite E2. apply round_generic; [apply _|].
      replace (IZR (nanos d)) with (F2R (Float radix2 (nanos d) 0)) by (unfold F2R; cbn; lra).
      apply generic_format_FLT. exists (Float radix2 (nanos d) 0); cbn; [done| |done].
      lia. }
    assert (B2R (fz 1000000000) = 1000000000) as E9.
    { destruct (fz_place 1000000000) as (F3 & P3 & E3); [done|].
      rewrite <- (place_finite _ F3), E3. apply round_generic; [apply _|].
      replace 1000000000 with (F2R (Float radix2 1000000000 0)) by (unfold F2R; cbn; lra).
      apply generic_format_FLT. exists (Float radix2 1000000000 0); cbn; [done| |done]. done. }
    pose proof (Bdiv_correct 53 1024 prec64 emax64 mode_NE (fz (nanos d)) (fz 1000000000)) as C.
    rewrite E9 in C. specialize (C ltac:(lra)). cbn [round_mode] in C.
    rewrite <- (place_finite _ F2), E2' in C.
    fold (fdiv (fz (nanos d)) (fz 1000000000)) in C. fold (rnd (IZR (nanos d) / 1000000000)) in C.
    assert (0 <= IZR (nanos d) < 1000000000) as R9 by (split; [apply IZR_le|apply IZR_lt]; lia).
    assert (rnd (IZR (nanos d) / 1000000000) <= IZR (nanos d) / 1000000000 * (1 + u)) as L.
    { apply rnd_up. destruct (decide (nanos d = 0%Z)) as [->|]; [left; lra|]. right.
      apply Rle_trans with (/ 1000000000).
      - change (/ 1000000000) with (/ IZR 1000000000).
        apply Rle_trans with (bpow radix2 (-30)); [apply bpow_le; done|].
        change (bpow radix2 (-30)) with (/ IZR (2 ^ 30)). apply Rinv_le; cbn; lra.
      - assert (1 <= IZR (nanos d)) by (apply IZR_le; lia). lra. }
    pose proof u_small.
    assert (0 <= rnd (IZR (nanos d) / 1000000000)) as Pq by (apply rnd_pos; lra).
    assert (Rabs (rnd (IZR (nanos d) / 1000000000)) < big) as Q.
    { rewrite Rabs_pos_eq by done. pose proof huge_lt_big.
      assert (4 < bpow radix2 1000) by (change 4 with (bpow radix2 2); apply bpow_lt; done). nra. }
    revert C. unfold big in Q. case Rlt_bool_spec; intros Q' C; [|lra].
    destruct C as (C1 & C2 & _). rewrite F2 in C2.
    set (q := fdiv (fz (nanos d)) (fz 1000000000)) in *.
    assert (place q = rnd (IZR (nanos d) / 1000000000)) as Eq by (by rewrite (place_finite q C2)).
    assert (0 <= IZR (secs d)) as Ps by (apply IZR_le; lia).
    assert (rnd (place (fz (secs d)) + place q) <= (place (fz (secs d)) + place q) * (1 + u)) as L5.
    { destruct (@FLT_plus_error_N_ex radix2 (SpecFloat.emin 53 1024) 53 prec64
                  (fun x => negb (Z.even x)) (place (fz (secs d))) (place q)) as (eps & He & Hr).
      - rewrite (place_finite _ F1). apply (generic_format_B2R 53 1024).
      - rewrite (place_finite _ C2). apply (generic_format_B2R 53 1024).
      - unfold rnd. change (SpecFloat.fexp 53 1024) with (FLT_exp (SpecFloat.emin 53 1024) 53).
        rewrite Hr. apply Rmult_le_compat_l; [lra|].
        assert (u_ro radix2 53 / (1 + u_ro radix2 53) <= u) as U.
        { assert (u_ro radix2 53 = u) as ->.
          { unfold u_ro. change (/ 2) with (bpow radix2 (-1)). rewrite <- bpow_plus. done. }
          apply Rmult_le_reg_r with (1 + u); [lra|].
          unfold Rdiv. rewrite Rmult_assoc, Rinv_l, Rmult_1_r by lra. nra. }
        apply Rabs_le_inv in He. lra. }
    assert (IZR (secs d) <= bpow radix2 64) as L6.
    { rewrite <- (IZR_Zpower radix2) by done. apply IZR_le. cbn. lia. }
    assert (0 <= rnd (place (fz (secs d)) + place q)) as P7 by (apply rnd_pos; lra).
    assert (place (fz (secs d)) + place q <= (IZR (secs d) + IZR (nanos d) / 1000000000) * (1 + u)) as L8 by lra.
    assert (4 * bpow radix2 64 < bpow radix2 1000) as L9.
    { change 4 with (bpow radix2 2). rewrite <- bpow_plus. apply bpow_lt. done. }
    assert (4 < bpow radix2 64) as L10 by (change 4 with (bpow radix2 2); apply bpow_lt; done).
    pose proof huge_lt_big.
    assert (rnd (place (fz (secs d)) + place q) < big) as L11.
    { assert ((IZR (secs d) + IZR (nanos d) / 1000000000) * ((1 + u) * (1 + u)) <= 4 * bpow radix2 64) by nra.
      nra. }
    destruct (fadd_place (fz (secs d)) q F1 C2) as [N [(_ & F & E)|[[L12 _]|[L12 _]]]].
    - split; [done|]. rewrite E. nra.
    - lra.
    - pose proof big_pos. lra.
  Qed.

  Lemma min_tween_place : finite min_tween_secs /\
    0 < place min_tween_secs <= / 10000 * (1 + bpow radix2 (-52)).
  Proof.
    split; [done|]. rewrite (place_finite min_tween_secs) by done.
    assert (B2SF min_tween_secs = SpecFloat.S754_finite false 7378697629483821 (-66)) as E by by vm_compute.
    assert (B2R min_tween_secs = IZR 7378697629483821 * bpow radix2 (-66)) as ->.
    { destruct min_tween_secs; try done. cbn in E. injection E as -> -> ->. done. }
    pose proof (bpow_gt_0 radix2 (-66)). split; [lra|].
    assert (bpow radix2 (-66) * IZR (2 ^ 66) = 1) as Q.
    { change (bpow radix2 (-66)) with (/ IZR (2 ^ 66)). apply Rinv_l. cbn. lra. }
    assert (bpow radix2 (-52) = bpow radix2 (-66) * IZR (2 ^ 14)) as ->.
    { change (IZR (2 ^ 14)) with (bpow radix2 14). rewrite <- bpow_plus. done. }
    cbn in Q |- *. lra.
  Qed.

  (** The length of a tween in seconds, for a given duration. *)
  Definition tween_seconds (d : duration) : R := Rmax (seconds d) (/ 10000).

  Lemma tween_duration_place d : duration_ok d ->
    let D := fmax (as_secs d) min_tween_secs in
    finite D /\ 0 < place D <= tween_seconds d * (1 + bpow radix2 (-51)).
  Proof.
    intros H D. destruct (as_secs_place d H) as (F1 & P1 & Q1).
    destruct min_tween_place as (F2 & P2 & Q2).
    destruct (fmax_place (as_secs d) min_tween_secs) as [N E];
      [by apply finite_num|by apply finite_num|]. fold D in N, E.
    assert (0 <= seconds d) as Ps.
    { destruct H as [Hs Hn]. unfold seconds.
      assert (0 <= IZR (secs d)) by (apply IZR_le; lia).
      assert (0 <= IZR (nanos d)) by (apply IZR_le; lia). lra. }
    assert ((1 + u) * (1 + u) <= 1 + bpow radix2 (-51)) as U.
    { assert (bpow radix2 (-51) = 4 * u) as ->.
      { change 4 with (bpow radix2 2). unfold u. rewrite <- bpow_plus. done. }
      pose proof u_small. nra. }
    assert (bpow radix2 (-52) <= bpow radix2 (-51)) as U2 by (apply bpow_le; done).
    pose proof (bpow_gt_0 radix2 (-51)).
    unfold tween_seconds.
    pose proof (Rmax_l (seconds d) (/ 10000)). pose proof (Rmax_r (seconds d) (/ 10000)).
    assert (place D <= Rmax (seconds d) (/ 10000) * (1 + bpow radix2 (-51))) as L.
    { rewrite E. apply Rmax_lub; nra. }
    split; [|split; [|done]].
    - apply finite_place; [done|]. rewrite E.
      pose proof (place_finite_bound _ F1). pose proof (place_finite_bound _ F2).
      split; [|apply Rmax_lub_lt; lra]. eapply Rlt_le_trans; [|apply Rmax_l]. lra.
    - rewrite E. eapply Rlt_le_trans; [|apply Rmax_r]. done.
  Qed.

  Section tween.
    Context (D : f64) (HF : finite D) (HD : 0 < place D).

    (** A running tween of length [D]. *)
    Definition running (w : tween) : Prop :=
      t_duration w = D /\ finite (t_elapsed w) /\ 0 <= place (t_elapsed w) <= place D.

    (** It has been heading for [g] for [S] seconds, in [k] steps. *)
    Definition prog (w : tween) (g : f64) (S : R) (k : nat) : Prop :=
      running w /\
      (S = 0 \/ feq g (t_target w) = true /\ Rmin (place D) (S * (1 - u) ^ k) <= place (t_elapsed w)).

    Lemma step_elapsed e dt : finite e -> 0 <= place e <= place D -> forward dt ->
      let e' := fmin (fadd e (fmax dt f0)) D in
      finite e' /\ 0 <= place e' <= place D /\ Rmin (place D) ((place e + place dt) * (1 - u)) <= place e' /\ place e <= place e'.
    Proof.
      intros Fe He [Nd Hd] e'.
      destruct (fmax_place dt f0 Nd ltac:(done)) as [Nm Em].
      rewrite place_f0 in Em. rewrite Rmax_left in Em by done.
      destruct (fadd_loss e (fmax dt f0) Fe Nm) as [Na La]; [lra|by rewrite Em|].
      destruct (fadd_ge e (fmax dt f0) Fe Nm) as [_ Ga]; [by rewrite Em|].
      destruct (fmin_place (fadd e (fmax dt f0)) D Na (finite_num _ HF)) as [Ni Ei].
      fold e' in Ni, Ei. rewrite Em in La.
      pose proof (place_finite_bound D HF).
      assert (0 <= place e' <= place D) as B.
      { rewrite Ei. split; [apply Rmin_glb; lra|apply Rmin_r]. }
      split; [|split; [done|split]].
      - apply finite_place; [done|]. pose proof big_pos. lra.
      - rewrite Ei. apply Rmin_glb; [|apply Rmin_l].
        destruct La as [La|[_ La]].
        + rewrite La. eapply Rle_trans; [apply Rmin_l|]. lra.
        + eapply Rle_trans; [apply Rmin_r|]. done.
      - rewrite Ei. apply Rmin_glb; lra.
    Qed.

    Lemma feq_refl_num g : num g -> feq g g = true.
    Proof. intros N. by apply feq_place. Qed.

    Lemma pow_u_bounds k : 0 <= (1 - u) ^ k <= 1.
    Proof.
      pose proof u_small. induction k as [|k IH]; cbn [Rpow_def.pow]; [lra|]. nra.
    Qed.

    Lemma step_prog w g dt S k : num g -> forward dt -> 0 <= S -> prog w g S k ->
      prog (tween_step w g dt).1 g (S + place dt) (Datatypes.S k).
    Proof.
      intros Ng Hdt HS [(R1 & R2 & R3) P]. destruct Hdt as [Nd Hd].
      pose proof (pow_u_bounds k) as PB. pose proof u_small.
      unfold ScrollModel.tween_step. destruct (feq g (t_target w)) eqn:E; cbn.
      - rewrite R1. destruct (step_elapsed (t_elapsed w) dt R2 R3) as (Q1 & Q2 & Q3 & Q4); [done|].
        split; [done|]. right. split; [done|]. cbn [t_elapsed].
        destruct P as [->|[_ P]].
        + eapply Rle_trans; [|exact Q3]. apply Rmin_glb; [apply Rmin_l|].
          eapply Rle_trans; [apply Rmin_r|].
          change ((1 - u) ^ Datatypes.S k) with ((1 - u) * (1 - u) ^ k).
            generalize dependent ((1 - u) ^ k). intros p; intros.
            rewrite (Rmult_comm (1 - u) p), <- Rmult_assoc. apply Rmult_le_compat_r; [lra|]. nra.
        + destruct (Rle_dec (place D) (S * (1 - u) ^ k)) as [L|L].
          * rewrite Rmin_left in P by done.
            eapply Rle_trans; [apply Rmin_l|]. lra.
          * rewrite Rmin_right in P by lra.
            eapply Rle_trans; [|exact Q3]. apply Rmin_glb; [apply Rmin_l|].
            eapply Rle_trans; [apply Rmin_r|].
            change ((1 - u) ^ Datatypes.S k) with ((1 - u) * (1 - u) ^ k).
            generalize dependent ((1 - u) ^ k). intros p; intros.
            rewrite (Rmult_comm (1 - u) p), <- Rmult_assoc. apply Rmult_le_compat_r; [lra|]. nra.
      - rewrite R1. destruct (step_elapsed f0 dt) as (Q1 & Q2 & Q3 & Q4); [done|rewrite place_f0; lra|done|].
        split; [done|]. right. split; [by apply feq_refl_num|]. cbn [t_elapsed].
        eapply Rle_trans; [|exact Q3]. apply Rmin_glb; [apply Rmin_l|].
        destruct P as [->|[P _]]; [|done].
        eapply Rle_trans; [apply Rmin_r|]. rewrite place_f0.
        change ((1 - u) ^ Datatypes.S k) with ((1 - u) * (1 - u) ^ k).
            generalize dependent ((1 - u) ^ k). intros p; intros.
            rewrite (Rmult_comm (1 - u) p), <- Rmult_assoc. apply Rmult_le_compat_r; [lra|]. nra.
    Qed.

    Lemma step_running w g dt : running w -> running (tween_step w g dt).1.
    Proof.
      intros (R1 & R2 & R3).
      assert (forall e, finite e -> 0 <= place e <= place D ->
        let e' := fmin (fadd e (fmax dt f0)) D in finite e' /\ 0 <= place e' <= place D) as K.
      { intros e Fe He e'.
        assert (num (fmax dt f0) /\ 0 <= place (fmax dt f0)) as [Nm Pm].
        { destruct (is_nan dt) eqn:Nd.
          - unfold fmax. rewrite Nd. rewrite place_f0. split; [done|lra].
          - destruct (fmax_place dt f0 Nd ltac:(done)) as [N E]. split; [done|].
            rewrite E, place_f0. apply Rmax_r. }
        destruct (fadd_ge e (fmax dt f0) Fe Nm Pm) as [Na Ga].
        destruct (fmin_place (fadd e (fmax dt f0)) D Na (finite_num _ HF)) as [Ni Ei].
        fold e' in Ni, Ei. pose proof (place_finite_bound D HF). pose proof big_pos.
        assert (0 <= place e' <= place D) as B.
        { rewrite Ei. split; [apply Rmin_glb; lra|apply Rmin_r]. }
        split; [|done]. apply finite_place; [done|]. lra. }
      unfold ScrollModel.tween_step. destruct (feq g (t_target w)); cbn; rewrite R1.
      - destruct (K (t_elapsed w) R2 R3). done.
      - destruct (K f0); [done|rewrite place_f0; lra|]. done.
    Qed.

    Lemma prog_settled w g S k : prog w g S k -> place D <= S * (1 - u) ^ k -> tween_settled w = true.
    Proof.
      intros [(R1 & R2 & R3) P] L. unfold tween_settled. apply orb_true_iff. right.
      rewrite R1. apply fle_place; [by apply finite_num|by apply finite_num|].
      destruct P as [->|[_ P]]; [lra|]. by rewrite Rmin_left in P.
    Qed.

    (** Both axes run tweens of length [D]. *)
    Definition tweening (s : @scroll A) : Prop :=
      match s_anim s with
      | None => True
      | Some (ATween wx, ATween wy) => running wx /\ running wy
      | Some _ => False
      end.

    Definition headed (s : @scroll A) (S : R) (k : nat) : Prop :=
      match s_anim s with
      | None => True
      | Some (ATween wx, ATween wy) =>
          prog wx (s_target s).1 S k /\ prog wy (s_target s).2 S k /\
          (k = O \/ tween_settled wx && tween_settled wy = false)
      | Some _ => False
      end.

    Lemma tick_headed s dt S k :
      num (s_target s).1 -> num (s_target s).2 -> forward dt -> 0 <= S -> headed s S k ->
      headed (tick s dt).1 (S + place dt) (Datatypes.S k) /\ s_target (tick s dt).1 = s_target s.
    Proof.
      intros N1 N2 F HS H. unfold headed in H. unfold ScrollModel.tick, headed.
      destruct (s_anim s) as [[[wx|px|ax] [wy|py|ay]]|] eqn:EA; try done.
      2: { cbn. by rewrite EA. }
      destruct H as (H1 & H2 & _).
      apply (step_prog _ _ dt) in H1; [|done|done|done].
      apply (step_prog _ _ dt) in H2; [|done|done|done].
      cbn [a_step]. destruct (tween_step wx _ dt) as [wx' vx], (tween_step wy _ dt) as [wy' vy].
      cbn [a_settled]. destruct (_ && _) eqn:ES; cbn; [done|].
      split; [|done]. split; [done|]. split; [done|]. by right.
    Qed.

    Lemma ticks_headed s dts S k s' os :
      num (s_target s).1 -> num (s_target s).2 -> Forall forward dts -> 0 <= S -> headed s S k ->
      do_calls s (CTick <$> dts) = Ok (s', os) ->
      headed s' (S + elapsed dts) (k + length dts).
    Proof.
      revert s S k os. induction dts as [|dt dts IH]; intros s S k os N1 N2 F HS H E.
      - cbn in E. injection E as <- <-. cbn [length]. replace (k + 0)%nat with k by lia.
        cbn. by rewrite Rplus_0_r.
      - apply Forall_cons in F as [F1 F2].
        destruct (tick_headed s dt S k N1 N2 F1 HS H) as [H' ET].
        cbn [fmap list_fmap ScrollModel.do_calls ScrollModel.do_call rbind] in E.
        destruct (do_calls (tick s dt).1 (CTick <$> dts)) as [[s2 os2]| |] eqn:E2; try done.
        cbn in E. injection E as <- <-.
        cbn [length elapsed foldr].
        replace (k + Datatypes.S (length dts))%nat with (Datatypes.S k + length dts)%nat by lia.
        replace (S + (place dt + foldr (λ dt0 s0, place dt0 + s0) 0 dts))
          with (S + place dt + elapsed dts) by (unfold elapsed; lra).
        eapply IH; [| |done| |exact H'|exact E2]; [by rewrite ET|by rewrite ET|].
        destruct F1. lra.
    Qed.

    Lemma call_tweening d e s c s' o :
      D = fmax (as_secs d) min_tween_secs ->
      s_behavior s = BTween d e -> tweening s -> keeps_style c -> do_call s c = Ok (s', o) ->
      tweening s' /\ s_behavior s' = BTween d e.
    Proof.
      intros ED EB T K E. destruct c as [dx dy mx my|dt|x y|b]; cbn [ScrollModel.do_call] in E; try done.
      - unfold scroll_by in E.
        destruct (fclamp _ _ mx); try done. destruct (fclamp _ _ my); try done. cbn [rbind] in E.
        rewrite EB in E. cbn [is_instant make_animator] in E. unfold tweening in T |- *.
        destruct (s_anim s) as [an|]; injection E as <- <-; cbn; [done|].
        split; [|done].
        split; (split; [done|split; [done|cbn [t_elapsed tween_new]; rewrite place_f0; lra]]).
      - unfold ScrollModel.tick, tweening in *.
        destruct (s_anim s) as [[[wx|px|ax] [wy|py|ay]]|] eqn:EA; try done.
        2: { injection E as <- <-. by rewrite EA. }
        destruct T as [T1 T2].
        apply (step_running _ (s_target s).1 dt) in T1. apply (step_running _ (s_target s).2 dt) in T2.
        cbn [a_step] in E. destruct (tween_step wx _ dt) as [wx' vx], (tween_step wy _ dt) as [wy' vy].
        destruct (_ && _); injection E as <- <-; done.
      - by injection E as <- <-.
    Qed.

    Lemma calls_tweening d e s cs s' os :
      D = fmax (as_secs d) min_tween_secs ->
      s_behavior s = BTween d e -> tweening s -> Forall keeps_style cs -> do_calls s cs = Ok (s', os) ->
      tweening s'.
    Proof.
      intros ED. revert s os. induction cs as [|c cs IH]; intros s os EB T K E.
      - by injection E as <- <-.
      - apply Forall_cons in K as [K1 K2]. cbn in E.
        destruct (do_call s c) as [[s1 o]| |] eqn:E1; try done. cbn in E.
        destruct (do_calls s1 cs) as [[s2 os2]| |] eqn:E2; try done. cbn in E. injection E as <- <-.
        destruct (call_tweening d e s c s1 o ED EB T K1 E1) as [T1 B1]. by eapply IH.
    Qed.
  End tween.

  Lemma tweening_headed D s : tweening D s -> headed D s 0 0.
  Proof.
    unfold tweening, headed. destruct (s_anim s) as [[[wx|px|ax] [wy|py|ay]]|]; try done.
    intros [R1 R2]. split; [split; [done|by left]|]. split; [split; [done|by left]|]. by left.
  Qed.

  Lemma bernoulli n : 1 - INR n * u <= (1 - u) ^ n.
  Proof.
    pose proof u_small. induction n as [|n IH]; [cbn; lra|].
    rewrite S_INR. cbn [Rpow_def.pow]. pose proof (pos_INR n). nra.
  Qed.

  (** A tween that has been ticked for its whole length is over. *)
  Lemma tween_over d e cs dts : duration_ok d -> Forall sensible cs -> Forall keeps_style cs ->
    Forall forward dts -> (Z.of_nat (length dts) <= 2 ^ 32)%Z ->
    Rmax (seconds d) (/ 10000) * (1 + bpow radix2 (-20)) <= elapsed dts ->
    exists s os, do_calls (scroll_new (BTween d e)) (cs ++ (CTick <$> dts)) = Ok (s, os) /\
      s_anim s = None /\ good (BTween d e) (cs ++ (CTick <$> dts)) s os.
  Proof.
    intros Hd Hs Hk Hf Hn Ht.
    destruct (calls_good (BTween d e) cs Hs) as (s1 & os1 & E1 & G1).
    destruct (calls_good (BTween d e) (cs ++ (CTick <$> dts))) as (s & os & E & G).
    { apply Forall_app. split; [done|]. apply Forall_fmap, Forall_true. done. }
    exists s, os. split; [done|]. split; [|done].
    rewrite do_calls_app, E1 in E. cbn [rbind fst snd] in E.
    destruct (do_calls s1 (CTick <$> dts)) as [[s2 os2]| |] eqn:E2; try done.
    cbn in E. injection E as -> _.
    destruct (tween_duration_place d Hd) as (HF & HD & HU).
    set (D := fmax (as_secs d) min_tween_secs) in *.
    assert (tweening D s1) as T1.
    { eapply (calls_tweening D HF HD d e (scroll_new (BTween d e)) cs s1 os1); done. }
    apply tweening_headed in T1.
    destruct (goal_bounds cs Hs) as (F1 & F2 & _).
    eapply (ticks_headed D HF HD s1 dts 0 0) in E2;
      [|rewrite (g_target _ _ _ _ G1); by apply finite_num
       |rewrite (g_target _ _ _ _ G1); by apply finite_num|done|lra|done].
    unfold headed in E2. destruct (s_anim s) as [[[wx|px|ax] [wy|py|ay]]|]; try done.
    exfalso. destruct E2 as (P1 & P2 & P3). cbn [Nat.add] in *.
    unfold tween_seconds in HU.
    assert (place D <= (0 + elapsed dts) * (1 - u) ^ length dts) as L.
    { rewrite Rplus_0_l. pose proof (bernoulli (length dts)) as B.
      assert (INR (length dts) * u <= bpow radix2 (-21)) as L1.
      { assert (INR (length dts) <= bpow radix2 32) as L2.
        { rewrite INR_IZR_INZ, <- (IZR_Zpower radix2) by done. apply IZR_le. done. }
        replace (bpow radix2 (-21)) with (bpow radix2 32 * u).
        - apply Rmult_le_compat_r; [pose proof u_small; lra|done].
        - unfold u. rewrite <- bpow_plus. done. }
      set (T := Rmax (seconds d) (/ 10000)) in *.
      assert (0 < T) as PT by (eapply Rlt_le_trans; [|apply Rmax_r]; lra).
      eapply Rle_trans; [exact HU|].
      set (n := (1 - u) ^ length dts) in *.
      assert (1 - bpow radix2 (-21) <= n) as L3 by lra.
      change (bpow radix2 (-21)) with (/ IZR (2 ^ 21)) in L3.
      change (bpow radix2 (-20)) with (/ IZR (2 ^ 20)) in Ht.
      change (bpow radix2 (-51)) with (/ IZR (2 ^ 51)). cbn in L3, Ht |- *.
      apply Rle_trans with (T * (1 + / 1048576) * n); [|apply Rmult_le_compat_r; [lra|done]].
      rewrite Rmult_assoc. apply Rmult_le_compat_l; [lra|].
      apply Rle_trans with ((1 + / 1048576) * (1 - / 2097152)); [lra|].
      apply Rmult_le_compat_l; lra. }
    destruct P3 as [P3|P3].
    - apply nil_length_inv in P3 || (destruct dts; [|done]). subst dts. cbn in L. lra.
    - rewrite (prog_settled D HF HD wx _ _ _ P1 L), (prog_settled D HF HD wy _ _ _ P2 L) in P3. done.
  Qed.

  Lemma instant_now b cs dx dy mx my : Forall sensible (cs ++ [CScroll dx dy mx my]) ->
    style b cs = Instant ->
    exists s os, do_calls (scroll_new b) (cs ++ [CScroll dx dy mx my]) = Ok (s, os) /\
      animating s = false /\
      last os = Some (Some (pixel (goal (cs ++ [CScroll dx dy mx my])).1,
                            pixel (goal (cs ++ [CScroll dx dy mx my])).2)).
  Proof.
    intros H HB. apply Forall_app in H as [H1 H2]. apply Forall_cons in H2 as [Hc _].
    destruct (calls_good b cs H1) as (s & os & E & G).
    rewrite do_calls_app, E. cbn [rbind fst snd ScrollModel.do_calls ScrollModel.do_call].
    unfold scroll_by. destruct Hc as (N1 & N2 & Fx & Fy & Hx & Hy).
    rewrite (fclamp_within _ mx), (fclamp_within _ my) by done. cbn [rbind].
    rewrite (g_style _ _ _ _ G), HB. cbn [is_instant rbind fst snd].
    eexists _, _. split; [done|]. split; [done|].
    rewrite last_snoc. unfold goal. rewrite foldl_app. cbn [foldl goal_step].
    fold (goal cs). by rewrite (g_target _ _ _ _ G).
  Qed.
End proofs.
