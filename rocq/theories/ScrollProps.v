(** C46: scrolling stays inside the page and ends where the user asked. *)
From Coq Require Import ZArith Reals Lra.
From Flocq Require Import Core IEEE754.BinarySingleNaN.
From Verif Require Import Base F64 F64Facts ScrollModel ScrollSpec ScrollProofs.

Section props.
  Context (pow2 sin : f32 -> f32) {A : Type}
    (cstep : A -> f64 -> f64 -> A * f64) (csettled : A -> bool).
  Local Notation do_calls := (do_calls pow2 sin cstep csettled).

  (** No sensible sequence of calls panics, and the place the page heads for is what the wheel
      asked for, inside the page: no tick, no animation style and no embedder's animator can
      change it. *)
  Theorem C46_target_in_page b cs : Forall sensible cs ->
    exists s os, do_calls (scroll_new b) cs = Ok (s, os) /\
      s_target s = goal cs /\
      finite (goal cs).1 /\ finite (goal cs).2 /\
      match bounds cs with
      | Some (mx, my) =>
          (0 <= place (goal cs).1 <= place mx)%R /\ (0 <= place (goal cs).2 <= place my)%R
      | None => True
      end.
  Proof.
    intros H. destruct (calls_good pow2 sin cstep csettled b cs H) as (s & os & E & G).
    exists s, os. split; [exact E|]. split; [exact (g_target _ _ _ _ G)|]. exact (goal_bounds cs H).
  Qed.

  (** While the style is "instant" a scroll takes effect at once. *)
  Theorem C46_instant_at_once b cs dx dy mx my : Forall sensible (cs ++ [CScroll dx dy mx my]) ->
    style b cs = Instant ->
    exists s os, do_calls (scroll_new b) (cs ++ [CScroll dx dy mx my]) = Ok (s, os) /\
      animating s = false /\
      last os = Some (Some (pixel (goal (cs ++ [CScroll dx dy mx my])).1,
                            pixel (goal (cs ++ [CScroll dx dy mx my])).2)).
  Proof. exact (instant_now pow2 sin cstep csettled b cs dx dy mx my). Qed.

  (** Whenever nothing is moving, the screen shows exactly the place asked for. (As long as the
      style is not exchanged; see [C46_style_change_refuted].) *)
  Theorem C46_idle_is_there_partial b cs : Forall sensible cs -> Forall keeps_style cs ->
    exists s os, do_calls (scroll_new b) cs = Ok (s, os) /\
      (animating s = false -> shown cs os = (pixel (goal cs).1, pixel (goal cs).2)).
  Proof.
    intros H K. destruct (calls_good pow2 sin cstep csettled b cs H) as (s & os & E & G).
    exists s, os. split; [exact E|]. intros I. destruct G as [GL GT GS GV GI GN].
    rewrite GV, GI, GT; [done|exact K|]. unfold animating in I. by destruct (s_anim s).
  Qed.

  (** A tween is over, and the page where it should be, once its length has passed in ticks:
      whatever happened before, however the time is cut into frames, whatever the curve.
      (A millionth is added for rounding; shorter tweens than 0.1 ms take 0.1 ms.) *)
  Theorem C46_tween_arrives d e cs dts : duration_ok d ->
    Forall sensible cs -> Forall keeps_style cs ->
    Forall forward dts -> (Z.of_nat (length dts) <= 2 ^ 32)%Z ->
    (Rmax (seconds d) (/ 10000) * (1 + bpow radix2 (-20)) <= elapsed dts)%R ->
    exists s os, do_calls (scroll_new (BTween d e)) (cs ++ (CTick <$> dts)) = Ok (s, os) /\
      animating s = false /\
      shown (cs ++ (CTick <$> dts)) os = (pixel (goal cs).1, pixel (goal cs).2).
  Proof.
    intros Hd Hs Hk Hf Hn Ht.
    destruct (tween_over pow2 sin cstep csettled d e cs dts Hd Hs Hk Hf Hn Ht) as (s & os & E & I & G).
    exists s, os. split; [exact E|]. destruct G as [GL GT GS GV GI GN].
    split; [unfold animating; by rewrite I|].
    rewrite GV, GI, GT; [| |done].
    - unfold goal. rewrite foldl_app.
      assert (forall g, foldl (goal_step (A:=A)) g (CTick <$> dts) = g) as K.
      { clear. induction dts as [|dt dts IH]; intros g; [done|apply IH]. }
      by rewrite K.
    - apply Forall_app. split; [done|]. by apply Forall_fmap, Forall_true.
  Qed.
End props.
Print Assumptions C46_target_in_page.
Print Assumptions C46_instant_at_once.
Print Assumptions C46_idle_is_there_partial.
Print Assumptions C46_tween_arrives.

(** A run: the default style, a page 1000 tall, two turns of the wheel with frames between. *)
Definition demo : list (@call unit) :=
  [CScroll f0 (fz 300) fmax_value (fz 1000); CTick (flit 16 1000); CTick (flit 100 1000);
   CScroll f0 (fz 2000) fmax_value (fz 1000)].

Lemma fz_nonneg z : (0 <= z < 2 ^ 64)%Z -> (0 <= place (fz z))%R.
Proof. intros H. destruct (fz_place z H) as (_ & [P _] & _). exact P. Qed.

Lemma fmax_value_nonneg : (0 <= place fmax_value)%R.
Proof. unfold place. apply F2R_ge_0. done. Qed.

Example demo_sensible : Forall sensible demo /\ Forall keeps_style demo.
Proof.
  split; [|repeat constructor].
  pose proof fmax_value_nonneg. pose proof (fz_nonneg 1000 ltac:(done)).
  repeat apply Forall_cons_2; try apply Forall_nil_2; try done; split_and!; done.
Qed.

Local Notation unit_calls :=
  (do_calls (fun x => x) (fun x => x) (fun (a : unit) _ _ => (a, f0)) (fun _ => true)).

Example demo_moves :
  ((fun r => (animating r.1, r.2)) <$>
     match unit_calls (scroll_new default_text_scroll) (demo ++ (CTick <$> [flit 110 1000; fz 1; fz 1])) with
     | Ok r => Some r | _ => None end) =
  Some (false, [None; Some (0, 5); Some (0, 162); None; Some (0, 581); Some (0, 1000); None]%Z).
Proof. vm_compute. reflexivity. Qed.

(** The second theorem's case: switching to "instant" and scrolling on. *)
Example instant_case : style default_text_scroll (demo ++ [CBehavior Instant]) = Instant.
Proof. reflexivity. Qed.

(** The last theorem's case: one second is long enough for the default style. *)
Example demo_time : duration_ok (Duration 0 220000000) /\ Forall forward [fz 1] /\
  (Rmax (seconds (Duration 0 220000000)) (/ 10000) * (1 + bpow radix2 (-20)) <= elapsed [fz 1])%R.
Proof.
  split; [done|].
  assert (place (fz 1) = 1%R) as E.
  { destruct (fz_place 1) as (_ & _ & E); [done|].
    rewrite E. assert (1%R = place (@Bone 53 1024 prec64 emax64)) as Q.
    { rewrite place_finite by apply is_finite_Bone. symmetry. apply Bone_correct. }
    rewrite Q. apply rnd_place, is_finite_Bone. }
  split.
  - apply Forall_singleton. split; [done|]. rewrite E. lra.
  - unfold elapsed. cbn [foldr]. rewrite E. unfold seconds. cbn [secs nanos].
    change (bpow radix2 (-20)) with (/ IZR (2 ^ 20))%R.
    assert (Rmax (0 + 220000000 / 1000000000) (/ 10000) = 0.22)%R as ->.
    { rewrite Rmax_left; lra. }
    cbn. lra.
Qed.

(** Exchanging the style in flight leaves the page standing short of its goal, at rest. *)
Theorem C46_style_change_refuted :
  exists b (cs : list (@call unit)) s os, Forall sensible cs /\
    unit_calls (scroll_new b) cs = Ok (s, os) /\ animating s = false /\
    shown cs os <> (pixel (goal cs).1, pixel (goal cs).2).
Proof.
  exists default_text_scroll, [CScroll f0 (fz 300) fmax_value (fz 1000); CBehavior Instant].
  eexists _, _. split; [|split; [reflexivity|split; [reflexivity|]]].
  - pose proof fmax_value_nonneg. pose proof (fz_nonneg 1000 ltac:(done)).
    repeat apply Forall_cons_2; try apply Forall_nil_2; try done; split_and!; done.
  - vm_compute. discriminate.
Qed.
Print Assumptions C46_style_change_refuted.

(** One wheel delta that is not a number, and no later one moves the page any more. *)
Theorem C46_nan_delta_refuted :
  exists (cs : list (@call unit)) s os,
    unit_calls (scroll_new Instant) (CScroll f0 B754_nan fmax_value (fz 1000) :: cs) = Ok (s, os) /\
    Forall sensible cs /\ bounds cs = Some (fmax_value, fz 1000) /\
    ~ num (s_target s).2.
Proof.
  exists [CScroll f0 (fz 300) fmax_value (fz 1000)]. eexists _, _.
  split; [reflexivity|]. split; [|split; [done|by vm_compute]].
  pose proof fmax_value_nonneg. pose proof (fz_nonneg 1000 ltac:(done)).
  apply Forall_singleton. split_and!; done.
Qed.
Print Assumptions C46_nan_delta_refuted.
