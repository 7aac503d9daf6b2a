(** Proofs about gradients. *)
From Coq Require Import QArith Qabs Lqa.
From stdpp Require Import numbers option list.
From Verif Require Import Base GradientModel GradientSpec.
Local Open Scope Q_scope.

Lemma leb_true x y : x <= y -> Qle_bool x y = true.
Proof. apply Qle_bool_iff. Qed.
Lemma leb_false x y : y < x -> Qle_bool x y = false.
Proof. intros H. destruct (Qle_bool x y) eqn:E; [|done]. apply Qle_bool_iff in E. lra. Qed.
Lemma leb_inv x y : Qle_bool x y = false -> y < x.
Proof. intros H. apply Qnot_le_lt. intros K. apply Qle_bool_iff in K. congruence. Qed.
Lemma mix_ch ch a b f : component ch -> ch (mix a b f) = ch a + (ch b - ch a) * f.
Proof. by intros [->|[->|[->| ->]]]. Qed.
Lemma frac_range oa ob t : EPSILON < ob - oa -> oa <= t -> t <= ob -> 0 <= (t - oa) / (ob - oa) /\ (t - oa) / (ob - oa) <= 1.
Proof.
  intros H1 H2 H3. assert (0 < ob - oa) as H by (assert (0 < EPSILON) by done; lra). split.
  - apply Qle_shift_div_l; [done|lra].
  - apply Qle_shift_div_r; [done|lra].
Qed.
Lemma search_range ch lo hi t last stops :
  component ch -> lo <= ch last <= hi -> Forall (fun s => lo <= ch (snd s) <= hi) stops -> lo <= ch (search t last stops) <= hi.
Proof.
  intros Hc Hl. induction stops as [|a [|b rest] IH]; intros H; try done. apply Forall_cons in H as [Ha H]. pose proof (Forall_inv H) as Hb.
  cbn [search]. destruct (Qle_bool (fst a) t && Qle_bool t (fst b)) eqn:E; [|by apply IH].
  apply andb_true_iff in E as [E1 E2]. apply Qle_bool_iff in E1, E2.
  destruct (Qle_bool (fst b - fst a) EPSILON) eqn:Es; [done|]. apply leb_inv in Es.
  rewrite mix_ch by done. destruct (frac_range _ _ _ Es E1 E2) as [F1 F2]. generalize dependent ((t - fst a) / (fst b - fst a)). intros f F1 F2.
  cbn beta in Hb, Ha. split; nra.
Qed.
Lemma last_ok {A} (P : A -> Prop) x l : P x -> Forall P l -> P (List.last l x).
Proof. intros Hx H. induction H as [|y l Hy H IH]; [done|]. cbn. destruct l; [done|apply IH]. Qed.
Lemma in_order_le a rest b : in_order (a :: rest) -> b ∈ rest -> fst a <= fst b.
Proof.
  revert a. induction rest as [|c rest IH]; intros a H Hb; [by apply elem_of_nil in Hb|]. destruct H as [H1 H2].
  apply elem_of_cons in Hb as [->|Hb]; [done|]. specialize (IH c H2 Hb). lra.
Qed.
Lemma in_order_tail pre stops : in_order (pre ++ stops) -> in_order stops.
Proof. induction pre as [|a pre IH]; [done|]. intros H. apply IH. cbn in H. destruct (pre ++ stops); [done|]. apply H. Qed.
Lemma search_skip t last pre a b rest :
  in_order (pre ++ a :: b :: rest) -> fst a < t -> search t last (pre ++ a :: b :: rest) = search t last (a :: b :: rest).
Proof.
  induction pre as [|c pre IH]; [done|]. intros H Ht. assert (H' : in_order (pre ++ a :: b :: rest)) by (by eapply (in_order_tail [c])).
  rewrite <- IH by done. destruct pre as [|d pre]; cbn [app].
  - cbn [search]. rewrite (leb_false t (fst a)) by done. by rewrite andb_false_r.
  - cbn [search]. assert (fst d <= fst a).
    { eapply (in_order_le d (pre ++ a :: b :: rest)); [exact H'|]. apply elem_of_app. right. apply elem_of_list_here. }
    rewrite (leb_false t (fst d)) by lra. by rewrite andb_false_r.
Qed.
Lemma search_between t last pre a b rest :
  in_order (pre ++ a :: b :: rest) -> fst a < t -> t <= fst b -> EPSILON < fst b - fst a ->
  search t last (pre ++ a :: b :: rest) = mix (snd a) (snd b) ((t - fst a) / (fst b - fst a)).
Proof.
  intros Ho H1 H2 H3. rewrite search_skip by done. cbn [search]. rewrite !leb_true by lra. cbn [andb]. by rewrite leb_false.
Qed.
Lemma color_at_search stops t a b pre rest :
  stops = pre ++ a :: b :: rest -> in_order stops -> fst a < t -> t < fst b -> exists z, color_at stops t = search t z stops.
Proof.
  intros E Ho H1 H2. destruct stops as [|x [|y stops]]; [by destruct pre|by destruct pre as [|? [|? ?]]|].
  unfold color_at. set (z := List.last (y :: stops) x).
  assert (fst x <= fst a) as Hx.
  { destruct pre as [|c pre]; cbn in E; injection E as -> E; [lra|]. eapply in_order_le; [exact Ho|]. rewrite E, elem_of_app. right. apply elem_of_list_here. }
  assert (fst b <= fst z) as Hz.
  { subst z. assert (forall l x, in_order (x :: l) -> forall c, c ∈ x :: l -> fst c <= fst (List.last l x)) as K.
    { clear. induction l as [|y l IH]; intros x H c Hc; [apply elem_of_list_singleton in Hc as ->; cbn; lra|].
      destruct H as [H1 H2]. assert (List.last (y :: l) x = List.last l y) as ->. { clear. revert y. induction l as [|z l IH]; intros y; [done|]. cbn. destruct l; [done|]. apply (IH y). }
      apply elem_of_cons in Hc as [->|Hc]; [|by apply IH]. specialize (IH y H2 y ltac:(apply elem_of_list_here)). lra. }
    apply K; [done|]. rewrite E, elem_of_app. right. apply elem_of_list_further, elem_of_list_here. }
  rewrite leb_false by lra. rewrite leb_false by lra. eauto.
Qed.
Lemma project_ok dx dy w h px py :
  dx * dx + dy * dy == 1 -> 0 < w * Qabs dx + h * Qabs dy ->
  exists len2 num, 0 < len2 /\ project (line dx dy w h) (px, py) = num / len2
    /\ let half := (w * Qabs dx + h * Qabs dy) / 2 in
       len2 == 4 * (half * half) /\ num == ((px - w / 2) * dx + (py - h / 2) * dy + half) * (2 * half).
Proof.
  intros Hu Hp. unfold project, line. cbn [fst snd]. set (half := (w * Qabs dx + h * Qabs dy) / 2).
  assert (0 < half) as Hh. { subst half. apply Qlt_shift_div_l; [done|lra]. } clearbody half.
  match goal with |- context [if Qle_bool ?l 0 then _ else ?n / _] => set (len2 := l); set (num := n) end.
  assert (len2 == 4 * (half * half)) as E. { subst len2. transitivity (4 * (half * half) * (dx * dx + dy * dy)); [ring|rewrite Hu; ring]. }
  assert (0 < len2) by (rewrite E; nra).
  exists len2, num. split; [done|]. rewrite leb_false by done. split; [done|]. split; [done|].
  subst num. transitivity (((px - w / 2) * dx + (py - h / 2) * dy + half * (dx * dx + dy * dy)) * (2 * half)); [ring|rewrite Hu; ring].
Qed.
Lemma abs_cases x : (0 <= x /\ Qabs x == x) \/ (x < 0 /\ Qabs x == - x).
Proof. destruct (Qlt_le_dec x 0); [right; split; [done|apply Qabs_neg; lra]|left; split; [done|by apply Qabs_pos]]. Qed.
Lemma half_eq x : x / 2 == x * (1 # 2).
Proof. reflexivity. Qed.
Lemma project_range dx dy w h px py :
  dx * dx + dy * dy == 1 -> 0 < w * Qabs dx + h * Qabs dy -> 0 <= px <= w -> 0 <= py <= h ->
  0 <= project (line dx dy w h) (px, py) <= 1.
Proof.
  intros Hu Hp Hx Hy. destruct (project_ok dx dy w h px py Hu Hp) as (len2 & num & Hl & -> & E1 & E2).
  set (half := (w * Qabs dx + h * Qabs dy) / 2) in *. assert (half == (w * Qabs dx + h * Qabs dy) * (1 # 2)) as Eh by reflexivity. clearbody half.
  set (u := (px - w / 2) * dx + (py - h / 2) * dy) in *. assert (u == (px - w * (1 # 2)) * dx + (py - h * (1 # 2)) * dy) as Eu by reflexivity. clearbody u.
  assert (0 < half) by lra.
  assert (- half <= u /\ u <= half) as [U1 U2].
  { destruct (abs_cases dx) as [[D1 D2]|[D1 D2]], (abs_cases dy) as [[F1 F2]|[F1 F2]]; rewrite D2, F2 in Eh; split; nra. }
  split; [apply Qle_shift_div_l; [done|]; rewrite E2; nra|apply Qle_shift_div_r; [done|]; rewrite E1, E2; nra].
Qed.
Lemma project_corner dx dy w h :
  dx * dx + dy * dy == 1 -> 0 < w * Qabs dx + h * Qabs dy ->
  project (line dx dy w h) (if Qle_bool 0 dx then w else 0, if Qle_bool 0 dy then h else 0) == 1
  /\ project (line dx dy w h) (if Qle_bool 0 dx then 0 else w, if Qle_bool 0 dy then 0 else h) == 0.
Proof.
  intros Hu Hp. split.
  - destruct (project_ok dx dy w h (if Qle_bool 0 dx then w else 0) (if Qle_bool 0 dy then h else 0) Hu Hp) as (len2 & num & Hl & -> & E1 & E2).
    assert (num == len2) as ->; [|field; lra]. rewrite E1, E2. set (half := (w * Qabs dx + h * Qabs dy) / 2) in *.
    assert (half == (w * Qabs dx + h * Qabs dy) * (1 # 2)) as Eh by reflexivity.
    enough (((if Qle_bool 0 dx then w else 0) - w / 2) * dx + ((if Qle_bool 0 dy then h else 0) - h / 2) * dy == half) as -> by ring.
    rewrite Eh, !half_eq. destruct (abs_cases dx) as [[D1 D2]|[D1 D2]], (abs_cases dy) as [[F1 F2]|[F1 F2]]; rewrite D2, F2;
      rewrite ?(leb_true 0 dx), ?(leb_true 0 dy) by done; rewrite ?(leb_false 0 dx), ?(leb_false 0 dy) by done; ring.
  - destruct (project_ok dx dy w h (if Qle_bool 0 dx then 0 else w) (if Qle_bool 0 dy then 0 else h) Hu Hp) as (len2 & num & Hl & -> & E1 & E2).
    assert (num == 0) as ->; [|field; lra]. rewrite E2. set (half := (w * Qabs dx + h * Qabs dy) / 2) in *.
    assert (half == (w * Qabs dx + h * Qabs dy) * (1 # 2)) as Eh by reflexivity.
    enough (((if Qle_bool 0 dx then 0 else w) - w / 2) * dx + ((if Qle_bool 0 dy then 0 else h) - h / 2) * dy == - half) as -> by ring.
    rewrite Eh, !half_eq. destruct (abs_cases dx) as [[D1 D2]|[D1 D2]], (abs_cases dy) as [[F1 F2]|[F1 F2]]; rewrite D2, F2;
      rewrite ?(leb_true 0 dx), ?(leb_true 0 dy) by done; rewrite ?(leb_false 0 dx), ?(leb_false 0 dy) by done; ring.
Qed.
