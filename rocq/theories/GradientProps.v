(** Theorems about gradients. *)
From Coq Require Import QArith Qabs Lqa.
From stdpp Require Import numbers option list.
From Verif Require Import Base GradientModel GradientSpec GradientProofs.
Local Open Scope Q_scope.

(** ** C118: a gradient runs from stop to stop *)
(** Before the first stop and after the last the colour does not change. *)
Theorem C118_ends a rest z t :
  List.last rest a = z ->
  (t <= fst a -> color_at (a :: rest) t = snd a) /\ (fst a < t -> fst z <= t -> color_at (a :: rest) t = snd z).
Proof.
  intros Hz. unfold color_at. destruct rest as [|b rest]; [cbn in Hz; subst z; done|]. rewrite Hz. split.
  - intros H. by rewrite leb_true.
  - intros H1 H2. rewrite leb_false by done. by rewrite leb_true.
Qed.
Print Assumptions C118_ends.
(** Between two neighbouring stops each component changes evenly from one to the other. *)
Theorem C118_between pre a b rest t ch :
  in_order (pre ++ a :: b :: rest) -> component ch -> fst a < t < fst b -> EPSILON < fst b - fst a ->
  ch (color_at (pre ++ a :: b :: rest) t) == ch (snd a) + (ch (snd b) - ch (snd a)) * ((t - fst a) / (fst b - fst a)).
Proof.
  intros Ho Hc [H1 H2] Hs. destruct (color_at_search _ t a b pre rest eq_refl Ho H1 H2) as [z ->].
  rewrite search_between; [|done..|lra|done]. by rewrite mix_ch.
Qed.
Print Assumptions C118_between.
(** No component is ever outside the range of the stops, in whatever order they are. *)
Theorem C118_range stops t ch lo hi :
  stops <> [] -> component ch -> (forall s, s ∈ stops -> lo <= ch (snd s) <= hi) -> lo <= ch (color_at stops t) <= hi.
Proof.
  intros Hn Hc H. assert (Forall (fun s => lo <= ch (snd s) <= hi) stops) as F by (apply Forall_forall; exact H). clear H.
  destruct stops as [|a rest]; [done|]. pose proof (proj1 (Forall_cons _ _ _) F) as [Ha Hr].
  pose proof (last_ok (fun s => lo <= ch (snd s) <= hi) a rest Ha Hr) as Hz. unfold color_at. destruct rest as [|b rest]; [done|].
  destruct (Qle_bool t (fst a)); [done|]. destruct (Qle_bool _ t); [done|]. by apply search_range.
Qed.
Print Assumptions C118_range.
(** For each direction, the points of a box are on the line from 0 to 1, and two opposite corners are its ends. *)
Theorem C118_line dx dy w h :
  dx * dx + dy * dy == 1 -> 0 < w * Qabs dx + h * Qabs dy ->
  (forall px py, 0 <= px <= w -> 0 <= py <= h -> 0 <= project (line dx dy w h) (px, py) <= 1)
  /\ project (line dx dy w h) (if Qle_bool 0 dx then w else 0, if Qle_bool 0 dy then h else 0) == 1
  /\ project (line dx dy w h) (if Qle_bool 0 dx then 0 else w, if Qle_bool 0 dy then 0 else h) == 0.
Proof. intros Hu Hp. split; [intros; by apply project_range|by apply project_corner]. Qed.
Print Assumptions C118_line.
(** Where two stops meet the colour of the far side is taken, as the comment in the code has it: not if a stop comes before them. *)
Theorem C118_edge_refuted :
  ~ forall pre a b rest, in_order (pre ++ a :: b :: rest) -> pre <> [] -> rest <> [] -> fst a == fst b ->
      (forall s, s ∈ rest -> fst b < fst s) -> color_at (pre ++ a :: b :: rest) (fst a) = snd b.
Proof.
  intros K. pose (red := mk_color 1 0 0 1). pose (blue := mk_color 0 0 1 1).
  specialize (K [(0, red)] (1 # 2, red) (1 # 2, blue) [(1, blue)]).
  assert (E : color_at ([(0, red)] ++ (1 # 2, red) :: (1 # 2, blue) :: [(1, blue)]) (1 # 2) = blue).
  { apply K; try done. intros s Hs. apply elem_of_list_singleton in Hs as ->. done. }
  apply (f_equal (fun c => Qeq_bool (c_b c) 1)) in E. vm_compute in E. done.
Qed.
Print Assumptions C118_edge_refuted.
Example C118_example :
  let red := mk_color 1 0 0 1 in let green := mk_color 0 1 0 1 in let blue := mk_color 0 0 1 (1 # 2) in
  let stops := [(0, red); (1 # 4, green); (1, blue)] in
  in_order stops /\ (c_g (color_at stops (1 # 2)) == 2 # 3 /\ c_a (color_at stops (1 # 2)) == 5 # 6)
  /\ (forall s, s ∈ stops -> 0 <= c_g (snd s) <= 1)
  /\ (3 # 5) * (3 # 5) + (- (4 # 5)) * (- (4 # 5)) == 1 /\ project (line (3 # 5) (- (4 # 5)) 10 20) (5, 10) == 1 # 2.
Proof.
  cbv zeta. split; [cbn; lra|]. split; [done|]. split; [|done]. intros s Hs.
  repeat (apply elem_of_cons in Hs as [->|Hs]; [cbn; lra|]). by apply elem_of_nil in Hs.
Qed.
