(** C45: the tile memory budget. *)
From Coq Require Import ZArith Reals.
From stdpp Require Import gmap sorting.
From Flocq Require Import Core IEEE754.BinarySingleNaN.
From Verif Require Import Base F64 F64Facts TileModel TileSpec TileProofs.

(** What is held after a clean-up. *)
Notation left_by r := (items r.1.1.2 r.1.2).

(** Three tiles, a screen of 500; the lower two were shown, the lowest first; back at the top. *)
Definition demo_tile (y : Z) (p : N) : tile :=
  Tile (to_bits f0) (to_bits (fz y)) 0 256 256 (Cpu p 100) AScroll.
Definition demo_tiles : list tile := [demo_tile 0 1; demo_tile 1000 2; demo_tile 2000 3].
Definition demo_ops : list op :=
  [OTouch demo_tiles f0 (fz 2000) (fz 800) (fz 500); OTouch demo_tiles f0 (fz 1000) (fz 800) (fz 500)].
Definition same (l : list (key * pos_info)) : list (key * pos_info) := l.
Definition demo_clean (limit : N) :=
  enforce same (after demo_ops) demo_tiles [] f0 (fz 500) limit.
Definition demo_key (y : Z) : key := (to_bits f0, to_bits (fz y), 0%Z).

Lemma demo_fair : fair same.
Proof. by intros l. Qed.
Lemma demo_unshared : unshared (items demo_tiles []).
Proof.
  intros x x' b Hx Hx'. unfold items, demo_tiles in *. cbn [fmap list_fmap app] in *.
  repeat (apply elem_of_cons in Hx as [->|Hx]); try by apply elem_of_nil in Hx.
  all: repeat (apply elem_of_cons in Hx' as [->|Hx']); try by apply elem_of_nil in Hx'.
  all: unfold buffer; cbn [tile_item x_pixels demo_tile b_pixels]; congruence.
Qed.
Lemma demo_gone : gone (items demo_tiles []) (left_by (demo_clean 250)) (demo_key 2000).
Proof.
  assert (bool_decide (demo_key 2000 ∈ x_key <$> items demo_tiles []) = true /\
    bool_decide (demo_key 2000 ∈ x_key <$> left_by (demo_clean 250)) = false) as [H1 H2]
    by by vm_compute.
  apply bool_decide_eq_true in H1. apply bool_decide_eq_false in H2. done.
Qed.

(** What touches the screen or the screenful beside it, what is pinned to the screen and what lives
    on the GPU is never thrown away, and nothing is changed or invented. *)
Theorem C45_protects iter st tiles cache sy vh limit : fair iter ->
  let r := enforce iter st tiles cache sy vh limit in
  sublist r.1.1.2 tiles /\ sublist r.1.2 cache /\
  (forall t, t ∈ tiles -> untouchable sy vh (tile_item t) -> t ∈ r.1.1.2) /\
  (forall c, c ∈ cache -> untouchable sy vh (entry_item c) -> c ∈ r.1.2).
Proof. exact (protects iter st tiles cache sy vh limit). Qed.
Print Assumptions C45_protects.

(** In particular nothing on the screen goes. *)
Theorem C45_on_screen_stays iter st tiles cache sy vh limit :
  fair iter -> finite sy -> finite vh -> (0 <= place vh)%R ->
  let r := enforce iter st tiles cache sy vh limit in
  forall t, t ∈ tiles -> on_view sy vh (from_bits (b_y t)) (fn (b_h t)) -> t ∈ r.1.1.2.
Proof. exact (keeps_view iter st tiles cache sy vh limit). Qed.
Print Assumptions C45_on_screen_stays.

(** Even a budget of one byte leaves the tile at the top, and only that one. *)
Example C45_protects_demo :
  on_view f0 (fz 500) (from_bits (b_y (demo_tile 0 1))) (fn 256) /\
  (demo_clean 1).1.1.2 = [demo_tile 0 1].
Proof. split; [by vm_compute|by vm_compute]. Qed.

(** A position goes whole or stays whole. *)
Theorem C45_whole_positions iter st tiles cache sy vh limit : fair iter ->
  let r := enforce iter st tiles cache sy vh limit in
  (forall t, t ∈ tiles -> t ∉ r.1.1.2 -> gone (items tiles cache) (left_by r) (pos_key t)) /\
  (forall c, c ∈ cache -> c ∉ r.1.2 -> gone (items tiles cache) (left_by r) (entry_key c)).
Proof. exact (result_whole iter st tiles cache sy vh limit). Qed.
Print Assumptions C45_whole_positions.

(** Afterwards the pixels held fit the budget, or nothing that may go is left. *)
Theorem C45_budget iter st tiles cache sy vh limit :
  fair iter -> unshared (items tiles cache) -> limit <> 0%N ->
  let r := enforce iter st tiles cache sy vh limit in
  (bytes (left_by r) <= limit)%N \/ forall k, ~ evictable sy vh (left_by r) k.
Proof. exact (within_budget iter st tiles cache sy vh limit). Qed.
Print Assumptions C45_budget.

Example C45_budget_demo :
  unshared (items demo_tiles []) /\ bytes (items demo_tiles []) = 300%N /\
  bytes (left_by (demo_clean 250)) = 200%N /\ bytes (left_by (demo_clean 1)) = 100%N.
Proof. split; [exact demo_unshared|by vm_compute]. Qed.

(** The report tells the truth: bytes left, bytes thrown away, positions thrown away. *)
Theorem C45_report_true iter st tiles cache sy vh limit :
  fair iter -> unshared (items tiles cache) ->
  let r := enforce iter st tiles cache sy vh limit in
  e_resident r.2 = bytes (left_by r) /\
  bytes (items tiles cache) = (e_bytes r.2 + e_resident r.2)%N /\
  (exists ks, NoDup ks /\ length ks = e_tiles r.2 /\
    forall k, k ∈ ks <-> gone (items tiles cache) (left_by r) k).
Proof. exact (report_true iter st tiles cache sy vh limit). Qed.
Print Assumptions C45_report_true.

Example C45_report_demo :
  (demo_clean 250).2 = Report 1 100 200 /\ (demo_clean 1).2 = Report 2 200 100.
Proof. by vm_compute. Qed.

(** With a buffer shared between two positions the report is wrong: it claims the buffer gone. *)
Theorem C45_shared_refuted : exists tiles sy vh limit,
  let r := enforce same budget_new tiles [] sy vh limit in
  bytes (left_by r) = 100%N /\ e_resident r.2 = 0%N /\ (limit < 100)%N.
Proof. exists [demo_tile 1000 1; demo_tile 900 1], f0, (fz 500), 10%N. by vm_compute. Qed.
Print Assumptions C45_shared_refuted.

(** A budget of 0 is no budget, and what already fits is left alone. *)
Theorem C45_untouched iter st tiles cache sy vh limit :
  limit = 0%N \/ (bytes (items tiles cache) <= limit)%N ->
  let r := enforce iter st tiles cache sy vh limit in
  r.1.1.2 = tiles /\ r.1.2 = cache /\ e_tiles r.2 = 0.
Proof. exact (unlimited iter st tiles cache sy vh limit). Qed.
Print Assumptions C45_untouched.

Example C45_untouched_demo :
  (demo_clean 0).1.1.2 = demo_tiles /\ (demo_clean 300).1.1.2 = demo_tiles.
Proof. by vm_compute. Qed.

(** What goes was shown on the screen no later than whatever could have gone but stayed; between
    two last shown together, the one that went was at least as far away. *)
Theorem C45_least_recent iter ops tiles cache sy vh limit k k' :
  fair iter -> Forall op_ok ops -> unshared (items tiles cache) ->
  let r := enforce iter (after ops) tiles cache sy vh limit in
  gone (items tiles cache) (left_by r) k ->
  evictable sy vh (items tiles cache) k' -> k' ∈ x_key <$> left_by r ->
  (last_shown (rev ops) k <= last_shown (rev ops) k')%N /\
  (uniform (items tiles cache) -> last_shown (rev ops) k = last_shown (rev ops) k' ->
   forall x x', x ∈ items tiles cache -> x_key x = k -> x' ∈ items tiles cache -> x_key x' = k' ->
   flt (far sy vh (x_y x) (x_h x)) (far sy vh (x_y x') (x_h x')) = false).
Proof. exact (oldest_history iter ops tiles cache sy vh limit k k'). Qed.
Print Assumptions C45_least_recent.

Example C45_least_recent_demo :
  Forall op_ok demo_ops /\ gone (items demo_tiles []) (left_by (demo_clean 250)) (demo_key 2000) /\
  evictable f0 (fz 500) (items demo_tiles []) (demo_key 1000) /\
  last_shown (rev demo_ops) (demo_key 2000) = 1%N /\ last_shown (rev demo_ops) (demo_key 1000) = 2%N.
Proof.
  split; [by repeat constructor|]. split; [exact demo_gone|]. split; [|by vm_compute].
  split.
  - exists (tile_item (demo_tile 1000 2)), 2%N, 100%N. split; [right; left|]. done.
  - intros x Hx Hk [[H _]|[H|[id H]]]; unfold items, demo_tiles in Hx; cbn [fmap list_fmap app] in Hx;
      repeat (apply elem_of_cons in Hx as [->|Hx]); try (by apply elem_of_nil in Hx);
      by vm_compute in Hk, H.
Qed.

(** No more goes than needed: among what went, taking back the most recently shown one would break
    the budget. *)
Theorem C45_only_excess iter ops tiles cache sy vh limit k0 :
  fair iter -> Forall op_ok ops -> unshared (items tiles cache) ->
  let r := enforce iter (after ops) tiles cache sy vh limit in
  gone (items tiles cache) (left_by r) k0 ->
  exists k, gone (items tiles cache) (left_by r) k /\
    (forall k', gone (items tiles cache) (left_by r) k' ->
       (last_shown (rev ops) k' <= last_shown (rev ops) k)%N) /\
    (limit < bytes (left_by r ++ filter (fun x => x_key x = k) (items tiles cache)))%N.
Proof. exact (excess_history iter ops tiles cache sy vh limit k0). Qed.
Print Assumptions C45_only_excess.

(** Only positions that may go, and free memory by going, go. *)
Theorem C45_only_evictable iter st tiles cache sy vh limit k :
  fair iter -> unshared (items tiles cache) ->
  gone (items tiles cache) (left_by (enforce iter st tiles cache sy vh limit)) k ->
  evictable sy vh (items tiles cache) k.
Proof. exact (gone_evictable iter st tiles cache sy vh limit k). Qed.
Print Assumptions C45_only_evictable.

(** The order in which the hash map is walked has no effect on anything. *)
Theorem C45_any_order iter iter' st tiles cache sy vh limit : fair iter -> fair iter' ->
  enforce iter st tiles cache sy vh limit = enforce iter' st tiles cache sy vh limit.
Proof. exact (enforce_iter iter iter' st tiles cache sy vh limit). Qed.
Print Assumptions C45_any_order.

Example C45_any_order_demo : fair (@rev _) /\
  enforce (@rev _) (after demo_ops) demo_tiles [] f0 (fz 500) 1 = demo_clean 1.
Proof.
  assert (fair (@rev _)) as F by (intros l; symmetry; apply Permutation_rev).
  split; [exact F|]. by apply C45_any_order; [|apply demo_fair].
Qed.

(** Whatever went is drawn again when it is scrolled into view: until everything is drawn again,
    the page is asked for as soon as the screen touches it. *)
Theorem C45_comes_back iter st tiles cache sy vh limit ops sy' vh' page k x :
  fair iter -> uniform (items tiles cache) -> Forall not_redrawn ops ->
  let r := enforce iter st tiles cache sy vh limit in
  gone (items tiles cache) (left_by r) k -> x ∈ items tiles cache -> x_key x = k ->
  finite sy' -> finite vh' -> (0 <= place vh')%R ->
  on_view sy' vh' (x_y x) (x_h x) ->
  flt (x_y x) page = true -> flt f0 (fadd (x_y x) (x_h x)) = true ->
  needs_rerender (foldl apply r.1.1.1 ops) sy' vh' page = true.
Proof. exact (rerender_gone iter st tiles cache sy vh limit ops sy' vh' page k x). Qed.
Print Assumptions C45_comes_back.

Example C45_comes_back_demo :
  let x := tile_item (demo_tile 2000 3) in
  on_view (fz 1900) (fz 500) (x_y x) (x_h x) /\ flt (x_y x) (fz 3000) = true /\
  needs_rerender (demo_clean 250).1.1.1 (fz 1900) (fz 500) (fz 3000) = true /\
  needs_rerender (demo_clean 300).1.1.1 (fz 1900) (fz 500) (fz 3000) = false.
Proof. by vm_compute. Qed.

(** No drawing in circles: once all has been drawn at a place, composites and clean-ups there never
    ask for it again. *)
Theorem C45_settles st sy vh page ops :
  finite sy -> finite vh -> (0 <= place sy)%R -> (0 <= place vh)%R -> num page ->
  Forall (fun o => match o with
                   | OTouch _ _ _ _ _ => True
                   | OEnforce iter _ _ sy' vh' _ => fair iter /\ sy' = sy /\ vh' = vh
                   | _ => False end) ops ->
  needs_rerender (foldl apply (apply (apply st (ORastered sy vh page)) OFull) ops) sy vh page = false.
Proof. exact (settles st sy vh page ops). Qed.
Print Assumptions C45_settles.

Example C45_settles_demo :
  let st := apply (apply (after demo_ops) (ORastered f0 (fz 500) (fz 3000))) OFull in
  let st' := apply st (OEnforce same demo_tiles [] f0 (fz 500) 1) in
  length (b_evicted st') = 2 /\ needs_rerender st' f0 (fz 500) (fz 3000) = false.
Proof. by vm_compute. Qed.

(** Before drawing, exactly the tiles that still need drawing, scroll with the page and touch neither
    the screen nor the screenful beside it are put off; the number given is that of these tiles. *)
Theorem C45_deferred anchor_of sy vh ts i t : ts !! i = Some t ->
  let d := defer_tiles anchor_of sy vh ts in
  let pending := g_state t = TDirty /\ anchor_of (g_layer t) = AScroll /\
                 ~ near_view sy vh (r_y (g_rect t)) (r_h (g_rect t)) in
  (pending -> d.1 !! i = Some (GridTile (g_layer t) TDeferred (g_rect t))) /\
  (~ pending -> d.1 !! i = Some t).
Proof. exact (defer_exact anchor_of sy vh ts i t). Qed.
Print Assumptions C45_deferred.

Theorem C45_deferred_number anchor_of sy vh ts :
  let d := defer_tiles anchor_of sy vh ts in
  d.2 + length (filter (fun t => g_state t = TDeferred) ts) =
  length (filter (fun t => g_state t = TDeferred) d.1).
Proof. exact (defer_count anchor_of sy vh ts). Qed.
Print Assumptions C45_deferred_number.

Example C45_deferred_demo :
  let far_tile := GridTile 0 TDirty (Rect f0 (fz 5000) (fz 256) (fz 256)) in
  let near_tile := GridTile 0 TDirty (Rect f0 (fz 600) (fz 256) (fz 256)) in
  let fixed_tile := GridTile 1 TDirty (Rect f0 (fz 5000) (fz 256) (fz 256)) in
  let anchor_of l := if (l =? 0)%Z then AScroll else AFixed in
  (g_state <$> (defer_tiles anchor_of f0 (fz 500) [far_tile; near_tile; fixed_tile]).1) =
    [TDeferred; TDirty; TDirty] /\
  (defer_tiles anchor_of f0 (fz 500) [far_tile; near_tile; fixed_tile]).2 = 1.
Proof. by vm_compute. Qed.
