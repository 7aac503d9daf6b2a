(** Model of the tile memory budget: crates/gosub_render_pipeline/src/tile_budget.rs, with the
    tile types it works on (rasterizer.rs:61-85, common/texture.rs:31-37,
    gosub_interface/src/render/backend.rs:183-258). Numbers are exact [f64] (F64.v). *)
From Coq Require Import ZArith.
From stdpp Require Import gmap sorting.
From Flocq Require Import IEEE754.BinarySingleNaN.
From Verif Require Import Base F64.

Local Open Scope Z_scope.

(** [f64::from_bits] on 64 bits given as an integer. *)
Definition from_bits (b : Z) : f64 :=
  let s := Z.testbit b 63 in
  let e := (b / 2 ^ 52) mod 2 ^ 11 in
  let m := b mod 2 ^ 52 in
  let sg x := if s then - x else x in
  if e =? 2047 then (if m =? 0 then B754_infinity s else B754_nan)
  else if e =? 0 then binary_normalize 53 1024 prec64 emax64 mode_NE (sg m) (-1074) s
  else binary_normalize 53 1024 prec64 emax64 mode_NE (sg (m + 2 ^ 52)) (e - 1075) s.

(** [f64::to_bits]; the quiet NaN for every NaN. *)
Definition to_bits (x : f64) : Z :=
  let sg (s : bool) := if s then 2 ^ 63 else 0 in
  match x with
  | B754_zero s => sg s
  | B754_infinity s => sg s + 2047 * 2 ^ 52
  | B754_nan => 2047 * 2 ^ 52 + 2 ^ 51
  | B754_finite s m e _ =>
      sg s + if Z.pos m <? 2 ^ 52 then Z.pos m else (e + 1075) * 2 ^ 52 + (Z.pos m - 2 ^ 52)
  end.

(** backend.rs:183-198 [StickyConstraint]. *)
Record sticky := Sticky {
  inset_top : option f64; inset_left : option f64;
  natural_x : f64; natural_y : f64; natural_w : f64; natural_h : f64;
  cage_x : f64; cage_y : f64; cage_w : f64; cage_h : f64 }.

(** backend.rs:206-229 [StickyConstraint::offset]: one axis. *)
Definition sticky_axis (inset : option f64) (natural size cage extent scroll : f64) : f64 :=
  match inset with
  | Some top =>
      let want := fmax (fsub top (fsub natural scroll)) f0 in
      let slack := fmax (fsub (fadd cage extent) (fadd natural size)) f0 in
      fmin want slack
  | None => f0
  end.
Definition sticky_offset (c : sticky) (sx sy : f64) : f64 * f64 :=
  (sticky_axis (inset_left c) (natural_x c) (natural_w c) (cage_x c) (cage_w c) sx,
   sticky_axis (inset_top c) (natural_y c) (natural_h c) (cage_y c) (cage_h c) sy).

(** backend.rs:233-243 [TileAnchor]. *)
Inductive anchor := AScroll | AFixed | ASticky (c : sticky).

(** backend.rs:249-258 [anchored_tile_pos]. *)
Definition anchored_pos (px py sx sy : f64) (a : anchor) : f64 * f64 :=
  match a with
  | AScroll => (fsub px sx, fsub py sy)
  | AFixed => (px, py)
  | ASticky c => let '(dx, dy) := sticky_offset c sx sy in
                 (fadd (fsub px sx) dx, fadd (fsub py sy) dy)
  end.

(** texture.rs:31-37 [TilePixels]: a CPU buffer is known by its address and length. *)
Inductive pixels := Cpu (ptr len : N) | Gpu (id : N).

(** tile_budget.rs:22 [TilePosKey]: position bits and layer. *)
Notation key := (Z * Z * Z)%type.

(** rasterizer.rs:61-77 [BakedTile]; positions are given by their bits. Format and opacity play
    no part here. *)
Record tile := Tile {
  b_x : Z; b_y : Z; b_layer : Z; b_w : N; b_h : N; b_pixels : pixels; b_anchor : anchor }.

(** tile_budget.rs:24-26 [baked_pos_key]. *)
Definition pos_key (t : tile) : key := (b_x t, b_y t, b_layer t).

(** rasterizer.rs:79-85 [TilePixelCache]: the map's entries in the order it happens to yield
    them, with the content hash as fourth part of the key. *)
Notation cache_entry := (key * Z * (N * N * pixels))%type.
Definition entry_key (c : cache_entry) : key := c.1.1.

(** common/geo.rs:2-7 [Rect] (only what is read: y and height, and x for completeness). *)
Record rect := Rect { r_x : f64; r_y : f64; r_w : f64; r_h : f64 }.

(** [n as f64] for a [u32]. *)
Definition fn (n : N) : f64 := fz (Z.of_N n).

(** tile_budget.rs:39-49 [BudgetState]. *)
Record budget := Budget {
  b_tick : N;
  b_last_used : gmap key N;
  b_evicted : list rect;
  b_rastered : option (f64 * f64) }.

(** tile_budget.rs:107-109 [TileBudget::new]. *)
Definition budget_new : budget := Budget 0 ∅ [] None.

(** tile_budget.rs:68-71 [raster_window]; RASTER_MARGIN_VIEWPORTS is 1.0. *)
Definition raster_window (sy vh : f64) : f64 * f64 :=
  let margin := fmul (fz 1) vh in (fsub sy margin, fadd (fadd sy vh) margin).

(** tile_budget.rs:74-77 [refresh_window]; REFRESH_MARGIN_VIEWPORTS is 0.5. *)
Definition refresh_window (sy vh : f64) : f64 * f64 :=
  let margin := fmul (flit 1 2) vh in (fsub sy margin, fadd (fadd sy vh) margin).

(** tile_budget.rs:79-82 [clamp_to_page]. *)
Definition clamp_to_page (w : f64 * f64) (page : f64) : f64 * f64 :=
  let bottom := fmax page f0 in (fmax w.1 f0, fmax (fmin w.2 bottom) f0).

(** The overlap test of tile_budget.rs:98, 153, 207. *)
Definition overlaps (y h lo hi : f64) : bool := flt y hi && flt lo (fadd y h).

(** tiler.rs:78-90 [TileState] and the parts of tiler.rs:94-105 [Tile] that are read. *)
Inductive tile_state := TReady | TDirty | TUnrenderable | TEmpty | TDeferred.
Global Instance tile_state_eq : EqDecision tile_state.
Proof. solve_decision. Defined.
Record grid_tile := GridTile { g_layer : Z; g_state : tile_state; g_rect : rect }.

(** tile_budget.rs:87-107 [defer_tiles_outside_window], with the layers' anchors as a function. *)
Definition is_scroll (a : anchor) : bool := match a with AScroll => true | _ => false end.
Definition defer_one (anchor_of : Z -> anchor) (lo hi : f64) (t : grid_tile) : grid_tile * bool :=
  if negb (bool_decide (g_state t = TDirty)) then (t, false)
  else if negb (is_scroll (anchor_of (g_layer t))) then (t, false)
  else if overlaps (r_y (g_rect t)) (r_h (g_rect t)) lo hi then (t, false)
  else (GridTile (g_layer t) TDeferred (g_rect t), true).
Definition defer_tiles (anchor_of : Z -> anchor) (sy vh : f64) (ts : list grid_tile) : list grid_tile * nat :=
  let '(lo, hi) := raster_window sy vh in
  let rs := defer_one anchor_of lo hi <$> ts in
  (rs.*1, length (filter (fun b : bool => b = true) rs.*2)).

(** tile_budget.rs:113-119 [reset]. *)
Definition budget_reset (st : budget) : budget := budget_new.
(** tile_budget.rs:122-124 [note_full_raster]. *)
Definition note_full_raster (st : budget) : budget :=
  Budget (b_tick st) (b_last_used st) [] (b_rastered st).
(** tile_budget.rs:127-130 [note_rastered_window]. *)
Definition note_rastered (st : budget) (sy vh page : f64) : budget :=
  Budget (b_tick st) (b_last_used st) (b_evicted st)
    (Some (clamp_to_page (raster_window sy vh) page)).

(** tile_budget.rs:133-146 [touch_composited]. *)
Definition on_screen (sx sy vw vh : f64) (t : tile) : bool :=
  let '(ex, ey) := anchored_pos (from_bits (b_x t)) (from_bits (b_y t)) sx sy (b_anchor t) in
  flt ex vw && flt f0 (fadd ex (fn (b_w t))) && flt ey vh && flt f0 (fadd ey (fn (b_h t))).
Definition touch (st : budget) (tiles : list tile) (sx sy vw vh : f64) : budget :=
  let tick := (b_tick st + 1)%N in
  Budget tick
    (foldl (fun m t => if on_screen sx sy vw vh t then <[pos_key t := tick]> m else m)
       (b_last_used st) tiles)
    (b_evicted st) (b_rastered st).

(** tile_budget.rs:150-165 [needs_rerender]. *)
Definition needs_rerender (st : budget) (sy vh page : f64) : bool :=
  let '(lo, hi) := clamp_to_page (refresh_window sy vh) page in
  if existsb (fun r => overlaps (r_y r) (r_h r) lo hi) (b_evicted st) then true
  else
    let eps := flit 1 2 in
    match b_rastered st with
    | None => false
    | Some (rlo, rhi) => flt lo (fsub rlo eps) || flt (fadd rhi eps) hi
    end.

(** tile_budget.rs:183-187 [PosInfo]. *)
Record pos_info := PosInfo { i_bytes : N; i_protected : bool; i_rect : rect }.

(** tile_budget.rs:195-217 the closure [add]: [counted] are the buffers seen so far, [positions]
    the map filled so far, as a list in order of first appearance. *)
Definition add_bytes (px : pixels) (counted : list (N * N)) : N * bool * list (N * N) :=
  match px with
  | Cpu p l => if bool_decide ((p, l) ∈ counted) then (0%N, false, counted)
               else (l, false, (p, l) :: counted)
  | Gpu _ => (0%N, true, counted)
  end.
Fixpoint add_pos (k : key) (r : rect) (bytes : N) (prot : bool) (ps : list (key * pos_info))
    : list (key * pos_info) :=
  match ps with
  | [] => [(k, PosInfo bytes prot r)]
  | (k', i) :: ps =>
      if decide (k = k') then (k', PosInfo (i_bytes i + bytes) (i_protected i || prot) (i_rect i)) :: ps
      else (k', i) :: add_pos k r bytes prot ps
  end.
Definition add (band : f64 * f64) (acc : list (N * N) * list (key * pos_info))
    (x : key * rect * pixels * bool) : list (N * N) * list (key * pos_info) :=
  let '(k, r, px, pinned) := x in
  let '(bytes, gpu, counted) := add_bytes px acc.1 in
  let in_band := overlaps (r_y r) (r_h r) band.1 band.2 in
  (counted, add_pos k r bytes (pinned || gpu || in_band) acc.2).

(** tile_budget.rs:219-227: what is fed to [add], tiles first. *)
Definition of_tile (t : tile) : key * rect * pixels * bool :=
  (pos_key t, Rect (from_bits (b_x t)) (from_bits (b_y t)) (fn (b_w t)) (fn (b_h t)), b_pixels t,
   negb (is_scroll (b_anchor t))).
Definition of_entry (c : cache_entry) : key * rect * pixels * bool :=
  let '(k, _, (w, h, px)) := c in
  (k, Rect (from_bits k.1.1) (from_bits k.1.2) (fn w) (fn h), px, false).
Definition gather (band : f64 * f64) (tiles : list tile) (cache : list cache_entry)
    : list (key * pos_info) :=
  (foldl (add band) ([], []) ((of_tile <$> tiles) ++ (of_entry <$> cache))).2.

(** tile_budget.rs:245-253: a candidate is its tick, the bits of its distance ([f64::abs] clears
    the sign, so [total_cmp] of two distances is the order of their bits), key, bytes and rect. *)
Record candidate := Candidate {
  c_tick : N; c_dist : Z; c_key : key; c_bytes : N; c_rect : rect }.
Definition distance (sy vh : f64) (r : rect) : f64 :=
  fabs (fsub (fadd (r_y r) (fdiv (r_h r) (fz 2))) (fadd sy (fdiv vh (fz 2)))).
Definition to_candidate (lu : gmap key N) (sy vh : f64) (x : key * pos_info) : candidate :=
  Candidate (default 0%N (lu !! x.1)) (to_bits (distance sy vh (i_rect x.2))) x.1
    (i_bytes x.2) (i_rect x.2).

(** tile_budget.rs:254: oldest first, then farthest, then by key. *)
Definition key_cmp (a b : key) : comparison :=
  match a.1.1 ?= b.1.1 with
  | Eq => match a.1.2 ?= b.1.2 with Eq => a.2 ?= b.2 | c => c end
  | c => c
  end.
Definition cand_cmp (a b : candidate) : comparison :=
  match (c_tick a ?= c_tick b)%N with
  | Eq => match c_dist b ?= c_dist a with Eq => key_cmp (c_key a) (c_key b) | c => c end
  | c => c
  end.
Definition cand_le (a b : candidate) : Prop := cand_cmp a b <> Gt.
Global Instance cand_le_dec a b : Decision (cand_le a b).
Proof. unfold cand_le. apply _. Defined.

(** tile_budget.rs:256-266: the loop over the sorted candidates; gives the evicted ones. *)
Fixpoint take_excess (excess : N) (cs : list candidate) : list candidate :=
  match cs with
  | [] => []
  | c :: cs => if (excess =? 0)%N then [] else c :: take_excess (excess - c_bytes c)%N cs
  end.

(** tile_budget.rs:29-37 [EvictionReport]. *)
Record report := Report { e_tiles : nat; e_bytes : N; e_resident : N }.

Definition total_bytes (ps : list (key * pos_info)) : N :=
  foldr (fun x n => i_bytes x.2 + n)%N 0%N ps.

(** Keep the stamps of positions satisfying a test ([HashMap::retain]). *)
Definition retain (p : key -> bool) (lu : gmap key N) : gmap key N :=
  filter (fun x : key * N => p x.1 = true) lu.

Definition mem_key (k : key) (ks : list key) : bool := bool_decide (k ∈ ks).

(** tile_budget.rs:174-271 [enforce]. [iter] is the order in which the map of positions is
    walked when the candidates are collected; sums of [usize] are taken not to overflow. *)
Definition enforce (iter : list (key * pos_info) -> list (key * pos_info)) (st : budget)
    (tiles : list tile) (cache : list cache_entry) (sy vh : f64) (limit : N)
    : budget * list tile * list cache_entry * report :=
  let positions := gather (raster_window sy vh) tiles cache in
  let lu := retain (fun k => mem_key k positions.*1) (b_last_used st) in
  let resident := total_bytes positions in
  if (limit =? 0)%N || (resident <=? limit)%N then
    (Budget (b_tick st) lu (b_evicted st) (b_rastered st), tiles, cache, Report 0 0 resident)
  else
    let candidates :=
      merge_sort cand_le
        (to_candidate lu sy vh <$>
           filter (fun x : key * pos_info => negb (i_protected x.2) && (0 <? i_bytes x.2)%N = true)
             (iter positions)) in
    let out := take_excess (resident - limit)%N candidates in
    let kill := c_key <$> out in
    let evicted_bytes := foldr (fun c n => c_bytes c + n)%N 0%N out in
    (Budget (b_tick st) (retain (fun k => negb (mem_key k kill)) lu)
       (b_evicted st ++ (c_rect <$> out)) (b_rastered st),
     filter (fun t => mem_key (pos_key t) kill = false) tiles,
     filter (fun c => mem_key (entry_key c) kill = false) cache,
     Report (length (remove_dups kill)) evicted_bytes (resident - evicted_bytes)).
