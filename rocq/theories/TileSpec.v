(** What the tile budget promises (C45). *)
From Coq Require Import ZArith Reals.
From stdpp Require Import gmap sorting.
From Flocq Require Import Core IEEE754.BinarySingleNaN.
From Verif Require Import Base F64 F64Facts TileModel.

(** Everything held in memory, of both kinds: position, top, height, pixels, pinned to the screen. *)
Record item := Item {
  x_key : key; x_y : f64; x_h : f64; x_pixels : pixels; x_pinned : bool }.
Definition tile_item (t : tile) : item :=
  Item (b_x t, b_y t, b_layer t) (from_bits (b_y t)) (fn (b_h t)) (b_pixels t)
    match b_anchor t with AScroll => false | _ => true end.
Definition entry_item (c : cache_entry) : item :=
  let '(k, _, (w, h, px)) := c in Item k (from_bits k.1.2) (fn h) px false.
Definition items (tiles : list tile) (cache : list cache_entry) : list item :=
  (tile_item <$> tiles) ++ (entry_item <$> cache).

(** The stretch from [y] of height [h] touches the screen, which shows [sy] to [sy + vh]. *)
Definition on_view (sy vh y h : f64) : Prop := flt y (fadd sy vh) = true /\ flt sy (fadd y h) = true.
(** It touches the screen or the screenful above or below it. *)
Definition near_view (sy vh y h : f64) : Prop :=
  flt y (fadd (fadd sy vh) vh) = true /\ flt (fsub sy vh) (fadd y h) = true.

(** Never to be thrown away. *)
Definition untouchable (sy vh : f64) (x : item) : Prop :=
  near_view sy vh (x_y x) (x_h x) \/ x_pinned x = true \/ exists id, x_pixels x = Gpu id.

(** Pixel buffers in main memory, and their bytes; a shared buffer counts once. *)
Definition buffer (x : item) : option (N * N) :=
  match x_pixels x with Cpu p l => Some (p, l) | Gpu _ => None end.
Definition buffers (xs : list item) : list (N * N) := omap buffer xs.
Definition bytes (xs : list item) : N := foldr (fun b n => b.2 + n)%N 0%N (remove_dups (buffers xs)).

(** No buffer is shared between different positions. *)
Definition unshared (xs : list item) : Prop :=
  forall x x' b, x ∈ xs -> x' ∈ xs -> buffer x = Some b -> buffer x' = Some b -> x_key x = x_key x'.

(** A position that may be thrown away to gain memory. *)
Definition evictable (sy vh : f64) (xs : list item) (k : key) : Prop :=
  (exists x p l, x ∈ xs /\ x_key x = k /\ x_pixels x = Cpu p l /\ l <> 0%N) /\
  (forall x, x ∈ xs -> x_key x = k -> ~ untouchable sy vh x).

(** A position that was there and is not any more. *)
Definition gone (before after : list item) (k : key) : Prop :=
  k ∈ x_key <$> before /\ k ∉ x_key <$> after.

(** All that is held for one position has the same height. *)
Definition uniform (xs : list item) : Prop :=
  forall x x', x ∈ xs -> x' ∈ xs -> x_key x = x_key x' -> x_h x = x_h x'.
(** How far the middle of the stretch is from the middle of the screen. *)
Definition far (sy vh y h : f64) : f64 :=
  fabs (fsub (fadd y (fdiv h (fz 2))) (fadd sy (fdiv vh (fz 2)))).

(** * Histories *)

Inductive op :=
| OReset
| OFull
| ORastered (sy vh page : f64)
| OTouch (tiles : list tile) (sx sy vw vh : f64)
| OEnforce (iter : list (key * pos_info) -> list (key * pos_info))
    (tiles : list tile) (cache : list cache_entry) (sy vh : f64) (limit : N).

Definition apply (st : budget) (o : op) : budget :=
  match o with
  | OReset => budget_reset st
  | OFull => note_full_raster st
  | ORastered sy vh page => note_rastered st sy vh page
  | OTouch ts sx sy vw vh => touch st ts sx sy vw vh
  | OEnforce iter ts ca sy vh limit => (enforce iter st ts ca sy vh limit).1.1.1
  end.
Definition after (ops : list op) : budget := foldl apply budget_new ops.

(** The iteration order of a map: some permutation of its entries. *)
Definition fair (iter : list (key * pos_info) -> list (key * pos_info)) : Prop :=
  forall l, iter l ≡ₚ l.
Definition op_ok (o : op) : Prop :=
  match o with OEnforce iter _ _ _ _ _ => fair iter | _ => True end.

(** When a position was last put on the screen: the number of that composite, counted from the
    last reset, and 0 if it was not, or has been missing at a clean-up since. [ops] is given
    latest first. *)
Fixpoint composites (ops : list op) : N :=
  match ops with
  | [] => 0
  | OReset :: _ => 0
  | OTouch _ _ _ _ _ :: ops => composites ops + 1
  | _ :: ops => composites ops
  end.
Fixpoint last_shown (ops : list op) (k : key) : N :=
  match ops with
  | [] => 0
  | OReset :: _ => 0
  | OTouch ts sx sy vw vh :: ops =>
      if bool_decide (k ∈ pos_key <$> filter (fun t => on_screen sx sy vw vh t = true) ts)
      then composites ops + 1 else last_shown ops k
  | OEnforce iter ts ca sy vh limit :: ops =>
      let r := enforce iter (after (rev ops)) ts ca sy vh limit in
      if bool_decide (k ∈ x_key <$> items r.1.1.2 r.1.2) then last_shown ops k else 0
  | _ :: ops => last_shown ops k
  end.

(** Calls that do not say "everything is drawn again". *)
Definition not_redrawn (o : op) : Prop := match o with OReset | OFull => False | _ => True end.
