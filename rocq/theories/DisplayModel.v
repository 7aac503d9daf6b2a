(** Model of what is between layout and painting in crates/gosub_render_pipeline/src: the tree of rendered nodes
    (rendertree_builder/tree.rs), layers and hit tests (layering/layer.rs), tiles (tiler.rs), and of the place of a tile
    on the screen (crates/gosub_interface/src/render/backend.rs lines 183-258). Numbers are exact in place of [f64]. *)
From Coq Require Import QArith Qround Qminmax.
From stdpp Require Import numbers option list sorting.
From Verif Require Import Base.

(** ** The tree of rendered nodes *)
Section rendered.
(** the children of a node of the document (with generated boxes), and tree.rs:174-187 [is_visible] *)
Context (kids : N -> list N) (visible : N -> bool).
(** tree.rs:190-193 *)
Inductive frame := Process (n : N) | Collect (n : N) (count : nat).
(** a [HashMap] from nodes to the children that are rendered *)
Definition arena := N -> option (list N).
Definition put (n : N) (cs : list N) (a : arena) : arena := fun m => if (m =? n)%N then Some cs else a m.
(** tree.rs:198-227; [results] has its last entry first *)
Fixpoint build (fuel : nat) (stack : list frame) (results : list (option N)) (a : arena) : res (option N * arena) :=
  match fuel with
  | O => Diverge
  | S fuel =>
      match stack with
      | [] => Ok (match results with r :: _ => r | [] => None end, a)
      | Process n :: stack =>
          if visible n then
            build fuel ((Process <$> kids n) ++ Collect n (length (kids n)) :: stack) results a
          else build fuel stack (None :: results) a
      | Collect n count :: stack =>
          let cs := omap id (rev (take count results)) in
          build fuel stack (Some n :: drop count results) (put n cs a)
      end
  end.
(** tree.rs:151-172 [parse] of a document with a root *)
Definition parse (fuel : nat) (root : N) : res (option N * arena) := build fuel [Process root] [] (fun _ => None).
End rendered.

(** ** Places *)
Local Open Scope Q_scope.
(** common/geo.rs:2-7 *)
Record rect := mk_rect { rx : Q; ry : Q; rw : Q; rh : Q }.
(** backend.rs:183-198 *)
Record sticky := mk_sticky { inset_top : option Q; inset_left : option Q; natural : rect; cage : rect }.
(** backend.rs:233-243 *)
Inductive anchor := Scroll | Fixed | Sticky (c : sticky).
(** backend.rs:206-228, one of the two directions *)
Definition slide (inset : option Q) (natural natural_size cage cage_size scroll : Q) : Q :=
  match inset with
  | Some edge => Qmin (Qmax (edge - (natural - scroll)) 0) (Qmax ((cage + cage_size) - (natural + natural_size)) 0)
  | None => 0
  end.
Definition offset (c : sticky) (scroll_x scroll_y : Q) : Q * Q :=
  (slide (inset_left c) (rx (natural c)) (rw (natural c)) (rx (cage c)) (rw (cage c)) scroll_x,
   slide (inset_top c) (ry (natural c)) (rh (natural c)) (ry (cage c)) (rh (cage c)) scroll_y).
(** backend.rs:249-258 *)
Definition anchored_tile_pos (x y scroll_x scroll_y : Q) (a : anchor) : Q * Q :=
  match a with
  | Scroll => (x - scroll_x, y - scroll_y)
  | Fixed => (x, y)
  | Sticky c => let (dx, dy) := offset c scroll_x scroll_y in (x - scroll_x + dx, y - scroll_y + dy)
  end.

(** ** Layers *)
(** values of the [position] property; [PNone] is [static] or no value of its own *)
Inductive position := PNone | PRelative | PAbsolute | PFixed | PSticky.
(** A laid out element with the styles of its own that the layers depend on. *)
Record element := mk_element {
  e_id : N;
  e_opacity : Q;            (* 1 without a value *)
  e_position : position;
  e_z : option Z;           (* [z-index], rounded toward zero *)
  e_image : bool;           (* an [img] *)
  e_top : option Q; e_left : option Q;   (* layer.rs:372-381 [read_px] of the insets *)
  e_margin : rect; e_border : rect; e_content : rect }.   (* layouter/box_model.rs:15-19 *)
(** The layout tree; the code has an arena of nodes with unique ids. *)
Inductive ltree := LNode (e : element) (below : list ltree).
Definition top_of (t : ltree) : element := match t with LNode e _ => e end.

(** layer.rs:34-46; the id is the place in the list of layers, in place of a [HashMap], and elements are kept in place
    of their ids *)
Record layer := mk_layer { l_order : Z; l_opacity : Q; l_anchor : anchor; l_elements : list element }.
Notation layers := (list layer).

(** layer.rs:201-210 [new_promoted_layer] followed by 231-239 [add_to_layer] *)
Definition new_layer (order : Z) (opacity : Q) (a : anchor) (e : element) (ls : layers) : layers :=
  ls ++ [mk_layer order opacity a [e]].
(** layer.rs:231-239 *)
Definition add_to_layer (k : nat) (e : element) (ls : layers) : layers :=
  alter (fun l => mk_layer (l_order l) (l_opacity l) (l_anchor l) (l_elements l ++ [e])) k ls.

(** layer.rs:162-196; [parent] is the content box of the parent *)
Definition sticky_constraint (parent : option rect) (e : element) : option sticky :=
  match e_position e with
  | PSticky => Some (mk_sticky (e_top e) (e_left e) (e_margin e) (default (e_margin e) parent))
  | _ => None
  end.
(** layer.rs:304-322 *)
Definition z_index (e : element) : option Z := match e_position e with PNone => None | _ => e_z e end.
Definition less (x y : Q) : bool := negb (Qle_bool y x).
(** layer.rs:326 *)
Definition compositing (e : element) : bool :=
  less (e_opacity e) 1 || match e_position e with PFixed | PSticky => true | _ => false end.
(** layer.rs:331-337 *)
Definition anchor_of (parent : option rect) (e : element) : anchor :=
  match sticky_constraint parent e with
  | Some c => Sticky c
  | None => match e_position e with PFixed => Fixed | _ => Scroll end
  end.
Definition clamp01 (x : Q) : Q := if less x 0 then 0 else if less 1 x then 1 else x.
Definition is_some {A} (o : option A) : bool := match o with Some _ => true | None => false end.

(** layer.rs:275-370; which nodes skip their own opacity when they are painted is left out *)
Fixpoint traverse (parent : option rect) (k : nat) (in_group : bool) (inherited : Z) (t : ltree) (ls : layers) : layers :=
  match t with
  | LNode e below =>
      let order := default inherited (z_index e) in
      if compositing e || (is_some (z_index e) && negb in_group) then
        let ls' := new_layer order (clamp01 (e_opacity e)) (anchor_of parent e) e ls in
        (fix go ts ls := match ts with
                         | [] => ls
                         | t :: ts => go ts (traverse (Some (e_content e)) (length ls'  - 1) true order t ls)
                         end) below ls'
      else
        let ls' := if e_image e && negb in_group then new_layer order 1 Scroll e ls else add_to_layer k e ls in
        (fix go ts ls := match ts with
                         | [] => ls
                         | t :: ts => go ts (traverse (Some (e_content e)) k in_group order t ls)
                         end) below ls'
  end.
(** layer.rs:249-265: a stable sort *)
Fixpoint insert_layer (l : layer) (ls : layers) : layers :=
  match ls with
  | [] => [l]
  | m :: ls => if (l_order l <=? l_order m)%Z then l :: m :: ls else m :: insert_layer l ls
  end.
Definition sort_layers (ls : layers) : layers := foldr insert_layer [] ls.
Definition unsorted_layers (t : ltree) : layers := traverse None 0 false 0 t [mk_layer 0 1 Scroll []].
Definition generate_layers (t : ltree) : layers := sort_layers (unsorted_layers t).

(** ** Hit tests *)
(** layer.rs:145-151 *)
Definition inside (r : rect) (x y : Q) : bool :=
  Qle_bool (rx r) x && less x (rx r + rw r) && Qle_bool (ry r) y && less y (ry r + rh r).
(** layer.rs:127-134 *)
Definition to_page (a : anchor) (x y scroll_x scroll_y : Q) : Q * Q :=
  match a with
  | Fixed => (x, y)
  | Scroll => (x + scroll_x, y + scroll_y)
  | Sticky c => let (dx, dy) := offset c scroll_x scroll_y in (x + scroll_x - dx, y + scroll_y - dy)
  end.
Fixpoint first_inside (x y : Q) (es : list element) : option element :=
  match es with
  | [] => None
  | e :: es => if inside (e_margin e) x y then Some e else first_inside x y es
  end.
(** layer.rs:119-159 *)
Fixpoint hit_layers (x y scroll_x scroll_y : Q) (ls : layers) : option element :=
  match ls with
  | [] => None
  | l :: ls =>
      let (px, py) := to_page (l_anchor l) x y scroll_x scroll_y in
      match first_inside px py (rev (l_elements l)) with
      | Some e => Some e
      | None => hit_layers x y scroll_x scroll_y ls
      end
  end.
Definition find_element_at (x y scroll_x scroll_y : Q) (ls : layers) : option element :=
  hit_layers x y scroll_x scroll_y (rev ls).

(** ** Tiles *)
(** tiler.rs:38-48 *)
Record piece := mk_piece { p_element : element; p_rect : rect; p_x : Q; p_y : Q }.
(** tiler.rs:94-105 *)
Record tile := mk_tile { t_rect : rect; t_pieces : list piece }.
(** [as usize] *)
Definition to_usize (z : Z) : nat := Z.to_nat z.
(** tiler.rs:255-289: the rows and columns of tiles for a layer, or none *)
Definition bounds (es : list element) : option (Q * Q * Q * Q) :=
  foldl (fun b e =>
    let m := e_margin e in
    if less 0 (rw m) && less 0 (rh m) then
      match b with
      | None => Some (rx m, ry m, rx m + rw m, ry m + rh m)
      | Some (x0, y0, x1, y1) => Some (Qmin x0 (rx m), Qmin y0 (ry m), Qmax x1 (rx m + rw m), Qmax y1 (ry m + rh m))
      end
    else b) None es.
Definition grid (first : bool) (page_w page_h tile_w tile_h : Q) (es : list element) : option (nat * nat * nat * nat) :=
  let cols := to_usize (Qceiling (page_w / tile_w)) in
  let rows := to_usize (Qceiling (page_h / tile_h)) in
  if first || match es with [] => true | _ => false end then Some (0, rows, 0, cols)%nat
  else
    match bounds es with
    | None => None
    | Some (x0, y0, x1, y1) =>
        Some (Nat.min (to_usize (Qfloor (y0 / tile_h))) rows, Nat.min (to_usize (Qceiling (y1 / tile_h))) rows,
              Nat.min (to_usize (Qfloor (x0 / tile_w))) cols, Nat.min (to_usize (Qceiling (x1 / tile_w))) cols)
    end.
(** tiler.rs:119-128 with rstar's envelopes, which are closed; corners may come in any order *)
Definition touches (a b : rect) : bool :=
  Qle_bool (Qmax (rx a) (Qmin (rx b) (rx b + rw b))) (Qmin (rx a + rw a) (Qmax (rx b) (rx b + rw b)))
  && Qle_bool (Qmax (ry a) (Qmin (ry b) (ry b + rh b))) (Qmin (ry a + rh a) (Qmax (ry b) (ry b + rh b))).
(** tiler.rs:353-373 *)
Definition piece_of (t : rect) (e : element) : piece :=
  let m := e_margin e in
  mk_piece e
    (mk_rect (Qmax (rx t) (rx m) - rx m) (Qmax (ry t) (ry m) - ry m)
             (Qmin (rx t + rw t) (rx m + rw m) - Qmax (rx t) (rx m))
             (Qmin (ry t + rh t) (ry m + rh m) - Qmax (ry t) (ry m)))
    (Qmax (rx m) (rx t) - rx t) (Qmax (ry m) (ry t) - ry t).
(** tiler.rs:245-378 for one layer; the elements are looked through for each tile in place of the tiles for each
    element, which gives each tile the same pieces in the same order *)
Definition tile_at (tile_w tile_h : Q) (es : list element) (y x : nat) : tile :=
  let r := mk_rect (inject_Z (Z.of_nat x) * tile_w) (inject_Z (Z.of_nat y) * tile_h) tile_w tile_h in
  mk_tile r (piece_of r <$> filter (fun e => touches r (e_margin e) = true) es).
Definition layer_tiles (first : bool) (page_w page_h tile_w tile_h : Q) (es : list element) : list tile :=
  match grid first page_w page_h tile_w tile_h es with
  | None => []
  | Some (r0, r1, c0, c1) =>
      y ← seq r0 (r1 - r0); x ← seq c0 (c1 - c0); [tile_at tile_w tile_h es y x]
  end.
(** tiler.rs:218-379 *)
Definition generate_tiles (page_w page_h tile_w tile_h : Q) (ls : layers) : list (list tile) :=
  if Qeq_bool tile_w 0 || Qeq_bool tile_h 0 then []
  else imap (fun i l => layer_tiles (Nat.eqb i 0) page_w page_h tile_w tile_h (l_elements l)) ls.
