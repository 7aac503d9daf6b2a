(** What should be rendered, layered, hit and tiled. *)
From Coq Require Import QArith Qround Qminmax.
From stdpp Require Import numbers option list.
From Verif Require Import Base DisplayModel.

(** ** Rendered nodes *)
Inductive dom := Dom (n : N) (below : list dom).
Definition root (t : dom) : N := match t with Dom n _ => n end.
(** The children that are asked for are those of the tree. *)
Fixpoint describes (kids : N -> list N) (t : dom) : Prop :=
  match t with
  | Dom n below =>
      kids n = root <$> below
      /\ (fix all ts := match ts with [] => True | t :: ts => describes kids t /\ all ts end) below
  end.
(** The nodes without an invisible node on the way to the root, with their visible children. *)
Fixpoint rendered (visible : N -> bool) (t : dom) : list (N * list N) :=
  match t with
  | Dom n below =>
      if visible n then (n, filter (fun c => visible c = true) (root <$> below)) :: mjoin (rendered visible <$> below) else []
  end.
Fixpoint size (t : dom) : nat := match t with Dom _ below => 2 + sum_list (size <$> below) end.

(** ** Layers *)
Fixpoint document_order (t : ltree) : list element :=
  match t with LNode e below => e :: mjoin (document_order <$> below) end.
Inductive part_of : ltree -> ltree -> Prop :=
| part_self t : part_of t t
| part_below e below t u : t ∈ below -> part_of u t -> part_of u (LNode e below).
(** A part whose parent has the given content box. *)
Inductive part_with_parent : option rect -> ltree -> option rect -> ltree -> Prop :=
| part_here o t : part_with_parent o t o t
| part_in o e below t o' u : t ∈ below -> part_with_parent (Some (e_content e)) t o' u -> part_with_parent o (LNode e below) o' u.
(** An element with its own reason to move or fade apart from what is around it. *)
Definition apart (e : element) : Prop := (e_opacity e < 1)%Q \/ e_position e = PFixed \/ e_position e = PSticky.
(** A part of the tree above which no element is apart or has a [z-index]. *)
Inductive open_part : ltree -> ltree -> Prop :=
| open_self t : open_part t t
| open_below e below t u : ~ apart e -> z_index e = None -> t ∈ below -> open_part u t -> open_part u (LNode e below).

(** ** Painting and hitting *)
(** What is painted, from back to front. *)
Definition painted (ls : layers) : list (anchor * element) := ls ≫= (fun l => pair (l_anchor l) <$> l_elements l).
(** The margin box, at the place on the screen where tiles are put, covers a point. *)
Definition covers (x y scroll_x scroll_y : Q) (p : anchor * element) : Prop :=
  let m := e_margin (snd p) in
  let (left, top) := anchored_tile_pos (rx m) (ry m) scroll_x scroll_y (fst p) in
  (left <= x /\ x < left + rw m /\ top <= y /\ y < top + rh m)%Q.

(** ** Tiles *)
Definition in_rect (r : rect) (x y : Q) : Prop := (rx r <= x /\ x < rx r + rw r /\ ry r <= y /\ y < ry r + rh r)%Q.
(** Exactly one tile is at a point. *)
Definition tile_for (ts : list tile) (x y : Q) (t : tile) : Prop :=
  in_rect (t_rect t) x y
  /\ exists before after, ts = before ++ t :: after /\ Forall (fun u => ~ in_rect (t_rect u) x y) (before ++ after).
