(** What the layout of a table should be, written without the engine's helpers. *)
From Coq Require Import QArith.
From Verif Require Import Base LatticeModel.
From stdpp Require Import numbers option list.
Local Open Scope nat_scope.

(** * The grid *)

(** The slots a cell covers. *)
Definition covers (p : placed) (r c : nat) : Prop :=
  (p_row p <= r /\ r < p_row p + p_rowspan p) /\ (p_col p <= c /\ c < p_col p + p_colspan p).

Definition taken (cells : list placed) (r c : nat) : Prop := exists p, p ∈ cells /\ covers p r c.

(** No slot belongs to two cells. *)
Definition no_overlap (cells : list placed) : Prop :=
  forall i j p q r c,
    cells !! i = Some p -> cells !! j = Some q -> covers p r c -> covers q r c -> i = j.

(** The HTML standard, "Forming a table": a [colspan] is at least 1 and at most
    1000; a [rowspan] of 0 reaches to the end of the section, and no cell
    reaches beyond it. *)
Definition html_colspan (v : nat) : nat := Nat.min (Nat.max v 1) 1000.
Definition html_rowspan (v rows_left : nat) : nat :=
  if v =? 0 then rows_left else Nat.min v rows_left.

(** The place of a cell: the first slot of the row, from the current one on, that
    no cell placed before covers. *)
Definition html_cell (rows row : nat) (before : list placed) (cur : nat) (s : source_cell)
    (p : placed) : Prop :=
  p_node p = s_node s /\ p_row p = row
  /\ p_colspan p = html_colspan (s_colspan s)
  /\ p_rowspan p = html_rowspan (s_rowspan s) (rows - row)
  /\ cur <= p_col p /\ ~ taken before row (p_col p)
  /\ forall x, cur <= x < p_col p -> taken before row x.

(** The cells of a row, one after the other; a cell starts the search where the
    one before it ends. *)
Inductive html_row (rows row : nat) : list placed -> nat -> list source_cell -> list placed -> Prop :=
| html_row_nil before cur : html_row rows row before cur [] []
| html_row_cons before cur s rest p ps :
    html_cell rows row before cur s p ->
    html_row rows row (before ++ [p]) (p_col p + p_colspan p) rest ps ->
    html_row rows row before cur (s :: rest) (p :: ps).

Inductive html_rows (rows : nat) : nat -> list placed -> list table_row -> list placed -> Prop :=
| html_rows_nil row before : html_rows rows row before [] []
| html_rows_cons row before r rest ps qs :
    html_row rows row before 0 (r_cells r) ps ->
    html_rows rows (S row) (before ++ ps) rest qs ->
    html_rows rows row before (r :: rest) (ps ++ qs).

(** The cells of a section as the standard places them. *)
Definition html_section (rows : list table_row) (cells : list placed) : Prop :=
  html_rows (length rows) 0 [] rows cells.

(** The number of columns: the least that holds every cell. *)
Definition is_width (cells : list placed) (n : nat) : Prop :=
  (forall p, p ∈ cells -> p_col p + p_colspan p <= n)
  /\ (n = 0 \/ exists p, p ∈ cells /\ p_col p + p_colspan p = n).

(** The cells of a list of rows. *)
Definition row_sources (rows : list table_row) : list source_cell := flat_map r_cells rows.

Definition in_range (s : source_cell) : Prop := 1 <= s_rowspan s /\ s_colspan s <= 1000.

(** * The structure *)

(** The cells of a row, of a group and of the parts of a table, in the order of
    the document; anything that is not a row or a cell is passed over. *)
Definition is_cell (t : tree) (n : nat) : bool := match table_role t n with Cell => true | _ => false end.
Definition is_row (t : tree) (n : nat) : bool := match table_role t n with Row => true | _ => false end.

Definition cells_of_row (t : tree) (r : nat) : list nat := List.filter (is_cell t) (children t r).

Definition cells_of_group (t : tree) (g : nat) : list nat :=
  flat_map
    (fun c => if is_row t c then cells_of_row t c else if is_cell t c then [c] else [])
    (children t g).

(** Header, body or footer. A row or a cell outside any group is of the body. *)
Inductive part := Head | Body | Foot.

Definition part_cells (t : tree) (table : nat) (k : part) : list nat :=
  flat_map
    (fun c =>
       match table_role t c, k with
       | HeaderGroup, Head | RowGroup, Body | FooterGroup, Foot => cells_of_group t c
       | Row, Body => cells_of_row t c
       | Cell, Body => [c]
       | _, _ => []
       end) (children t table).

Definition part_groups (m : model) (k : part) : list row_group :=
  match k with Head => m_headers m | Body => m_bodies m | Foot => m_footers m end.

(** The named rows and groups, in the order of the document. *)
Definition rows_of_group (t : tree) (g : nat) : list nat := List.filter (is_row t) (children t g).
Definition groups_of_part (t : tree) (table : nat) (k : part) : list nat :=
  List.filter
    (fun c =>
       match table_role t c, k with
       | HeaderGroup, Head | RowGroup, Body | FooterGroup, Foot => true
       | _, _ => false
       end) (children t table).

(** Two neighbours are never both without a node: what stands side by side
    without a row (or a group) of its own shares one. *)
Fixpoint separated {A} (node : A -> option nat) (l : list A) : Prop :=
  match l with
  | [] => True
  | x :: rest =>
      match rest with
      | [] => True
      | y :: _ => ~ (node x = None /\ node y = None)
      end /\ separated node rest
  end.

(** A cell carries the spans of its attributes, at least 1. *)
Definition span_of (o : option nat) : nat := match o with Some v => Nat.max v 1 | None => 1 end.
Definition read_right (t : tree) (s : source_cell) : Prop :=
  s_colspan s = span_of (colspan_attr t (s_node s)) /\ s_rowspan s = span_of (rowspan_attr t (s_node s)).

(** A row holds the cells of its element; one without an element is not empty. *)
Definition good_row (t : tree) (r : table_row) : Prop :=
  Forall (read_right t) (r_cells r)
  /\ match r_node r with
     | Some n => map s_node (r_cells r) = cells_of_row t n
     | None => r_cells r <> []
     end.

Definition good_rows (t : tree) (rows : list table_row) : Prop :=
  Forall (good_row t) rows /\ separated r_node rows.

Definition good_group (t : tree) (g : row_group) : Prop :=
  good_rows t (g_rows g)
  /\ match g_node g with
     | Some n =>
         map s_node (row_sources (g_rows g)) = cells_of_group t n
         /\ omap r_node (g_rows g) = rows_of_group t n
     | None => g_rows g <> []
     end.

(** The cells of some groups. *)
Definition group_sources (gs : list row_group) : list source_cell :=
  flat_map (fun g => row_sources (g_rows g)) gs.

(** * The sizes *)

(** The first row of the table that has a cell. *)
Definition cells_at (g : grid) (r : nat) : list placed := List.filter (fun p => p_row p =? r) (g_cells g).

Definition is_first_row (grids : list grid) (cs : list placed) : Prop :=
  cs <> []
  /\ exists before g after r,
    grids = before ++ g :: after /\ r < n_rows g /\ cs = cells_at g r
    /\ (forall r', r' < r -> cells_at g r' = [])
    /\ forall b r', b ∈ before -> r' < n_rows b -> cells_at b r' = [].

(** The cells of a row that are exactly one column wide and stand in column [c]. *)
Definition column_cells (cs : list placed) (c : nat) : list placed :=
  List.filter (fun p => (p_colspan p =? 1) && (p_col p =? c)) cs.

(** The width the style sheet gives a cell, never less than its content. *)
Definition specified_width (t : tree) (table_width : Q) (p : placed) : option Q :=
  match css t (p_node p) Width with
  | Px v => Some (qmax v (content_width t (p_node p)))
  | Percent v => Some (qmax (v / 100 * table_width)%Q (content_width t (p_node p)))
  | _ => None
  end.

(** The first width given to column [c], and the greatest content in it. *)
Definition specified (t : tree) (table_width : Q) (cs : list placed) (c : nat) : option Q :=
  head (omap (specified_width t table_width) (column_cells cs c)).

Definition natural (t : tree) (cs : list placed) (c : nat) : Q :=
  fold_left (fun n p => if qlt n (content_width t (p_node p)) then content_width t (p_node p) else n)
    (column_cells cs c) 0%Q.

(** What a column needs: its given width, else its content but at least 14. *)
Definition needed (t : tree) (table_width : Q) (cs : list placed) (c : nat) : Q :=
  match specified t table_width cs c with
  | Some v => v
  | None => qmax (natural t cs c) 14
  end.

(** The height a cell needs in columns of these widths. *)
Definition needs_height (t : tree) (ws : list Q) (p : placed) (h : Q) : Prop :=
  let n := p_node p in
  let edge a := px_or (css t n a) 0 in
  let around := (edge BorderTopWidth + edge BorderBottomWidth + edge PaddingTop + edge PaddingBottom)%Q in
  let beside := (edge BorderLeftWidth + edge BorderRightWidth + edge PaddingLeft + edge PaddingRight)%Q in
  let width := qsum (take (p_colspan p) (drop (p_col p) ws)) in
  (exists inner, (inner == qmax (width - beside) 0)%Q /\ (layout_cell t n inner + around <= h)%Q)
  /\ forall v, css t n Height = Px v -> (v + around <= h)%Q.

(** * The page *)

(** The children form a tree. *)
Definition proper (t : tree) : Prop :=
  (forall a b x, x ∈ children t a -> x ∈ children t b -> a = b)
  /\ (forall a, NoDup (children t a))
  /\ exists depth : nat -> nat, forall a x, x ∈ children t a -> depth a < depth x.

(** Every row is in a group and every cell in a row, as the HTML parser makes
    them for the elements of a table. *)
Definition is_group (t : tree) (n : nat) : Prop :=
  table_role t n = HeaderGroup \/ table_role t n = RowGroup \/ table_role t n = FooterGroup.

Definition explicit_structure (t : tree) (table : nat) : Prop :=
  (forall c, c ∈ children t table -> table_role t c <> Row /\ table_role t c <> Cell)
  /\ forall g c, g ∈ children t table -> is_group t g -> c ∈ children t g -> table_role t c <> Cell.

(** Two boxes have no inner point in common. *)
Definition apart (a b : rect) : Prop :=
  (x0 a + w a <= x0 b \/ x0 b + w b <= x0 a \/ y0 a + h a <= y0 b \/ y0 b + h b <= y0 a)%Q.

(** The sections of a table, top to bottom, with their grids. *)
Definition sections (limit : nat) (t : tree) (table : nat) (grids : list grid) : Prop :=
  let m := build_model t table in
  map_res (fun g => build_section_grid limit (g_rows g)) (m_headers m ++ m_bodies m ++ m_footers m)
  = Ok grids.

(** Items of the given sizes one after the other, each followed by a gutter:
    where the [i]th begins, if the first begins at [start]. *)
Fixpoint line (start : Q) (sizes : list Q) (gutter : Q) (i : nat) : Q :=
  match i, sizes with
  | S i, z :: rest => line (start + z + gutter)%Q rest gutter i
  | _, _ => start
  end.

(** The height of a stack of rows: up to the gutter after the last one. *)
Definition stacked (heights : list Q) (gutter : Q) : Q :=
  match heights with
  | [] => 0%Q
  | _ => (line 0 heights gutter (length heights) - gutter)%Q
  end.

(** A box that fills its slots: from the line of its first column and row to the
    gutter before the line that follows its last. *)
Definition fills (r : rect) (p : placed) (left top : Q) (ws hs : list Q) (sx sy : Q) : Prop :=
  (x0 r == line left ws sx (p_col p) /\ x0 r + w r == line left ws sx (p_col p + p_colspan p) - sx
   /\ y0 r == line top hs sy (p_row p) /\ y0 r + h r == line top hs sy (p_row p + p_rowspan p) - sy)%Q.

(** The widths of the columns: a width given in the first row is kept; a column
    without one takes part in the space that is left, so that the columns and
    the gutters fill the table, exactly if what the columns need fits. *)
Definition widths_right (t : tree) (width gutter : Q) (grids : list grid) (ws : list Q) : Prop :=
  Forall (fun x => (0 <= x)%Q) ws
  /\ forall cs, is_first_row grids cs ->
     let n := length ws in
     let space := (width - (qnat n + 1) * gutter)%Q in
     let needs := qsum (map (needed t width cs) (seq 0 n)) in
     (forall c v, c < n -> specified t width cs c = Some v -> ws !! c = Some v)
     /\ ((exists c, c < n /\ specified t width cs c = None) ->
         (space <= qsum ws)%Q /\ ((needs <= space)%Q -> (qsum ws == space)%Q))
     /\ ((needs <= space)%Q -> (qsum ws <= space)%Q).

(** The content of a cell has a height, the same for equal widths. *)
Definition measured (t : tree) : Prop :=
  (forall n a b, (a == b)%Q -> (layout_cell t n a == layout_cell t n b)%Q)
  /\ forall n a, (0 <= layout_cell t n a)%Q.

(** The heights of the rows: enough for every cell of one row, and no more than
    that. *)
Definition heights_right (t : tree) (ws : list Q) (g : grid) (hs : list Q) : Prop :=
  length hs = n_rows g
  /\ forall r y, hs !! r = Some y ->
     (forall p, p ∈ g_cells g -> p_row p = r -> p_rowspan p = 1 -> needs_height t ws p y)
     /\ forall y', measured t -> (0 <= y')%Q ->
        (forall p, p ∈ g_cells g -> p_row p = r -> p_rowspan p = 1 -> needs_height t ws p y') ->
        (y <= y')%Q.

(** * The width of a table *)

(** CSS 2.1, 10.2 and 17.5.2: a length is taken as it is, a percentage is one of
    the available width, and a table without a width fills its space. *)
Definition width_asked (t : tree) (table : nat) (available W : Q) : Prop :=
  (forall p, css t table Width = Px p -> W = p)
  /\ (forall p, css t table Width = Percent p -> (W == p / 100 * available)%Q)
  /\ (css t table Width = Zero -> (W == 0)%Q)
  /\ (css t table Width = Auto -> W = available).
