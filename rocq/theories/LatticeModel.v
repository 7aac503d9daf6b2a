(** Model of the layout of tables: crates/gosub_lattice/src (grid.rs, model.rs,
    compute.rs, sizing/columns.rs, sizing/rows.rs) and of the part of
    crates/gosub_render_pipeline/src/layouter/table.rs that turns the relative
    positions into absolute ones.

    Lengths are exact rational numbers where the code computes with [f32] and
    [f64]: the theorems speak of the intended arithmetic, not of rounding.
    Nodes are numbers. *)
From Coq Require Import QArith.
From Verif Require Import Base.
From stdpp Require Import numbers option list.
Local Open Scope nat_scope.

(** [f32::max] and [>], [<] on exact numbers. *)
Definition qmax (a b : Q) : Q := if Qle_bool a b then b else a.
Definition qlt (a b : Q) : bool := negb (Qle_bool b a).

(** [iter().sum()], a fold from the left starting at zero. *)
Definition qsum (l : list Q) : Q := fold_left Qplus l 0%Q.

(** [n as f32]. *)
Definition qnat (n : nat) : Q := inject_Z (Z.of_nat n).

(** types.rs:5-26. *)
Inductive role :=
| Table | Caption | ColumnGroup | Column | HeaderGroup | FooterGroup | RowGroup
| Row | Cell | Other.

(** types.rs:29-35. *)
Inductive css_length := Auto | Px (v : Q) | Percent (v : Q) | Zero.

(** types.rs:51-59. *)
Definition px_or (l : css_length) (default : Q) : Q :=
  match l with Px v => v | Zero => 0%Q | _ => default end.

(** types.rs:62-89, the properties the layout reads. *)
Inductive prop :=
| Width | Height
| BorderTopWidth | BorderRightWidth | BorderBottomWidth | BorderLeftWidth
| PaddingTop | PaddingRight | PaddingBottom | PaddingLeft
| BorderSpacingX | BorderSpacingY.

(** types.rs:92-108. *)
Record edges := mk_edges { e_top : Q; e_right : Q; e_bottom : Q; e_left : Q }.
Definition horizontal (e : edges) : Q := (e_left e + e_right e)%Q.
Definition vertical (e : edges) : Q := (e_top e + e_bottom e)%Q.
Definition edges_zero : edges := mk_edges 0 0 0 0.

(** types.rs:111-120. *)
Record cell_layout := mk_layout {
  l_x : Q; l_y : Q; l_width : Q; l_height : Q; l_border : edges; l_padding : edges }.

(** lib.rs, the trait [TableTree] as its questions. [attr_usize] is the parsed
    attribute; [layout_cell] is taken to be a function of the node and the
    width (table.rs:264-280 reads a height measured earlier). *)
Record tree := mk_tree {
  children : nat -> list nat;
  table_role : nat -> role;
  css : nat -> prop -> css_length;
  colspan_attr : nat -> option nat;
  rowspan_attr : nat -> option nat;
  content_width : nat -> Q;
  layout_cell : nat -> Q -> Q }.

(** * model.rs *)

(** model.rs:40-46. *)
Record source_cell := mk_source { s_node : nat; s_colspan : nat; s_rowspan : nat }.
(** model.rs:33-37. *)
Record table_row := mk_row { r_node : option nat; r_cells : list source_cell }.
(** model.rs:27-31. *)
Record row_group := mk_group { g_node : option nat; g_rows : list table_row }.
(** model.rs:5-20, without the column groups, the sizing mode and the border
    mode, which are read but never used by the layout. *)
Record model := mk_model {
  m_caption : option nat;
  m_headers : list row_group;
  m_bodies : list row_group;
  m_footers : list row_group }.

Section build.
Context (t : tree).

(** model.rs:142-146. *)
Definition build_source_cell (n : nat) : source_cell :=
  mk_source n
    (Nat.max (match colspan_attr t n with Some v => v | None => 1 end) 1)
    (Nat.max (match rowspan_attr t n with Some v => v | None => 1 end) 1).

(** model.rs:129-140. *)
Definition build_row (n : nat) : table_row :=
  fold_left
    (fun row child =>
       match table_role t child with
       | Cell => mk_row (r_node row) (r_cells row ++ [build_source_cell child])
       | _ => row
       end) (children t n) (mk_row (Some n) []).

(** model.rs:163-174 and the push that follows every call of it. *)
Definition push_anon_row (rows : list table_row) (c : source_cell) : list table_row :=
  match last rows with
  | Some (mk_row None cs) => removelast rows ++ [mk_row None (cs ++ [c])]
  | _ => rows ++ [mk_row None [c]]
  end.

(** model.rs:108-127. *)
Definition build_row_group (n : nat) : row_group :=
  fold_left
    (fun g child =>
       match table_role t child with
       | Row => mk_group (g_node g) (g_rows g ++ [build_row child])
       | Cell => mk_group (g_node g) (push_anon_row (g_rows g) (build_source_cell child))
       | _ => g
       end) (children t n) (mk_group (Some n) []).

(** model.rs:149-160: the last group if anonymous, else a new one, changed by [f]. *)
Definition with_anon_group (f : list table_row -> list table_row) (gs : list row_group)
    : list row_group :=
  match last gs with
  | Some (mk_group None rows) => removelast gs ++ [mk_group None (f rows)]
  | _ => gs ++ [mk_group None (f [])]
  end.

(** model.rs:66-94, one child of the table. *)
Definition add_child (m : model) (child : nat) : model :=
  match table_role t child with
  | Caption =>
      mk_model (match m_caption m with None => Some child | c => c end)
        (m_headers m) (m_bodies m) (m_footers m)
  | HeaderGroup =>
      mk_model (m_caption m) (m_headers m ++ [build_row_group child]) (m_bodies m) (m_footers m)
  | RowGroup =>
      mk_model (m_caption m) (m_headers m) (m_bodies m ++ [build_row_group child]) (m_footers m)
  | FooterGroup =>
      mk_model (m_caption m) (m_headers m) (m_bodies m) (m_footers m ++ [build_row_group child])
  | Row =>
      mk_model (m_caption m) (m_headers m)
        (with_anon_group (fun rows => rows ++ [build_row child]) (m_bodies m)) (m_footers m)
  | Cell =>
      mk_model (m_caption m) (m_headers m)
        (with_anon_group (fun rows => push_anon_row rows (build_source_cell child)) (m_bodies m))
        (m_footers m)
  | Table | ColumnGroup | Column | Other => m
  end.

(** model.rs:53-97. *)
Definition build_model (table : nat) : model :=
  fold_left add_child (children t table) (mk_model None [] [] []).
End build.

(** * grid.rs *)

(** grid.rs:4-15. *)
Record placed := mk_placed {
  p_node : nat; p_row : nat; p_col : nat; p_colspan : nat; p_rowspan : nat }.

(** grid.rs:18-22. *)
Record grid := mk_grid { g_cells : list placed; n_cols : nat; n_rows : nat }.

(** grid.rs:113-117. *)
Definition decrement_slots (slots : list nat) : list nat := map pred slots.

(** grid.rs:119-125; [slots] is the part of the vector from the start on. *)
Fixpoint skip_taken (slots : list nat) (col : nat) : nat :=
  match slots with
  | S _ :: rest => skip_taken rest (S col)
  | _ => col
  end.
Definition next_free_col (slots : list nat) (start : nat) : nat :=
  skip_taken (drop start slots) start.

(** grid.rs:127-131. [limit] is the greatest length a vector can have: beyond it
    the allocation fails and the process is lost. *)
Definition grow_slots (limit : nat) (slots : list nat) (min_len : nat) : res (list nat) :=
  if min_len <=? length slots then Ok slots
  else if limit <? min_len then Panic
  else Ok (slots ++ repeat 0 (min_len - length slots)).

(** grid.rs:92-94: the slots from [col] on, [colspan] of them, become [rowspan]. *)
Fixpoint mark_slots (slots : list nat) (col colspan rowspan : nat) : list nat :=
  match slots, col, colspan with
  | [], _, _ => []
  | s :: rest, S c, _ => s :: mark_slots rest c colspan rowspan
  | s :: rest, O, S k => rowspan :: mark_slots rest O k rowspan
  | s :: rest, O, O => s :: rest
  end.

(** grid.rs:78-105, the cells of one row. *)
Fixpoint place_cells (limit rows row_idx : nat) (cells : list source_cell) (slots : list nat)
    (col : nat) (acc : list placed) : res (list nat * list placed) :=
  match cells with
  | [] => Ok (slots, acc)
  | c :: rest =>
      let col := next_free_col slots col in
      let colspan := Nat.max (s_colspan c) 1 in
      let rowspan := Nat.min (Nat.max (s_rowspan c) 1) (rows - row_idx) in
      let* slots := grow_slots limit slots (col + colspan) in
      let slots := mark_slots slots col colspan rowspan in
      place_cells limit rows row_idx rest slots (col + colspan)
        (acc ++ [mk_placed (s_node c) row_idx col colspan rowspan])
  end.

(** grid.rs:72-106, the rows. *)
Fixpoint place_all (limit rows row_idx : nat) (todo : list table_row) (slots : list nat)
    (acc : list placed) : res (list nat * list placed) :=
  match todo with
  | [] => Ok (slots, acc)
  | r :: rest =>
      let* (slots, acc) :=
        place_cells limit rows row_idx (r_cells r) (decrement_slots slots) 0 acc in
      place_all limit rows (S row_idx) rest slots acc
  end.

(** grid.rs:63-109. *)
Definition build_section_grid (limit : nat) (rows : list table_row) : res grid :=
  let* (slots, cells) := place_all limit (length rows) 0 rows [] [] in
  Ok (mk_grid cells (length slots) (length rows)).

(** grid.rs:31-33. *)
Definition cells_in_row (g : grid) (row : nat) : list placed :=
  List.filter (fun c => p_row c =? row) (g_cells g).

(** grid.rs:47-51: [spanned[c] = true] for the columns of one cell that exist. *)
Fixpoint mark_spanned (spanned : list bool) (col colspan : nat) : list bool :=
  match spanned, col, colspan with
  | [], _, _ => []
  | s :: rest, S c, _ => s :: mark_spanned rest c colspan
  | s :: rest, O, S k => true :: mark_spanned rest O k
  | s :: rest, O, O => s :: rest
  end.

(** grid.rs:40-55. *)
Definition cols_spanned_at_boundary (g : grid) (row : nat) : list bool :=
  if n_rows g <=? row + 1 then repeat false (n_cols g)
  else
    fold_left
      (fun spanned c =>
         if (p_row c <=? row) && (row + 1 <? p_row c + p_rowspan c)
         then mark_spanned spanned (p_col c) (p_colspan c) else spanned)
      (g_cells g) (repeat false (n_cols g)).

(** * sizing/columns.rs *)

Section columns.
Context (t : tree).

(** [v[i]] and [v[i] = x] with the bounds check. *)
Definition get_at {A} (l : list A) (i : nat) : res A := of_opt (l !! i).
Definition set_at {A} (l : list A) (i : nat) (x : A) : res (list A) :=
  if i <? length l then Ok (<[i := x]> l) else Panic.

(** sizing/columns.rs:40-58, one cell of the first non-empty row. *)
Definition scan_cell (table_width : Q) (st : list (option Q) * list Q) (c : placed)
    : res (list (option Q) * list Q) :=
  let (explicit, natural) := st in
  if p_colspan c =? 1 then
    let cw := content_width t (p_node c) in
    let* e := get_at explicit (p_col c) in
    let* explicit :=
      match e with
      | None =>
          match css t (p_node c) Width with
          | Px px => set_at explicit (p_col c) (Some (qmax px cw))
          | Percent p =>
              set_at explicit (p_col c) (Some (qmax (p / 100 * table_width)%Q cw))
          | _ => Ok explicit
          end
      | Some _ => Ok explicit
      end in
    let* n := get_at natural (p_col c) in
    let* natural := if qlt n cw then set_at natural (p_col c) cw else Ok natural in
    Ok (explicit, natural)
  else Ok st.

Fixpoint scan_cells (table_width : Q) (cells : list placed) (st : list (option Q) * list Q)
    : res (list (option Q) * list Q) :=
  match cells with
  | [] => Ok st
  | c :: rest => let* st := scan_cell table_width st c in scan_cells table_width rest st
  end.

(** sizing/columns.rs:36-63: the cells of the first row that has any. *)
Definition first_row_cells (grids : list grid) : list placed :=
  match
    List.filter (fun cs => match cs with [] => false | _ => true end)
      (flat_map (fun g => map (cells_in_row g) (seq 0 (n_rows g))) grids)
  with
  | cs :: _ => cs
  | [] => []
  end.

(** sizing/columns.rs:79-80. *)
Definition narrow_threshold : Q := 50.
Definition narrow_floor : Q := 14.

(** sizing/columns.rs:68-116: the width of every column, from the specified width
    if there is one, else from a share of the space that remains. [pairs] are
    the specified and the natural width of each column. *)
Definition auto_naturals (pairs : list (option Q * Q)) : list Q :=
  flat_map (fun p => match fst p with None => [snd p] | Some _ => [] end) pairs.

Definition distribute (remaining : Q) (pairs : list (option Q * Q)) : list Q :=
  let autos := auto_naturals pairs in
  let total_natural := qsum autos in
  let share : Q -> Q :=
    if qlt 0 total_natural then
      let narrow_total :=
        qsum (map (fun n => qmax n narrow_floor) (List.filter (fun n => qlt n narrow_threshold) autos)) in
      let content_total := qsum (List.filter (fun n => Qle_bool narrow_threshold n) autos) in
      if qlt 0 content_total then
        let content_remaining := qmax (remaining - narrow_total)%Q 0 in
        fun n =>
          if qlt n narrow_threshold then qmax n narrow_floor
          else (content_remaining * n / content_total)%Q
      else fun n => (remaining * n / total_natural)%Q
    else fun _ => (remaining / qnat (length autos))%Q in
  map (fun p => match fst p with Some w => w | None => share (snd p) end) pairs.

(** sizing/columns.rs:18-119. *)
Definition compute_column_widths (cols : nat) (table_width spacing : Q) (grids : list grid)
    : res (list Q) :=
  if cols =? 0 then Ok []
  else
    let spacing_total := ((qnat cols + 1) * spacing)%Q in
    let available := qmax (table_width - spacing_total)%Q 0 in
    let* (explicit, natural) :=
      scan_cells table_width (first_row_cells grids) (repeat None cols, repeat 0%Q cols) in
    let fixed_total := qsum (omap id explicit) in
    let remaining := qmax (available - fixed_total)%Q 0 in
    Ok (distribute remaining (zip explicit natural)).
End columns.

(** * sizing/rows.rs *)

(** sizing/rows.rs:56-63. *)
Definition read_border (t : tree) (n : nat) : edges :=
  mk_edges (px_or (css t n BorderTopWidth) 0) (px_or (css t n BorderRightWidth) 0)
    (px_or (css t n BorderBottomWidth) 0) (px_or (css t n BorderLeftWidth) 0).

(** sizing/rows.rs:65-72. *)
Definition read_padding (t : tree) (n : nat) : edges :=
  mk_edges (px_or (css t n PaddingTop) 0) (px_or (css t n PaddingRight) 0)
    (px_or (css t n PaddingBottom) 0) (px_or (css t n PaddingLeft) 0).

(** [v.get(a..a + k).unwrap_or(&[])]. *)
Definition slice {A} (l : list A) (a k : nat) : list A :=
  if a + k <=? length l then take k (drop a l) else [].

(** sizing/rows.rs:24-46: the height a cell asks of its row. *)
Definition wanted_height (t : tree) (col_widths : list Q) (c : placed) : Q :=
  let border := read_border t (p_node c) in
  let padding := read_padding t (p_node c) in
  let cell_w := qsum (slice col_widths (p_col c) (p_colspan c)) in
  let inner_w := qmax (cell_w - horizontal border - horizontal padding)%Q 0 in
  let content_h := layout_cell t (p_node c) inner_w in
  let explicit_h := match css t (p_node c) Height with Px px => px | _ => 0%Q end in
  (qmax content_h explicit_h + vertical border + vertical padding)%Q.

(** sizing/rows.rs:19-50. *)
Fixpoint row_heights_from (t : tree) (col_widths : list Q) (cells : list placed) (heights : list Q)
    : res (list Q) :=
  match cells with
  | [] => Ok heights
  | c :: rest =>
      if p_rowspan c =? 1 then
        let h := wanted_height t col_widths c in
        let* old := get_at heights (p_row c) in
        let* heights := if qlt old h then set_at heights (p_row c) h else Ok heights in
        row_heights_from t col_widths rest heights
      else row_heights_from t col_widths rest heights
  end.

(** sizing/rows.rs:16-51. *)
Definition compute_row_heights (t : tree) (g : grid) (col_widths : list Q) : res (list Q) :=
  row_heights_from t col_widths (g_cells g) (repeat 0%Q (n_rows g)).

(** * compute.rs *)

(** compute.rs:239-247 and, from 0, compute.rs:252-260. *)
Fixpoint offsets (start : Q) (sizes : list Q) (spacing : Q) : list Q :=
  match sizes with
  | [] => []
  | s :: rest => start :: offsets (start + (s + spacing))%Q rest spacing
  end.

(** compute.rs:265-269. *)
Definition section_height (heights : list Q) (spacing : Q) : Q :=
  (qsum heights + spacing * qnat (length heights - 1))%Q.

(** A log of the calls of [set_layout]. *)
Definition layouts := list (nat * cell_layout).

(** compute.rs:188-232; the row-relative y is a difference of equal terms. *)
Definition place_cell (t : tree) (heights col_x col_widths : list Q) (sx sy : Q) (c : placed)
    : nat * cell_layout :=
  let cols := slice col_widths (p_col c) (p_colspan c) in
  let rows := slice heights (p_row c) (p_rowspan c) in
  (p_node c,
   mk_layout (default 0%Q (col_x !! p_col c)) 0
     (qsum cols + sx * qnat (length cols - 1))%Q
     (qsum rows + sy * qnat (length rows - 1))%Q
     (read_border t (p_node c)) (read_padding t (p_node c))).

(** compute.rs:162-183, the rows from [idx] on. *)
Fixpoint place_rows (t : tree) (rows : list table_row) (idx : nat) (g : grid)
    (heights row_y col_x col_widths : list Q) (sx sy : Q) : res layouts :=
  match rows with
  | [] => Ok []
  | r :: rest =>
      let* ry := get_at row_y idx in
      let* rh := get_at heights idx in
      let own :=
        match r_node r with
        | Some n => [(n, mk_layout 0 ry (qsum col_widths) rh edges_zero edges_zero)]
        | None => []
        end in
      let cells := map (place_cell t heights col_x col_widths sx sy) (cells_in_row g idx) in
      let* tail := place_rows t rest (S idx) g heights row_y col_x col_widths sx sy in
      Ok (own ++ cells ++ tail)
  end.

(** compute.rs:113-145: the groups one below the other; the result is the log
    and the offset below the last. *)
Fixpoint place_groups (t : tree) (gs : list (row_group * grid * list Q)) (group_y : Q)
    (col_x col_widths : list Q) (inner_width sx sy : Q) : res (layouts * Q) :=
  match gs with
  | [] => Ok ([], group_y)
  | (grp, g, heights) :: rest =>
      let group_height := section_height heights sy in
      let own :=
        match g_node grp with
        | Some n => [(n, mk_layout 0 group_y inner_width group_height edges_zero edges_zero)]
        | None => []
        end in
      let* rows :=
        place_rows t (g_rows grp) 0 g heights (offsets 0 heights sy) col_x col_widths sx sy in
      let* (tail, bottom) :=
        place_groups t rest (group_y + (group_height + sy))%Q col_x col_widths inner_width sx sy in
      Ok (own ++ rows ++ tail, bottom)
  end.

(** [iter().map(f).collect()] with a function that can fail. *)
Fixpoint map_res {A B} (f : A -> res B) (l : list A) : res (list B) :=
  match l with
  | [] => Ok []
  | x :: rest =>
      let* y := f x in
      let* ys := map_res f rest in
      Ok (y :: ys)
  end.

(** compute.rs:58-62. *)
Definition resolve_table_width (t : tree) (table : nat) (available : Q) : Q :=
  match css t table Width with
  | Px w => w
  | Percent p => (p / 100 * available)%Q
  | _ => available
  end.

(** compute.rs:20-150. The three lists of groups are handled one after the other
    by the code; the model puts them in one list in that order. The result is
    the log of [set_layout], the width and the height of the table. *)
Definition compute_table_layout (limit : nat) (t : tree) (table : nat) (available : Q)
    : res (layouts * (Q * Q)) :=
  let m := build_model t table in
  let sx := px_or (css t table BorderSpacingX) 2 in
  let sy := px_or (css t table BorderSpacingY) 2 in
  let groups := m_headers m ++ m_bodies m ++ m_footers m in
  let* grids := map_res (fun g => build_section_grid limit (g_rows g)) groups in
  let cols := fold_left Nat.max (map n_cols grids) 0 in
  if cols =? 0 then Ok ([], (0%Q, 0%Q))
  else
    let table_width := resolve_table_width t table available in
    let* col_widths := compute_column_widths t cols table_width sx grids in
    let col_x := offsets sx col_widths sx in
    let* heights := map_res (fun g => compute_row_heights t g col_widths) grids in
    let inner_width := (qsum col_widths + (qnat cols + 1) * sx)%Q in
    let* (log, bottom) :=
      place_groups t (zip (zip groups grids) heights) sy col_x col_widths inner_width sx sy in
    Ok (log, (table_width, bottom)).

(** * layouter/table.rs *)

(** table.rs:31-36, [set_layout] into a map: the last write of a node counts. *)
Fixpoint pending (log : layouts) (n : nat) : option cell_layout :=
  match log with
  | [] => None
  | (k, l) :: rest =>
      match pending rest n with
      | Some l' => Some l'
      | None => if k =? n then Some l else None
      end
  end.

(** The border box of an element on the page. *)
Record rect := mk_rect { x0 : Q; y0 : Q; w : Q; h : Q }.

(** table.rs:87-131, the boxes given to the nodes of the table. The boxes of the
    content of the cells, which are moved along, are not modelled. [fuel]
    stands for the depth of the document, which is finite. *)
Fixpoint apply_recursive (fuel : nat) (t : tree) (log : layouts) (id : nat) (x y : Q)
    : list (nat * rect) :=
  match fuel with
  | O => []
  | S fuel =>
      flat_map
        (fun child =>
           match pending log child with
           | None => apply_recursive fuel t log child x y
           | Some l =>
               (child, mk_rect (x + l_x l)%Q (y + l_y l)%Q (l_width l) (l_height l))
               :: apply_recursive fuel t log child (x + l_x l)%Q (y + l_y l)%Q
           end) (children t id)
  end.
