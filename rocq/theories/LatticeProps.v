(** The layout of tables: C91-C96. *)
From Coq Require Import QArith Lqa.
From Verif Require Import Base LatticeModel LatticeSpec LatticeProofs LatticePage.
From stdpp Require Import numbers option list.
Local Open Scope nat_scope.

(** Rows of cells written as (node, colspan, rowspan). *)
Definition a_row (cells : list (nat * nat * nat)) : table_row :=
  mk_row None (map (fun '(n, c, r) => mk_source n c r) cells).

(** A document written as lists. *)
Definition a_tree (kids : list (nat * list nat)) (roles : list (nat * role))
    (style : nat -> prop -> css_length) (cols rows : list (nat * nat)) (content : nat -> Q)
    (height : nat -> Q) : tree :=
  let look {A} (d : A) (l : list (nat * A)) n :=
    match List.find (fun p => fst p =? n) l with Some p => snd p | None => d end in
  let ask {A} (l : list (nat * A)) n := option_map snd (List.find (fun p => fst p =? n) l) in
  mk_tree (look [] kids) (look Other roles) style (ask cols) (ask rows) content (fun n _ => height n).

Definition plain : nat -> prop -> css_length := fun _ _ => Auto.

(** C91: the cells of a section stand in the grid where HTML puts them *)
Theorem C91_grid_partial : forall limit rows cells g,
  html_section rows cells -> Forall in_range (row_sources rows) -> no_overlap cells ->
  build_section_grid limit rows = Ok g ->
  g_cells g = cells /\ is_width cells (n_cols g) /\ n_rows g = length rows.
Proof.
  intros limit rows cells g Hh Hr Hn Hg. rewrite (grid_follows limit rows cells g Hh Hr Hn Hg). cbn.
  split; [done|]. split; [apply extent_is_width|done].
Qed.
Print Assumptions C91_grid_partial.

(** HTML gives every section exactly one such list of cells. *)
Theorem C91_standard_total : forall rows, exists cells, html_section rows cells.
Proof. intros rows. apply html_rows_exists. Qed.
Print Assumptions C91_standard_total.

(** A column is reported as spanned below a row if and only if one cell covers
    both that row and the next there. *)
Theorem C91_boundary : forall limit rows g row c,
  build_section_grid limit rows = Ok g -> c < n_cols g ->
  exists b, cols_spanned_at_boundary g row !! c = Some b
    /\ (b = true <-> exists p, p ∈ g_cells g /\ covers p row c /\ covers p (S row) c).
Proof.
  intros limit rows g row c Hg Hc. apply boundary_ok; [|done].
  intros p Hp. by apply (grid_col _ _ _ _ Hg Hp).
Qed.
Print Assumptions C91_boundary.

Definition spans : list table_row :=
  [a_row [(1, 1, 2); (2, 2, 1); (3, 1, 3)]; a_row [(4, 1, 1); (5, 1, 5)]; a_row [(6, 1, 1)]].

Example C91_example : build_section_grid 100 spans =
  Ok (mk_grid
        [mk_placed 1 0 0 1 2; mk_placed 2 0 1 2 1; mk_placed 3 0 3 1 3;
         mk_placed 4 1 1 1 1; mk_placed 5 1 2 1 2; mk_placed 6 2 0 1 1] 4 3)
  /\ cols_spanned_at_boundary (mk_grid [mk_placed 1 0 0 1 2; mk_placed 2 0 1 1 1] 2 3) 0 = [true; false].
Proof. done. Qed.

(** A wide cell over a tall one: HTML lets them overlap and remembers the tall
    one; the engine forgets it and puts a later cell on top of it. *)
Definition crossing : list table_row :=
  [a_row [(1, 1, 1); (2, 1, 3)]; a_row [(3, 2, 1)]; a_row [(4, 1, 1); (5, 1, 1)]].

Theorem C91_crossing_refuted : exists cells g,
  html_section crossing cells /\ build_section_grid 100 crossing = Ok g
  /\ mk_placed 5 2 2 1 1 ∈ cells /\ mk_placed 2 0 1 1 3 ∈ g_cells g /\ mk_placed 5 2 1 1 1 ∈ g_cells g.
Proof.
  exists [mk_placed 1 0 0 1 1; mk_placed 2 0 1 1 3; mk_placed 3 1 0 2 1; mk_placed 4 2 0 1 1; mk_placed 5 2 2 1 1].
  eexists. split.
  - assert (forall cells r c, ~ taken cells r c <-> Forall (fun p => ~ covers p r c) cells) as Hn.
    { intros cells r c. rewrite Forall_forall. unfold taken. split.
      - intros N p Hp Hc. apply N. eauto.
      - intros N (p & Hp & Hc). by eapply N. }
    assert (forall cells rows row cur s n col a b,
              s_node s = n -> a = html_colspan (s_colspan s) -> b = html_rowspan (s_rowspan s) (rows - row) ->
              cur <= col -> ~ taken cells row col -> (forall x, cur <= x < col -> taken cells row x) ->
              html_cell rows row cells cur s (mk_placed n row col a b)) as Hc.
    { intros. by repeat split. }
    unfold html_section, crossing.
    change [mk_placed 1 0 0 1 1; mk_placed 2 0 1 1 3; mk_placed 3 1 0 2 1; mk_placed 4 2 0 1 1; mk_placed 5 2 2 1 1]
      with ([mk_placed 1 0 0 1 1; mk_placed 2 0 1 1 3]
            ++ ([mk_placed 3 1 0 2 1] ++ ([mk_placed 4 2 0 1 1; mk_placed 5 2 2 1 1] ++ []))).
    repeat (constructor; cbn [a_row map r_cells length p_col p_colspan]).
    all: try (apply Hc; [done|done|done|cbn; lia| |]).
    all: try (apply Hn; repeat constructor; unfold covers; cbn; lia).
    all: try (intros x Hx; lia).
    intros x Hx. exists (mk_placed 2 0 1 1 3). split; [|unfold covers; cbn in *; lia].
    apply elem_of_list_lookup. by exists 1.
  - split; [vm_compute; reflexivity|]. repeat split; apply elem_of_list_lookup; [by exists 4|by exists 1|by exists 4].
Qed.
Print Assumptions C91_crossing_refuted.

(** [rowspan=0] should reach to the end of the section; it counts as 1. *)
Theorem C91_rowspan_zero_refuted : exists t,
  rowspan_attr t 4 = Some 0 /\ html_rowspan 0 2 = 2
  /\ map (fun g => build_section_grid 100 (g_rows g)) (m_bodies (build_model t 0))
     = [Ok (mk_grid [mk_placed 4 0 0 1 1; mk_placed 5 1 0 1 1] 1 2)].
Proof.
  exists (a_tree [(0, [1]); (1, [2; 3]); (2, [4]); (3, [5])]
            [(1, RowGroup); (2, Row); (3, Row); (4, Cell); (5, Cell)] plain [] [(4, 0)] (fun _ => 0%Q) (fun _ => 0%Q)).
  done.
Qed.
Print Assumptions C91_rowspan_zero_refuted.

(** A [colspan] above 1000 should count as 1000; it is taken as it stands. *)
Theorem C91_colspan_refuted : exists g,
  build_section_grid 3000 [a_row [(1, 1001, 1)]] = Ok g /\ n_cols g = 1001 /\ html_colspan 1001 = 1000.
Proof. eexists. split; [vm_compute; reflexivity|done]. Qed.
Print Assumptions C91_colspan_refuted.

(** C92: no slot of the grid belongs to two cells, and none lies outside it *)
Theorem C92_no_overlap_partial : forall limit rows g,
  Forall in_range (row_sources rows) ->
  Forall (fun s => s_colspan s <= 1) (row_sources rows)
  \/ Forall (fun s => s_rowspan s = 1) (row_sources rows) ->
  build_section_grid limit rows = Ok g -> no_overlap (g_cells g).
Proof. exact grid_no_overlap. Qed.
Print Assumptions C92_no_overlap_partial.

Theorem C92_inside : forall limit rows g p,
  build_section_grid limit rows = Ok g -> p ∈ g_cells g ->
  p_col p + p_colspan p <= n_cols g /\ p_row p + p_rowspan p <= n_rows g
  /\ 1 <= p_rowspan p /\ 1 <= p_colspan p
  /\ exists r, rows !! p_row p = Some r /\ p_node p ∈ map s_node (r_cells r).
Proof. exact grid_col. Qed.
Print Assumptions C92_inside.

Example C92_example : exists g,
  build_section_grid 100 [a_row [(1, 1, 3); (2, 1, 1)]; a_row [(3, 1, 1); (4, 0, 9)]] = Ok g
  /\ g_cells g = [mk_placed 1 0 0 1 2; mk_placed 2 0 1 1 1; mk_placed 3 1 1 1 1; mk_placed 4 1 2 1 1].
Proof. eexists. split; [vm_compute; reflexivity|done]. Qed.

Theorem C92_overlap_refuted : exists g,
  build_section_grid 100 crossing = Ok g /\ ~ no_overlap (g_cells g)
  /\ exists p q, p ∈ g_cells g /\ q ∈ g_cells g /\ p_node p = 2 /\ p_node q = 5 /\ covers p 2 1 /\ covers q 2 1.
Proof.
  eexists. split; [vm_compute; reflexivity|]. cbn [g_cells]. split.
  - intros N. assert (1 = 4) as E; [|done].
    eapply (N 1 4 _ _ 2 1); [reflexivity|reflexivity| |]; unfold covers; cbn; lia.
  - exists (mk_placed 2 0 1 1 3), (mk_placed 5 2 1 1 1).
    split; [apply elem_of_list_lookup; by exists 1|]. split; [apply elem_of_list_lookup; by exists 4|].
    unfold covers; cbn; lia.
Qed.
Print Assumptions C92_overlap_refuted.

(** C93: a table holds the cells of the document, in its order, each in its row
    and group *)
Theorem C93_structure : forall t table k,
  map s_node (group_sources (part_groups (build_model t table) k)) = part_cells t table k
  /\ Forall (good_group t) (part_groups (build_model t table) k)
  /\ separated g_node (part_groups (build_model t table) k)
  /\ omap g_node (part_groups (build_model t table) k) = groups_of_part t table k.
Proof. intros t table k. destruct (build_model_ok t table k) as ([H1 H2] & H3 & H4). done. Qed.
Print Assumptions C93_structure.

(** A caption, a head, bare cells, a row without a group, a body. *)
Definition mixed : tree :=
  a_tree [(0, [1; 2; 3; 4; 5; 6]); (2, [7; 8; 9]); (5, [10]); (6, [11]); (11, [12; 13]); (7, [14])]
    [(1, Caption); (2, HeaderGroup); (3, Cell); (4, Cell); (5, Row); (6, RowGroup);
     (7, Row); (8, Cell); (9, Cell); (10, Cell); (11, Row); (12, Cell); (14, Cell)]
    plain [(12, 3)] [(14, 2)] (fun _ => 0%Q) (fun _ => 0%Q).

Example C93_example : part_cells mixed 0 Head = [14; 8; 9] /\ part_cells mixed 0 Body = [3; 4; 10; 12]
  /\ build_model mixed 0 = mk_model (Some 1)
       [mk_group (Some 2) [mk_row (Some 7) [mk_source 14 1 2]; mk_row None [mk_source 8 1 1; mk_source 9 1 1]]]
       [mk_group None [mk_row None [mk_source 3 1 1; mk_source 4 1 1]; mk_row (Some 5) [mk_source 10 1 1]];
        mk_group (Some 6) [mk_row (Some 11) [mk_source 12 3 1]]] [].
Proof. done. Qed.

(** C94: every cell has a box on the page that fills its slots *)
Theorem C94_boxes_partial : forall limit t table available log W H X Y fuel,
  compute_table_layout limit t table available = Ok (log, (W, H)) ->
  proper t -> explicit_structure t table -> (forall n, (0 <= content_width t n)%Q) ->
  0 < length (part_cells t table Head ++ part_cells t table Body ++ part_cells t table Foot) ->
  let sx := px_or (css t table BorderSpacingX) 2 in
  let sy := px_or (css t table BorderSpacingY) 2 in
  let boxes := apply_recursive fuel t log table X Y in
  (css t table Width <> Zero -> width_asked t table available W)
  /\ exists grids ws hss,
    sections limit t table grids
    /\ length ws = fold_left Nat.max (map n_cols grids) 0
    /\ widths_right t W sx grids ws
    /\ Forall2 (heights_right t ws) grids hss
    /\ (3 <= fuel -> forall k c, c ∈ part_cells t table k -> exists r, (c, r) ∈ boxes)
    /\ forall c r, (c, r) ∈ boxes -> table_role t c = Cell ->
       exists k g hs p, grids !! k = Some g /\ hss !! k = Some hs /\ p ∈ g_cells g /\ p_node p = c
         /\ fills r p (X + sx) (line (Y + sy) (map (fun hs => stacked hs sy) hss) sy k) ws hs sx sy.
Proof.
  intros limit t table available log W H X Y fuel HL HP HE Hc Hne sx sy boxes.
  destruct (page_ok limit t table available log W H X Y fuel HL HP HE Hc Hne) as [E K].
  split; [|exact K]. rewrite E. apply width_asked_ok.
Qed.
Print Assumptions C94_boxes_partial.

(** No two cells overlap on the page if none do in the grids. *)
Theorem C94_apart_partial : forall limit t table available log W H X Y fuel c1 r1 c2 r2,
  compute_table_layout limit t table available = Ok (log, (W, H)) ->
  proper t -> explicit_structure t table -> (forall n, (0 <= content_width t n)%Q) ->
  (0 <= px_or (css t table BorderSpacingX) 2)%Q -> (0 <= px_or (css t table BorderSpacingY) 2)%Q ->
  (forall grids, sections limit t table grids -> Forall (fun g => no_overlap (g_cells g)) grids) ->
  (c1, r1) ∈ apply_recursive fuel t log table X Y -> table_role t c1 = Cell ->
  (c2, r2) ∈ apply_recursive fuel t log table X Y -> table_role t c2 = Cell ->
  c1 <> c2 -> apart r1 r2.
Proof. intros limit t table available log W H X Y fuel c1 r1 c2 r2 HL HP HE Hc. by apply (apart_ok limit t table available log W H X Y fuel HL HP HE Hc). Qed.
Print Assumptions C94_apart_partial.

(** The cells are inside the table, if what the columns need fits in it. *)
Theorem C94_inside_partial : forall limit t table available log W H X Y fuel c r,
  compute_table_layout limit t table available = Ok (log, (W, H)) ->
  proper t -> explicit_structure t table -> (forall n, (0 <= content_width t n)%Q) ->
  let sx := px_or (css t table BorderSpacingX) 2 in
  let sy := px_or (css t table BorderSpacingY) 2 in
  (0 <= sx)%Q -> (0 <= sy)%Q ->
  (c, r) ∈ apply_recursive fuel t log table X Y -> table_role t c = Cell ->
  (X + sx <= x0 r /\ Y + sy <= y0 r /\ y0 r + h r <= Y + H - sy)%Q
  /\ forall grids cs, sections limit t table grids -> is_first_row grids cs ->
     let n := fold_left Nat.max (map n_cols grids) 0 in
     (qsum (map (needed t W cs) (seq 0 n)) <= W - (qnat n + 1) * sx)%Q ->
     (x0 r + w r <= X + W - sx)%Q.
Proof. intros. by eapply inside_ok. Qed.
Print Assumptions C94_inside_partial.

(** Two rows; the first cell is two rows tall. *)
Definition small : tree :=
  a_tree [(0, [1]); (1, [2; 3]); (2, [4; 5]); (3, [6])]
    [(0, Table); (1, RowGroup); (2, Row); (3, Row); (4, Cell); (5, Cell); (6, Cell)]
    plain [] [(4, 2)] (fun _ => 60%Q) (fun _ => 20%Q).

Definition boxes_of (t : tree) (available : Q) : res (list (nat * (Q * Q * Q * Q)) * Q * Q) :=
  let* (log, (W, H)) := compute_table_layout 100 t 0 available in
  Ok (map (fun '(n, r) => (n, (Qred (x0 r), Qred (y0 r), Qred (w r), Qred (h r))))
        (apply_recursive 5 t log 0 0 0), Qred W, Qred H).

(** A box with its node. *)
Definition box (n : nat) (x y w h : Q) : nat * (Q * Q * Q * Q) := (n, (x, y, w, h)).
Arguments box n%nat x%Q y%Q w%Q h%Q.

Lemma small_proper : proper small.
Proof.
  assert (forall a x, x ∈ children small a ->
            (a, x) ∈ [(0, 1); (1, 2); (1, 3); (2, 4); (2, 5); (3, 6)]) as K.
  { intros a x Hx. apply elem_of_list_In in Hx. apply elem_of_list_In.
    destruct a as [|[|[|[|a]]]]; cbn in Hx |- *; intuition (subst; auto 10). }
  split; [|split].
  - intros a b x Ha%K Hb%K. apply elem_of_list_In in Ha, Hb. cbn in Ha, Hb. intuition congruence.
  - intros a. destruct a as [|[|[|[|a]]]]; cbn; apply NoDup_ListNoDup;
      repeat (constructor; [cbn; intuition congruence|]); constructor.
  - exists (fun n => n). intros a x Ha%K. apply elem_of_list_In in Ha. cbn in Ha.
    destruct Ha as [E|[E|[E|[E|[E|[E|[]]]]]]]; injection E as <- <-; lia.
Qed.

Lemma small_explicit : explicit_structure small 0.
Proof.
  split.
  - intros c Hc. cbn in Hc. apply elem_of_list_singleton in Hc as ->. done.
  - intros g c Hg _ Hc. cbn in Hg. apply elem_of_list_singleton in Hg as ->. cbn in Hc.
    rewrite !elem_of_cons, elem_of_nil in Hc. destruct Hc as [->|[->|[]]]; done.
Qed.

Example C94_example : proper small /\ explicit_structure small 0
  /\ boxes_of small 206 =
     Ok ([box 1 0 2 206 42; box 2 0 2 200 20; box 4 2 2 100 42; box 5 104 2 100 20;
          box 3 0 24 200 20; box 6 104 24 100 20], 206, 46)%Q
  /\ (exists grids, sections 100 small 0 grids /\ Forall (fun g => no_overlap (g_cells g)) grids
      /\ is_first_row grids [mk_placed 4 0 0 1 2; mk_placed 5 0 1 1 1])
  /\ map (needed small 206 [mk_placed 4 0 0 1 2; mk_placed 5 0 1 1 1]) (seq 0 2) = [60; 60]%Q.
Proof.
  split; [exact small_proper|]. split; [exact small_explicit|]. split; [vm_compute; reflexivity|]. split; [|done].
  eexists. split; [vm_compute; reflexivity|]. split.
  - constructor; [|done]. eapply (grid_no_overlap 100 [a_row [(4, 1, 2); (5, 1, 1)]; a_row [(6, 1, 1)]]);
      [repeat constructor; cbn; lia|left; repeat constructor|reflexivity].
  - split; [done|]. eexists [], _, [], 0. split; [reflexivity|]. cbn. split; [lia|]. split; [done|].
    split; [lia|]. intros b r' Hb. by apply elem_of_nil in Hb.
Qed.

(** [width: 0] is not a width of zero: the table fills its space. *)
Definition zero_width : tree :=
  a_tree [(0, [1]); (1, [2]); (2, [3])] [(0, Table); (1, RowGroup); (2, Row); (3, Cell)]
    (fun n p => match n, p with 0, Width => Zero | _, _ => plain n p end) [] [] (fun _ => 60%Q) (fun _ => 20%Q).

Theorem C94_zero_width_refuted : exists t table log W H,
  css t table Width = Zero
  /\ compute_table_layout 100 t table 500 = Ok (log, (W, H))
  /\ W = 500%Q /\ ~ width_asked t table 500 W.
Proof.
  exists zero_width, 0. eexists _, _, _. split; [done|]. split; [vm_compute; reflexivity|].
  split; [done|]. intros (_ & _ & K & _). specialize (K eq_refl). by apply Qeq_bool_iff in K.
Qed.
Print Assumptions C94_zero_width_refuted.

(** A cell outside any row is put at the top of its group, over the cells of the
    group's first row; a row outside any group at the top of the table. *)
Definition loose : tree :=
  a_tree [(0, [1; 2]); (1, [3]); (2, [4; 5]); (4, [6])]
    [(0, Table); (1, Row); (2, RowGroup); (3, Cell); (4, Row); (5, Cell); (6, Cell)]
    plain [] [] (fun _ => 60%Q) (fun _ => 20%Q).

Theorem C94_loose_refuted :
  part_cells loose 0 Body = [3; 6; 5]
  /\ boxes_of loose 104 =
     Ok ([box 1 0 0 100 20; box 3 2 0 100 20;
          box 2 0 24 104 42; box 4 0 24 100 20; box 6 2 24 100 20; box 5 2 24 100 20], 104, 68)%Q
  /\ ~ apart (mk_rect 2 24 100 20) (mk_rect 2 24 100 20).
Proof.
  split; [done|]. split; [vm_compute; reflexivity|]. unfold apart. cbn. lra.
Qed.
Print Assumptions C94_loose_refuted.

(** The last cell of a row sticks out of the box of the row. *)
Theorem C94_row_box_refuted : exists cells row,
  boxes_of small 206 = Ok (cells, 206%Q, 46%Q) /\ (2, row) ∈ cells /\ box 5 104 2 100 20 ∈ cells
  /\ row = (0, 2, 200, 20)%Q /\ (0 + 200 < 104 + 100)%Q.
Proof.
  eexists _, _. split; [vm_compute; reflexivity|]. split; [apply elem_of_list_lookup; exists 1; reflexivity|].
  split; [apply elem_of_list_lookup; exists 3; reflexivity|]. split; [reflexivity|lra].
Qed.
Print Assumptions C94_row_box_refuted.

(** C95: given widths are kept and the columns fill the table; a row is as tall
    as its cells need *)
Theorem C95_columns_partial : forall limit groups t W s grids ws,
  map_res (fun g => build_section_grid limit (g_rows g)) groups = Ok grids ->
  (forall n, (0 <= content_width t n)%Q) ->
  length ws = fold_left Nat.max (map n_cols grids) 0 -> length ws <> 0 ->
  compute_column_widths t (length ws) W s grids = Ok ws ->
  widths_right t W s grids ws.
Proof. exact columns_right. Qed.
Print Assumptions C95_columns_partial.

Theorem C95_rows_partial : forall limit t rows g ws hs,
  build_section_grid limit rows = Ok g -> n_cols g <= length ws ->
  compute_row_heights t g ws = Ok hs -> heights_right t ws g hs.
Proof. exact rows_right. Qed.
Print Assumptions C95_rows_partial.

(** One column of 120 px, one of content 10 (below the floor of 14), two that share. *)
Definition four : tree :=
  a_tree [(0, [1]); (1, [2]); (2, [3; 4; 5; 6])]
    [(0, Table); (1, RowGroup); (2, Row); (3, Cell); (4, Cell); (5, Cell); (6, Cell)]
    (fun n p => match n, p with 3, Width => Px 120 | 5, PaddingTop => Px 7 | _, _ => Auto end) [] []
    (fun n => match n with 3 => 40%Q | 4 => 10%Q | 5 => 100%Q | _ => 50%Q end) (fun _ => 20%Q).

Example C95_example : boxes_of four 446 =
  Ok ([box 1 0 2 446 27; box 2 0 2 436 27; box 3 2 2 120 27; box 4 124 2 14 27;
       box 5 140 2 (604 # 3) 27; box 6 (1030 # 3) 2 (302 # 3) 27], 446, 31)%Q.
Proof. vm_compute. reflexivity. Qed.

(** A cell two rows tall gets no room of its own: its content, 300 tall, has 42. *)
Theorem C95_tall_refuted : exists log H r,
  let t := a_tree [(0, [1]); (1, [2; 3]); (2, [4; 5]); (3, [6])]
             [(0, Table); (1, RowGroup); (2, Row); (3, Row); (4, Cell); (5, Cell); (6, Cell)]
             plain [] [(4, 2)] (fun _ => 60%Q) (fun n => match n with 4 => 300%Q | _ => 20%Q end) in
  compute_table_layout 100 t 0 206 = Ok (log, (206%Q, H)) /\ (H == 46)%Q
  /\ (4, r) ∈ apply_recursive 5 t log 0 0 0 /\ (h r == 42)%Q /\ (layout_cell t 4 100 == 300)%Q.
Proof.
  eexists _, _, _. cbn zeta. split; [vm_compute; reflexivity|]. split; [vm_compute; reflexivity|].
  split; [apply elem_of_list_lookup; exists 2; vm_compute; reflexivity|]. split; vm_compute; reflexivity.
Qed.
Print Assumptions C95_tall_refuted.

(** Widths given below the first row are ignored, and widths that do not fit make
    the cells stick out of the table, whose own width stays the same. *)
Theorem C95_ignored_refuted : exists t,
  css t 5 Width = Px 150 /\ table_role t 5 = Cell
  /\ boxes_of t 104 =
     Ok ([box 1 0 2 104 42; box 2 0 2 100 20; box 4 2 2 100 20;
          box 3 0 24 100 20; box 5 2 24 100 20], 104, 46)%Q.
Proof.
  exists (a_tree [(0, [1]); (1, [2; 3]); (2, [4]); (3, [5])]
            [(0, Table); (1, RowGroup); (2, Row); (3, Row); (4, Cell); (5, Cell)]
            (fun n p => match n, p with 5, Width => Px 150 | _, _ => Auto end) [] []
            (fun _ => 60%Q) (fun _ => 20%Q)).
  split; [done|]. split; [done|]. vm_compute. reflexivity.
Qed.
Print Assumptions C95_ignored_refuted.

Theorem C95_overflow_refuted : exists t,
  css t 4 Width = Px 150
  /\ boxes_of t 104 =
     Ok ([box 1 0 2 154 20; box 2 0 2 150 20; box 4 2 2 150 20], 104, 24)%Q.
Proof.
  exists (a_tree [(0, [1]); (1, [2]); (2, [4])]
            [(0, Table); (1, RowGroup); (2, Row); (4, Cell)]
            (fun n p => match n, p with 4, Width => Px 150 | _, _ => Auto end) [] []
            (fun _ => 60%Q) (fun _ => 20%Q)).
  split; [done|]. vm_compute. reflexivity.
Qed.
Print Assumptions C95_overflow_refuted.

(** C96: laying out a table returns *)
Theorem C96_returns_partial : forall limit t table available,
  (forall grp,
     grp ∈ m_headers (build_model t table) ++ m_bodies (build_model t table) ++ m_footers (build_model t table) ->
     sum_list_with (fun s => Nat.max (s_colspan s) 1) (row_sources (g_rows grp)) <= limit) ->
  exists out, compute_table_layout limit t table available = Ok out.
Proof. exact layout_total. Qed.
Print Assumptions C96_returns_partial.

Example C96_example :
  map (fun grp => sum_list_with (fun s => Nat.max (s_colspan s) 1) (row_sources (g_rows grp)))
    (m_bodies (build_model small 0)) = [3].
Proof. done. Qed.

(** However much memory there is, one attribute of one cell asks for more. *)
Theorem C96_memory_refuted : forall limit, exists t,
  colspan_attr t 4 = Some (S limit) /\ part_cells t 0 Body = [4]
  /\ compute_table_layout limit t 0 100 = Panic.
Proof.
  intros limit. exists (a_tree [(0, [1]); (1, [2]); (2, [4])]
    [(0, Table); (1, RowGroup); (2, Row); (4, Cell)] plain [(4, S limit)] [] (fun _ => 0%Q) (fun _ => 0%Q)).
  split; [done|]. split; [done|]. unfold compute_table_layout. cbn -[build_section_grid].
  unfold build_section_grid. cbn -[Nat.ltb]. unfold grow_slots. cbn [length].
  rewrite Nat.max_0_r. cbn [Nat.leb]. rewrite (proj2 (Nat.ltb_lt limit _)) by lia. done.
Qed.
Print Assumptions C96_memory_refuted.
