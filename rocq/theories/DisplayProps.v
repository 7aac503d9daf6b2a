(** Rendered nodes, layers, hit tests, tiles and sticky elements. *)
From Coq Require Import QArith Qround Qminmax Lqa.
From stdpp Require Import numbers option list sorting.
From Verif Require Import Base DisplayModel DisplaySpec DisplayProofs.
Local Open Scope Q_scope.

(** ** C109: what is rendered is the document without its invisible nodes and what is below them *)
Theorem C109_rendered kids visible t :
  describes kids t ->
  exists a, (forall fuel, (size t < fuel)%nat -> parse kids visible fuel (root t) = Ok (if visible (root t) then Some (root t) else None, a))
    /\ forall n cs, a n = Some cs <-> (n, cs) ∈ rendered visible t.
Proof. apply parse_ok. Qed.
Print Assumptions C109_rendered.
Example C109_example :
  let t := Dom 1 [Dom 2 [Dom 3 []]; Dom 4 [Dom 5 []; Dom 6 []; Dom 7 []]]%N in
  let kids := fun n => match n with 1%N => [2; 4]%N | 2%N => [3]%N | 4%N => [5; 6; 7]%N | _ => [] end in
  let visible := fun n => negb (n =? 2)%N && negb (n =? 6)%N in
  describes kids t /\ rendered visible t = [(1, [4]); (4, [5; 7]); (5, []); (7, [])]%N
  /\ (let* r := parse kids visible 30 1 in Ok (fst r, snd r 1, snd r 3, snd r 4))%N = Ok (Some 1, Some [4], None, Some [5; 7])%N.
Proof. cbn. repeat split. Qed.

(** ** C110: layers *)
(** Every element is in one layer, once, and a layer has its elements in document order. *)
Theorem C110_partition t :
  mjoin (l_elements <$> generate_layers t) ≡ₚ document_order t
  /\ forall l, l ∈ generate_layers t -> l_elements l `sublist_of` document_order t.
Proof.
  pose proof (traverse_grows t None 0%nat false 0%Z [mk_layer 0 1 Scroll []] ltac:(cbn; lia)) as (L & P & G). fold (unsorted_layers t) in *.
  unfold generate_layers. split; [by rewrite sort_perm|]. intros l. rewrite sort_perm. intros (i & Hi)%elem_of_list_lookup. specialize (G _ _ Hi).
  destruct i as [|i]; cbn in G; [|done]. by destruct G as (_ & more & -> & G).
Qed.
Print Assumptions C110_partition.

(** Layers are sorted by level, those of one level by the place of their first element in the document. *)
Theorem C110_sorted t :
  StronglySorted (fun l m => (l_order l <= l_order m)%Z) (generate_layers t)
  /\ forall e below z, t = LNode e below -> e_image e = false ->
        omap (head ∘ l_elements) (filter (fun m => l_order m = z) (generate_layers t)) `sublist_of` document_order t.
Proof.
  split; [apply sort_sorted|]. intros e below z -> Hi. unfold generate_layers. rewrite sort_stable.
  transitivity (omap (head ∘ l_elements) (unsorted_layers (LNode e below))); [|by apply firsts_ok].
  generalize (unsorted_layers (LNode e below)). clear. intros ls. induction ls as [|l ls IH]; [done|]. rewrite filter_cons. cbn [omap list_omap].
  destruct (decide _); cbn [omap list_omap]; destruct ((head ∘ l_elements) l); try done; by constructor.
Qed.
Print Assumptions C110_sorted.

(** An element that fades, is fixed or sticky begins a layer that fades and moves as it says. *)
Theorem C110_apart t parent e below :
  part_with_parent None t parent (LNode e below) -> apart e ->
  exists l, l ∈ generate_layers t /\ head (l_elements l) = Some e
    /\ (l_opacity l == Qmax 0 (Qmin 1 (e_opacity e)))%Q
    /\ l_anchor l = match e_position e with
                    | PFixed => Fixed
                    | PSticky => Sticky (mk_sticky (e_top e) (e_left e) (e_margin e) (default (e_margin e) parent))
                    | _ => Scroll
                    end
    /\ forall z, e_position e <> PNone -> e_z e = Some z -> l_order l = z.
Proof.
  intros Hp Ha. destruct (apart_ok t parent e below Hp Ha) as (l & Hl & H1 & H2 & H3 & H4). exists l. unfold generate_layers. rewrite sort_perm.
  split_and!; [done|done|by rewrite H2, clamp01_ok| |].
  - rewrite H3. unfold anchor_of, sticky_constraint. by destruct (e_position e).
  - intros z Hz E. apply H4. unfold z_index. by destruct (e_position e).
Qed.
Print Assumptions C110_apart.

(** An element without a reason of its own stays with its parent. *)
Theorem C110_with_parent t p pbelow c cbelow :
  part_of (LNode p pbelow) t -> LNode c cbelow ∈ pbelow -> e_image p = false -> e_image c = false ->
  ~ apart c -> (e_position c = PNone \/ e_z c = None) ->
  exists l, l ∈ generate_layers t /\ p ∈ l_elements l /\ c ∈ l_elements l.
Proof.
  intros Hp Hc Ip Ic Ha Hz. destruct (with_parent_ok t p pbelow c cbelow Hp Hc Ip Ic Ha) as (l & H).
  { unfold z_index. destruct Hz as [-> | ->]; [done|by destruct (e_position c)]. }
  exists l. unfold generate_layers. by rewrite sort_perm.
Qed.
Print Assumptions C110_with_parent.

(** A [z-index] gives an element its level, unless something above it has its own reason or level. *)
Theorem C110_z_partial t e below z :
  open_part (LNode e below) t -> e_position e <> PNone -> e_z e = Some z ->
  exists l, l ∈ generate_layers t /\ head (l_elements l) = Some e /\ l_order l = z.
Proof.
  intros Hp Hn Hz. destruct (z_ok t e below z Hp) as (l & H); [unfold z_index; by destruct (e_position e)|].
  exists l. unfold generate_layers. by rewrite sort_perm.
Qed.
Print Assumptions C110_z_partial.

Definition box : rect := mk_rect 0 0 10 10.
Definition some_element (id : N) (opacity : Q) (pos : position) (z : option Z) (image : bool) : element :=
  mk_element id opacity pos z image None None box box box.
Definition ids (ls : layers) : list (list N) := (fun l => e_id <$> l_elements l) <$> ls.
Example C110_example :
  let e1 := some_element 1 1 PNone None false in
  let e2 := some_element 2 1 PRelative (Some (-1)%Z) false in
  let e3 := some_element 3 (1#2) PNone None false in
  let e4 := some_element 4 1 PNone None true in
  let e5 := some_element 5 1 PFixed None false in
  let e6 := some_element 6 1 PNone None false in
  let t := LNode e1 [LNode e2 [LNode e6 []]; LNode e3 [LNode e4 []; LNode e5 []]; LNode e4 []; LNode e6 []] in
  ids (generate_layers t) = [[2; 6]; [1; 6]; [3; 4]; [5]; [4]]%N
  /\ apart e3 /\ apart e5 /\ part_with_parent None t (Some box) (LNode e5 []) /\ open_part (LNode e2 [LNode e6 []]) t.
Proof.
  cbn zeta. split_and!; [done|by left|by right; left| |].
  - eapply part_in; [by right; left|]. eapply part_in; [by right; left|]. apply part_here.
  - eapply open_below; [|done|by left|apply open_self]. intros [K|[K|K]]; done.
Qed.

(** What is inside a fixed element and fades a little scrolls with the page. *)
Theorem C110_fixed_refuted :
  ~ forall t e below u, part_of (LNode e below) t -> e_position e = PFixed -> u ∈ mjoin (document_order <$> below) -> e_position u = PNone ->
      exists l, l ∈ generate_layers t /\ u ∈ l_elements l /\ l_anchor l = Fixed.
Proof.
  intros K. set (e1 := some_element 1 1 PNone None false). set (e2 := some_element 2 1 PFixed None false). set (e3 := some_element 3 (1#2) PNone None false).
  destruct (K (LNode e1 [LNode e2 [LNode e3 []]]) e2 [LNode e3 []] e3) as (l & Hl & Hu & Ha); [|done|by left|done|].
  { eapply part_below; [by left|]. constructor. }
  change (generate_layers _) with [mk_layer 0 1 Scroll [e1]; mk_layer 0 1 Fixed [e2]; mk_layer 0 (1#2) Scroll [e3]] in Hl.
  repeat (apply elem_of_cons in Hl as [->|Hl]; [cbn in *; (done || (apply elem_of_list_singleton in Hu; done))|]). by apply elem_of_nil in Hl.
Qed.
Print Assumptions C110_fixed_refuted.

(** Opacities do not multiply: an element that fades in one that fades only has its own opacity. *)
Theorem C110_opacity_refuted :
  ~ forall t e below u ubelow, part_of (LNode e below) t -> LNode u ubelow ∈ below -> 0 <= e_opacity e <= 1 -> 0 <= e_opacity u <= 1 ->
      exists l, l ∈ generate_layers t /\ u ∈ l_elements l /\ l_opacity l <= e_opacity e.
Proof.
  intros K. set (e1 := some_element 1 1 PNone None false). set (e2 := some_element 2 (1#10) PNone None false). set (e3 := some_element 3 (1#2) PNone None false).
  destruct (K (LNode e1 [LNode e2 [LNode e3 []]]) e2 [LNode e3 []] e3 []) as (l & Hl & Hu & Ha); [|by left|cbn; lra|cbn; lra|].
  { eapply part_below; [by left|]. constructor. }
  change (generate_layers _) with [mk_layer 0 1 Scroll [e1]; mk_layer 0 (1#10) Scroll [e2]; mk_layer 0 (1#2) Scroll [e3]] in Hl.
  apply elem_of_cons in Hl as [->|Hl]; [by apply elem_of_list_singleton in Hu|]. apply elem_of_cons in Hl as [->|Hl]; [by apply elem_of_list_singleton in Hu|].
  apply elem_of_list_singleton in Hl as ->. cbn in Ha. lra.
Qed.
Print Assumptions C110_opacity_refuted.

(** In a group, a [z-index] does not count; and one in a group counts outside of it, if its element also fades. *)
Definition painted_ids (t : ltree) : list N := e_id ∘ snd <$> painted (generate_layers t).
Theorem C110_z_inside_refuted :
  ~ forall e u v z z', e_position u = PRelative -> e_position v = PRelative -> e_z u = Some z -> e_z v = Some z' -> (z' < z)%Z ->
      exists b m a, painted_ids (LNode e [LNode u []; LNode v []]) = b ++ e_id v :: m ++ e_id u :: a.
Proof.
  intros K. set (e1 := some_element 1 (1#2) PNone None false). set (e2 := some_element 2 1 PRelative (Some 5%Z) false). set (e3 := some_element 3 1 PRelative (Some 1%Z) false).
  destruct (K e1 e2 e3 5%Z 1%Z) as (b & m & a & E); try done. vm_compute in E.
  destruct b as [|? [|? [|? b]]]; simplify_eq/=. destruct m; done. destruct b; done.
Qed.
Print Assumptions C110_z_inside_refuted.
Theorem C110_z_outside_refuted :
  ~ forall e u c v z z' w, e_position u = PRelative -> e_position v = PRelative -> e_z u = Some z -> e_z v = Some z' -> (z < z')%Z ->
      e_z c = Some w ->
      exists b m a, painted_ids (LNode e [LNode u [LNode c []]; LNode v []]) = b ++ e_id c :: m ++ e_id v :: a.
Proof.
  intros K. set (e1 := some_element 1 1 PNone None false). set (e2 := some_element 2 1 PRelative (Some 1%Z) false).
  set (e3 := some_element 3 (1#2) PRelative (Some 9%Z) false). set (e4 := some_element 4 1 PRelative (Some 2%Z) false).
  destruct (K e1 e2 e3 e4 1%Z 2%Z 9%Z) as (b & m & a & E); try done. vm_compute in E.
  destruct b as [|? [|? [|? [|? b]]]]; simplify_eq/=. destruct m; done. destruct b; done.
Qed.
Print Assumptions C110_z_outside_refuted.
(** An image is painted over everything of its level that comes after it in the document. *)
Theorem C110_image_refuted :
  ~ forall e u v, ~ apart e -> ~ apart u -> ~ apart v -> z_index e = None -> z_index u = None -> z_index v = None ->
      painted_ids (LNode e [LNode u []; LNode v []]) = [e_id e; e_id u; e_id v].
Proof.
  intros K. specialize (K (some_element 1 1 PNone None false) (some_element 2 1 PNone None true) (some_element 3 1 PNone None false)).
  vm_compute in K. refine (_ (K _ _ _ eq_refl eq_refl eq_refl)); [done|..]; intros [?|[?|?]]; done.
Qed.
Print Assumptions C110_image_refuted.

(** ** C111: the element that is hit is the one painted last at that point of the screen *)
Theorem C111_hit ls x y scroll_x scroll_y :
  match find_element_at x y scroll_x scroll_y ls with
  | Some e => exists before a after, painted ls = before ++ (a, e) :: after
      /\ covers x y scroll_x scroll_y (a, e) /\ Forall (fun p => ~ covers x y scroll_x scroll_y p) after
  | None => Forall (fun p => ~ covers x y scroll_x scroll_y p) (painted ls)
  end.
Proof. apply hit_ok. Qed.
Print Assumptions C111_hit.
Example C111_example :
  let t := LNode (some_element 1 1 PNone None false) [LNode (some_element 2 1 PFixed None false) []; LNode (some_element 3 1 PRelative (Some (-1)%Z) false) []] in
  let at_ := fun x y sx sy => e_id <$> find_element_at x y sx sy (generate_layers t) in
  at_ 5 5 0 0 = Some 2%N /\ at_ 5 (-5) 0 10 = Some 1%N /\ at_ 20 20 0 0 = None /\ at_ 5 5 0 100 = Some 2%N.
Proof. done. Qed.
(** A point in the margin of an element hits it, although nothing of it is there. *)
Theorem C111_margin_refuted :
  ~ forall t x y e, find_element_at x y 0 0 (generate_layers t) = Some e -> in_rect (e_border e) x y.
Proof.
  intros K. specialize (K (LNode (mk_element 1 1 PNone None false None None (mk_rect 0 0 30 30) (mk_rect 10 10 10 10) (mk_rect 10 10 10 10)) []) 5 5).
  destruct (K _ eq_refl) as (H & _). cbn in H. lra.
Qed.
Print Assumptions C111_margin_refuted.

(** ** C112: tiles *)
(** Every point of the page is in exactly one tile of the first layer, and every point of an element on the page is in
    exactly one tile of the layer of the element. *)
Theorem C112_cover page_w page_h tile_w tile_h first es x y :
  0 < tile_w -> 0 < tile_h -> 0 <= x < page_w -> 0 <= y < page_h ->
  (first = true \/ exists e, e ∈ es /\ in_rect (e_margin e) x y) ->
  exists t, tile_for (layer_tiles first page_w page_h tile_w tile_h es) x y t.
Proof.
  intros H1 H2 [H3 H4] [H5 H6] [->|(e & He & Hin)]; [by apply cover_first|by eapply cover_element].
Qed.
Print Assumptions C112_cover.

(** This tile has the element, once for each time it is in the layer, and the piece of it there is what tile and element
    have in common. *)
Theorem C112_pieces page_w page_h tile_w tile_h first es e x y t :
  e ∈ es -> in_rect (e_margin e) x y -> tile_for (layer_tiles first page_w page_h tile_w tile_h es) x y t ->
  exists p, p ∈ t_pieces t /\ p_element p = e
    /\ in_rect (mk_rect (rx (t_rect t) + p_x p) (ry (t_rect t) + p_y p) (rw (p_rect p)) (rh (p_rect p))) x y.
Proof.
  intros He Hin (Hx & b & a & E & _). assert (t ∈ layer_tiles first page_w page_h tile_w tile_h es) as Ht by (rewrite E; apply elem_of_app; right; left).
  rewrite (tile_is _ _ _ _ _ _ _ Ht). exists (piece_of (t_rect t) e). split; [|split; [done|]].
  - apply elem_of_list_fmap_1, elem_of_list_filter. split; [by eapply both_touch|done].
  - apply (piece_ok (t_rect t) e _ eq_refl). done.
Qed.
Print Assumptions C112_pieces.
Theorem C112_piece page_w page_h tile_w tile_h first es t p :
  t ∈ layer_tiles first page_w page_h tile_w tile_h es -> p ∈ t_pieces t ->
  p_element p ∈ es
  /\ rx (t_rect t) + p_x p == rx (e_margin (p_element p)) + rx (p_rect p)
  /\ ry (t_rect t) + p_y p == ry (e_margin (p_element p)) + ry (p_rect p)
  /\ forall x y, in_rect (mk_rect (rx (t_rect t) + p_x p) (ry (t_rect t) + p_y p) (rw (p_rect p)) (rh (p_rect p))) x y
       <-> in_rect (t_rect t) x y /\ in_rect (e_margin (p_element p)) x y.
Proof.
  intros Ht. rewrite (tile_is _ _ _ _ _ _ _ Ht). intros (e & -> & [_ He]%elem_of_list_filter)%elem_of_list_fmap.
  destruct (piece_ok (t_rect t) e _ eq_refl) as (H1 & [H2 H3] & H4). by split_and!.
Qed.
Print Assumptions C112_piece.
(** In a tile, elements are painted in the order of the layer. *)
Theorem C112_order page_w page_h tile_w tile_h first es t :
  t ∈ layer_tiles first page_w page_h tile_w tile_h es -> p_element <$> t_pieces t `sublist_of` es.
Proof.
  intros Ht. rewrite (tile_is _ _ _ _ _ _ _ Ht), <- list_fmap_compose. rewrite (list_fmap_ext _ id), list_fmap_id; [|done].
  clear Ht. induction es as [|e es IH]; [done|]. rewrite filter_cons. destruct (decide _); by constructor.
Qed.
Print Assumptions C112_order.
(** All layers are tiled in this way. *)
Theorem C112_layers page_w page_h tile_w tile_h ls i l :
  0 < tile_w -> 0 < tile_h -> ls !! i = Some l ->
  generate_tiles page_w page_h tile_w tile_h ls !! i = Some (layer_tiles (Nat.eqb i 0) page_w page_h tile_w tile_h (l_elements l)).
Proof.
  intros H1 H2 E. unfold generate_tiles. destruct (Qeq_bool tile_w 0) eqn:E1; [apply Qeq_bool_iff in E1; lra|].
  destruct (Qeq_bool tile_h 0) eqn:E2; [apply Qeq_bool_iff in E2; lra|]. cbn [orb]. by rewrite list_lookup_imap, E.
Qed.
Print Assumptions C112_layers.
(** The element in the middle of four tiles, from the comment in the code. *)
Example C112_example :
  let e := mk_element 67 1 PNone None false None None (mk_rect 50 25 100 50) box box in
  let ts := layer_tiles false 200 100 100 50 [e] in
  length ts = 4%nat
  /\ Forall (fun t => length (t_pieces t) = 1%nat) ts
  /\ (forall x y, in_rect (e_margin e) x y -> 0 <= x < 200 /\ 0 <= y < 100)
  /\ Forall2 (fun t '(x, y, (px, py)) => Forall (fun p => rx (p_rect p) == x /\ ry (p_rect p) == y /\ rw (p_rect p) == 50 /\ rh (p_rect p) == 25 /\ p_x p == px /\ p_y p == py) (t_pieces t))
       ts [(0, 0, (50, 25)); (50, 0, (0, 25)); (0, 25, (50, 0)); (50, 25, (0, 0))].
Proof.
  cbv zeta. split_and!; [done|by repeat constructor| |].
  - intros x y (A & B & C & D). cbn in *. lra.
  - repeat constructor.
Qed.

(** What sticks out of the page, which is the box of the root, is in no tile. *)
Theorem C112_outside_refuted :
  ~ forall page_w page_h tile_w tile_h es e x y,
      0 < tile_w -> 0 < tile_h -> 0 <= x -> 0 <= y -> e ∈ es -> in_rect (e_margin e) x y ->
      exists t, t ∈ layer_tiles false page_w page_h tile_w tile_h es /\ in_rect (t_rect t) x y.
Proof.
  intros K. set (e := mk_element 1 1 PAbsolute None false None None (mk_rect 0 150 10 10) box box).
  destruct (K 100 100 50 50 [e] e 5 155) as (t & Ht & _); cbn; try lra; [by left|repeat split; cbn; lra|].
  change (layer_tiles _ _ _ _ _ _) with (@nil tile) in Ht. by apply elem_of_nil in Ht.
Qed.
Print Assumptions C112_outside_refuted.
(** With a negative margin an element has less room than it paints: the rest is missing in the tiles around. *)
Theorem C112_border_refuted :
  ~ forall page_w page_h tile_w tile_h es e x y t,
      0 < tile_w -> 0 < tile_h -> 0 <= x < page_w -> 0 <= y < page_h -> e ∈ es -> in_rect (e_border e) x y ->
      tile_for (layer_tiles true page_w page_h tile_w tile_h es) x y t -> e ∈ p_element <$> t_pieces t.
Proof.
  intros K. set (e := mk_element 1 1 PNone None false None None (mk_rect 0 0 20 20) (mk_rect 0 0 80 20) box).
  destruct (cover_first 100 100 50 50 ltac:(lra) ltac:(lra) [e] 60 5) as (t & Ht); try lra.
  specialize (K 100 100 50 50 [e] e 60 5 t). assert (e ∈ p_element <$> t_pieces t) as H.
  { apply K; cbn; try lra; [by left|repeat split; cbn; lra|done]. }
  destruct Ht as (Hin & b & a & Et & _). assert (t ∈ layer_tiles true 100 100 50 50 [e]) as Ht by (rewrite Et; apply elem_of_app; right; left).
  rewrite (tile_is _ _ _ _ _ _ _ Ht) in H.
  apply elem_of_list_fmap in H as (p & _ & (e' & _ & [Hc He]%elem_of_list_filter)%elem_of_list_fmap).
  apply elem_of_list_singleton in He as ->. destruct Hin as (H1 & H2 & _).
  destruct (grid true 100 100 50 50 [e]) as [[[[r0 r1] c0] c1]|] eqn:E; [|done].
  eapply in_tiles in Ht as (yy & xx & _ & _ & ->); [|exact E]. cbn in H1, H2.
  unfold touches in Hc. apply andb_true_iff in Hc as [Hc _]. apply Qle_bool_iff in Hc. cbn in Hc.
  pose proof (Q.le_max_l (inject_Z (Z.of_nat xx) * 50) (Qmin 0 (0 + 20))) as M1.
  pose proof (Q.le_min_r (inject_Z (Z.of_nat xx) * 50 + 50) (Qmax 0 (0 + 20))) as M2.
  change (Qmax 0 (0 + 20)) with 20 in M2, Hc.
  assert (inject_Z (Z.of_nat xx) * 50 <= 20) as B by (eapply Qle_trans; [exact M1|]; eapply Qle_trans; [exact Hc|exact M2]).
  assert (inject_Z 0 < inject_Z (Z.of_nat xx)) as B1 by (change (inject_Z 0) with 0; lra).
  apply inject_lt in B1. assert (1 <= inject_Z (Z.of_nat xx)) by (change 1 with (inject_Z 1); rewrite <- Zle_Qle; lia). lra.
Qed.
Print Assumptions C112_border_refuted.

(** ** C113: sticky elements *)
(** A sticky element is never moved against the scrolling, does not leave the content box of its parent, is where the
    page has it as long as that is past the inset, and otherwise rests at the inset, unless it is at the end of its parent. *)
Theorem C113_sticky edge natural size cage cage_size scroll :
  let d := slide (Some edge) natural size cage cage_size scroll in
  0 <= d
  /\ (natural + size <= cage + cage_size -> natural + d + size <= cage + cage_size)
  /\ (edge <= natural - scroll -> d == 0)
  /\ (edge <= natural - scroll + d \/ cage + cage_size <= natural + d + size).
Proof. apply slide_ok. Qed.
Print Assumptions C113_sticky.
(** When the page is scrolled on, it moves neither ahead on the page nor back on the screen. *)
Theorem C113_monotone i natural size cage cage_size scroll scroll' :
  scroll <= scroll' ->
  slide i natural size cage cage_size scroll <= slide i natural size cage cage_size scroll'
  /\ natural - scroll' + slide i natural size cage cage_size scroll' <= natural - scroll + slide i natural size cage cage_size scroll.
Proof. apply slide_mono. Qed.
Print Assumptions C113_monotone.
(** Both directions, as tiles are placed. *)
Theorem C113_placed c x y scroll_x scroll_y :
  exists dx dy, anchored_tile_pos x y scroll_x scroll_y (Sticky c) = (x - scroll_x + dx, y - scroll_y + dy)
    /\ dx = slide (inset_left c) (rx (natural c)) (rw (natural c)) (rx (cage c)) (rw (cage c)) scroll_x
    /\ dy = slide (inset_top c) (ry (natural c)) (rh (natural c)) (ry (cage c)) (rh (cage c)) scroll_y
    /\ (inset_left c = None -> dx = 0) /\ (inset_top c = None -> dy = 0).
Proof. do 2 eexists. split; [done|]. split_and!; try done; by intros ->. Qed.
Print Assumptions C113_placed.
Example C113_example :
  slide (Some 10) 100 20 0 300 50 == 0 /\ slide (Some 10) 100 20 0 300 150 == 60 /\ slide (Some 10) 100 20 0 300 999 == 180.
Proof. repeat split. Qed.
