(** Proofs about the boxes of a table's cells on the page. *)
From Coq Require Import QArith Qround Lqa.
From Verif Require Import Base LatticeModel LatticeSpec LatticeProofs.
From stdpp Require Import numbers option list.
Local Open Scope nat_scope.

(** * Lines *)

Lemma line_edge start sizes s i :
  i <= length sizes -> (line start sizes s i == edge start sizes s i)%Q.
Proof.
  revert start sizes. induction i as [|i IH]; intros start sizes Hi.
  - replace (line start sizes s 0) with start by (by destruct sizes). unfold edge. rewrite take_0, qsum_nil, qnat_0. lra.
  - destruct sizes as [|z sizes]; cbn in Hi; [lia|]. cbn [line]. rewrite IH by lia.
    unfold edge. cbn [take]. rewrite qsum_cons, qnat_S. lra.
Qed.

Lemma stacked_height hs s : (stacked hs s == section_height hs s)%Q.
Proof.
  destruct hs as [|z hs].
  - cbn. unfold section_height. cbn. rewrite qnat_0. lra.
  - unfold stacked. rewrite line_edge by done. unfold section_height, edge.
    rewrite take_ge by done. cbn [length]. replace (S (length hs) - 1) with (length hs) by lia.
    rewrite qnat_S. lra.
Qed.

Lemma stack_edge sy gs gy k gyk e :
  stack sy gs gy !! k = Some (gyk, e) ->
  (gyk == edge gy (map (fun e => section_height (snd e) sy) gs) sy k)%Q.
Proof.
  revert gy k. induction gs as [|e' gs IH]; intros gy [|k] H; try done.
  - cbn in H. injection H as -> ->. unfold edge. rewrite take_0, qsum_nil, qnat_0. lra.
  - cbn in H. apply IH in H. rewrite H. unfold edge. cbn [map take]. rewrite qsum_cons, qnat_S. lra.
Qed.

Lemma edge_ext start start' l l' s i :
  (start == start')%Q -> Forall2 Qeq l l' -> (edge start l s i == edge start' l' s i)%Q.
Proof.
  intros Hs F. unfold edge. rewrite Hs.
  assert (forall l l', Forall2 Qeq l l' -> forall i, (qsum (take i l) == qsum (take i l'))%Q) as Ht.
  { clear. induction 1 as [|x y l l' Hx F IH]; intros [|i]; try done. cbn [take].
    rewrite !qsum_cons, Hx, IH. done. }
  rewrite (Ht l l' F i). done.
Qed.

Lemma edge_start a start l s i : (edge (a + start) l s i == a + edge start l s i)%Q.
Proof. unfold edge. lra. Qed.

Lemma edge_zero start l s i : (edge start l s i == start + edge 0 l s i)%Q.
Proof. unfold edge. lra. Qed.

Lemma edge_last hs s :
  hs <> [] -> (edge 0 hs s (length hs) == section_height hs s + s)%Q.
Proof.
  intros Hne. rewrite <- line_edge by done. rewrite <- stacked_height. destruct hs; [done|].
  unfold stacked. lra.
Qed.

(** * Two cells *)

Section two.
Context (limit : nat) (t : tree) (table : nat) (available : Q).
Context (log : layouts) (W H : Q) (grids : list grid) (ws : list Q) (hss : list (list Q)).
Context (HF : facts limit t table available log W H grids ws hss).
Context (HP : proper t) (HE : explicit_structure t table).
Context (X Y : Q).
Let sx := px_or (css t table BorderSpacingX) 2.
Let sy := px_or (css t table BorderSpacingY) 2.
Context (Hsx : (0 <= sx)%Q) (Hsy : (0 <= sy)%Q) (Hc : forall n, (0 <= content_width t n)%Q).
Let gs := zip (zip (all_groups t table) grids) hss.

Lemma ws_nonneg : Forall (fun x => (0 <= x)%Q) ws.
Proof.
  eapply (columns_facts t (length ws) W sx grids ws); [apply HF| |done|apply HF].
  rewrite (f_cols _ _ _ _ _ _ _ _ _ _ HF). eapply grids_cols. apply (f_sections _ _ _ _ _ _ _ _ _ _ HF).
Qed.

Lemma gs_sound : Forall sound_entry gs.
Proof.
  apply Forall_forall. intros [[grp g] hs] Hin. apply elem_of_list_lookup in Hin as [k Hk].
  destruct (stack_lookup sy gs sy k _ Hk) as [gy Hst].
  destruct (entry_heights limit t table available log W H grids ws hss HF HE _ _ _ _ _ Hst) as (_ & _ & F).
  exact F.
Qed.

Lemma gs_heights : map (fun e : row_group * grid * list Q => section_height (snd e) sy) gs
  = map (fun hs => section_height hs sy) hss.
Proof.
  unfold gs. pose proof (f_sections _ _ _ _ _ _ _ _ _ _ HF) as Hs. unfold sections in Hs. apply map_res_Ok in Hs.
  apply Forall2_length in Hs. fold (all_groups t table) in Hs.
  pose proof (Forall2_length _ _ _ (f_heights _ _ _ _ _ _ _ _ _ _ HF)) as Hl.
  revert Hs Hl. generalize (all_groups t table) grids hss sy. clear. intros l g h s Hs Hl.
  revert g h Hs Hl.
  induction l as [|x l IH]; intros [|y g] [|z h] Hs Hl; try done. cbn in *. f_equal. apply IH; lia.
Qed.

Lemma top_line k gy grp g hs :
  stack sy gs sy !! k = Some (gy, (grp, g, hs)) ->
  (line (Y + sy) (map (fun hs => stacked hs sy) hss) sy k == Y + gy)%Q.
Proof.
  intros Hk. destruct (entry_parts limit t table available log W H grids ws hss HF HE _ _ _ _ _ Hk)
    as (gn & _ & _ & _ & _ & Hg & Hhs & _).
  rewrite line_edge by (rewrite map_length; apply lookup_lt_Some in Hhs; lia).
  rewrite edge_start. rewrite (stack_edge _ _ _ _ _ _ Hk), gs_heights.
  rewrite (edge_ext sy sy (map (fun hs => section_height hs sy) hss) (map (fun hs => stacked hs sy) hss)).
  - done.
  - done.
  - clear. induction hss as [|x l IH]; cbn; constructor; [by rewrite stacked_height|done].
Qed.

Lemma box_fills c r :
  good_box t table grids ws hss X Y c r ->
  exists k g hs p,
    grids !! k = Some g /\ hss !! k = Some hs /\ p ∈ g_cells g /\ p_node p = c
    /\ fills r p (X + sx) (line (Y + sy) (map (fun hs => stacked hs sy) hss) sy k) ws hs sx sy.
Proof.
  intros (k & gy & grp & g & hs & p & Hk & Hp & Hn & Ex & Ey & Ew & Eh). fold sx sy gs in Hk, Ex, Ey, Ew, Eh.
  destruct (entry_parts limit t table available log W H grids ws hss HF HE _ _ _ _ _ Hk)
    as (gn & _ & _ & _ & _ & Hg & Hhs & _).
  destruct (cell_in_columns limit t table available log W H grids ws hss HF HE _ _ _ _ _ _ Hk Hp)
    as (C1 & C2 & C3 & C4).
  exists k, g, hs, p. repeat split; [done..| | | |].
  - rewrite line_edge by lia. rewrite Ex, edge_start. done.
  - rewrite line_edge by lia. rewrite Ex, Ew, edge_start.
    pose proof (edge_span sx ws sx (p_col p) (p_colspan p) C1 C2). lra.
  - rewrite line_edge by lia. rewrite edge_zero, (top_line _ _ _ _ _ Hk). rewrite Ey. done.
  - rewrite line_edge by lia. rewrite edge_zero, (top_line _ _ _ _ _ Hk). rewrite Ey, Eh.
    pose proof (edge_span 0 hs sy (p_row p) (p_rowspan p) C3 C4). lra.
Qed.

Lemma boxes_disjoint c1 r1 c2 r2 :
  Forall (fun g => no_overlap (g_cells g)) grids ->
  good_box t table grids ws hss X Y c1 r1 -> good_box t table grids ws hss X Y c2 r2 ->
  c1 <> c2 -> apart r1 r2.
Proof.
  intros Hno (k & gy & grp & g & hs & p & Hk & Hp & Hn & Ex & Ey & Ew & Eh)
    (k' & gy' & grp' & g' & hs' & p' & Hk' & Hp' & Hn' & Ex' & Ey' & Ew' & Eh') Hne.
  fold sx sy gs in Hk, Ex, Ey, Ew, Eh, Hk', Ex', Ey', Ew', Eh'.
  destruct (cell_in_columns limit t table available log W H grids ws hss HF HE _ _ _ _ _ _ Hk Hp)
    as (C1 & C2 & C3 & C4).
  destruct (cell_in_columns limit t table available log W H grids ws hss HF HE _ _ _ _ _ _ Hk' Hp')
    as (C1' & C2' & C3' & C4').
  pose proof (edge_span sx ws sx (p_col p) (p_colspan p) C1 C2) as S1.
  pose proof (edge_span 0 hs sy (p_row p) (p_rowspan p) C3 C4) as S2.
  pose proof (edge_span sx ws sx (p_col p') (p_colspan p') C1' C2') as S1'.
  pose proof (edge_span 0 hs' sy (p_row p') (p_rowspan p') C3' C4') as S2'.
  destruct (entry_heights limit t table available log W H grids ws hss HF HE _ _ _ _ _ Hk) as (_ & _ & F).
  destruct (entry_heights limit t table available log W H grids ws hss HF HE _ _ _ _ _ Hk') as (_ & _ & F').
  rewrite <- Ew in S1. rewrite <- Eh in S2. rewrite <- Ew' in S1'. rewrite <- Eh' in S2'.
  unfold apart.
  assert (forall (h0 : list Q) a, a <= length h0 -> 1 <= a -> Forall (fun x => (0 <= x)%Q) h0 ->
            (edge 0 h0 sy a <= section_height h0 sy + sy)%Q) as Hlast.
  { intros h0 a Ha Ha1 F0. rewrite <- edge_last by (destruct h0; [cbn in Ha; lia|done]).
    apply edge_le; [done|done|lia]. }
  destruct (Nat.lt_trichotomy k k') as [L|[<-|L]].
  - right. right. left. pose proof (stack_below sy gs sy k k' _ _ _ _ Hsy gs_sound L Hk Hk') as B. cbn [snd] in B.
    pose proof (Hlast hs (p_row p + p_rowspan p) C3 ltac:(lia) F) as B1.
    pose proof (edge_le 0 hs' sy 0 (p_row p') F' Hsy ltac:(lia)) as B2.
    unfold edge at 1 in B2. rewrite take_0, qsum_nil, qnat_0 in B2. lra.
  - rewrite Hk in Hk'. injection Hk' as <- <- <- <-.
    destruct (entry_parts limit t table available log W H grids ws hss HF HE _ _ _ _ _ Hk)
      as (gn & _ & _ & _ & _ & Hg & _).
    rewrite Forall_forall in Hno. specialize (Hno g ltac:(by eapply elem_of_list_lookup_2)).
    apply elem_of_list_lookup in Hp as [i Hi]. apply elem_of_list_lookup in Hp' as [j Hj].
    assert (p_col p + p_colspan p <= p_col p' \/ p_col p' + p_colspan p' <= p_col p
            \/ p_row p + p_rowspan p <= p_row p' \/ p_row p' + p_rowspan p' <= p_row p) as Hd.
    { destruct (decide (p_col p + p_colspan p <= p_col p')) as [?|N1]; [lia|].
      destruct (decide (p_col p' + p_colspan p' <= p_col p)) as [?|N2]; [lia|].
      destruct (decide (p_row p + p_rowspan p <= p_row p')) as [?|N3]; [lia|].
      destruct (decide (p_row p' + p_rowspan p' <= p_row p)) as [?|N4]; [lia|].
      exfalso. assert (i = j) as <-.
      { apply (Hno i j p p' (Nat.max (p_row p) (p_row p')) (Nat.max (p_col p) (p_col p')) Hi Hj);
          unfold covers; lia. }
      rewrite Hi in Hj. injection Hj as <-. congruence. }
    destruct Hd as [L|[L|[L|L]]].
    + left. pose proof (edge_le sx ws sx _ _ ws_nonneg Hsx L). lra.
    + right. left. pose proof (edge_le sx ws sx _ _ ws_nonneg Hsx L). lra.
    + right. right. left. pose proof (edge_le 0 hs sy _ _ F Hsy L). lra.
    + right. right. right. pose proof (edge_le 0 hs sy _ _ F Hsy L). lra.
  - right. right. right. pose proof (stack_below sy gs sy k' k _ _ _ _ Hsy gs_sound L Hk' Hk) as B. cbn [snd] in B.
    pose proof (Hlast hs' (p_row p' + p_rowspan p') C3' ltac:(lia) F') as B1.
    pose proof (edge_le 0 hs sy 0 (p_row p) F Hsy ltac:(lia)) as B2.
    unfold edge at 1 in B2. rewrite take_0, qsum_nil, qnat_0 in B2. lra.
Qed.

Lemma box_inside c r :
  good_box t table grids ws hss X Y c r ->
  (X + sx <= x0 r /\ x0 r + w r <= X + qsum ws + (qnat (length ws)) * sx
   /\ Y + sy <= y0 r /\ y0 r + h r <= Y + H - sy)%Q.
Proof.
  intros (k & gy & grp & g & hs & p & Hk & Hp & Hn & Ex & Ey & Ew & Eh).
  fold sx sy gs in Hk, Ex, Ey, Ew, Eh.
  destruct (cell_in_columns limit t table available log W H grids ws hss HF HE _ _ _ _ _ _ Hk Hp)
    as (C1 & C2 & C3 & C4).
  pose proof (edge_span sx ws sx (p_col p) (p_colspan p) C1 C2) as S1.
  pose proof (edge_span 0 hs sy (p_row p) (p_rowspan p) C3 C4) as S2.
  rewrite <- Ew in S1. rewrite <- Eh in S2.
  destruct (entry_heights limit t table available log W H grids ws hss HF HE _ _ _ _ _ Hk) as (_ & _ & F).
  pose proof (edge_le sx ws sx 0 (p_col p) ws_nonneg Hsx ltac:(lia)) as B1.
  pose proof (edge_le sx ws sx (p_col p + p_colspan p) (length ws) ws_nonneg Hsx C1) as B2.
  pose proof (edge_le 0 hs sy 0 (p_row p) F Hsy ltac:(lia)) as B3.
  pose proof (edge_le 0 hs sy (p_row p + p_rowspan p) (length hs) F Hsy C3) as B4.
  rewrite edge_last in B4 by (destruct hs; [cbn in C3; lia|done]).
  unfold edge at 1 in B1. unfold edge at 2 in B2. unfold edge at 1 in B3.
  rewrite take_0, qsum_nil, qnat_0 in B1, B3. rewrite take_ge in B2 by done.
  pose proof (stack_from sy gs sy _ _ _ Hsy gs_sound Hk) as B5.
  destruct (f_groups _ _ _ _ _ _ _ _ _ _ HF) as [inner Hg]. fold sx sy gs in Hg.
  pose proof (stack_bottom t _ _ _ _ _ _ _ _ _ _ _ _ Hg Hsy gs_sound Hk) as B6. cbn [snd] in B6.
  repeat split; lra.
Qed.
End two.

(** * Bigger memory changes nothing *)

Lemma place_all_mono limit limit' rows row todo slots acc out :
  limit <= limit' ->
  place_all limit rows row todo slots acc = Ok out -> place_all limit' rows row todo slots acc = Ok out.
Proof.
  intros Hl. revert row slots acc. induction todo as [|r todo IH]; intros row slots acc; cbn [place_all]; [done|].
  intros H. apply rbind_Ok in H as ((s & a) & H1 & H).
  assert (forall cells slots cur acc out,
    place_cells limit rows row cells slots cur acc = Ok out ->
    place_cells limit' rows row cells slots cur acc = Ok out) as Hm.
  { clear -Hl. induction cells as [|c cells IHc]; intros slots cur acc out; cbn [place_cells]; [done|].
    intros H. apply rbind_Ok in H as (s & Hg & H).
    assert (grow_slots limit' slots (next_free_col slots cur + Nat.max (s_colspan c) 1) = Ok s) as ->.
    { unfold grow_slots in *. case_match; [done|]. case_match eqn:E; [done|].
      apply Nat.ltb_ge in E. rewrite (proj2 (Nat.ltb_ge limit' _)) by lia. done. }
    cbn [rbind]. by apply IHc. }
  rewrite (Hm _ _ _ _ _ H1). cbn [rbind]. by apply IH.
Qed.

Lemma grid_follows limit rows cells g :
  html_section rows cells -> Forall in_range (row_sources rows) -> no_overlap cells ->
  build_section_grid limit rows = Ok g ->
  g = mk_grid cells (extent cells) (length rows).
Proof.
  intros Hh Hin Hno Hg.
  assert (build_section_grid (Nat.max limit (extent cells)) rows = Ok g) as Hg'.
  { unfold build_section_grid in *. apply rbind_Ok in Hg as (out & H1 & H).
    rewrite (place_all_mono limit (Nat.max limit (extent cells)) _ _ _ _ _ _ ltac:(lia) H1). cbn [rbind]. done. }
  rewrite (grid_html (Nat.max limit (extent cells)) rows cells) in Hg' by (done || lia).
  by injection Hg' as <-.
Qed.

Lemma grid_no_overlap limit rows g :
  Forall in_range (row_sources rows) ->
  Forall (fun s => s_colspan s <= 1) (row_sources rows)
  \/ Forall (fun s => s_rowspan s = 1) (row_sources rows) ->
  build_section_grid limit rows = Ok g -> no_overlap (g_cells g).
Proof.
  intros Hin Hc Hg. destruct (html_rows_exists (length rows) rows 0 []) as [cells Hh].
  assert (no_overlap cells) as Hno.
  { assert (no_overlap []) as H0. { intros i j p q r c Hi. by rewrite lookup_nil in Hi. }
    destruct Hc as [Hc|Hc].
    - change cells with ([] ++ cells). eapply html_rows_narrow; [exact Hh|done|constructor|done].
    - change cells with ([] ++ cells). eapply html_rows_low; [exact Hh|lia|done| |done].
      intros p Hp. by apply elem_of_nil in Hp. }
  by rewrite (grid_follows limit rows cells g Hh Hin Hno Hg).
Qed.

(** * The columns fill the table *)

Lemma columns_fill t cols W s grids ws :
  cols <> 0 -> Forall (fun p => p_col p < cols) (first_row_cells grids) ->
  (forall n, (0 <= content_width t n)%Q) ->
  compute_column_widths t cols W s grids = Ok ws ->
  let cs := first_row_cells grids in
  (forall c v, c < cols -> specified t W cs c = Some v -> ws !! c = Some v)
  /\ ((exists c, c < cols /\ specified t W cs c = None) ->
      (W - (qnat cols + 1) * s <= qsum ws)%Q
      /\ ((qsum (map (needed t W cs) (seq 0 cols)) <= W - (qnat cols + 1) * s)%Q ->
          (qsum ws == W - (qnat cols + 1) * s)%Q)).
Proof.
  intros Hc F Hw H cs. rewrite columns_ok in H by done. injection H as <-. fold cs.
  set (pairs := map (fun c => (specified t W cs c, natural t cs c)) (seq 0 cols)).
  rewrite distribute_share. split.
  - intros c v Hcc Hv.
    rewrite list_lookup_fmap. unfold pairs. rewrite list_lookup_fmap, lookup_seq_lt by done. cbn. by rewrite Hv.
  - intros (c & Hcc & Hn). rewrite qsum_split.
    set (avail := (W - (qnat cols + 1) * s)%Q). set (fixed := qsum (omap fst pairs)).
    set (rem := qmax (qmax avail 0 - fixed) 0).
    assert (auto_naturals pairs <> []) as Hne.
    { intros E. assert (natural t cs c ∈ auto_naturals pairs) as Hin; [|rewrite E in Hin; by apply elem_of_nil in Hin].
      unfold auto_naturals. apply elem_of_list_In, in_flat_map. exists (None, natural t cs c). split; [|by left].
      unfold pairs. apply in_map_iff. exists c. rewrite Hn. split; [done|]. apply in_seq. lia. }
    destruct (shares_sum rem (auto_naturals pairs) ltac:(apply qmax_ge) Hne) as [S1 S2].
    destruct (qmax_ge avail 0) as [A1 A2]. destruct (qmax_ge (qmax avail 0 - fixed) 0) as [B1 B2]. fold rem in B1, B2.
    split; [lra|]. intros Hfit.
    assert (qsum (map (needed t W cs) (seq 0 cols))
            == fixed + qsum (map (fun n => qmax n narrow_floor) (auto_naturals pairs)))%Q as Eneed.
    { unfold fixed. rewrite <- (qsum_split (fun n => qmax n narrow_floor)). unfold pairs.
      rewrite map_map. unfold needed. cbn [fst snd]. done. }
    rewrite Eneed in Hfit.
    assert (0 <= qsum (map (fun n => qmax n narrow_floor) (auto_naturals pairs)))%Q as P1.
    { apply qsum_nonneg, Forall_fmap, Forall_forall. intros x _. cbn. destruct (qmax_ge x narrow_floor).
      unfold narrow_floor in *. lra. }
    assert (0 <= fixed)%Q as P2.
    { apply qsum_nonneg, Forall_forall. intros x Hx. apply elem_of_list_omap in Hx as ([v n] & Hp & E).
      cbn in E. subst v. unfold pairs in Hp. apply elem_of_list_In, in_map_iff in Hp as (c' & E & _).
      injection E as E _. by eapply specified_nonneg. }
    fold avail in Hfit.
    assert (rem == avail - fixed)%Q as Er.
    { assert (forall x, (0 <= x)%Q -> (qmax x 0 == x)%Q) as Hmax.
      { intros x Hx. destruct (qmax_ge x 0) as [Q1 Q2].
        destruct (qmax_cases x 0) as [E|E]; rewrite E in *; lra. }
      assert (0 <= avail)%Q as P3 by lra.
      unfold rem. rewrite Hmax; rewrite Hmax by done; lra. }
    rewrite S2 by lra. lra.
Qed.

(** * The sizes together *)

Lemma needs_wanted t ws p h :
  measured t -> p_col p + p_colspan p <= length ws -> needs_height t ws p h -> (wanted_height t ws p <= h)%Q.
Proof.
  intros [M1 M2] Hr [(inner & Ei & Hc) Hv]. unfold wanted_height. unfold slice. rewrite (proj2 (Nat.leb_le _ _)) by lia.
  unfold vertical, horizontal, read_border, read_padding. cbn [e_top e_bottom e_left e_right].
  set (inner' := qmax _ 0).
  assert (inner == inner')%Q as E. { rewrite Ei. unfold inner'. apply qmax_comp; lra. }
  pose proof (M1 (p_node p) _ _ E) as E1. pose proof (M2 (p_node p) inner') as E2.
  set (ex := match css t (p_node p) Height with Px px => px | _ => 0%Q end).
  destruct (qmax_cases (layout_cell t (p_node p) inner') ex) as [-> | ->]; [lra|].
  unfold ex. destruct (css t (p_node p) Height) as [|v| |]; [|specialize (Hv v eq_refl)| |]; lra.
Qed.

Lemma columns_right limit (groups : list row_group) t W s grids ws :
  map_res (fun g => build_section_grid limit (g_rows g)) groups = Ok grids ->
  (forall n, (0 <= content_width t n)%Q) ->
  length ws = fold_left Nat.max (map n_cols grids) 0 -> length ws <> 0 ->
  compute_column_widths t (length ws) W s grids = Ok ws ->
  widths_right t W s grids ws.
Proof.
  intros Hm Hw Hl Hn H.
  assert (Forall (fun p => p_col p < length ws) (first_row_cells grids)) as F.
  { rewrite Hl. by eapply grids_cols. }
  split. { by eapply (columns_facts t (length ws) W s grids ws). }
  intros cs Hcs n space needs.
  pose proof (columns_fill t (length ws) W s grids ws Hn F Hw H) as K. cbn zeta in K.
  rewrite (first_row_ok _ _ Hcs) in K. destruct K as [K1 K2]. split; [exact K1|]. split; [exact K2|].
  intros Hfit. destruct (decide (Exists (fun c => specified t W cs c = None) (seq 0 n))) as [E|E].
  - apply Exists_exists in E as (c & Hc & E). apply elem_of_seq in Hc.
    destruct K2 as [_ K2]; [exists c; split; [unfold n in *; lia|done]|]. rewrite (K2 Hfit). apply Qle_refl.
  - assert (ws = map (needed t W cs) (seq 0 n)) as Ews; [|unfold needs in Hfit; rewrite <- Ews in Hfit; done].
    apply list_eq. intros c. rewrite list_lookup_fmap. destruct (decide (c < n)) as [L|L].
    + rewrite lookup_seq_lt by done. cbn. destruct (specified t W cs c) as [v|] eqn:Ec.
      * rewrite (K1 c v L Ec). unfold needed. by rewrite Ec.
      * exfalso. apply E, Exists_exists. exists c. split; [apply elem_of_seq; lia|done].
    + rewrite lookup_seq_ge by lia. cbn. apply lookup_ge_None_2. unfold n in L. lia.
Qed.

Lemma rows_right limit t rows g ws hs :
  build_section_grid limit rows = Ok g -> n_cols g <= length ws ->
  compute_row_heights t g ws = Ok hs -> heights_right t ws g hs.
Proof.
  intros Hg Hc H. destruct (rows_facts t limit rows g ws Hg) as (hs' & H' & L & F & E & T).
  rewrite H in H'. injection H' as <-. split; [done|]. intros r y Hr. split.
  - intros p Hp Hpr Hs. destruct (grid_col _ _ _ _ Hg Hp) as (C & _). apply wanted_needs; [lia|].
    destruct (E p Hp Hs) as (y' & Hy' & Hle). rewrite Hpr, Hr in Hy'. by injection Hy' as <-.
  - intros y' HM Hy' Hall. destruct (T r y Hr) as [->|(p & Hp & Hs & Hpr & ->)]; [done|].
    destruct (grid_col _ _ _ _ Hg Hp) as (C & _). apply needs_wanted; [done|lia|]. by apply Hall.
Qed.

(** * The page *)

Section page.
Context (limit : nat) (t : tree) (table : nat) (available : Q).
Context (log : layouts) (W H : Q) (X Y : Q) (fuel : nat).
Context (HL : compute_table_layout limit t table available = Ok (log, (W, H))).
Context (HP : proper t) (HE : explicit_structure t table).
Let sx := px_or (css t table BorderSpacingX) 2.
Let sy := px_or (css t table BorderSpacingY) 2.
Context (Hc : forall n, (0 <= content_width t n)%Q).
Let boxes := apply_recursive fuel t log table X Y.

Lemma some_facts c r :
  (c, r) ∈ boxes ->
  exists grids ws hss, facts limit t table available log W H grids ws hss.
Proof.
  intros Hin. destruct (layout_facts _ _ _ _ _ _ _ HL) as [(-> & _)|(grids & ws & hss & HF)]; [|eauto].
  exfalso. unfold boxes in Hin. clear -Hin. revert table X Y Hin.
  induction fuel as [|f IH]; intros id X Y Hin; cbn in Hin; [by apply elem_of_nil in Hin|].
  apply elem_of_list_In, in_flat_map in Hin as (x & _ & Hx). apply elem_of_list_In in Hx. by eapply IH.
Qed.

Lemma facts_boxes grids ws hss c r :
  facts limit t table available log W H grids ws hss ->
  (c, r) ∈ boxes -> table_role t c = Cell -> good_box t table grids ws hss X Y c r.
Proof.
  intros HF Hin Hr. destruct (f_groups _ _ _ _ _ _ _ _ _ _ HF) as [inner HG].
  by eapply (boxes_good_table limit t table available log W H grids ws hss HF HP HE X Y inner HG fuel).
Qed.

Lemma apart_ok c1 r1 c2 r2 :
  (0 <= sx)%Q -> (0 <= sy)%Q ->
  (forall grids, sections limit t table grids -> Forall (fun g => no_overlap (g_cells g)) grids) ->
  (c1, r1) ∈ boxes -> table_role t c1 = Cell -> (c2, r2) ∈ boxes -> table_role t c2 = Cell ->
  c1 <> c2 -> apart r1 r2.
Proof.
  intros Hx Hy Hno H1 R1 H2 R2 Hne. destruct (some_facts _ _ H1) as (grids & ws & hss & HF).
  eapply (boxes_disjoint limit t table available log W H grids ws hss HF HE X Y Hx Hy Hc c1 r1 c2 r2); [| | |done].
  - apply Hno, HF.
  - by apply facts_boxes.
  - by apply facts_boxes.
Qed.

Lemma sections_cols grids g :
  sections limit t table grids -> g ∈ grids -> n_cols g <= fold_left Nat.max (map n_cols grids) 0.
Proof.
  intros _ Hg. assert (forall l a, a <= fold_left Nat.max l a /\ forall x, x ∈ l -> x <= fold_left Nat.max l a) as K.
  { clear. induction l as [|y l IH]; intros a; cbn; [split; [done|intros x Hx; by apply elem_of_nil in Hx]|].
    destruct (IH (Nat.max a y)) as [K1 K2]. split; [lia|]. intros x [->|Hx]%elem_of_cons; [lia|by apply K2]. }
  apply K. by apply elem_of_list_fmap_1.
Qed.

Lemma sections_built grids g :
  sections limit t table grids -> g ∈ grids -> exists rows, build_section_grid limit rows = Ok g.
Proof.
  intros Hs Hg. apply map_res_Ok in Hs. apply elem_of_list_lookup in Hg as [i Hi].
  destruct (Forall2_lookup_r _ _ _ _ _ Hs Hi) as (grp & _ & E). eauto.
Qed.

Lemma page_ok :
  0 < length (part_cells t table Head ++ part_cells t table Body ++ part_cells t table Foot) ->
  W = resolve_table_width t table available
  /\ exists grids ws hss,
    sections limit t table grids
    /\ length ws = fold_left Nat.max (map n_cols grids) 0
    /\ widths_right t W sx grids ws
    /\ Forall2 (heights_right t ws) grids hss
    /\ (3 <= fuel -> forall k c, c ∈ part_cells t table k -> exists r, (c, r) ∈ boxes)
    /\ forall c r, (c, r) ∈ boxes -> table_role t c = Cell ->
       exists k g hs p, grids !! k = Some g /\ hss !! k = Some hs /\ p ∈ g_cells g /\ p_node p = c
         /\ fills r p (X + sx) (line (Y + sy) (map (fun hs => stacked hs sy) hss) sy k) ws hs sx sy.
Proof.
  intros Hne. destruct (layout_facts _ _ _ _ _ _ _ HL) as [(-> & -> & -> & grids & Hs & Hz)|(grids & ws & hss & HF)].
  - exfalso. clear HL. assert (exists k c, c ∈ part_cells t table k) as (k & c & Hk).
    { destruct (_ ++ _) as [|c l] eqn:E; [cbn in Hne; lia|]. assert (c ∈ c :: l) as Hin by by left.
      rewrite <- E in Hin. rewrite !elem_of_app in Hin. destruct Hin as [?|[?|?]]; eauto. }
    destruct (build_model_ok t table k) as (_ & Hcells & _). rewrite <- Hcells in Hk.
    apply elem_of_list_In, in_map_iff in Hk as (s & _ & Hin). unfold group_sources in Hin.
    apply in_flat_map in Hin as (grp & Hgrp & Hin).
    assert (grp ∈ all_groups t table) as Hall.
    { apply elem_of_list_In in Hgrp. unfold all_groups. rewrite !elem_of_app. destruct k; cbn in Hgrp; auto. }
    pose proof Hs as Hs'. apply map_res_Ok in Hs'. apply elem_of_list_lookup in Hall as [i Hi].
    destruct (Forall2_lookup_l _ _ _ _ _ Hs' Hi) as (g & Hg & Eg).
    pose proof (sections_cols grids g Hs ltac:(by eapply elem_of_list_lookup_2)) as L. rewrite Hz in L.
    unfold row_sources in Hin. apply in_flat_map in Hin as (row & Hrow & Hin).
    apply elem_of_list_In in Hrow. apply elem_of_list_lookup in Hrow as [ri Hri].
    pose proof Eg as Eg'. apply grid_any in Eg' as (_ & _ & pss & Hcs & _ & P).
    destruct (P ri _ Hri) as (ps & Hps & N & _). apply (in_map s_node) in Hin. rewrite <- N in Hin.
    apply in_map_iff in Hin as (p & _ & Hp).
    assert (p ∈ g_cells g) as Hpg.
    { rewrite Hcs. apply elem_of_list_In, in_concat. exists ps. split; [|done].
      apply elem_of_list_In. by eapply elem_of_list_lookup_2. }
    destruct (grid_col _ _ _ _ Eg Hpg) as (C1 & _ & _ & C2 & _). lia.
  - split; [apply HF|]. exists grids, ws, hss.
    pose proof (f_sections _ _ _ _ _ _ _ _ _ _ HF) as Hs. pose proof (f_cols _ _ _ _ _ _ _ _ _ _ HF) as Hl.
    split; [done|]. split; [done|]. split.
    { eapply columns_right; [exact Hs|done|done|apply HF|apply HF]. }
    split.
    { pose proof (f_heights _ _ _ _ _ _ _ _ _ _ HF) as Hh. apply Forall2_same_length_lookup_2.
      { by eapply Forall2_length. }
      intros i g hs Hg Hhs. pose proof (Forall2_lookup_lr _ _ _ _ _ _ Hh Hg Hhs) as E. cbn in E.
      destruct (sections_built grids g Hs ltac:(by eapply elem_of_list_lookup_2)) as [rows Er].
      eapply rows_right; [exact Er| |done]. rewrite Hl. apply sections_cols; [done|by eapply elem_of_list_lookup_2]. }
    split.
    { intros Hf k c Hk. destruct (f_groups _ _ _ _ _ _ _ _ _ _ HF) as [inner HG].
      unfold boxes. destruct fuel as [|[|[|f]]]; [lia..|].
      by eapply (box_exists limit t table available log W H grids ws hss HF HE X Y inner HG f k). }
    intros c r Hin Hr.
    exact (box_fills limit t table available log W H grids ws hss HF HE X Y c r (facts_boxes _ _ _ _ _ HF Hin Hr)).
Qed.

Lemma inside_ok c r :
  (0 <= sx)%Q -> (0 <= sy)%Q -> (c, r) ∈ boxes -> table_role t c = Cell ->
  (X + sx <= x0 r /\ Y + sy <= y0 r /\ y0 r + h r <= Y + H - sy)%Q
  /\ forall grids cs, sections limit t table grids -> is_first_row grids cs ->
     let n := fold_left Nat.max (map n_cols grids) 0 in
     (qsum (map (needed t W cs) (seq 0 n)) <= W - (qnat n + 1) * sx)%Q ->
     (x0 r + w r <= X + W - sx)%Q.
Proof.
  intros Hx Hy Hin Hr. destruct (some_facts _ _ Hin) as (grids & ws & hss & HF).
  pose proof (facts_boxes _ _ _ _ _ HF Hin Hr) as Hg.
  destruct (box_inside limit t table available log W H grids ws hss HF HE X Y Hx Hy Hc c r Hg) as (B1 & B2 & B3 & B4).
  fold sx sy in B1, B2, B3, B4. split; [done|]. intros grids' cs Hs Hcs n Hfit.
  pose proof (f_sections _ _ _ _ _ _ _ _ _ _ HF) as Hs'. unfold sections in Hs, Hs'. rewrite Hs in Hs'. injection Hs' as <-.
  pose proof (f_cols _ _ _ _ _ _ _ _ _ _ HF) as Hl.
  assert (widths_right t W sx grids' ws) as [_ K].
  { eapply columns_right; [exact Hs|done|done|apply HF|apply HF]. }
  destruct (K cs Hcs) as (_ & _ & K3). unfold n in Hfit. rewrite <- Hl in Hfit. specialize (K3 Hfit). lra.
Qed.
End page.

Lemma width_asked_ok t table available :
  css t table Width <> Zero -> width_asked t table available (resolve_table_width t table available).
Proof.
  intros Hz. unfold width_asked, resolve_table_width.
  destruct (css t table Width); repeat split; intros; simplify_eq; done.
Qed.
