(** Proofs about the layout of tables. *)
From Coq Require Import QArith Qround Lqa.
From Verif Require Import Base LatticeModel LatticeSpec.
From stdpp Require Import numbers option list.
Local Open Scope nat_scope.

Lemma rbind_Ok {A B} (x : res A) (f : A -> res B) b :
  rbind x f = Ok b -> exists a, x = Ok a /\ f a = Ok b.
Proof. destruct x; cbn; [eauto|done|done]. Qed.

(** * Slots *)

Definition slot (slots : list nat) (c : nat) : nat := nth c slots 0.

Lemma skip_taken_spec slots start :
  let x := skip_taken slots start in
  start <= x /\ x <= start + length slots /\ slot slots (x - start) = 0
  /\ forall y, start <= y < x -> slot slots (y - start) <> 0.
Proof.
  revert start. induction slots as [|s slots IH]; intros start; cbn [skip_taken].
  - cbn. repeat split; [lia|lia|by destruct (start - start)|lia].
  - destruct s as [|s].
    + cbn. replace (start - start) with 0 by lia. repeat split; [lia|lia|lia].
    + specialize (IH (S start)). cbn zeta in *. destruct IH as (H1 & H2 & H3 & H4).
      cbn [length]. repeat split; [lia|lia| |].
      * replace (skip_taken slots (S start) - start) with (S (skip_taken slots (S start) - S start)) by lia.
        done.
      * intros y Hy. destruct (decide (y = start)) as [->|].
        -- replace (start - start) with 0 by lia. cbn. lia.
        -- replace (y - start) with (S (y - S start)) by lia. apply H4. lia.
Qed.

Lemma slot_drop n slots c : slot (drop n slots) c = slot slots (n + c).
Proof.
  unfold slot. revert slots. induction n as [|n IH]; intros slots; [done|].
  destruct slots as [|s slots]; cbn; [by destruct c|]. apply IH.
Qed.

Lemma slot_beyond slots c : length slots <= c -> slot slots c = 0.
Proof. intros. by apply nth_overflow. Qed.

Lemma next_free_spec slots cur :
  let x := next_free_col slots cur in
  cur <= x /\ x <= Nat.max cur (length slots) /\ slot slots x = 0
  /\ forall y, cur <= y < x -> slot slots y <> 0.
Proof.
  unfold next_free_col. destruct (skip_taken_spec (drop cur slots) cur) as (H1 & H2 & H3 & H4).
  cbn zeta. rewrite drop_length in H2. repeat split; [done|lia| |].
  - rewrite slot_drop in H3. by replace (cur + (skip_taken (drop cur slots) cur - cur))
      with (skip_taken (drop cur slots) cur) in H3 by lia.
  - intros y Hy. specialize (H4 y Hy). rewrite slot_drop in H4.
    by replace (cur + (y - cur)) with y in H4 by lia.
Qed.

Lemma mark_length slots col k v : length (mark_slots slots col k v) = length slots.
Proof.
  revert col k. induction slots as [|s slots IH]; intros [|col] [|k]; cbn; auto.
Qed.

Lemma slot_mark slots col k v c :
  slot (mark_slots slots col k v) c
  = if (c <? length slots) && ((col <=? c) && (c <? col + k)) then v else slot slots c.
Proof.
  unfold slot. revert col k c. induction slots as [|s slots IH]; intros col k c.
  - destruct col, k; cbn; destruct c; done.
  - destruct col as [|col]; [destruct k as [|k]|]; destruct c as [|c]; cbn [mark_slots nth length].
    + done.
    + by rewrite !andb_false_r.
    + done.
    + rewrite IH. cbn. done.
    + done.
    + rewrite IH. cbn. done.
Qed.

Lemma slot_decrement slots c : slot (decrement_slots slots) c = pred (slot slots c).
Proof.
  unfold slot, decrement_slots. revert c. induction slots as [|s slots IH]; intros [|c]; cbn; auto.
Qed.

Lemma slot_grown slots n c : slot (slots ++ repeat 0 n) c = slot slots c.
Proof.
  unfold slot. revert c. induction slots as [|s slots IH]; intros c; cbn.
  - revert c. induction n as [|n IH]; intros [|c]; cbn; auto. rewrite IH. by destruct c.
  - destruct c; auto.
Qed.

Lemma grow_ok limit slots n :
  n <= limit ->
  exists slots', grow_slots limit slots n = Ok slots' /\ length slots' = Nat.max (length slots) n
            /\ forall c, slot slots' c = slot slots c.
Proof.
  intros Hn. unfold grow_slots. destruct (n <=? length slots) eqn:E1.
  - apply Nat.leb_le in E1. exists slots. repeat split; lia.
  - apply Nat.leb_gt in E1. rewrite (proj2 (Nat.ltb_ge limit n)) by lia.
    exists (slots ++ repeat 0 (n - length slots)). repeat split.
    + rewrite app_length, repeat_length. lia.
    + intros c. apply slot_grown.
Qed.

(** * The grid follows the standard *)

(** What the vector of slots says at a row: column [c] is covered from this row
    on for as many rows as its slot holds. *)
Definition slots_inv (row : nat) (slots : list nat) (cells : list placed) : Prop :=
  forall c r, row <= r -> (taken cells r c <-> r < row + slot slots c).

Definition extent (cells : list placed) : nat :=
  fold_right Nat.max 0 (map (fun p => p_col p + p_colspan p) cells).

Lemma extent_app l1 l2 : extent (l1 ++ l2) = Nat.max (extent l1) (extent l2).
Proof.
  unfold extent. rewrite map_app. induction (map (fun p => p_col p + p_colspan p) l1); cbn; lia.
Qed.

Lemma extent_le cells p : p ∈ cells -> p_col p + p_colspan p <= extent cells.
Proof.
  unfold extent. induction 1 as [|? ? ? ? IH]; cbn in *; lia.
Qed.

Lemma extent_is_width cells : is_width cells (extent cells).
Proof.
  split; [apply extent_le|]. unfold extent. induction cells as [|p cells IH]; [by left|].
  right. cbn. destruct (decide (fold_right Nat.max 0 (map (fun p => p_col p + p_colspan p) cells)
                                <= p_col p + p_colspan p)).
  - exists p. split; [by left|]. lia.
  - destruct IH as [IH|(q & Hq & E)]; [lia|]. exists q. split; [by right|]. lia.
Qed.

Lemma is_width_unique cells n m : is_width cells n -> is_width cells m -> n = m.
Proof.
  intros [H1 [->|(p & Hp & E)]] [H2 [->|(q & Hq & E')]]; [done| | |].
  - specialize (H1 q Hq). lia.
  - specialize (H2 p Hp). lia.
  - specialize (H1 q Hq). specialize (H2 p Hp). lia.
Qed.

Lemma taken_app l1 l2 r c : taken (l1 ++ l2) r c <-> taken l1 r c \/ taken l2 r c.
Proof. unfold taken. setoid_rewrite elem_of_app. naive_solver. Qed.

Lemma taken_one p r c : taken [p] r c <-> covers p r c.
Proof. unfold taken. setoid_rewrite elem_of_list_singleton. naive_solver. Qed.

Lemma no_overlap_app_l l1 l2 : no_overlap (l1 ++ l2) -> no_overlap l1.
Proof.
  intros H i j p q r c Hi Hj. apply H; [by apply lookup_app_l_Some|by apply lookup_app_l_Some].
Qed.

Lemma no_overlap_apart l1 l2 p q r c :
  no_overlap (l1 ++ l2) -> p ∈ l1 -> q ∈ l2 -> covers p r c -> covers q r c -> False.
Proof.
  intros H Hp Hq Cp Cq. apply elem_of_list_lookup in Hp as [i Hi].
  apply elem_of_list_lookup in Hq as [j Hj].
  pose proof (lookup_lt_Some _ _ _ Hi).
  assert (i = length l1 + j); [|lia].
  apply (H i (length l1 + j) p q r c); [by apply lookup_app_l_Some| |done|done].
  rewrite lookup_app_r by lia. by replace (length l1 + j - length l1) with j by lia.
Qed.

Lemma html_spans s rows row :
  in_range s ->
  html_colspan (s_colspan s) = Nat.max (s_colspan s) 1
  /\ html_rowspan (s_rowspan s) (rows - row) = Nat.min (Nat.max (s_rowspan s) 1) (rows - row).
Proof.
  intros [H1 H2]. unfold html_colspan, html_rowspan.
  split; [lia|]. rewrite (proj2 (Nat.eqb_neq _ _)) by lia. lia.
Qed.

Lemma place_cells_html limit rows row cells slots cur acc ps :
  html_row rows row acc cur cells ps ->
  row < rows -> Forall in_range cells ->
  slots_inv row slots acc -> length slots = extent acc ->
  no_overlap (acc ++ ps) -> extent (acc ++ ps) <= limit ->
  exists slots',
    place_cells limit rows row cells slots cur acc = Ok (slots', acc ++ ps)
    /\ slots_inv row slots' (acc ++ ps) /\ length slots' = extent (acc ++ ps).
Proof.
  intros Hh. revert slots.
  induction Hh as [acc cur|acc cur s rest p ps Hc Hh IH]; intros slots Hrow Hr Hinv Hlen Hno Hlim.
  - exists slots. by rewrite app_nil_r.
  - apply Forall_cons in Hr as [Hs Hr]. destruct (html_spans s rows row Hs) as [Ec Er].
    destruct Hc as (Pn & Pr & Pc & Ps & Hcur & Hfree & Hskip).
    assert (next_free_col slots cur = p_col p) as Hx.
    { destruct (next_free_spec slots cur) as (N1 & _ & N3 & N4). cbn zeta in *.
      destruct (Nat.lt_trichotomy (next_free_col slots cur) (p_col p)) as [L|[L|L]]; [|done|].
      - exfalso. specialize (Hskip (next_free_col slots cur) ltac:(lia)).
        apply Hinv in Hskip; [|lia]. rewrite N3 in Hskip. lia.
      - exfalso. apply Hfree. apply Hinv; [lia|]. specialize (N4 (p_col p) ltac:(lia)). lia. }
    cbn [place_cells]. rewrite Hx, <- Ec, <- Er, <- Pc, <- Ps.
    assert (p_col p + p_colspan p <= limit) as Hl.
    { assert (p ∈ acc ++ p :: ps) by (apply elem_of_app; right; by left). pose proof (extent_le _ _ H). lia. }
    destruct (grow_ok limit slots (p_col p + p_colspan p) Hl) as (s1 & -> & Hs1 & Hs1').
    cbn [rbind].
    replace (mk_placed (s_node s) row (p_col p) (p_colspan p) (p_rowspan p)) with p
      by (destruct p; cbn in *; by subst).
    replace (acc ++ p :: ps) with ((acc ++ [p]) ++ ps) in * by (by rewrite <- app_assoc).
    destruct (IH (mark_slots s1 (p_col p) (p_colspan p) (p_rowspan p))) as (s2 & E2 & I2 & L2);
      [done|done| | |done|done|].
    + intros c r Hrr. rewrite taken_app, taken_one, slot_mark, Hs1, Hs1'.
      apply no_overlap_app_l in Hno.
      destruct (decide (p_col p <= c < p_col p + p_colspan p)) as [Hin|Hout].
      * rewrite (proj2 (Nat.ltb_lt c _)) by lia.
        rewrite (proj2 (Nat.leb_le _ _)) by lia. rewrite (proj2 (Nat.ltb_lt c (_ + _))) by lia.
        cbn [andb]. pose proof (Hinv c r Hrr) as Hcr.
        assert (slot slots c = 0) as E0.
        { destruct (slot slots c) as [|k] eqn:E; [done|]. exfalso.
          assert (taken acc row c) as (q & Hq & Cq). { apply Hinv; [lia|]. rewrite E. lia. }
          assert (p_rowspan p <> 0).
          { rewrite Ps, Er. destruct Hs. lia. }
          eapply (no_overlap_apart acc [p] q p row c Hno Hq); [by left|done|].
          unfold covers. lia. }
        rewrite E0 in Hcr. unfold covers. intuition lia.
      * assert (((p_col p <=? c) && (c <? p_col p + p_colspan p)) = false) as ->.
        { apply andb_false_iff. destruct (decide (p_col p <= c)).
          - right. apply Nat.ltb_ge. lia.
          - left. apply Nat.leb_gt. lia. }
        rewrite andb_false_r. pose proof (Hinv c r Hrr) as Hcr. unfold covers. intuition lia.
    + rewrite mark_length, Hs1, Hlen, extent_app. cbn. lia.
    + exists s2. rewrite <- app_assoc in *. done.
Qed.

Lemma place_all_html limit rows row todo slots acc cells :
  html_rows rows row acc todo cells ->
  row + length todo <= rows -> Forall in_range (row_sources todo) ->
  slots_inv row (decrement_slots slots) acc -> length slots = extent acc ->
  no_overlap (acc ++ cells) -> extent (acc ++ cells) <= limit ->
  exists slots',
    place_all limit rows row todo slots acc = Ok (slots', acc ++ cells)
    /\ length slots' = extent (acc ++ cells).
Proof.
  intros Hh. revert slots.
  induction Hh as [row acc|row acc r rest ps qs Hr Hh IH]; intros slots Hle Hin Hinv Hlen Hno Hlim.
  - exists slots. by rewrite app_nil_r.
  - cbn [row_sources flat_map] in Hin. apply Forall_app in Hin as [Hin1 Hin2]. cbn [length] in Hle.
    rewrite app_assoc in *.
    destruct (place_cells_html limit rows row (r_cells r) (decrement_slots slots) 0 acc ps)
      as (s1 & E1 & I1 & L1); [done|lia|done|done| | | |].
    + unfold decrement_slots. by rewrite map_length.
    + by eapply no_overlap_app_l.
    + rewrite extent_app in Hlim. lia.
    + cbn [place_all]. rewrite E1. cbn [rbind]. apply IH; [lia|done| |done|done|done].
      intros c r' Hr'. rewrite slot_decrement. pose proof (I1 c r' ltac:(lia)) as ->. destruct (slot s1 c); cbn; lia.
Qed.

Lemma grid_html limit rows cells :
  html_section rows cells -> Forall in_range (row_sources rows) -> no_overlap cells ->
  extent cells <= limit ->
  build_section_grid limit rows = Ok (mk_grid cells (extent cells) (length rows)).
Proof.
  intros Hh Hin Hno Hlim.
  destruct (place_all_html limit (length rows) 0 rows [] [] cells) as (s & E & L);
    [done|lia|done| |done|done|done|].
  - intros c r Hr. cbn. unfold slot. destruct c; cbn; (split; [intros (p & Hp & _); by apply elem_of_nil in Hp|lia]).
  - unfold build_section_grid. rewrite E. cbn. by rewrite L.
Qed.

(** * Every section has its places *)

Lemma taken_dec_free before row cur :
  exists x, cur <= x /\ ~ taken before row x /\ forall y, cur <= y < x -> taken before row y.
Proof.
  assert (forall x, Decision (taken before row x)) as D.
  { intros x. unfold taken. destruct (decide (Exists (fun p => covers p row x) before)) as [H|H].
    - left. apply Exists_exists in H. naive_solver.
    - right. intros (p & Hp & C). apply H. apply Exists_exists. eauto. }
  remember (extent before - cur) as k eqn:Ek. revert cur Ek. induction k as [|k IH]; intros cur Ek.
  - exists cur. repeat split; [lia| |lia]. intros (p & Hp & C). apply extent_le in Hp.
    unfold covers in C. lia.
  - destruct (D cur) as [T|F].
    + destruct (IH (S cur) ltac:(lia)) as (x & H1 & H2 & H3). exists x. repeat split; [lia|done|].
      intros y Hy. destruct (decide (y = cur)) as [->|]; [done|]. apply H3. lia.
    + exists cur. repeat split; [lia|done|lia].
Qed.

Lemma html_row_exists rows row cells before cur : exists ps, html_row rows row before cur cells ps.
Proof.
  revert before cur. induction cells as [|s cells IH]; intros before cur.
  - exists []. constructor.
  - destruct (taken_dec_free before row cur) as (x & H1 & H2 & H3).
    set (p := mk_placed (s_node s) row x (html_colspan (s_colspan s))
                (html_rowspan (s_rowspan s) (rows - row))).
    destruct (IH (before ++ [p]) (p_col p + p_colspan p)) as [ps Hps].
    exists (p :: ps). econstructor; [|done]. repeat split; auto.
Qed.

Lemma html_rows_exists rows todo row before : exists cells, html_rows rows row before todo cells.
Proof.
  revert row before. induction todo as [|r todo IH]; intros row before.
  - exists []. constructor.
  - destruct (html_row_exists rows row (r_cells r) before 0) as [ps Hps].
    destruct (IH (S row) (before ++ ps)) as [qs Hqs]. exists (ps ++ qs). by econstructor.
Qed.

(** The places are determined. *)
Lemma html_row_unique rows row before cur cells ps qs :
  html_row rows row before cur cells ps -> html_row rows row before cur cells qs -> ps = qs.
Proof.
  intros H. revert qs. induction H as [|before cur s rest p ps Hc Hh IH]; intros qs Hq.
  - by inversion Hq.
  - inversion Hq as [|? ? ? ? q qs' Hc' Hh']; subst.
    assert (p = q) as <-.
    { destruct Hc as (A1 & A2 & A3 & A4 & A5 & A6 & A7), Hc' as (B1 & B2 & B3 & B4 & B5 & B6 & B7).
      assert (p_col p = p_col q).
      { destruct (Nat.lt_trichotomy (p_col p) (p_col q)) as [L|[L|L]]; [|done|].
        - exfalso. apply A6, B7. lia.
        - exfalso. apply B6, A7. lia. }
      destruct p, q; cbn in *; congruence. }
    f_equal. by apply IH.
Qed.

(** * No overlap *)

Lemma no_overlap_snoc l p :
  no_overlap l -> (forall r c, taken l r c -> covers p r c -> False) -> no_overlap (l ++ [p]).
Proof.
  intros Hl Hp i j q q' r c Hi Hj C C'.
  apply lookup_app_Some in Hi as [Hi|[Hi1 Hi2]]; apply lookup_app_Some in Hj as [Hj|[Hj1 Hj2]].
  - by eapply Hl.
  - apply list_lookup_singleton_Some in Hj2 as [? <-]. exfalso. eapply Hp; [|done].
    exists q. split; [by eapply elem_of_list_lookup_2|done].
  - apply list_lookup_singleton_Some in Hi2 as [? <-]. exfalso. eapply Hp; [|done].
    exists q'. split; [by eapply elem_of_list_lookup_2|done].
  - apply list_lookup_singleton_Some in Hi2 as [? _]. apply list_lookup_singleton_Some in Hj2 as [? _].
    lia.
Qed.

(** If every cell is one column wide the free slot is all a cell covers in its
    row; and what is free in a row is free below it. *)
Definition starts_by (row : nat) (cells : list placed) : Prop := Forall (fun p => p_row p <= row) cells.

Lemma html_row_narrow rows row before cur cells ps :
  html_row rows row before cur cells ps ->
  Forall (fun s => s_colspan s <= 1) cells ->
  starts_by row before -> no_overlap before ->
  starts_by row (before ++ ps) /\ no_overlap (before ++ ps).
Proof.
  induction 1 as [|before cur s rest p ps Hc Hh IH]; intros Hn Hs Hno.
  - by rewrite app_nil_r.
  - apply Forall_cons in Hn as [Hn1 Hn2].
    replace (before ++ p :: ps) with ((before ++ [p]) ++ ps) by (by rewrite <- app_assoc).
    destruct Hc as (A1 & A2 & A3 & A4 & A5 & A6 & A7). apply IH; [done| |].
    + apply Forall_app. split; [done|]. apply Forall_singleton. lia.
    + apply no_overlap_snoc; [done|]. intros r c (q & Hq & C) C'. apply A6.
      exists q. split; [done|]. unfold html_colspan in A3.
      unfold starts_by in Hs. rewrite Forall_forall in Hs. specialize (Hs q Hq). unfold covers in *. lia.
Qed.

Lemma html_rows_narrow rows row before todo cells :
  html_rows rows row before todo cells ->
  Forall (fun s => s_colspan s <= 1) (row_sources todo) ->
  starts_by row before -> no_overlap before -> no_overlap (before ++ cells).
Proof.
  induction 1 as [|row before r rest ps qs Hr Hh IH]; intros Hn Hs Hno.
  - by rewrite app_nil_r.
  - cbn [row_sources flat_map] in Hn. apply Forall_app in Hn as [Hn1 Hn2].
    destruct (html_row_narrow _ _ _ _ _ _ Hr Hn1 Hs Hno) as [Hs' Hno'].
    rewrite app_assoc. apply IH; [done| |done].
    eapply Forall_impl; [exact Hs'|]. cbn. intros; lia.
Qed.

(** If every cell is one row high the cells of a row follow each other. *)
Lemma html_row_low rows row before cur cells ps :
  html_row rows row before cur cells ps ->
  row < rows ->
  Forall (fun s => s_rowspan s = 1) cells ->
  (forall p, p ∈ before -> p_row p <= row /\ p_rowspan p = 1
                     /\ (p_row p = row -> p_col p + p_colspan p <= cur)) ->
  no_overlap before ->
  (forall p, p ∈ before ++ ps -> p_row p <= row /\ p_rowspan p = 1) /\ no_overlap (before ++ ps).
Proof.
  induction 1 as [|before cur s rest p ps Hc Hh IH]; intros Hrow Hn Hs Hno.
  - rewrite app_nil_r. split; [|done]. intros p Hp. by destruct (Hs p Hp) as (?&?&?).
  - apply Forall_cons in Hn as [Hn1 Hn2].
    replace (before ++ p :: ps) with ((before ++ [p]) ++ ps) by (by rewrite <- app_assoc).
    destruct Hc as (A1 & A2 & A3 & A4 & A5 & A6 & A7).
    assert (p_rowspan p = 1) as P1. { rewrite A4, Hn1. unfold html_rowspan. cbn [Nat.eqb]. lia. }
    apply IH; [done|done| |].
    + intros q [Hq|Hq%elem_of_list_singleton]%elem_of_app.
      * destruct (Hs q Hq) as (B1 & B2 & B3). repeat split; [done|done|]. intros E.
        specialize (B3 E). unfold html_colspan in A3. lia.
      * subst q. repeat split; [lia|done|]. lia.
    + apply no_overlap_snoc; [done|]. intros r c (q & Hq & C) C'.
      destruct (Hs q Hq) as (B1 & B2 & B3). unfold covers in *.
      assert (p_row q = row) by lia. specialize (B3 ltac:(done)). lia.
Qed.

Lemma html_rows_low rows row before todo cells :
  html_rows rows row before todo cells ->
  row + length todo <= rows ->
  Forall (fun s => s_rowspan s = 1) (row_sources todo) ->
  (forall p, p ∈ before -> p_row p < row /\ p_rowspan p = 1) -> no_overlap before ->
  no_overlap (before ++ cells).
Proof.
  induction 1 as [|row before r rest ps qs Hr Hh IH]; intros Hle Hn Hs Hno.
  - by rewrite app_nil_r.
  - cbn [length] in Hle. cbn [row_sources flat_map] in Hn. apply Forall_app in Hn as [Hn1 Hn2].
    destruct (html_row_low _ _ _ _ _ _ Hr ltac:(lia) Hn1) as [Hs' Hno'].
    + intros p Hp. destruct (Hs p Hp). repeat split; [lia|done|]. lia.
    + done.
    + rewrite app_assoc. apply IH; [lia|done| |done].
      intros p Hp. destruct (Hs' p Hp). split; [lia|done].
Qed.

(** * The grid whatever the spans *)

Lemma place_cells_any limit rows row cells slots cur acc slots' acc' :
  place_cells limit rows row cells slots cur acc = Ok (slots', acc') ->
  length slots = extent acc -> row < rows ->
  exists ps,
    acc' = acc ++ ps /\ length slots' = extent acc'
    /\ map p_node ps = map s_node cells
    /\ Forall (fun p => p_row p = row /\ p_row p + p_rowspan p <= rows
                     /\ 1 <= p_rowspan p /\ 1 <= p_colspan p) ps
    /\ map p_colspan ps = map (fun s => Nat.max (s_colspan s) 1) cells.
Proof.
  revert slots cur acc. induction cells as [|s cells IH]; intros slots cur acc H Hlen Hrow;
    cbn [place_cells] in H.
  - injection H as <- <-. exists []. rewrite app_nil_r. repeat split; [done|constructor].
  - apply rbind_Ok in H as (s1 & Hg & H).
    assert (length s1 = Nat.max (length slots)
              (next_free_col slots cur + Nat.max (s_colspan s) 1)) as L1.
    { unfold grow_slots in Hg. case_match eqn:E1; [injection Hg as <-; apply Nat.leb_le in E1; lia|].
      case_match; [done|]. injection Hg as <-. apply Nat.leb_gt in E1.
      rewrite app_length, repeat_length. lia. }
    apply IH in H as (ps & -> & L & N & F & C); [| |done].
    + eexists (_ :: ps). rewrite <- app_assoc in *. cbn [app map] in *. split; [done|].
      repeat split; [done|by rewrite N| |by rewrite C].
      constructor; [|done]. cbn. lia.
    + rewrite mark_length, L1, Hlen, extent_app. cbn. lia.
Qed.

Lemma place_all_any limit rows row todo slots acc slots' acc' :
  place_all limit rows row todo slots acc = Ok (slots', acc') ->
  length slots = extent acc -> row + length todo <= rows ->
  exists pss,
    acc' = acc ++ concat pss /\ length slots' = extent acc' /\ length pss = length todo
    /\ forall i r, todo !! i = Some r ->
       exists ps, pss !! i = Some ps /\ map p_node ps = map s_node (r_cells r)
             /\ Forall (fun p => p_row p = row + i /\ p_row p + p_rowspan p <= rows
                              /\ 1 <= p_rowspan p /\ 1 <= p_colspan p) ps
             /\ map p_colspan ps = map (fun s => Nat.max (s_colspan s) 1) (r_cells r).
Proof.
  revert row slots acc. induction todo as [|r todo IH]; intros row slots acc H Hlen Hle;
    cbn [place_all] in H.
  - injection H as <- <-. exists []. rewrite app_nil_r. repeat split; [done|]. intros i r Hi. done.
  - cbn [length] in Hle. apply rbind_Ok in H as ((s1 & a1) & H1 & H).
    apply place_cells_any in H1 as (ps & -> & L1 & N1 & F1 & C1);
      [|unfold decrement_slots; by rewrite map_length|lia].
    apply IH in H as (pss & -> & L2 & LL & P); [|done|lia].
    exists (ps :: pss). rewrite <- app_assoc in *. cbn [concat length]. repeat split; [done|lia|].
    intros [|i] r' Hi; cbn in Hi.
    + injection Hi as <-. exists ps. rewrite Nat.add_0_r. done.
    + destruct (P i r' Hi) as (qs & E & N & F & C). exists qs. repeat split; [done|done| |done].
      eapply Forall_impl; [exact F|]. cbn. intros p. lia.
Qed.

Lemma place_cells_ok limit rows row cells slots cur acc :
  cur <= length slots ->
  length slots + sum_list_with (fun s => Nat.max (s_colspan s) 1) cells <= limit ->
  exists slots' acc',
    place_cells limit rows row cells slots cur acc = Ok (slots', acc')
    /\ length slots' <= length slots + sum_list_with (fun s => Nat.max (s_colspan s) 1) cells.
Proof.
  revert slots cur acc. induction cells as [|s cells IH]; intros slots cur acc Hcur Hlim;
    cbn [place_cells].
  - eexists _, _. split; [done|]. cbn. lia.
  - cbn [sum_list_with] in *. destruct (next_free_spec slots cur) as (_ & N2 & _). cbn zeta in N2.
    destruct (grow_ok limit slots (next_free_col slots cur + Nat.max (s_colspan s) 1))
      as (s1 & -> & L1 & _); [lia|]. cbn [rbind].
    edestruct IH as (s2 & a2 & -> & L2);
      [| |eexists _, _; split; [done|]]; rewrite ?mark_length in *; lia.
Qed.

Lemma place_all_ok limit rows row todo slots acc :
  length slots + sum_list_with (fun s => Nat.max (s_colspan s) 1) (row_sources todo) <= limit ->
  exists slots' acc', place_all limit rows row todo slots acc = Ok (slots', acc').
Proof.
  revert row slots acc. induction todo as [|r todo IH]; intros row slots acc Hlim; cbn [place_all].
  - eauto.
  - cbn [row_sources flat_map] in Hlim. rewrite sum_list_with_app in Hlim.
    destruct (place_cells_ok limit rows row (r_cells r) (decrement_slots slots) 0 acc)
      as (s1 & a1 & -> & L1);
      [lia|unfold decrement_slots; rewrite map_length; lia|].
    cbn [rbind]. apply IH. unfold decrement_slots in L1. rewrite map_length in L1.
    unfold row_sources. lia.
Qed.

Lemma grid_ok limit rows :
  sum_list_with (fun s => Nat.max (s_colspan s) 1) (row_sources rows) <= limit ->
  exists g, build_section_grid limit rows = Ok g.
Proof.
  intros H. destruct (place_all_ok limit (length rows) 0 rows [] []) as (s & a & E); [done|].
  unfold build_section_grid. rewrite E. cbn. eauto.
Qed.

Lemma grid_any limit rows g :
  build_section_grid limit rows = Ok g ->
  n_rows g = length rows /\ n_cols g = extent (g_cells g)
  /\ exists pss,
    g_cells g = concat pss /\ length pss = length rows
    /\ forall i r, rows !! i = Some r ->
       exists ps, pss !! i = Some ps /\ map p_node ps = map s_node (r_cells r)
             /\ Forall (fun p => p_row p = i /\ p_row p + p_rowspan p <= length rows
                              /\ 1 <= p_rowspan p /\ 1 <= p_colspan p) ps
             /\ map p_colspan ps = map (fun s => Nat.max (s_colspan s) 1) (r_cells r).
Proof.
  unfold build_section_grid. intros H. apply rbind_Ok in H as ((s & a) & H & E).
  injection E as <-. apply place_all_any in H as (pss & -> & L & LL & P); [|done|lia].
  cbn. repeat split; [done|]. exists pss. repeat split; [done|exact P].
Qed.

(** * The query for a boundary *)

Lemma mark_spanned_length l col k : length (mark_spanned l col k) = length l.
Proof. revert col k. induction l as [|s l IH]; intros [|col] [|k]; cbn; auto. Qed.

Lemma mark_spanned_lookup l col k c b :
  l !! c = Some b ->
  mark_spanned l col k !! c = Some (if (col <=? c) && (c <? col + k) then true else b).
Proof.
  revert col k c. induction l as [|s l IH]; intros col k c H; [done|].
  destruct col as [|col]; [destruct k as [|k]|]; destruct c as [|c]; cbn [mark_spanned lookup list_lookup] in *.
  - by rewrite H.
  - rewrite andb_false_r. done.
  - done.
  - etransitivity; [exact (IH 0 k c H)|done].
  - done.
  - etransitivity; [exact (IH col k c H)|done].
Qed.

Lemma spanned_fold g row cells l :
  length l = n_cols g ->
  let out := fold_left
      (fun spanned c =>
         if (p_row c <=? row) && (row + 1 <? p_row c + p_rowspan c)
         then mark_spanned spanned (p_col c) (p_colspan c) else spanned) cells l in
  length out = n_cols g
  /\ forall c b, l !! c = Some b ->
     exists b', out !! c = Some b'
           /\ (b' = true <-> b = true \/ exists p, p ∈ cells /\ covers p row c /\ covers p (S row) c).
Proof.
  revert l. induction cells as [|p cells IH]; intros l Hl; cbn [fold_left].
  - split; [done|]. intros c b Hc. exists b. split; [done|]. split; [by left|].
    intros [?|(p & Hp & _)]; [done|]. by apply elem_of_nil in Hp.
  - set (l' := if (p_row p <=? row) && (row + 1 <? p_row p + p_rowspan p)
               then mark_spanned l (p_col p) (p_colspan p) else l).
    destruct (IH l') as [L P].
    { unfold l'. case_match; [by rewrite mark_spanned_length|done]. }
    split; [exact L|]. intros c b Hc.
    assert (exists b1, l' !! c = Some b1 /\ (b1 = true <-> b = true \/ (covers p row c /\ covers p (S row) c)))
      as (b1 & Hb1 & I1).
    { unfold l', covers. destruct ((p_row p <=? row) && (row + 1 <? p_row p + p_rowspan p)) eqn:E.
      - apply andb_true_iff in E as [E1 E2]. apply Nat.leb_le in E1. apply Nat.ltb_lt in E2.
        rewrite (mark_spanned_lookup l _ _ c b Hc). eexists. split; [done|].
        destruct ((p_col p <=? c) && (c <? p_col p + p_colspan p)) eqn:E.
        + apply andb_true_iff in E as [E3 E4]. apply Nat.leb_le in E3. apply Nat.ltb_lt in E4.
          split; [intros _; right; lia|done].
        + apply andb_false_iff in E. rewrite Nat.leb_gt, Nat.ltb_ge in E.
          split; [by left|]. intros [?|?]; [done|lia].
      - apply andb_false_iff in E. rewrite Nat.leb_gt, Nat.ltb_ge in E.
        exists b. split; [done|]. split; [by left|]. intros [?|?]; [done|lia]. }
    destruct (P c b1 Hb1) as (b' & Hb' & I2). exists b'. split; [done|].
    rewrite I2, I1. setoid_rewrite elem_of_cons. naive_solver.
Qed.

Lemma boundary_ok g row c :
  (forall p, p ∈ g_cells g -> p_row p + p_rowspan p <= n_rows g) ->
  c < n_cols g ->
  exists b, cols_spanned_at_boundary g row !! c = Some b
       /\ (b = true <-> exists p, p ∈ g_cells g /\ covers p row c /\ covers p (S row) c).
Proof.
  intros Hin Hc. unfold cols_spanned_at_boundary.
  assert (repeat false (n_cols g) !! c = Some false) as Hf.
  { revert c Hc. induction (n_cols g) as [|n IH]; intros [|c] Hc; [lia|lia|done|].
    cbn. apply IH. lia. }
  destruct (n_rows g <=? row + 1) eqn:E.
  - apply Nat.leb_le in E. exists false. split; [done|]. split; [done|].
    intros (p & Hp & C1 & C2). specialize (Hin p Hp). unfold covers in *. lia.
  - destruct (spanned_fold g row (g_cells g) (repeat false (n_cols g))) as [_ P];
      [apply repeat_length|].
    destruct (P c false Hf) as (b & Hb & I). exists b. split; [exact Hb|].
    rewrite I. naive_solver.
Qed.

(** * The structure *)

Section structure.
Context (t : tree).

Lemma build_row_ok n :
  good_row t (build_row t n) /\ r_node (build_row t n) = Some n.
Proof.
  unfold build_row, good_row, cells_of_row.
  assert (forall l row,
    Forall (read_right t) (r_cells row) ->
    let row' := fold_left
      (fun row child =>
         match table_role t child with
         | Cell => mk_row (r_node row) (r_cells row ++ [build_source_cell t child])
         | _ => row
         end) l row in
    r_node row' = r_node row /\ Forall (read_right t) (r_cells row')
    /\ map s_node (r_cells row') = map s_node (r_cells row) ++ List.filter (is_cell t) l) as H.
  { induction l as [|c l IH]; intros row F; cbn [fold_left List.filter].
    - rewrite app_nil_r. done.
    - unfold is_cell at 1. destruct (table_role t c) eqn:E; try (apply IH; done).
      cbn zeta in IH. edestruct IH as (A & B & D); [|split; [exact A|split; [exact B|rewrite D]]].
      + cbn. apply Forall_app. split; [done|]. apply Forall_singleton.
        unfold read_right, build_source_cell, span_of; cbn.
        destruct (colspan_attr t c), (rowspan_attr t c); done.
      + cbn. rewrite map_app, <- app_assoc. done. }
  destruct (H (children t n) (mk_row (Some n) []) ltac:(constructor)) as (A & B & D).
  cbn zeta in *. rewrite A. cbn in *. done.
Qed.

Lemma separated_snoc {A} (node : A -> option nat) l x :
  separated node l ->
  (forall y, last l = Some y -> ~ (node y = None /\ node x = None)) ->
  separated node (l ++ [x]).
Proof.
  intros Hl Hx. induction l as [|y l IH]; [done|]. destruct Hl as [H1 H2].
  cbn [app separated]. split.
  - destruct l as [|z l]; cbn; [by apply Hx|done].
  - apply IH; [done|]. intros z Hz. apply Hx. destruct l; [done|]. done.
Qed.

Lemma separated_replace {A} (node : A -> option nat) l x y :
  separated node (l ++ [x]) -> node y = node x -> separated node (l ++ [y]).
Proof.
  intros Hl Hx. induction l as [|z l IH]; [done|]. destruct Hl as [H1 H2].
  cbn [app separated]. split; [|by apply IH]. destruct l as [|u l]; cbn in *; [by rewrite Hx|done].
Qed.

Lemma last_split {A} (l : list A) x : last l = Some x -> l = removelast l ++ [x].
Proof.
  intros H. apply last_Some in H as [l' ->]. by rewrite removelast_last.
Qed.

Lemma read_right_build c : read_right t (build_source_cell t c).
Proof.
  unfold read_right, build_source_cell, span_of; cbn.
  destruct (colspan_attr t c), (rowspan_attr t c); done.
Qed.

Lemma omap_app {A B} (f : A -> option B) l1 l2 : omap f (l1 ++ l2) = omap f l1 ++ omap f l2.
Proof.
  induction l1 as [|x l1 IH]; [done|]. cbn. destruct (f x); cbn; by rewrite IH.
Qed.

Lemma push_anon_ok rows c :
  good_rows t rows ->
  good_rows t (push_anon_row rows (build_source_cell t c))
  /\ map s_node (row_sources (push_anon_row rows (build_source_cell t c)))
     = map s_node (row_sources rows) ++ [c]
  /\ omap r_node (push_anon_row rows (build_source_cell t c)) = omap r_node rows.
Proof.
  intros [G S]. unfold push_anon_row.
  assert (forall new, (forall y, last rows = Some y -> ~ (r_node y = None /\ r_node new = None)) ->
    new = mk_row None [build_source_cell t c] ->
    good_rows t (rows ++ [new])
    /\ map s_node (row_sources (rows ++ [new])) = map s_node (row_sources rows) ++ [c]
    /\ omap r_node (rows ++ [new]) = omap r_node rows) as Hnew.
  { intros new Hsep ->. repeat split.
    - apply Forall_app. split; [done|]. apply Forall_singleton. split; [|done].
      cbn. apply Forall_singleton, read_right_build.
    - by apply separated_snoc.
    - unfold row_sources. rewrite flat_map_app, map_app. cbn. done.
    - rewrite omap_app. cbn. by rewrite app_nil_r. }
  destruct (last rows) as [[[n|] cs]|] eqn:E.
  - apply Hnew; [|done]. intros y [= <-]. cbn. intros [? _]. done.
  - apply last_split in E. rewrite E in G, S.
    apply Forall_app in G as [G1 G2]. apply Forall_singleton in G2 as [G2 G3]. cbn in G2, G3.
    repeat split.
    + apply Forall_app. split; [done|]. apply Forall_singleton. split; cbn.
      * apply Forall_app. split; [done|]. apply Forall_singleton, read_right_build.
      * by destruct cs.
    + by eapply separated_replace.
    + rewrite E at 2. unfold row_sources. rewrite !flat_map_app, !map_app. cbn.
      rewrite !app_nil_r, !map_app, app_assoc. done.
    + rewrite E at 2. rewrite !omap_app. done.
  - apply Hnew; done.
Qed.

Lemma build_row_group_ok n :
  good_group t (build_row_group t n) /\ g_node (build_row_group t n) = Some n.
Proof.
  unfold build_row_group.
  assert (forall l g,
    good_rows t (g_rows g) ->
    let g' := fold_left
      (fun g child =>
         match table_role t child with
         | Row => mk_group (g_node g) (g_rows g ++ [build_row t child])
         | Cell => mk_group (g_node g) (push_anon_row (g_rows g) (build_source_cell t child))
         | _ => g
         end) l g in
    g_node g' = g_node g /\ good_rows t (g_rows g')
    /\ map s_node (row_sources (g_rows g'))
       = map s_node (row_sources (g_rows g))
         ++ flat_map (fun c => if is_row t c then cells_of_row t c else if is_cell t c then [c] else []) l
    /\ omap r_node (g_rows g') = omap r_node (g_rows g) ++ List.filter (is_row t) l) as H.
  { induction l as [|c l IH]; intros g G; cbn [fold_left flat_map List.filter].
    - rewrite !app_nil_r. done.
    - cbn zeta in IH. unfold is_row at 1 3, is_cell at 1. destruct (table_role t c) eqn:E; try (apply IH; done).
      + destruct (build_row_ok c) as [R1 R2].
        edestruct IH as (A & B & D & F); [|split; [exact A|split; [exact B|rewrite D, F]]]; cbn [g_rows].
        * destruct G as [G S]. split.
          -- apply Forall_app. split; [done|]. by apply Forall_singleton.
          -- apply separated_snoc; [done|]. rewrite R2. naive_solver.
        * rewrite omap_app. cbn. rewrite R2. unfold row_sources. rewrite flat_map_app, map_app. cbn.
          rewrite app_nil_r, <- !app_assoc. destruct R1 as [_ R1]. rewrite R2 in R1. by rewrite R1.
      + destruct (push_anon_ok (g_rows g) c G) as (G1 & G2 & G3).
        edestruct IH as (A & B & D & F); [|split; [exact A|split; [exact B|rewrite D, F]]]; cbn [g_rows].
        * done.
        * rewrite G2, G3, <- !app_assoc. done. }
  destruct (H (children t n) (mk_group (Some n) [])) as (A & B & D & F).
  { split; [constructor|done]. }
  cbn zeta in *. unfold good_group. rewrite A. cbn [g_node]. done.
Qed.

Lemma with_anon_ok f gs cells :
  Forall (good_group t) gs -> separated g_node gs ->
  (forall rows, good_rows t rows ->
     good_rows t (f rows) /\ map s_node (row_sources (f rows)) = map s_node (row_sources rows) ++ cells
     /\ f rows <> []) ->
  let gs' := with_anon_group f gs in
  Forall (good_group t) gs' /\ separated g_node gs'
  /\ map s_node (group_sources gs') = map s_node (group_sources gs) ++ cells
  /\ omap g_node gs' = omap g_node gs.
Proof.
  intros G S Hf. cbn zeta. unfold with_anon_group.
  assert (forall new, (forall y, last gs = Some y -> ~ (g_node y = None /\ g_node new = None)) ->
    new = mk_group None (f []) ->
    Forall (good_group t) (gs ++ [new]) /\ separated g_node (gs ++ [new])
    /\ map s_node (group_sources (gs ++ [new])) = map s_node (group_sources gs) ++ cells
    /\ omap g_node (gs ++ [new]) = omap g_node gs) as Hnew.
  { intros new Hsep ->. destruct (Hf []) as (F1 & F2 & F3); [split; [constructor|done]|].
    repeat split.
    - apply Forall_app. split; [done|]. apply Forall_singleton. done.
    - by apply separated_snoc.
    - unfold group_sources. rewrite flat_map_app, map_app. cbn [flat_map g_rows]. by rewrite app_nil_r, F2.
    - rewrite omap_app. cbn. by rewrite app_nil_r. }
  destruct (last gs) as [[[n|] rows]|] eqn:E.
  - apply Hnew; [|done]. intros y [= <-]. cbn. intros [? _]. done.
  - apply last_split in E. rewrite E in G, S.
    apply Forall_app in G as [G1 G2]. apply Forall_singleton in G2 as [G2 G3]. cbn in G2, G3.
    destruct (Hf rows G2) as (F1 & F2 & F3). repeat split.
    + apply Forall_app. split; [done|]. by apply Forall_singleton.
    + by eapply separated_replace.
    + rewrite E at 2. unfold group_sources. rewrite !flat_map_app, !map_app. cbn [flat_map g_rows].
      rewrite !app_nil_r, F2, app_assoc. done.
    + rewrite E at 2. rewrite !omap_app. done.
  - apply Hnew; done.
Qed.

Definition part_child (k : part) (c : nat) : list nat :=
  match table_role t c, k with
  | HeaderGroup, Head | RowGroup, Body | FooterGroup, Foot => cells_of_group t c
  | Row, Body => cells_of_row t c
  | Cell, Body => [c]
  | _, _ => []
  end.

Definition part_group (k : part) (c : nat) : bool :=
  match table_role t c, k with
  | HeaderGroup, Head | RowGroup, Body | FooterGroup, Foot => true
  | _, _ => false
  end.

Definition good_part (m : model) (k : part) : Prop :=
  Forall (good_group t) (part_groups m k) /\ separated g_node (part_groups m k).

Lemma add_named_group gs c :
  Forall (good_group t) gs -> separated g_node gs ->
  let gs' := gs ++ [build_row_group t c] in
  Forall (good_group t) gs' /\ separated g_node gs'
  /\ map s_node (group_sources gs') = map s_node (group_sources gs) ++ cells_of_group t c
  /\ omap g_node gs' = omap g_node gs ++ [c].
Proof.
  intros G S. destruct (build_row_group_ok c) as [B1 B2]. cbn zeta. repeat split.
  - apply Forall_app. split; [done|]. by apply Forall_singleton.
  - apply separated_snoc; [done|]. rewrite B2. naive_solver.
  - unfold group_sources. rewrite flat_map_app, map_app. cbn [flat_map]. rewrite app_nil_r.
    destruct B1 as [_ B1]. rewrite B2 in B1. destruct B1 as [B1 _]. by rewrite B1.
  - rewrite omap_app. cbn. by rewrite B2.
Qed.

Lemma add_child_ok m c k :
  good_part m k ->
  let m' := add_child t m c in
  good_part m' k
  /\ map s_node (group_sources (part_groups m' k))
     = map s_node (group_sources (part_groups m k)) ++ part_child k c
  /\ omap g_node (part_groups m' k)
     = omap g_node (part_groups m k) ++ (if part_group k c then [c] else []).
Proof.
  intros [G S]. cbn zeta. unfold add_child, part_child, part_group, good_part.
  destruct (table_role t c) eqn:E, k; cbn [part_groups m_headers m_bodies m_footers] in *;
    rewrite ?app_nil_r; try done;
    try (destruct (add_named_group _ c G S) as (A1 & A2 & A3 & A4); done).
  - destruct (build_row_ok c) as [R1 R2].
    destruct (with_anon_ok (fun rows => rows ++ [build_row t c]) (m_bodies m) (cells_of_row t c) G S)
      as (A1 & A2 & A3 & A4); [|done].
    intros rows [G1 S1]. repeat split.
    + apply Forall_app. split; [done|]. by apply Forall_singleton.
    + apply separated_snoc; [done|]. rewrite R2. naive_solver.
    + unfold row_sources. rewrite flat_map_app, map_app. cbn. rewrite app_nil_r.
      destruct R1 as [_ R1]. rewrite R2 in R1. by rewrite R1.
    + by destruct rows.
  - destruct (with_anon_ok (fun rows => push_anon_row rows (build_source_cell t c)) (m_bodies m) [c] G S)
      as (A1 & A2 & A3 & A4); [|done].
    intros rows G1. destruct (push_anon_ok rows c G1) as (P1 & P2 & P3). repeat split; [apply P1|apply P1|done|].
    unfold push_anon_row. repeat case_match; intros E'; apply app_eq_nil in E' as [_ ?]; done.
Qed.

Lemma build_model_ok table k :
  good_part (build_model t table) k
  /\ map s_node (group_sources (part_groups (build_model t table) k)) = part_cells t table k
  /\ omap g_node (part_groups (build_model t table) k) = groups_of_part t table k.
Proof.
  unfold build_model, part_cells, groups_of_part.
  assert (forall l m, good_part m k ->
    let m' := fold_left (add_child t) l m in
    good_part m' k
    /\ map s_node (group_sources (part_groups m' k))
       = map s_node (group_sources (part_groups m k)) ++ flat_map (part_child k) l
    /\ omap g_node (part_groups m' k)
       = omap g_node (part_groups m k) ++ List.filter (part_group k) l) as H.
  { induction l as [|c l IH]; intros m G; cbn [fold_left flat_map List.filter].
    - rewrite !app_nil_r. done.
    - destruct (add_child_ok m c k G) as (A1 & A2 & A3). destruct (IH _ A1) as (B1 & B2 & B3).
      cbn zeta in *. rewrite B2, B3, A2, A3, <- !app_assoc. repeat split; [apply B1|apply B1|].
      by destruct (part_group k c). }
  destruct (H (children t table) (mk_model None [] [] [])) as (A & B & D).
  { split; destruct k; cbn; constructor. }
  split; [exact A|]. cbn zeta in *. rewrite B, D. destruct k; done.
Qed.
End structure.

(** * Arithmetic *)

Local Open Scope Q_scope.

Lemma qle_dec a b : Qle_bool a b = true <-> a <= b.
Proof. apply Qle_bool_iff. Qed.

Lemma qlt_true a b : qlt a b = true <-> a < b.
Proof.
  unfold qlt. rewrite negb_true_iff. split; intros H.
  - apply Qnot_le_lt. intros L. apply Qle_bool_iff in L. congruence.
  - apply not_true_iff_false. rewrite Qle_bool_iff. intros L. lra.
Qed.

Lemma qlt_false a b : qlt a b = false <-> b <= a.
Proof. unfold qlt. rewrite negb_false_iff. apply Qle_bool_iff. Qed.

Lemma qmax_ge a b : a <= qmax a b /\ b <= qmax a b.
Proof.
  unfold qmax. destruct (Qle_bool a b) eqn:E.
  - apply Qle_bool_iff in E. split; lra.
  - assert (~ a <= b). { rewrite <- Qle_bool_iff. congruence. } split; lra.
Qed.

Lemma qmax_cases a b : qmax a b = a \/ qmax a b = b.
Proof. unfold qmax. destruct (Qle_bool a b); auto. Qed.

Lemma qmax_comp a a' b b' : a == a' -> b == b' -> qmax a b == qmax a' b'.
Proof.
  intros Ha Hb. destruct (qmax_ge a b), (qmax_ge a' b').
  destruct (qmax_cases a b) as [E|E], (qmax_cases a' b') as [E'|E']; rewrite E, E' in *; lra.
Qed.

Lemma fold_plus l a : fold_left Qplus l a == a + qsum l.
Proof.
  unfold qsum. revert a. induction l as [|x l IH]; intros a; cbn; [lra|].
  rewrite IH. rewrite (IH (0 + x)). lra.
Qed.

Lemma qsum_nil : qsum [] = 0.
Proof. done. Qed.

Lemma qsum_cons x l : qsum (x :: l) == x + qsum l.
Proof. unfold qsum at 1. cbn. rewrite fold_plus. lra. Qed.

Lemma qsum_app l1 l2 : qsum (l1 ++ l2) == qsum l1 + qsum l2.
Proof.
  induction l1 as [|x l1 IH]; cbn [app]; [rewrite qsum_nil; lra|].
  rewrite !qsum_cons, IH. lra.
Qed.

Lemma qsum_nonneg l : Forall (fun x => 0 <= x) l -> 0 <= qsum l.
Proof. induction 1 as [|x l Hx Hl IH]; [rewrite qsum_nil; lra|]. rewrite qsum_cons. lra. Qed.

Lemma qnat_S n : qnat (S n) == qnat n + 1.
Proof. unfold qnat. rewrite Nat2Z.inj_succ. unfold Z.succ. rewrite inject_Z_plus. done. Qed.

Lemma qnat_nonneg n : 0 <= qnat n.
Proof. unfold qnat. change 0 with (inject_Z 0). rewrite <- Zle_Qle. lia. Qed.

Lemma qnat_pos n : (n <> 0)%nat -> 0 < qnat n.
Proof. intros. unfold qnat. change 0 with (inject_Z 0). rewrite <- Zlt_Qlt. lia. Qed.

Lemma qnat_0 : qnat 0 = 0.
Proof. done. Qed.

Lemma qnat_add n m : qnat (n + m) == qnat n + qnat m.
Proof. unfold qnat. rewrite Nat2Z.inj_add, inject_Z_plus. done. Qed.

(** * Edges of columns and rows *)

(** Where item [i] of a row of items starts. *)
Definition edge (start : Q) (sizes : list Q) (spacing : Q) (i : nat) : Q :=
  start + qsum (take i sizes) + spacing * qnat i.

Lemma offsets_lookup start sizes spacing i :
  (i < length sizes)%nat ->
  exists x, offsets start sizes spacing !! i = Some x /\ x == edge start sizes spacing i.
Proof.
  revert start i. induction sizes as [|s sizes IH]; intros start i Hi; cbn in Hi; [lia|].
  destruct i as [|i].
  - eexists. split; [done|]. unfold edge. cbn [take]. rewrite qsum_nil, qnat_0. lra.
  - destruct (IH (start + (s + spacing)) i ltac:(lia)) as (x & Hx & E). exists x. split; [exact Hx|].
    rewrite E. unfold edge. cbn [take]. rewrite qsum_cons, qnat_S. lra.
Qed.

Lemma edge_le start sizes spacing i j :
  Forall (fun x => 0 <= x) sizes -> 0 <= spacing -> (i <= j)%nat ->
  edge start sizes spacing i <= edge start sizes spacing j.
Proof.
  intros Hs Hp Hij. unfold edge. replace j with (i + (j - i))%nat by lia.
  assert (qsum (take (i + (j - i)) sizes) == qsum (take i sizes) + qsum (take (j - i) (drop i sizes))) as ->.
  { rewrite <- qsum_app. rewrite take_take_drop. done. }
  rewrite qnat_add. assert (0 <= qsum (take (j - i) (drop i sizes))).
  { apply qsum_nonneg. apply Forall_take, Forall_drop. done. }
  pose proof (qnat_nonneg (j - i)). assert (0 <= spacing * qnat (j - i)) by (apply Qmult_le_0_compat; done).
  lra.
Qed.

(** The far edge of an item that spans [k] places, at least one. *)
Lemma edge_span start sizes spacing i k :
  (i + k <= length sizes)%nat -> (1 <= k)%nat ->
  edge start sizes spacing i
    + (qsum (slice sizes i k) + spacing * qnat (length (slice sizes i k) - 1)) + spacing
  == edge start sizes spacing (i + k).
Proof.
  intros Hl Hk. unfold slice. rewrite (proj2 (Nat.leb_le _ _)) by lia.
  rewrite take_length, drop_length. replace (k `min` (length sizes - i) - 1)%nat with (k - 1)%nat by lia.
  unfold edge.
  assert (qsum (take (i + k) sizes) == qsum (take i sizes) + qsum (take k (drop i sizes))) as ->.
  { rewrite <- qsum_app. rewrite take_take_drop. done. }
  rewrite qnat_add. destruct k as [|k]; [lia|]. replace (S k - 1)%nat with k by lia.
  rewrite qnat_S. lra.
Qed.

Local Close Scope Q_scope.

(** * Columns *)

Section columns_proofs.
Context (t : tree).

Lemma get_at_ok {A} (l : list A) i x : l !! i = Some x -> get_at l i = Ok x.
Proof. intros H. unfold get_at. by rewrite H. Qed.

Lemma set_at_ok {A} (l : list A) i x : i < length l -> set_at l i x = Ok (<[i := x]> l).
Proof. intros H. unfold set_at. by rewrite (proj2 (Nat.ltb_lt _ _)). Qed.

(** What the scan knows of column [c] after the cells [cs]. *)
Definition scan_inv (W : Q) (cols : nat) (cs : list placed) (st : list (option Q) * list Q) : Prop :=
  length (fst st) = cols /\ length (snd st) = cols
  /\ forall c, c < cols -> fst st !! c = Some (specified t W cs c) /\ snd st !! c = Some (natural t cs c).

Lemma column_cells_snoc cs p c :
  column_cells (cs ++ [p]) c
  = column_cells cs c ++ (if (p_colspan p =? 1) && (p_col p =? c) then [p] else []).
Proof. unfold column_cells. rewrite List.filter_app. cbn. done. Qed.

Lemma specified_snoc W cs p c :
  specified t W (cs ++ [p]) c
  = match specified t W cs c with
    | Some v => Some v
    | None => if (p_colspan p =? 1) && (p_col p =? c) then specified_width t W p else None
    end.
Proof.
  unfold specified. rewrite column_cells_snoc, omap_app.
  destruct (omap (specified_width t W) (column_cells cs c)); [|done]. cbn [app].
  destruct ((p_colspan p =? 1) && (p_col p =? c)); [|done]. cbn.
  by destruct (specified_width t W p).
Qed.

Lemma natural_snoc cs p c :
  natural t (cs ++ [p]) c
  = if (p_colspan p =? 1) && (p_col p =? c)
    then if qlt (natural t cs c) (content_width t (p_node p)) then content_width t (p_node p)
         else natural t cs c
    else natural t cs c.
Proof.
  unfold natural. rewrite column_cells_snoc, fold_left_app.
  destruct ((p_colspan p =? 1) && (p_col p =? c)); done.
Qed.

Lemma scan_cell_ok W cols cs st p :
  scan_inv W cols cs st -> p_col p < cols ->
  exists st', scan_cell t W st p = Ok st' /\ scan_inv W cols (cs ++ [p]) st'.
Proof.
  intros (L1 & L2 & I) Hp. destruct st as [ex na]. cbn [fst snd] in *. unfold scan_cell.
  destruct (p_colspan p =? 1) eqn:Ek.
  - destruct (I _ Hp) as [I1 I2]. rewrite (get_at_ok ex _ _ I1). cbn [rbind].
    set (ex' := match specified t W cs (p_col p) with
                | None => match specified_width t W p with
                          | Some v => <[p_col p := Some v]> ex | None => ex end
                | Some _ => ex end).
    assert (match specified t W cs (p_col p) with
      | None =>
          match css t (p_node p) Width with
          | Px px => set_at ex (p_col p) (Some (qmax px (content_width t (p_node p))))
          | Percent p' =>
              set_at ex (p_col p) (Some (qmax (p' / 100 * W)%Q (content_width t (p_node p))))
          | _ => Ok ex
          end
      | Some _ => Ok ex
      end = Ok ex') as E.
    { unfold ex', specified_width. destruct (specified t W cs (p_col p)); [done|].
      destruct (css t (p_node p) Width); try done; apply set_at_ok; lia. }
    rewrite E. cbn [rbind]. clear E.
    rewrite (get_at_ok na _ _ I2). cbn [rbind].
    set (na' := if qlt (natural t cs (p_col p)) (content_width t (p_node p))
                then <[p_col p := content_width t (p_node p)]> na else na).
    assert ((if qlt (natural t cs (p_col p)) (content_width t (p_node p))
             then set_at na (p_col p) (content_width t (p_node p)) else Ok na) = Ok na') as ->.
    { unfold na'. case_match; [|done]. apply set_at_ok. lia. }
    cbn [rbind]. exists (ex', na'). split; [done|].
    repeat split; cbn [fst snd].
    + unfold ex'. repeat case_match; rewrite ?insert_length; done.
    + unfold na'. repeat case_match; rewrite ?insert_length; done.
    + rewrite specified_snoc, Ek. cbn [andb]. destruct (I c ltac:(done)) as [Ic _].
      destruct (p_col p =? c) eqn:Ec.
      * apply Nat.eqb_eq in Ec. subst c. unfold ex'.
        destruct (specified t W cs (p_col p)); [done|].
        destruct (specified_width t W p); [|done]. by rewrite list_lookup_insert by lia.
      * apply Nat.eqb_neq in Ec. unfold ex'.
        destruct (specified t W cs (p_col p)); [rewrite Ic; by destruct (specified t W cs c)|].
        destruct (specified_width t W p);
          rewrite ?list_lookup_insert_ne by done; rewrite Ic; by destruct (specified t W cs c).
    + rewrite natural_snoc, Ek. cbn [andb]. destruct (I c ltac:(done)) as [_ Ic].
      destruct (p_col p =? c) eqn:Ec.
      * apply Nat.eqb_eq in Ec. subst c. unfold na'. case_match; [|done].
        by rewrite list_lookup_insert by lia.
      * apply Nat.eqb_neq in Ec. unfold na'. case_match; rewrite ?list_lookup_insert_ne by done; done.
  - exists (ex, na). split; [done|]. repeat split; [done|done| |]; cbn [fst snd].
    + rewrite specified_snoc, Ek. cbn [andb]. destruct (I c ltac:(done)) as [Ic _].
      rewrite Ic. by destruct (specified t W cs c).
    + rewrite natural_snoc, Ek. by destruct (I c ltac:(done)) as [_ Ic].
Qed.

Lemma scan_cells_ok W cols cs done_ st :
  scan_inv W cols done_ st -> Forall (fun p => p_col p < cols) cs ->
  exists st', scan_cells t W cs st = Ok st' /\ scan_inv W cols (done_ ++ cs) st'.
Proof.
  revert done_ st. induction cs as [|p cs IH]; intros done_ st I F; cbn [scan_cells].
  - rewrite app_nil_r. eauto.
  - apply Forall_cons in F as [F1 F2].
    destruct (scan_cell_ok W cols done_ st p I F1) as (st1 & -> & I1). cbn [rbind].
    destruct (IH _ _ I1 F2) as (st2 & E & I2). exists st2. split; [done|].
    rewrite <- app_assoc in I2. done.
Qed.

Lemma scan_start W cols : scan_inv W cols [] (repeat None cols, repeat 0%Q cols).
Proof.
  repeat split; cbn [fst snd]; [apply repeat_length|apply repeat_length| |];
    revert c H; induction cols as [|n IH]; intros [|c] H; try lia; try done; cbn; apply IH; lia.
Qed.

Local Open Scope Q_scope.

Lemma natural_nonneg cs c : 0 <= natural t cs c.
Proof.
  unfold natural. assert (forall l n, 0 <= n ->
    0 <= fold_left (fun n p => if qlt n (content_width t (p_node p)) then content_width t (p_node p) else n) l n)
    as H; [|apply H; lra].
  induction l as [|p l IH]; intros n Hn; [done|]. cbn. apply IH.
  destruct (qlt n (content_width t (p_node p))) eqn:E; [|done]. apply qlt_true in E. lra.
Qed.

Lemma specified_nonneg W cs c v :
  (forall n, 0 <= content_width t n) -> specified t W cs c = Some v -> 0 <= v.
Proof.
  intros Hc H. unfold specified in H. apply head_Some_elem_of in H.
  apply elem_of_list_omap in H as (p & _ & H). unfold specified_width in H.
  pose proof (Hc (p_node p)).
  destruct (css t (p_node p) Width); try done; injection H as <-.
  - destruct (qmax_ge v0 (content_width t (p_node p))). lra.
  - destruct (qmax_ge (v0 / 100 * W) (content_width t (p_node p))). lra.
Qed.

(** ** Distribution *)

Definition share_of (remaining : Q) (autos : list Q) : Q -> Q :=
  let total_natural := qsum autos in
  if qlt 0 total_natural then
    let narrow_total :=
      qsum (map (fun n => qmax n narrow_floor) (List.filter (fun n => qlt n narrow_threshold) autos)) in
    let content_total := qsum (List.filter (fun n => Qle_bool narrow_threshold n) autos) in
    if qlt 0 content_total then
      let content_remaining := qmax (remaining - narrow_total)%Q 0 in
      fun n =>
        if qlt n narrow_threshold then qmax n narrow_floor
        else (content_remaining * n / content_total)%Q
    else fun n => (remaining * n / total_natural)%Q
  else fun _ => (remaining / qnat (length autos))%Q.

Lemma distribute_share remaining pairs :
  distribute remaining pairs
  = map (fun p => match fst p with Some w => w | None => share_of remaining (auto_naturals pairs) (snd p) end) pairs.
Proof. done. Qed.

Lemma qsum_split (f : Q -> Q) pairs :
  qsum (map (fun p => match fst p with Some w => w | None => f (snd p) end) pairs)
  == qsum (omap fst pairs) + qsum (map f (auto_naturals pairs)).
Proof.
  induction pairs as [|[[v|] n] pairs IH].
  - cbn. lra.
  - cbn [map fst snd omap list_omap auto_naturals flat_map app]. rewrite !qsum_cons.
    change (flat_map _ pairs) with (auto_naturals pairs). change (list_omap _ _ fst pairs) with (omap fst pairs).
    rewrite IH. lra.
  - cbn [map fst snd omap list_omap auto_naturals flat_map app]. rewrite !qsum_cons.
    change (flat_map _ pairs) with (auto_naturals pairs). change (list_omap _ _ fst pairs) with (omap fst pairs).
    rewrite IH. lra.
Qed.

Lemma qsum_scale a b l : qsum (map (fun n => a * n / b) l) == a * qsum l / b.
Proof.
  induction l as [|x l IH]; cbn [map].
  - rewrite qsum_nil. unfold Qdiv. rewrite Qmult_0_r, Qmult_0_l. done.
  - rewrite !qsum_cons, IH. unfold Qdiv. ring.
Qed.

Lemma qsum_const a (l : list Q) : qsum (map (fun _ => a) l) == a * qnat (length l).
Proof.
  induction l as [|x l IH]; cbn [map length].
  - rewrite qsum_nil, qnat_0. ring.
  - rewrite qsum_cons, IH, qnat_S. ring.
Qed.

Lemma qsum_ext (f g : Q -> Q) l :
  (forall x, x ∈ l -> f x == g x) -> qsum (map f l) == qsum (map g l).
Proof.
  induction l as [|x l IH]; intros H; [done|]. cbn [map]. rewrite !qsum_cons.
  rewrite IH by (intros; apply H; by right). rewrite (H x) by (by left). done.
Qed.

Lemma qsum_parts (f : Q -> Q) (b : Q -> bool) l :
  qsum (map f l) == qsum (map f (List.filter b l)) + qsum (map f (List.filter (fun x => negb (b x)) l)).
Proof.
  induction l as [|x l IH]; [cbn; lra|]. cbn [map List.filter]. rewrite qsum_cons, IH.
  destruct (b x); cbn [negb map]; rewrite qsum_cons; lra.
Qed.

Lemma list_filter_ext {A} (f g : A -> bool) l : (forall x, f x = g x) -> List.filter f l = List.filter g l.
Proof. intros H. induction l as [|x l IH]; [done|]. cbn. by rewrite H, IH. Qed.

Lemma qmax_comm_zero a : 0 <= qmax a 0.
Proof. apply qmax_ge. Qed.

Lemma elem_of_filter_list {A} (f : A -> bool) l x : x ∈ List.filter f l <-> f x = true /\ x ∈ l.
Proof. rewrite !elem_of_list_In, List.filter_In. tauto. Qed.

(** The shares of the columns without a given width are at least the space that
    remains, and exactly that if the narrow ones fit. *)
Lemma shares_sum remaining autos :
  0 <= remaining -> autos <> [] ->
  let got := qsum (map (share_of remaining autos) autos) in
  remaining <= got
  /\ (qsum (map (fun n => qmax n narrow_floor) autos) <= remaining -> got == remaining).
Proof.
  intros Hr Hne. cbn zeta. unfold share_of.
  destruct (qlt 0 (qsum autos)) eqn:E1.
  - apply qlt_true in E1.
    set (nt := qsum (map (fun n => qmax n narrow_floor) (List.filter (fun n => qlt n narrow_threshold) autos))).
    set (ct := qsum (List.filter (fun n => Qle_bool narrow_threshold n) autos)).
    destruct (qlt 0 ct) eqn:E2.
    + apply qlt_true in E2. set (cr := qmax (remaining - nt) 0).
      rewrite (qsum_parts _ (fun n => qlt n narrow_threshold)).
      assert (qsum (map (fun n => if qlt n narrow_threshold then qmax n narrow_floor else cr * n / ct)
                 (List.filter (fun n => qlt n narrow_threshold) autos)) == nt) as ->.
      { apply qsum_ext. intros x [Hx _]%elem_of_filter_list. by rewrite Hx. }
      assert (qsum (map (fun n => if qlt n narrow_threshold then qmax n narrow_floor else cr * n / ct)
                 (List.filter (fun x => negb (qlt x narrow_threshold)) autos)) == cr) as ->.
      { transitivity (qsum (map (fun n => cr * n / ct) (List.filter (fun x => negb (qlt x narrow_threshold)) autos))).
        - apply qsum_ext. intros x [Hx _]%elem_of_filter_list. apply negb_true_iff in Hx. by rewrite Hx.
        - rewrite qsum_scale.
          assert (List.filter (fun x => negb (qlt x narrow_threshold)) autos
                  = List.filter (fun n => Qle_bool narrow_threshold n) autos) as ->.
          { apply list_filter_ext. intros x. unfold qlt. apply negb_involutive. }
          fold ct. field. lra. }
      destruct (qmax_ge (remaining - nt) 0) as [G1 G2]. fold cr in G1, G2. split; [lra|].
      intros Hfit. rewrite (qsum_parts _ (fun n => qlt n narrow_threshold)) in Hfit. fold nt in Hfit.
      assert (0 <= qsum (map (fun n => qmax n narrow_floor)
                           (List.filter (fun x => negb (qlt x narrow_threshold)) autos))).
      { apply qsum_nonneg. apply Forall_fmap. apply Forall_forall. intros x _. cbn.
        destruct (qmax_ge x narrow_floor). unfold narrow_floor in *. lra. }
      destruct (qmax_cases (remaining - nt) 0) as [E|E]; fold cr in E; rewrite E in *; lra.
    + rewrite qsum_scale. assert (remaining * qsum autos / qsum autos == remaining) as -> by (field; lra).
      split; [lra|done].
  - rewrite qsum_const. assert (0 < qnat (length autos)).
    { apply qnat_pos. by destruct autos. }
    assert (remaining / qnat (length autos) * qnat (length autos) == remaining) as -> by (field; lra).
    split; [lra|done].
Qed.

Lemma share_nonneg remaining autos n :
  0 <= remaining -> 0 <= n -> Forall (fun x => 0 <= x) autos -> 0 <= share_of remaining autos n.
Proof.
  intros Hr Hn Ha. unfold share_of. destruct (qlt 0 (qsum autos)) eqn:E1.
  - apply qlt_true in E1.
    set (ct := qsum (List.filter (fun n => Qle_bool narrow_threshold n) autos)).
    destruct (qlt 0 ct) eqn:E2.
    + apply qlt_true in E2. destruct (qlt n narrow_threshold).
      * destruct (qmax_ge n narrow_floor). lra.
      * apply Qmult_le_0_compat; [apply Qmult_le_0_compat; [apply qmax_ge|done]|].
        apply Qinv_le_0_compat. lra.
    + apply Qmult_le_0_compat; [apply Qmult_le_0_compat; done|]. apply Qinv_le_0_compat. lra.
  - apply Qmult_le_0_compat; [done|]. apply Qinv_le_0_compat, qnat_nonneg.
Qed.

Local Close Scope Q_scope.

Lemma pairs_of W cols cs st :
  scan_inv W cols cs st ->
  zip (fst st) (snd st) = map (fun c => (specified t W cs c, natural t cs c)) (seq 0 cols).
Proof.
  intros (L1 & L2 & I). apply list_eq. intros i. rewrite lookup_zip_with, list_lookup_fmap.
  destruct (decide (i < cols)) as [Hi|Hi].
  - destruct (I i Hi) as [-> ->]. rewrite lookup_seq_lt by done. done.
  - rewrite (lookup_ge_None_2 (fst st)) by lia. rewrite lookup_seq_ge by lia. done.
Qed.

Lemma first_row_ok grids cs : is_first_row grids cs -> first_row_cells grids = cs.
Proof.
  intros (Hne & before & g & after & r & -> & Hr & -> & Hg & Hb). unfold first_row_cells.
  rewrite flat_map_app, List.filter_app.
  assert (List.filter (fun cs => match cs with [] => false | _ => true end)
            (flat_map (fun g => map (cells_in_row g) (seq 0 (n_rows g))) before) = []) as ->.
  { clear -Hb. induction before as [|b before IH]; [done|]. cbn [flat_map]. rewrite List.filter_app.
    rewrite IH by (intros; apply Hb; [by right|done]). rewrite app_nil_r.
    assert (forall k n, k + n <= n_rows b ->
      List.filter (fun cs : list placed => match cs with [] => false | _ => true end)
        (map (cells_in_row b) (seq k n)) = []) as H; [|by apply H].
    intros k n. revert k. induction n as [|n IHn]; intros k Hk; [done|]. cbn [seq map List.filter].
    assert (cells_in_row b k = []) as ->. { apply Hb; [by left|lia]. }
    apply IHn. lia. }
  cbn [app flat_map]. rewrite List.filter_app.
  replace (seq 0 (n_rows g)) with (seq 0 r ++ r :: seq (S r) (n_rows g - S r)).
  2:{ replace (n_rows g) with (r + S (n_rows g - S r)) at 2 by lia.
      rewrite seq_app. cbn. done. }
  rewrite map_app, List.filter_app. cbn [map].
  assert (List.filter (fun cs : list placed => match cs with [] => false | _ => true end)
        (map (cells_in_row g) (seq 0 r)) = []) as ->.
  { assert (forall k n, k + n <= r ->
      List.filter (fun cs : list placed => match cs with [] => false | _ => true end)
        (map (cells_in_row g) (seq k n)) = []) as H; [|by apply H].
    intros k n. revert k. induction n as [|n IHn]; intros k Hk; [done|]. cbn [seq map List.filter].
    assert (cells_in_row g k = []) as ->. { apply Hg. lia. }
    apply IHn. lia. }
  cbn [app List.filter]. change (cells_in_row g r) with (cells_at g r).
  destruct (cells_at g r) eqn:E; [done|]. done.
Qed.

Lemma first_row_from grids p : p ∈ first_row_cells grids -> exists g, g ∈ grids /\ p ∈ g_cells g.
Proof.
  unfold first_row_cells. intros H.
  destruct (List.filter _ _) as [|cs l] eqn:E; [by apply elem_of_nil in H|].
  assert (cs ∈ flat_map (fun g => map (cells_in_row g) (seq 0 (n_rows g))) grids) as Hcs.
  { assert (cs ∈ cs :: l) as Hin by (by left). rewrite <- E in Hin. by apply elem_of_filter_list in Hin as [_ ?]. }
  apply elem_of_list_In, in_flat_map in Hcs as (g & Hg & Hcs).
  apply in_map_iff in Hcs as (r & <- & _). exists g. split; [by apply elem_of_list_In|].
  unfold cells_in_row in H. by apply elem_of_filter_list in H as [_ ?].
Qed.

Lemma columns_ok cols W s grids :
  cols <> 0 -> Forall (fun p => p_col p < cols) (first_row_cells grids) ->
  let cs := first_row_cells grids in
  let pairs := map (fun c => (specified t W cs c, natural t cs c)) (seq 0 cols) in
  compute_column_widths t cols W s grids
  = Ok (distribute (qmax (qmax (W - (qnat cols + 1) * s) 0 - qsum (omap fst pairs)) 0)%Q pairs).
Proof.
  intros Hc F cs pairs. unfold compute_column_widths. rewrite (proj2 (Nat.eqb_neq _ _)) by done.
  destruct (scan_cells_ok W cols cs [] _ (scan_start W cols) F) as ([ex na] & E & I).
  unfold cs in E. rewrite E. cbn [rbind]. cbn [app] in I. pose proof (pairs_of _ _ _ _ I) as P.
  cbn [fst snd] in P. rewrite P. do 4 f_equal.
  unfold pairs. rewrite <- P.
  destruct I as (L1 & L2 & _). cbn [fst snd] in *. clear -L1 L2. revert na cols L1 L2.
  intros na cols L1 L2. f_equal. revert na cols L1 L2.
  induction ex as [|e ex IH]; intros [|n na] cols L1 L2; cbn in *; [done|lia|lia|].
  rewrite (IH na (pred cols)) by lia. done.
Qed.
End columns_proofs.

(** * Rows *)

Lemma row_heights_ok t ws cells heights :
  Forall (fun p => p_row p < length heights) cells ->
  exists hs, row_heights_from t ws cells heights = Ok hs /\ length hs = length heights
        /\ (forall r x, heights !! r = Some x -> exists y, hs !! r = Some y /\ (x <= y)%Q
               /\ (y = x \/ exists p, p ∈ cells /\ p_rowspan p = 1 /\ p_row p = r /\ y = wanted_height t ws p))
        /\ forall p, p ∈ cells -> p_rowspan p = 1 ->
             exists y, hs !! p_row p = Some y /\ (wanted_height t ws p <= y)%Q.
Proof.
  revert heights. induction cells as [|p cells IH]; intros heights F; cbn [row_heights_from].
  - exists heights. repeat split.
    + intros r x Hx. exists x. repeat split; [done|lra|by left].
    + intros p Hp. by apply elem_of_nil in Hp.
  - apply Forall_cons in F as [F1 F2]. destruct (p_rowspan p =? 1) eqn:E.
    + apply Nat.eqb_eq in E. destruct (lookup_lt_is_Some_2 _ _ F1) as [old Hold].
      rewrite (get_at_ok heights _ _ Hold). cbn [rbind].
      set (h' := wanted_height t ws p).
      set (heights' := if qlt old h' then <[p_row p := h']> heights else heights).
      assert ((if qlt old h' then set_at heights (p_row p) h' else Ok heights) = Ok heights') as ->.
      { unfold heights'. case_match; [|done]. by apply set_at_ok. }
      cbn [rbind].
      assert (length heights' = length heights) as L.
      { unfold heights'. case_match; [by rewrite insert_length|done]. }
      destruct (IH heights') as (hs & E1 & L1 & P1 & P2). { by rewrite L. }
      exists hs. repeat split; [done|lia| |].
      * intros r x Hx. destruct (decide (r = p_row p)) as [->|Hne].
        -- rewrite Hold in Hx. injection Hx as <-.
           destruct (qlt old h') eqn:Eq.
           ++ apply qlt_true in Eq. destruct (P1 (p_row p) h') as (y & Hy & Hle & Hc).
              { unfold heights'. by rewrite list_lookup_insert. }
              exists y. repeat split; [done|lra|]. right. destruct Hc as [->|(q & Hq & ?)].
              ** exists p. repeat split; [by left|done].
              ** exists q. split; [by right|done].
           ++ destruct (P1 (p_row p) old) as (y & Hy & Hle & Hc); [done|].
              exists y. repeat split; [done|done|]. destruct Hc as [->|(q & Hq & ?)]; [by left|].
              right. exists q. split; [by right|done].
        -- destruct (P1 r x) as (y & Hy & Hle & Hc).
           { unfold heights'. case_match; [by rewrite list_lookup_insert_ne|done]. }
           exists y. repeat split; [done|done|]. destruct Hc as [->|(q & Hq & ?)]; [by left|].
           right. exists q. split; [by right|done].
      * intros q Hq Hq1. apply elem_of_cons in Hq as [->|Hq]; [|by apply P2].
        destruct (qlt old h') eqn:Eq.
        -- destruct (P1 (p_row p) h') as (y & Hy & Hle & Hc).
           { unfold heights'. by rewrite list_lookup_insert. } eauto.
        -- apply qlt_false in Eq. destruct (P1 (p_row p) old) as (y & Hy & Hle & Hc); [done|].
           exists y. split; [done|]. fold h'. lra.
    + destruct (IH heights F2) as (hs & E1 & L1 & P1 & P2). exists hs. repeat split; [done|done| |].
      * intros r x Hx. destruct (P1 r x Hx) as (y & Hy & Hle & Hc). exists y. repeat split; [done|done|].
        destruct Hc as [->|(q & Hq & ?)]; [by left|]. right. exists q. split; [by right|done].
      * intros q Hq Hq1. apply elem_of_cons in Hq as [->|Hq]; [|by apply P2].
        rewrite Hq1 in E. done.
Qed.

Lemma repeat_get {A} (x : A) n i : i < n -> repeat x n !! i = Some x.
Proof. revert i. induction n as [|n IH]; intros [|i] Hi; [lia|lia|done|]. cbn. apply IH. lia. Qed.

Lemma repeat_got {A} (x y : A) n i : repeat x n !! i = Some y -> y = x.
Proof. revert i. induction n as [|n IH]; intros [|i] Hi; [done|done|by injection Hi|]. by apply (IH i). Qed.

Lemma wanted_needs t ws p h :
  p_col p + p_colspan p <= length ws -> (wanted_height t ws p <= h)%Q -> needs_height t ws p h.
Proof.
  intros Hr Hh. unfold needs_height. cbn zeta. unfold wanted_height in Hh.
  unfold slice in Hh. rewrite (proj2 (Nat.leb_le _ _)) in Hh by lia.
  unfold vertical, horizontal, read_border, read_padding in Hh. cbn [e_top e_bottom e_left e_right] in Hh.
  set (inner := qmax _ 0) in Hh.
  set (ex := match css t (p_node p) Height with Px px => px | _ => 0%Q end) in Hh.
  destruct (qmax_ge (layout_cell t (p_node p) inner) ex) as [G1 G2]. split.
  - exists inner. split; [|lra]. apply qmax_comp; lra.
  - intros v Hv. assert (ex = v) as -> by (unfold ex; by rewrite Hv). lra.
Qed.

(** * The log *)

Section log.
Context (t : tree) (col_x ws : list Q) (inner sx sy : Q).

Lemma place_rows_ok rows idx g hs row_y :
  idx + length rows <= length hs -> length row_y = length hs ->
  exists log, place_rows t rows idx g hs row_y col_x ws sx sy = Ok log.
Proof.
  revert idx. induction rows as [|r rows IH]; intros idx L1 L2; cbn [place_rows]; [eauto|].
  cbn in L1. destruct (lookup_lt_is_Some_2 row_y idx) as [ry Hry]; [lia|].
  destruct (lookup_lt_is_Some_2 hs idx) as [rh Hrh]; [lia|].
  rewrite (get_at_ok _ _ _ Hry), (get_at_ok _ _ _ Hrh). cbn [rbind].
  destruct (IH (S idx)) as [log ->]; [lia|done|]. cbn [rbind]. eauto.
Qed.

Lemma place_rows_mem rows idx g hs row_y log :
  place_rows t rows idx g hs row_y col_x ws sx sy = Ok log ->
  forall n l, (n, l) ∈ log <->
    (exists i row ry rh, rows !! i = Some row /\ r_node row = Some n
       /\ row_y !! (idx + i) = Some ry /\ hs !! (idx + i) = Some rh
       /\ l = mk_layout 0 ry (qsum ws) rh edges_zero edges_zero)
    \/ (exists i row p, rows !! i = Some row /\ p ∈ cells_in_row g (idx + i)
         /\ (n, l) = place_cell t hs col_x ws sx sy p).
Proof.
  revert idx log. induction rows as [|r rows IH]; intros idx log H n l; cbn [place_rows] in H.
  - injection H as <-. rewrite elem_of_nil. split; [done|].
    intros [(i & row & ry & rh & Hi & _)|(i & row & p & Hi & _)]; by rewrite lookup_nil in Hi.
  - apply rbind_Ok in H as (ry & Hry & H). apply rbind_Ok in H as (rh & Hrh & H).
    apply rbind_Ok in H as (tail & Htail & H). injection H as <-.
    unfold get_at in Hry, Hrh. destruct (row_y !! idx) eqn:Ery; [|done]. injection Hry as ->.
    destruct (hs !! idx) eqn:Erh; [|done]. injection Hrh as ->.
    rewrite !elem_of_app, (IH _ _ Htail n l).
    split.
    + intros [H|[H|[H|H]]].
      * left. exists 0, r, ry, rh. rewrite Nat.add_0_r. destruct (r_node r); [|by apply elem_of_nil in H].
        apply elem_of_list_singleton in H. injection H as -> ->. done.
      * right. exists 0, r. apply elem_of_list_In, in_map_iff in H as (p & E & Hp).
        exists p. rewrite Nat.add_0_r. repeat split; [by apply elem_of_list_In|done].
      * left. destruct H as (i & row & y & z & ? & ? & ? & ? & ?). exists (S i), row, y, z.
        by replace (idx + S i) with (S idx + i) by lia.
      * right. destruct H as (i & row & p & ? & ? & ?). exists (S i), row, p.
        by replace (idx + S i) with (S idx + i) by lia.
    + intros [(i & row & y & z & Hi & Hn & Hy & Hz & ->)|(i & row & p & Hi & Hp & E)];
        destruct i as [|i]; cbn in Hi.
      * injection Hi as <-. rewrite Nat.add_0_r in *. left. rewrite Hn.
        apply elem_of_list_singleton. congruence.
      * right. right. left. exists i, row, y, z. by replace (S idx + i) with (idx + S i) by lia.
      * injection Hi as <-. rewrite Nat.add_0_r in *. right. left. rewrite E.
        apply elem_of_list_In, in_map, elem_of_list_In. done.
      * right. right. right. exists i, row, p. by replace (S idx + i) with (idx + S i) by lia.
Qed.

(** The groups with the offset of each from the top of the table. *)
Fixpoint stack (gs : list (row_group * grid * list Q)) (gy : Q) : list (Q * (row_group * grid * list Q)) :=
  match gs with
  | [] => []
  | e :: rest => (gy, e) :: stack rest (gy + (section_height (snd e) sy + sy))%Q
  end.

Lemma place_groups_ok gs gy :
  Forall (fun e => length (g_rows (fst (fst e))) = length (snd e)) gs ->
  exists out, place_groups t gs gy col_x ws inner sx sy = Ok out.
Proof.
  revert gy. induction gs as [|[[grp g] hs] gs IH]; intros gy F; cbn [place_groups]; [eauto|].
  apply Forall_cons in F as [F1 F2]. cbn in F1.
  destruct (place_rows_ok (g_rows grp) 0 g hs (offsets 0 hs sy)) as [log ->]; [lia| |].
  { clear. generalize 0%Q. induction hs; intros; cbn; auto. }
  cbn [rbind]. destruct (IH (gy + (section_height hs sy + sy))%Q F2) as [[tail bottom] ->]. cbn. eauto.
Qed.

Definition group_entry (n : nat) (l : cell_layout) (e : Q * (row_group * grid * list Q)) : Prop :=
  let '(gy, (grp, g, hs)) := e in
  (g_node grp = Some n /\ l = mk_layout 0 gy inner (section_height hs sy) edges_zero edges_zero)
  \/ (exists i row ry rh, g_rows grp !! i = Some row /\ r_node row = Some n
       /\ offsets 0 hs sy !! i = Some ry /\ hs !! i = Some rh
       /\ l = mk_layout 0 ry (qsum ws) rh edges_zero edges_zero)
  \/ (exists i row p, g_rows grp !! i = Some row /\ p ∈ cells_in_row g i
         /\ (n, l) = place_cell t hs col_x ws sx sy p).

Lemma place_groups_mem gs gy log bottom :
  place_groups t gs gy col_x ws inner sx sy = Ok (log, bottom) ->
  forall n l, (n, l) ∈ log <-> exists e, e ∈ stack gs gy /\ group_entry n l e.
Proof.
  revert gy log bottom. induction gs as [|[[grp g] hs] gs IH]; intros gy log bottom H n l;
    cbn [place_groups] in H.
  - injection H as <- <-. rewrite elem_of_nil. split; [done|]. intros (e & He & _). by apply elem_of_nil in He.
  - apply rbind_Ok in H as (rows & Hrows & H). apply rbind_Ok in H as ([tail bot] & Htail & H).
    injection H as <- <-. rewrite !elem_of_app, (IH _ _ _ Htail n l), (place_rows_mem _ _ _ _ _ _ Hrows n l).
    cbn [stack snd]. split.
    + intros [H|[H|H]].
      * eexists. split; [by left|]. left. destruct (g_node grp); [|by apply elem_of_nil in H].
        apply elem_of_list_singleton in H. injection H as -> ->. done.
      * eexists. split; [by left|]. right. exact H.
      * destruct H as (e & He & H). exists e. split; [by right|done].
    + intros (e & He & H). apply elem_of_cons in He as [->|He].
      * destruct H as [[Hn ->]|H].
        -- left. rewrite Hn. by left.
        -- right. left. exact H.
      * right. right. eauto.
Qed.

Local Open Scope Q_scope.

Definition sound_entry (e : row_group * grid * list Q) : Prop := Forall (fun x => 0 <= x) (snd e).

Lemma section_height_nonneg hs : 0 <= sy -> Forall (fun x => 0 <= x) hs -> 0 <= section_height hs sy.
Proof.
  intros Hs F. unfold section_height. pose proof (qsum_nonneg hs F).
  pose proof (qnat_nonneg (length hs - 1)).
  assert (0 <= sy * qnat (length hs - 1)) by (apply Qmult_le_0_compat; done). lra.
Qed.

Lemma stack_lookup gs gy k e :
  gs !! k = Some e -> exists gyk, stack gs gy !! k = Some (gyk, e).
Proof.
  revert gy k. induction gs as [|e' gs IH]; intros gy [|k] H; try done.
  - cbn in H. injection H as ->. cbn. eauto.
  - cbn. by apply IH.
Qed.

Lemma stack_lookup_inv gs gy k gyk e : stack gs gy !! k = Some (gyk, e) -> gs !! k = Some e.
Proof.
  revert gy k. induction gs as [|e' gs IH]; intros gy [|k] H; try done.
  - cbn in H. injection H as ? ->. done.
  - cbn in *. by eapply IH.
Qed.

Lemma stack_from gs gy k gyk e :
  0 <= sy -> Forall sound_entry gs -> stack gs gy !! k = Some (gyk, e) -> gy <= gyk.
Proof.
  intros Hs. revert gy k. induction gs as [|e' gs IH]; intros gy [|k] F H; try done.
  - cbn in H. injection H as -> ->. lra.
  - cbn in H. apply Forall_cons in F as [F1 F2]. apply IH in H; [|done].
    pose proof (section_height_nonneg (snd e') Hs F1). lra.
Qed.

Lemma stack_below gs gy k k' gyk gyk' e e' :
  0 <= sy -> Forall sound_entry gs -> (k < k')%nat ->
  stack gs gy !! k = Some (gyk, e) -> stack gs gy !! k' = Some (gyk', e') ->
  gyk + section_height (snd e) sy + sy <= gyk'.
Proof.
  intros Hs. revert gy k k'. induction gs as [|e0 gs IH]; intros gy k k' F Hk H H'; [done|].
  apply Forall_cons in F as [F1 F2]. destruct k' as [|k']; [lia|]. destruct k as [|k].
  - cbn in H. injection H as <- <-. cbn in H'. apply stack_from in H'; [|done|done]. lra.
  - cbn in H, H'. eapply (IH _ k k'); try done. lia.
Qed.

Lemma stack_next gs gy k gyk gyk' e e' :
  stack gs gy !! k = Some (gyk, e) -> stack gs gy !! S k = Some (gyk', e') ->
  gyk' = gyk + (section_height (snd e) sy + sy).
Proof.
  revert gy k. induction gs as [|e0 gs IH]; intros gy k H H'; [done|]. destruct k as [|k].
  - cbn in H. injection H as <- <-. destruct gs as [|e1 gs]; [done|]. cbn in H'. by injection H' as <- _.
  - cbn [stack lookup list_lookup] in H, H'. by eapply IH.
Qed.

Lemma stack_bottom gs gy log bottom k gyk e :
  place_groups t gs gy col_x ws inner sx sy = Ok (log, bottom) ->
  0 <= sy -> Forall sound_entry gs -> stack gs gy !! k = Some (gyk, e) ->
  gyk + section_height (snd e) sy + sy <= bottom.
Proof.
  intros H Hs. revert gy k log bottom H.
  assert (forall gs gy log bottom, place_groups t gs gy col_x ws inner sx sy = Ok (log, bottom) ->
    Forall sound_entry gs -> gy <= bottom) as Hle.
  { clear -Hs. induction gs as [|[[grp g] hs] gs IH]; intros gy log bottom H F; cbn [place_groups] in H.
    - injection H as <- <-. lra.
    - apply rbind_Ok in H as (rows & _ & H). apply rbind_Ok in H as ([tail bot] & Ht & H).
      injection H as <- <-. apply Forall_cons in F as [F1 F2]. apply IH in Ht; [|done].
      pose proof (section_height_nonneg hs Hs F1). lra. }
  induction gs as [|[[grp g] hs] gs IH]; intros gy k log bottom H F Hk; [done|]. cbn [place_groups] in H.
  apply rbind_Ok in H as (rows & _ & H). apply rbind_Ok in H as ([tail bot] & Ht & H).
  injection H as <- <-. apply Forall_cons in F as [F1 F2]. destruct k as [|k].
  - cbn in Hk. injection Hk as <- <-. apply Hle in Ht; [|done]. cbn [snd]. lra.
  - cbn in Hk. by eapply IH.
Qed.

Local Close Scope Q_scope.
End log.

(** * The whole layout *)

Lemma map_res_Ok {A B} (f : A -> res B) l out :
  map_res f l = Ok out <-> Forall2 (fun x y => f x = Ok y) l out.
Proof.
  revert out. induction l as [|x l IH]; intros out; cbn [map_res].
  - split; [by injection 1 as <-|]. intros H. by inversion H.
  - split.
    + intros H. apply rbind_Ok in H as (y & Hy & H). apply rbind_Ok in H as (ys & Hys & H).
      injection H as <-. constructor; [done|]. by apply IH.
    + intros H. inversion H as [|? y ? ys Hy Hys]; subst. rewrite Hy. cbn [rbind].
      apply IH in Hys. rewrite Hys. done.
Qed.

Lemma map_res_total {A B} (f : A -> res B) l :
  Forall (fun x => exists y, f x = Ok y) l -> exists out, map_res f l = Ok out.
Proof.
  induction 1 as [|x l [y Hy] Hl [ys IH]]; cbn [map_res]; [eauto|]. rewrite Hy. cbn. rewrite IH. cbn. eauto.
Qed.

Lemma fold_max_ge l a : a <= fold_left Nat.max l a /\ forall x, x ∈ l -> x <= fold_left Nat.max l a.
Proof.
  revert a. induction l as [|y l IH]; intros a; cbn.
  - split; [lia|]. intros x Hx. by apply elem_of_nil in Hx.
  - destruct (IH (Nat.max a y)) as [H1 H2]. split; [lia|]. intros x Hx.
    apply elem_of_cons in Hx as [->|Hx]; [lia|]. by apply H2.
Qed.

Lemma grid_col limit rows g p :
  build_section_grid limit rows = Ok g -> p ∈ g_cells g ->
  p_col p + p_colspan p <= n_cols g /\ p_row p + p_rowspan p <= n_rows g
  /\ 1 <= p_rowspan p /\ 1 <= p_colspan p
  /\ exists r, rows !! p_row p = Some r /\ p_node p ∈ map s_node (r_cells r).
Proof.
  intros H Hp. apply grid_any in H as (-> & -> & pss & Hc & L & P).
  split; [by apply extent_le|].
  rewrite Hc in Hp. apply elem_of_list_In, in_concat in Hp as (ps & Hps & Hp).
  apply elem_of_list_In in Hps, Hp. apply elem_of_list_lookup in Hps as [i Hi].
  assert (i < length rows) as Hlt. { rewrite <- L. by eapply lookup_lt_Some. }
  destruct (lookup_lt_is_Some_2 rows i Hlt) as [r Hr].
  destruct (P i r Hr) as (ps' & Hi' & N & F & _). rewrite Hi in Hi'. injection Hi' as <-.
  rewrite Forall_forall in F. destruct (F p Hp) as (F1 & F2 & F3 & F4). repeat split; [done..|].
  exists r. rewrite F1. split; [done|]. rewrite <- N. apply elem_of_list_In, in_map, elem_of_list_In. done.
Qed.

Lemma distribute_length rem pairs : length (distribute rem pairs) = length pairs.
Proof. apply map_length. Qed.

Lemma grids_cols limit (groups : list row_group) grids :
  map_res (fun g => build_section_grid limit (g_rows g)) groups = Ok grids ->
  Forall (fun p => p_col p < fold_left Nat.max (map n_cols grids) 0) (first_row_cells grids).
Proof.
  intros H. apply map_res_Ok in H. apply Forall_forall. intros p Hp.
  apply first_row_from in Hp as (g & Hg & Hp).
  assert (n_cols g <= fold_left Nat.max (map n_cols grids) 0).
  { apply fold_max_ge. apply elem_of_list_In, in_map, elem_of_list_In. done. }
  apply elem_of_list_lookup in Hg as [i Hi].
  destruct (Forall2_lookup_r _ _ _ _ _ H Hi) as (grp & _ & Hb).
  destruct (grid_col _ _ _ _ Hb Hp) as (? & _ & _ & ? & _). lia.
Qed.

Lemma columns_facts t cols W s grids ws :
  cols <> 0 -> Forall (fun p => p_col p < cols) (first_row_cells grids) ->
  (forall n, (0 <= content_width t n)%Q) ->
  compute_column_widths t cols W s grids = Ok ws ->
  length ws = cols /\ Forall (fun x => (0 <= x)%Q) ws.
Proof.
  intros Hc F Hw H. rewrite columns_ok in H by done. injection H as <-. split.
  - rewrite distribute_length, map_length, seq_length. done.
  - rewrite distribute_share. apply Forall_fmap. apply Forall_forall. intros [v n] Hp.
    apply elem_of_list_In, in_map_iff in Hp as (c & E & _). injection E as E1 E2. cbn.
    destruct v as [v|].
    + by eapply specified_nonneg.
    + apply share_nonneg; [apply qmax_ge|rewrite <- E2; apply natural_nonneg|].
      apply Forall_forall. intros x Hx. unfold auto_naturals in Hx.
      apply elem_of_list_In, in_flat_map in Hx as ([v' n'] & Hp & Hx).
      apply in_map_iff in Hp as (c' & E & _). injection E as E3 E4. cbn in Hx.
      destruct v'; [done|]. destruct Hx as [<-|[]]. rewrite <- E4. apply natural_nonneg.
Qed.

Lemma rows_facts t limit rows g ws :
  build_section_grid limit rows = Ok g ->
  exists hs, compute_row_heights t g ws = Ok hs /\ length hs = n_rows g
        /\ Forall (fun x => (0 <= x)%Q) hs
        /\ (forall p, p ∈ g_cells g -> p_rowspan p = 1 ->
             exists y, hs !! p_row p = Some y /\ (wanted_height t ws p <= y)%Q)
        /\ forall r y, hs !! r = Some y ->
             y = 0%Q \/ exists p, p ∈ g_cells g /\ p_rowspan p = 1 /\ p_row p = r /\ y = wanted_height t ws p.
Proof.
  intros H. destruct (row_heights_ok t ws (g_cells g) (repeat 0%Q (n_rows g))) as (hs & E & L & P1 & P2).
  { apply Forall_forall. intros p Hp. rewrite repeat_length.
    destruct (grid_col _ _ _ _ H Hp) as (_ & ? & ? & _). lia. }
  rewrite repeat_length in L. exists hs. repeat split; [done|done| |done|].
  - apply Forall_forall. intros x Hx. apply elem_of_list_lookup in Hx as [i Hi].
    destruct (P1 i 0%Q) as (y & Hy & Hle & _).
    { apply repeat_get. rewrite <- L. by eapply lookup_lt_Some. }
    rewrite Hi in Hy. by injection Hy as ->.
  - intros r y Hy. destruct (P1 r 0%Q) as (y' & Hy' & _ & Hc).
    { apply repeat_get. rewrite <- L. by eapply lookup_lt_Some. }
    rewrite Hy in Hy'. injection Hy' as <-. done.
Qed.

Definition all_groups (t : tree) (table : nat) : list row_group :=
  let m := build_model t table in m_headers m ++ m_bodies m ++ m_footers m.

(** Every step of a layout. *)
Record facts (limit : nat) (t : tree) (table : nat) (available : Q)
    (log : layouts) (W H : Q) (grids : list grid) (ws : list Q) (hss : list (list Q)) : Prop := mk_facts {
  f_sections : sections limit t table grids;
  f_width : W = resolve_table_width t table available;
  f_cols : length ws = fold_left Nat.max (map n_cols grids) 0;
  f_nonzero : length ws <> 0;
  f_widths : compute_column_widths t (length ws) W (px_or (css t table BorderSpacingX) 2) grids = Ok ws;
  f_heights : Forall2 (fun g hs => compute_row_heights t g ws = Ok hs) grids hss;
  f_groups : exists inner,
    place_groups t (zip (zip (all_groups t table) grids) hss)
      (px_or (css t table BorderSpacingY) 2) 
      (offsets (px_or (css t table BorderSpacingX) 2) ws (px_or (css t table BorderSpacingX) 2)) ws inner
      (px_or (css t table BorderSpacingX) 2) (px_or (css t table BorderSpacingY) 2) = Ok (log, H) }.

Lemma columns_length t cols W s grids ws :
  Forall (fun p => p_col p < cols) (first_row_cells grids) ->
  compute_column_widths t cols W s grids = Ok ws -> length ws = cols.
Proof.
  intros F H. destruct (decide (cols = 0)) as [->|Hc].
  - unfold compute_column_widths in H. cbn in H. by injection H as <-.
  - rewrite columns_ok in H by done. injection H as <-.
    rewrite distribute_length, map_length, seq_length. done.
Qed.

Lemma layout_facts limit t table available log W H :
  compute_table_layout limit t table available = Ok (log, (W, H)) ->
  (log = [] /\ W = 0%Q /\ H = 0%Q /\ exists grids, sections limit t table grids /\ fold_left Nat.max (map n_cols grids) 0 = 0)
  \/ exists grids ws hss, facts limit t table available log W H grids ws hss.
Proof.
  unfold compute_table_layout. intros E. apply rbind_Ok in E as (grids & Hg & E).
  set (cols := fold_left Nat.max (map n_cols grids) 0) in *.
  destruct (cols =? 0) eqn:Ec.
  - injection E as <- <- <-. left. repeat split. exists grids. split; [exact Hg|]. by apply Nat.eqb_eq.
  - right. apply Nat.eqb_neq in Ec. apply rbind_Ok in E as (ws & Hw & E). apply rbind_Ok in E as (hss & Hh & E).
    apply rbind_Ok in E as ((lg & bot) & Hp & E). injection E as <- <- <-.
    assert (length ws = cols) as L. { eapply columns_length; [|exact Hw]. by eapply grids_cols. }
    exists grids, ws, hss. constructor.
    + exact Hg.
    + done.
    + done.
    + by rewrite L.
    + by rewrite L.
    + by apply map_res_Ok in Hh.
    + eexists. exact Hp.
Qed.

(** The layout returns whenever the spans fit in memory. *)
Lemma layout_total limit t table available :
  (forall grp, grp ∈ all_groups t table ->
     sum_list_with (fun s => Nat.max (s_colspan s) 1) (row_sources (g_rows grp)) <= limit) ->
  exists out, compute_table_layout limit t table available = Ok out.
Proof.
  intros Hlim. unfold compute_table_layout.
  fold (all_groups t table).
  destruct (map_res_total (fun g => build_section_grid limit (g_rows g)) (all_groups t table)) as [grids Hg].
  { apply Forall_forall. intros grp Hin. apply grid_ok. by apply Hlim. }
  unfold all_groups in *. rewrite Hg. cbn [rbind].
  destruct (_ =? 0) eqn:Ec; [eauto|]. apply Nat.eqb_neq in Ec.
  pose proof (grids_cols _ _ _ Hg) as F.
  rewrite columns_ok by done. cbn [rbind].
  set (ws := distribute _ _).
  pose proof (proj1 (map_res_Ok _ _ _) Hg) as Hg2.
  destruct (map_res_total (fun g => compute_row_heights t g ws) grids) as [hss Hh].
  { apply Forall_forall. intros g Hin. apply elem_of_list_lookup in Hin as [i Hi].
    destruct (Forall2_lookup_r _ _ _ _ _ Hg2 Hi) as (grp & _ & Hb).
    destruct (rows_facts t _ _ _ ws Hb) as (hs & E & _). eauto. }
  rewrite Hh. cbn [rbind].
  pose proof (proj1 (map_res_Ok _ _ _) Hh) as Hh2.
  match goal with |- context[place_groups t ?gs ?gy ?cx ?w ?inn ?a ?b] =>
    destruct (place_groups_ok t cx w inn a b gs gy) as [[lg bot] ->] end; [|cbn; eauto].
  apply Forall_forall. intros [[grp g] hs] Hin. apply elem_of_list_lookup in Hin as [i Hi].
  apply lookup_zip_with_Some in Hi as ([grp' g'] & hs' & E & Hi & Hi3). injection E as <- <- <-.
  apply lookup_zip_with_Some in Hi as (grp' & g' & E & Hi1 & Hi2). injection E as <- <-.
  pose proof (Forall2_lookup_lr _ _ _ _ _ _ Hg2 Hi1 Hi2) as Hb. cbn in Hb.
  pose proof (Forall2_lookup_lr _ _ _ _ _ _ Hh2 Hi2 Hi3) as Hh3. cbn in Hh3.
  destruct (rows_facts t _ _ _ ws Hb) as (hs' & E & L & _). rewrite E in Hh3. injection Hh3 as <-.
  apply grid_any in Hb as (Hn & _). cbn. lia.
Qed.

(** * Rows and groups with elements of their own *)

Lemma explicit_rows t n :
  (forall c, c ∈ children t n -> table_role t c <> Cell) ->
  build_row_group t n = mk_group (Some n) (map (build_row t) (rows_of_group t n)).
Proof.
  intros H. unfold build_row_group, rows_of_group.
  assert (forall l g, (forall c, c ∈ l -> table_role t c <> Cell) ->
    fold_left
      (fun g child =>
         match table_role t child with
         | Row => mk_group (g_node g) (g_rows g ++ [build_row t child])
         | Cell => mk_group (g_node g) (push_anon_row (g_rows g) (build_source_cell t child))
         | _ => g
         end) l g = mk_group (g_node g) (g_rows g ++ map (build_row t) (List.filter (is_row t) l))) as Hf.
  { induction l as [|c l IH]; intros g Hl; cbn [fold_left List.filter map].
    - rewrite app_nil_r. by destruct g.
    - assert (forall c, c ∈ l -> table_role t c <> Cell) as Hl'. { intros; apply Hl; by right. }
      specialize (Hl c ltac:(by left)). unfold is_row at 1. destruct (table_role t c); rewrite IH by done; try done.
      cbn. rewrite <- app_assoc. done. }
  rewrite Hf by done. done.
Qed.

Definition group_nodes (t : tree) (table : nat) : list nat :=
  groups_of_part t table Head ++ groups_of_part t table Body ++ groups_of_part t table Foot.

Lemma explicit_groups t table :
  explicit_structure t table ->
  all_groups t table = map (build_row_group t) (group_nodes t table).
Proof.
  intros [H _]. unfold all_groups, group_nodes, build_model, groups_of_part. rewrite !map_app.
  assert (forall l m, (forall c, c ∈ l -> table_role t c <> Row /\ table_role t c <> Cell) ->
    forall k, part_groups (fold_left (add_child t) l m) k
    = part_groups m k ++ map (build_row_group t) (List.filter (part_group t k) l)) as Hf.
  { induction l as [|c l IH]; intros m Hl k; cbn [fold_left List.filter map].
    - by rewrite app_nil_r.
    - rewrite IH by (intros; apply Hl; by right). destruct (Hl c ltac:(by left)) as [H1 H2].
      assert (part_groups (add_child t m c) k
              = part_groups m k ++ map (build_row_group t) (if part_group t k c then [c] else [])) as ->.
      { unfold add_child, part_group.
        destruct (table_role t c), k; cbn [part_groups m_headers m_bodies m_footers map];
          rewrite ?app_nil_r; done. }
      rewrite <- app_assoc, <- map_app. by destruct (part_group t k c). }
  specialize (Hf (children t table) (mk_model None [] [] []) H).
  pose proof (Hf Head) as H1. pose proof (Hf Body) as H2. pose proof (Hf Foot) as H3.
  cbn [part_groups app m_headers m_bodies m_footers] in H1, H2, H3.
  rewrite H1, H2, H3. done.
Qed.

Lemma group_nodes_role t table n :
  n ∈ group_nodes t table -> n ∈ children t table /\ is_group t n.
Proof.
  unfold group_nodes, groups_of_part, is_group. rewrite !elem_of_app, !elem_of_filter_list.
  intros [[H ?]|[[H ?]|[H ?]]]; (split; [done|]); destruct (table_role t n); auto; done.
Qed.

Lemma nodup_filter {A} (f : A -> bool) (l : list A) : NoDup l -> NoDup (List.filter f l).
Proof.
  induction 1 as [|x l Hx Hl IH]; cbn; [constructor|]. destruct (f x); [|done].
  constructor; [|done]. rewrite elem_of_filter_list. tauto.
Qed.

Lemma group_nodes_nodup t table : NoDup (children t table) -> NoDup (group_nodes t table).
Proof.
  intros H. unfold group_nodes, groups_of_part. rewrite !NoDup_app.
  repeat split; try (apply nodup_filter; done).
  - intros x Hx Hy. apply elem_of_app in Hy. rewrite !elem_of_filter_list in *.
    destruct (table_role t x); naive_solver.
  - intros x Hx Hy. rewrite !elem_of_filter_list in *. destruct (table_role t x); naive_solver.
Qed.

Lemma build_row_cells t n : map s_node (r_cells (build_row t n)) = cells_of_row t n.
Proof. destruct (build_row_ok t n) as [[_ H] E]. by rewrite E in H. Qed.

Lemma build_row_node t n : r_node (build_row t n) = Some n.
Proof. apply build_row_ok. Qed.

(** * Boxes *)

Lemma pending_elem log n l : pending log n = Some l -> (n, l) ∈ log.
Proof.
  induction log as [|[k l'] log IH]; cbn; [done|]. destruct (pending log n) eqn:E.
  - injection 1 as ->. right. by apply IH.
  - destruct (k =? n) eqn:Ek; [|done]. apply Nat.eqb_eq in Ek. subst k. injection 1 as ->. by left.
Qed.

Lemma pending_none log n l : (n, l) ∈ log -> exists l', pending log n = Some l'.
Proof.
  induction log as [|[k l'] log IH]; intros H; [by apply elem_of_nil in H|]. cbn.
  destruct (pending log n) eqn:E; [eauto|].
  apply elem_of_cons in H as [H|H]; [|by destruct (IH H)].
  injection H as -> ->. rewrite Nat.eqb_refl. eauto.
Qed.

Section boxes.
Context (limit : nat) (t : tree) (table : nat) (available : Q).
Context (log : layouts) (W H : Q) (grids : list grid) (ws : list Q) (hss : list (list Q)).
Context (HF : facts limit t table available log W H grids ws hss).
Context (HP : proper t) (HE : explicit_structure t table).
Context (X Y : Q).

Let sx := px_or (css t table BorderSpacingX) 2.
Let sy := px_or (css t table BorderSpacingY) 2.
Let entries := stack sy (zip (zip (all_groups t table) grids) hss) sy.

Lemma entry_parts k gy grp g hs :
  entries !! k = Some (gy, (grp, g, hs)) ->
  exists gn, group_nodes t table !! k = Some gn /\ gn ∈ children t table /\ is_group t gn
        /\ grp = mk_group (Some gn) (map (build_row t) (rows_of_group t gn))
        /\ grids !! k = Some g /\ hss !! k = Some hs
        /\ build_section_grid limit (g_rows grp) = Ok g
        /\ compute_row_heights t g ws = Ok hs.
Proof.
  intros Hk. apply stack_lookup_inv in Hk.
  apply lookup_zip_with_Some in Hk as ([grp' g'] & hs' & E & Hi & Hi3). injection E as <- <- <-.
  apply lookup_zip_with_Some in Hi as (grp' & g' & E & Hi1 & Hi2). injection E as <- <-.
  pose proof (f_sections _ _ _ _ _ _ _ _ _ _ HF) as Hs. unfold sections in Hs. apply map_res_Ok in Hs.
  fold (all_groups t table) in Hs.
  pose proof (Forall2_lookup_lr _ _ _ _ _ _ Hs Hi1 Hi2) as Hb.
  pose proof (Forall2_lookup_lr _ _ _ _ _ _ (f_heights _ _ _ _ _ _ _ _ _ _ HF) Hi2 Hi3) as Hh.
  rewrite (explicit_groups _ _ HE) in Hi1. apply list_lookup_fmap_Some in Hi1 as (gn & Hgn & ->).
  destruct (group_nodes_role t table gn) as [G1 G2]; [by eapply elem_of_list_lookup_2|].
  assert (build_row_group t gn = mk_group (Some gn) (map (build_row t) (rows_of_group t gn))) as E.
  { apply explicit_rows. intros c Hc. destruct HE as [_ HE2]. by eapply HE2. }
  exists gn. rewrite <- E. done.
Qed.

Lemma entry_mem e : e ∈ entries -> exists k, entries !! k = Some e.
Proof. apply elem_of_list_lookup. Qed.

Context (inner : Q).
Context (HG : place_groups t (zip (zip (all_groups t table) grids) hss) sy (offsets sx ws sx) ws inner sx sy
              = Ok (log, H)).

Lemma log_mem n l :
  (n, l) ∈ log <-> exists k e, entries !! k = Some e /\ group_entry t (offsets sx ws sx) ws inner sx sy n l e.
Proof.
  rewrite (place_groups_mem _ _ _ _ _ _ _ _ _ _ HG n l). split.
  - intros (e & He & G). apply entry_mem in He as [k Hk]. eauto.
  - intros (k & e & Hk & G). exists e. split; [by eapply elem_of_list_lookup_2|done].
Qed.

Lemma is_row_role n : is_row t n = true -> table_role t n = Row.
Proof. unfold is_row. by destruct (table_role t n). Qed.

Lemma is_cell_role n : is_cell t n = true -> table_role t n = Cell.
Proof. unfold is_cell. by destruct (table_role t n). Qed.

Lemma group_not n : is_group t n -> table_role t n <> Row /\ table_role t n <> Cell.
Proof. intros [E|[E|E]]; rewrite E; done. Qed.

(** What an entry says, by the kind of the node. *)
Lemma log_group k gy grp g hs gn l :
  entries !! k = Some (gy, (grp, g, hs)) -> g_node grp = Some gn -> (gn, l) ∈ log ->
  l_x l = 0%Q /\ l_y l = gy.
Proof.
  intros Hk Hn Hl. apply log_mem in Hl as (k' & [gy' [[grp' g'] hs']] & Hk' & G).
  destruct (entry_parts _ _ _ _ _ Hk) as (gn1 & N1 & C1 & R1 & E1 & _). rewrite E1 in Hn. injection Hn as ->.
  destruct (entry_parts _ _ _ _ _ Hk') as (gn2 & N2 & C2 & R2 & E2 & _ & _ & B2 & _).
  destruct (group_not gn R1) as [Nr Nc].
  destruct G as [[Gn ->]|[(i & row & ry & rh & Hi & Hn & _)|(i & row & p & Hi & Hp & E)]].
  - rewrite E2 in Gn. injection Gn as ->.
    assert (k = k') as <-.
    { eapply NoDup_lookup; [apply group_nodes_nodup|exact N1|exact N2]. by apply HP. }
    rewrite Hk in Hk'. injection Hk' as <- <- <- <-. done.
  - rewrite E2 in Hi. cbn in Hi. apply list_lookup_fmap_Some in Hi as (rn & Hrn & ->).
    rewrite build_row_node in Hn. injection Hn as ->. exfalso. apply Nr, is_row_role.
    apply elem_of_list_lookup_2 in Hrn. unfold rows_of_group in Hrn. by apply elem_of_filter_list in Hrn as [? _].
  - exfalso. apply Nc, is_cell_role. injection E as -> _.
    unfold cells_in_row in Hp. apply elem_of_filter_list in Hp as [_ Hp].
    destruct (grid_col _ _ _ _ B2 Hp) as (_ & _ & _ & _ & r & Hr & Hc).
    rewrite E2 in Hr. cbn in Hr. apply list_lookup_fmap_Some in Hr as (rn & Hrn & ->).
    rewrite build_row_cells in Hc. unfold cells_of_row in Hc. by apply elem_of_filter_list in Hc as [? _].
Qed.

Lemma row_unique k k' gn gn' i i' rn :
  group_nodes t table !! k = Some gn -> group_nodes t table !! k' = Some gn' ->
  rows_of_group t gn !! i = Some rn -> rows_of_group t gn' !! i' = Some rn -> k = k' /\ i = i'.
Proof.
  intros N N' R R'. destruct HP as (P1 & P2 & _).
  pose proof (elem_of_list_lookup_2 _ _ _ R) as Q1. pose proof (elem_of_list_lookup_2 _ _ _ R') as Q2.
  unfold rows_of_group in Q1, Q2. apply elem_of_filter_list in Q1 as [_ Q1]. apply elem_of_filter_list in Q2 as [_ Q2].
  assert (gn = gn') as <- by (by eapply P1). split.
  - eapply NoDup_lookup; [apply group_nodes_nodup, P2|exact N|exact N'].
  - eapply NoDup_lookup; [|exact R|exact R']. apply nodup_filter, P2.
Qed.

Lemma log_row k gy grp g hs gn i rn l :
  entries !! k = Some (gy, (grp, g, hs)) -> g_node grp = Some gn ->
  rows_of_group t gn !! i = Some rn -> (rn, l) ∈ log ->
  l_x l = 0%Q /\ offsets 0 hs sy !! i = Some (l_y l).
Proof.
  intros Hk Hn Hi Hl. apply log_mem in Hl as (k' & [gy' [[grp' g'] hs']] & Hk' & G).
  destruct (entry_parts _ _ _ _ _ Hk) as (gn1 & N1 & C1 & R1 & E1 & _). rewrite E1 in Hn. injection Hn as ->.
  destruct (entry_parts _ _ _ _ _ Hk') as (gn2 & N2 & C2 & R2 & E2 & _ & _ & B2 & _).
  assert (table_role t rn = Row) as Hrole.
  { apply is_row_role. apply elem_of_list_lookup_2 in Hi. unfold rows_of_group in Hi.
    by apply elem_of_filter_list in Hi as [? _]. }
  destruct G as [[Gn ->]|[(i' & row & ry & rh & Hi' & Hn & Hry & _ & ->)|(i' & row & p & Hi' & Hp & E)]].
  - rewrite E2 in Gn. injection Gn as <-. destruct (group_not gn2 R2). done.
  - rewrite E2 in Hi'. cbn in Hi'. apply list_lookup_fmap_Some in Hi' as (rn' & Hrn & ->).
    rewrite build_row_node in Hn. injection Hn as ->.
    destruct (row_unique _ _ _ _ _ _ _ N1 N2 Hi Hrn) as [<- <-].
    rewrite Hk in Hk'. injection Hk' as <- <- <- <-. done.
  - exfalso. injection E as -> _.
    unfold cells_in_row in Hp. apply elem_of_filter_list in Hp as [_ Hp].
    destruct (grid_col _ _ _ _ B2 Hp) as (_ & _ & _ & _ & r & Hr & Hc).
    rewrite E2 in Hr. cbn in Hr. apply list_lookup_fmap_Some in Hr as (rn' & Hrn & ->).
    rewrite build_row_cells in Hc. unfold cells_of_row in Hc. apply elem_of_filter_list in Hc as [Hc _].
    apply is_cell_role in Hc. congruence.
Qed.

Lemma log_cell c l :
  table_role t c = Cell -> (c, l) ∈ log ->
  exists k gy grp g hs gn rn p,
    entries !! k = Some (gy, (grp, g, hs)) /\ g_node grp = Some gn
    /\ rows_of_group t gn !! p_row p = Some rn /\ c ∈ children t rn
    /\ p ∈ g_cells g /\ (c, l) = place_cell t hs (offsets sx ws sx) ws sx sy p.
Proof.
  intros Hrole Hl. apply log_mem in Hl as (k' & [gy' [[grp' g'] hs']] & Hk' & G).
  destruct (entry_parts _ _ _ _ _ Hk') as (gn2 & N2 & C2 & R2 & E2 & _ & _ & B2 & _).
  destruct G as [[Gn ->]|[(i' & row & ry & rh & Hi' & Hn & Hry & _ & ->)|(i' & row & p & Hi' & Hp & E)]].
  - rewrite E2 in Gn. injection Gn as <-. destruct (group_not gn2 R2). done.
  - rewrite E2 in Hi'. cbn in Hi'. apply list_lookup_fmap_Some in Hi' as (rn' & Hrn & ->).
    rewrite build_row_node in Hn. injection Hn as ->.
    apply elem_of_list_lookup_2 in Hrn. unfold rows_of_group in Hrn.
    apply elem_of_filter_list in Hrn as [Hrn _]. apply is_row_role in Hrn. congruence.
  - pose proof E as E'. injection E' as -> _.
    unfold cells_in_row in Hp. apply elem_of_filter_list in Hp as [Hp1 Hp].
    destruct (grid_col _ _ _ _ B2 Hp) as (_ & _ & _ & _ & r & Hr & Hc).
    rewrite E2 in Hr. cbn in Hr. apply list_lookup_fmap_Some in Hr as (rn' & Hrn & ->).
    rewrite build_row_cells in Hc. unfold cells_of_row in Hc. apply elem_of_filter_list in Hc as [_ Hc].
    exists k', gy', grp', g', hs', gn2, rn', p. rewrite E2 at 2. done.
Qed.

(** The corner from which the children of a node are placed. *)
Definition corner (id : nat) (x y : Q) : Prop :=
  (id = table -> (x == X /\ y == Y)%Q)
  /\ (forall k gy grp g hs, entries !! k = Some (gy, (grp, g, hs)) -> g_node grp = Some id ->
        (x == X /\ y == Y + gy)%Q)
  /\ (forall k gy grp g hs gn i, entries !! k = Some (gy, (grp, g, hs)) -> g_node grp = Some gn ->
        rows_of_group t gn !! i = Some id ->
        (x == X /\ y == Y + gy + edge 0 hs sy i)%Q).

Definition good_box (c : nat) (r : rect) : Prop :=
  exists k gy grp g hs p,
    entries !! k = Some (gy, (grp, g, hs)) /\ p ∈ g_cells g /\ p_node p = c
    /\ (x0 r == X + edge sx ws sx (p_col p))%Q
    /\ (y0 r == Y + gy + edge 0 hs sy (p_row p))%Q
    /\ (w r = qsum (slice ws (p_col p) (p_colspan p)) + sx * qnat (length (slice ws (p_col p) (p_colspan p)) - 1))%Q
    /\ (h r = qsum (slice hs (p_row p) (p_rowspan p)) + sy * qnat (length (slice hs (p_row p) (p_rowspan p)) - 1))%Q.

Lemma entry_heights k gy grp g hs :
  entries !! k = Some (gy, (grp, g, hs)) ->
  length hs = n_rows g /\ length hs = length (g_rows grp) /\ Forall (fun x => (0 <= x)%Q) hs.
Proof.
  intros Hk. destruct (entry_parts _ _ _ _ _ Hk) as (gn & _ & _ & _ & _ & _ & _ & B & C).
  destruct (rows_facts t _ _ _ ws B) as (hs' & E & L & F & _). rewrite E in C. injection C as <-.
  repeat split; [done| |done]. apply grid_any in B as (B & _). lia.
Qed.

Lemma cell_in_columns k gy grp g hs p :
  entries !! k = Some (gy, (grp, g, hs)) -> p ∈ g_cells g ->
  p_col p + p_colspan p <= length ws /\ 1 <= p_colspan p
  /\ p_row p + p_rowspan p <= length hs /\ 1 <= p_rowspan p.
Proof.
  intros Hk Hp. destruct (entry_parts _ _ _ _ _ Hk) as (gn & _ & _ & _ & _ & Hg & _ & B & _).
  destruct (grid_col _ _ _ _ B Hp) as (B1 & B2 & B3 & B4 & _).
  destruct (entry_heights _ _ _ _ _ Hk) as (L & _ & _). rewrite (f_cols _ _ _ _ _ _ _ _ _ _ HF).
  assert (n_cols g <= fold_left Nat.max (map n_cols grids) 0).
  { apply fold_max_ge. apply elem_of_list_In, in_map, elem_of_list_In. by eapply elem_of_list_lookup_2. }
  repeat split; lia.
Qed.

Lemma boxes_good (depth : nat -> nat) fuel id x y :
  (forall a b, b ∈ children t a -> depth a < depth b) ->
  depth table <= depth id -> corner id x y ->
  forall c r, (c, r) ∈ apply_recursive fuel t log id x y -> table_role t c = Cell -> good_box c r.
Proof.
  intros Hd. revert id x y. induction fuel as [|fuel IH]; intros id x y Hdep Hcor c r Hin Hrole;
    cbn [apply_recursive] in Hin; [by apply elem_of_nil in Hin|].
  apply elem_of_list_In, in_flat_map in Hin as (ch & Hch & Hin).
  apply elem_of_list_In in Hch. apply elem_of_list_In in Hin.
  pose proof (Hd _ _ Hch) as Hd1. destruct HP as (P1 & P2 & _).
  destruct (pending log ch) as [l|] eqn:Ep.
  - apply pending_elem in Ep. apply elem_of_cons in Hin as [Hin|Hin].
    + injection Hin as -> ->.
      destruct (log_cell ch l Hrole Ep) as (k & gy & grp & g & hs & gn & rn & p & Hk & Hgn & Hrn & Hc & Hp & E).
      assert (id = rn) as -> by (by eapply P1).
      destruct Hcor as (_ & _ & Hcor). destruct (Hcor _ _ _ _ _ _ _ Hk Hgn Hrn) as [Hx Hy].
      destruct (cell_in_columns _ _ _ _ _ _ Hk Hp) as (C1 & C2 & C3 & C4).
      exists k, gy, grp, g, hs, p. injection E as E1 E2. repeat split; [done|done|done| | | |]; rewrite E2; cbn [x0 y0 w h l_x l_y l_width l_height].
      * destruct (offsets_lookup sx ws sx (p_col p)) as (xo & -> & Exo); [lia|]. cbn [default]. rewrite Hx.
        change (id xo) with xo. rewrite Exo. done.
      * rewrite Hy. lra.
      * done.
      * done.
    + eapply (IH ch); [lia| |exact Hin|done].
      split; [|split].
      * intros ->. lia.
      * intros k gy grp g hs Hk Hgn. destruct (log_group _ _ _ _ _ _ _ Hk Hgn Ep) as [-> ->].
        destruct (entry_parts _ _ _ _ _ Hk) as (gn & _ & Hgc & _ & E1 & _). rewrite E1 in Hgn. injection Hgn as ->.
        assert (id = table) as -> by (by eapply P1).
        destruct Hcor as (Hcor & _). destruct (Hcor eq_refl) as [Hx Hy]. rewrite Hx, Hy. split; lra.
      * intros k gy grp g hs gn i Hk Hgn Hi.
        destruct (log_row _ _ _ _ _ _ _ _ _ Hk Hgn Hi Ep) as [-> Hoff].
        assert (ch ∈ children t gn) as Hcg.
        { apply elem_of_list_lookup_2 in Hi. unfold rows_of_group in Hi. by apply elem_of_filter_list in Hi as [_ ?]. }
        assert (id = gn) as -> by (by eapply P1).
        destruct Hcor as (_ & Hcor & _). destruct (Hcor _ _ _ _ _ Hk Hgn) as [Hx Hy].
        destruct (entry_heights _ _ _ _ _ Hk) as (_ & L & _).
        destruct (offsets_lookup 0 hs sy i) as (yo & Hyo & Eyo).
        { rewrite L. destruct (entry_parts _ _ _ _ _ Hk) as (gn' & _ & _ & _ & E1 & _).
          rewrite E1 in Hgn. injection Hgn as ->. rewrite E1. cbn. rewrite map_length. by eapply lookup_lt_Some. }
        rewrite Hoff in Hyo. injection Hyo as <-. rewrite Hx, Hy, Eyo. split; lra.
  - eapply (IH ch); [lia| |exact Hin|done].
    assert (forall l, (ch, l) ∈ log -> False) as Hno.
    { intros l Hl. apply pending_none in Hl as [l' Hl]. congruence. }
    split; [|split].
    + intros ->. lia.
    + intros k gy grp g hs Hk Hgn. exfalso. eapply Hno. apply log_mem. exists k. eexists. split; [exact Hk|].
      left. done.
    + intros k gy grp g hs gn i Hk Hgn Hi. exfalso.
      destruct (entry_heights _ _ _ _ _ Hk) as (_ & L & _).
      destruct (entry_parts _ _ _ _ _ Hk) as (gn' & _ & _ & _ & E1 & _).
      rewrite E1 in Hgn. injection Hgn as ->.
      assert (g_rows grp !! i = Some (build_row t ch)) as Hrow.
      { rewrite E1. cbn. by apply map_lookup_Some_list || (rewrite list_lookup_fmap, Hi; done). }
      assert (i < length hs) as Hlt. { rewrite L. by eapply lookup_lt_Some. }
      destruct (offsets_lookup 0 hs sy i Hlt) as (yo & Hyo & _).
      destruct (lookup_lt_is_Some_2 hs i Hlt) as [rh Hrh].
      eapply Hno. apply log_mem. exists k. eexists. split; [exact Hk|].
      right. left. exists i, (build_row t ch), yo, rh. rewrite build_row_node. done.
Qed.

Lemma boxes_good_table fuel c r :
  (c, r) ∈ apply_recursive fuel t log table X Y -> table_role t c = Cell -> good_box c r.
Proof.
  pose proof HP as (P1 & P2 & depth & Hd). apply (boxes_good depth); [exact Hd|lia|].
  split; [|split].
  - done.
  - intros k gy grp g hs Hk Hgn. exfalso. destruct (entry_parts _ _ _ _ _ Hk) as (gn & _ & Hc & _ & E1 & _).
    rewrite E1 in Hgn. injection Hgn as ->. apply Hd in Hc. lia.
  - intros k gy grp g hs gn i Hk Hgn Hi. exfalso.
    destruct (entry_parts _ _ _ _ _ Hk) as (gn' & _ & Hc & _ & E1 & _). rewrite E1 in Hgn. injection Hgn as ->.
    apply Hd in Hc. apply elem_of_list_lookup_2 in Hi. unfold rows_of_group in Hi.
    apply elem_of_filter_list in Hi as [_ Hi]. apply Hd in Hi. lia.
Qed.

Lemma box_of_child fuel id x y ch l :
  ch ∈ children t id -> pending log ch = Some l ->
  (ch, mk_rect (x + l_x l) (y + l_y l) (l_width l) (l_height l)) ∈ apply_recursive (S fuel) t log id x y
  /\ forall e, e ∈ apply_recursive fuel t log ch (x + l_x l) (y + l_y l) ->
     e ∈ apply_recursive (S fuel) t log id x y.
Proof.
  intros Hch Ep. cbn [apply_recursive]. split.
  - apply elem_of_list_In, in_flat_map. exists ch. split; [by apply elem_of_list_In|]. rewrite Ep. by left.
  - intros e He. apply elem_of_list_In, in_flat_map. exists ch. split; [by apply elem_of_list_In|]. rewrite Ep.
    right. by apply elem_of_list_In.
Qed.

Lemma group_sources_map {A} (f : A -> row_group) l :
  group_sources (map f l) = flat_map (fun x => row_sources (g_rows (f x))) l.
Proof. unfold group_sources. induction l as [|x l IH]; [done|]. cbn. by rewrite IH. Qed.

(** Every cell of the table gets a box. *)
Lemma box_exists fuel k c :
  c ∈ part_cells t table k ->
  exists r, (c, r) ∈ apply_recursive (S (S (S fuel))) t log table X Y.
Proof.
  intros Hc.
  assert (exists gn rn, gn ∈ group_nodes t table /\ rn ∈ rows_of_group t gn /\ c ∈ cells_of_row t rn)
    as (gn & rn & Hgn & Hrn & Hcr).
  { unfold part_cells in Hc. apply elem_of_list_In, in_flat_map in Hc as (g & Hg & Hc).
    apply elem_of_list_In in Hg, Hc. destruct HE as [E1 E2]. destruct (E1 g Hg) as [N1 N2].
    assert (c ∈ cells_of_group t g /\ g ∈ group_nodes t table) as [Hcg Hgg].
    { unfold group_nodes, groups_of_part. rewrite !elem_of_app, !elem_of_filter_list.
      destruct (table_role t g), k; try (by apply elem_of_nil in Hc); auto 6; done. }
    unfold cells_of_group in Hcg. apply elem_of_list_In, in_flat_map in Hcg as (r & Hr & Hcr).
    apply elem_of_list_In in Hr, Hcr. exists g, r. split; [done|].
    unfold rows_of_group. rewrite elem_of_filter_list.
    destruct (is_row t r) eqn:Er; [done|]. exfalso.
    destruct (is_cell t r) eqn:Ec; [|by apply elem_of_nil in Hcr].
    apply is_cell_role in Ec. eapply E2; [exact Hg| |exact Hr|done].
    by eapply group_nodes_role. }
  apply elem_of_list_lookup in Hgn as [kk Hgn]. apply elem_of_list_lookup in Hrn as [i Hrn].
  pose proof (f_sections _ _ _ _ _ _ _ _ _ _ HF) as Hs. unfold sections in Hs. apply map_res_Ok in Hs.
  fold (all_groups t table) in Hs.
  assert (all_groups t table !! kk = Some (build_row_group t gn)) as Hag.
  { rewrite (explicit_groups _ _ HE). by rewrite list_lookup_fmap, Hgn. }
  destruct (Forall2_lookup_l _ _ _ _ _ Hs Hag) as (g & Hg & _).
  destruct (Forall2_lookup_l _ _ _ _ _ (f_heights _ _ _ _ _ _ _ _ _ _ HF) Hg) as (hs & Hhs & _).
  destruct (stack_lookup sy (zip (zip (all_groups t table) grids) hss) sy kk (build_row_group t gn, g, hs)) as [gy Hk].
  { apply lookup_zip_with_Some. eexists _, _. split; [done|]. split; [|done].
    apply lookup_zip_with_Some. eauto. }
  fold entries in Hk.
  destruct (entry_parts _ _ _ _ _ Hk) as (gn' & Hgn' & Hgc & _ & E1 & _ & _ & B & _).
  rewrite Hgn in Hgn'. injection Hgn' as <-. rewrite E1 in Hk, B.
  assert (exists l, pending log gn = Some l) as [lg Eg].
  { eapply pending_none. apply log_mem. exists kk. eexists. split; [exact Hk|]. left. done. }
  destruct (entry_heights _ _ _ _ _ Hk) as (_ & L & _). cbn [g_rows] in L. rewrite map_length in L.
  assert (i < length hs) as Hlt. { rewrite L. by eapply lookup_lt_Some. }
  destruct (offsets_lookup 0 hs sy i Hlt) as (yo & Hyo & _).
  destruct (lookup_lt_is_Some_2 hs i Hlt) as [rh Hrh].
  assert (map (build_row t) (rows_of_group t gn) !! i = Some (build_row t rn)) as Hrow.
  { by rewrite list_lookup_fmap, Hrn. }
  assert (exists l, pending log rn = Some l) as [lr Er].
  { eapply pending_none. apply log_mem. exists kk. eexists. split; [exact Hk|]. right. left.
    exists i, (build_row t rn), yo, rh. rewrite build_row_node. cbn [g_rows]. done. }
  assert (exists l, pending log c = Some l) as [lc Ec].
  { cbn [g_rows] in B. apply grid_any in B as (_ & _ & pss & Hcs & _ & P).
    destruct (P i _ Hrow) as (ps & Hps & N & F & _). rewrite build_row_cells in N. rewrite <- N in Hcr.
    apply elem_of_list_In, in_map_iff in Hcr as (p & Ep & Hp). apply elem_of_list_In in Hp.
    rewrite Forall_forall in F. destruct (F p Hp) as (F1 & _).
    eapply (pending_none log c (snd (place_cell t hs (offsets sx ws sx) ws sx sy p))).
    apply log_mem. exists kk. eexists. split; [exact Hk|]. right. right.
    exists i, (build_row t rn), p. cbn [g_rows]. repeat split; [done| |by rewrite <- Ep].
    unfold cells_in_row. apply elem_of_filter_list. split; [by apply Nat.eqb_eq|].
    rewrite Hcs. apply elem_of_list_In, in_concat. exists ps. split; [|by apply elem_of_list_In].
    apply elem_of_list_In. by eapply elem_of_list_lookup_2. }
  assert (rn ∈ children t gn) as Hrc.
  { apply elem_of_list_lookup_2 in Hrn. unfold rows_of_group in Hrn. by apply elem_of_filter_list in Hrn as [_ ?]. }
  assert (c ∈ children t rn) as Hcc. { unfold cells_of_row in Hcr. by apply elem_of_filter_list in Hcr as [_ ?]. }
  destruct (box_of_child (S (S fuel)) table X Y gn lg Hgc Eg) as [_ K1].
  destruct (box_of_child (S fuel) gn (X + l_x lg) (Y + l_y lg) rn lr Hrc Er) as [_ K2].
  destruct (box_of_child fuel rn (X + l_x lg + l_x lr) (Y + l_y lg + l_y lr) c lc Hcc Ec) as [K3 _].
  eexists. apply K1, K2, K3.
Qed.
End boxes.
