(** The input of the tokenizer and the byte stream: what the tokenizer model takes as a list of characters
    is what the real one reads from a stream with [read_and_next], [prev] and [get_slice]. *)
From stdpp Require Import gmap.
From Verif Require Import Base ByteStreamModel ByteStreamSpec ByteStreamProofs.
From Verif Require TokenModel.
Module T := TokenModel.

(** The code of a character; none at the end of the stream *)
Definition code (c : character) : option N := match c with Ch x => Some x | Surrogate u => Some u | StreamEnd => None end.
(** The characters of a stream as the tokenizer gets them: a CR before an LF is left out. *)
Fixpoint input_of (cs : list character) : list N :=
  match cs with
  | [] => []
  | c :: r => if bool_decide (c = CR) && bool_decide (head r = Some LF) then input_of r else default 0%N (code c) :: input_of r
  end.

(** What the tokenizer does with its stream: read a character, take it back, skip, or look at a slice.
    tokenizer.rs:2283-2301 around byte_stream.rs; the second component is [last_char]. *)
Inductive sop := SRead | SUnread | SSkip (n : nat) | SSlice (n : nat).
Fixpoint skip_stream (n : nat) (s : stream) (lc : character) : stream * character :=
  match n with O => (s, lc) | S k => let (s, c) := read_and_next s in skip_stream k s c end.
Definition stream_op (st : stream * character) (o : sop) : (stream * character) * list (option N) :=
  let (s, lc) := st in
  match o with
  | SRead => let (s, c) := read_and_next s in ((s, c), [code c])
  | SUnread => (if decide (lc = StreamEnd) then (s, lc) else (prev s, lc), [])
  | SSkip n => (skip_stream n s lc, [])
  | SSlice n => let (s, cs) := get_slice s n in ((s, lc), map code cs)
  end.
Fixpoint stream_ops (st : stream * character) (os : list sop) : list (list (option N)) :=
  match os with [] => [] | o :: r => let (st, l) := stream_op st o in l :: stream_ops st r end.
(** The same on the tokenizer model *)
Definition input_op (t : T.tk) (o : sop) : T.tk * list (option N) :=
  match o with
  | SRead => let (c, t) := T.stream_read_and_next t in (t, [c])
  | SUnread => (T.stream_prev t, [])
  | SSkip n => (T.stream_next_n n t, [])
  | SSlice n => (t, T.get_slice n t)
  end.
Fixpoint input_ops (t : T.tk) (os : list sop) : list (list (option N)) :=
  match os with [] => [] | o :: r => let (t, l) := input_op t o in l :: input_ops t r end.

(** ** Joining *)
Lemma input_app a b : ~ (last a = Some CR /\ head b = Some LF) -> input_of (a ++ b) = input_of a ++ input_of b.
Proof.
  induction a as [|c a IH]; [done|]. intros H. cbn [app input_of].
  assert (H' : ~ (last a = Some CR /\ head b = Some LF)).
  { intros [X Y]. apply H. split; [|done]. destruct a; [done|exact X]. }
  rewrite (IH H'). destruct a as [|c' a].
  - cbn [app head last] in *. destruct (decide (c = CR)) as [->|N].
    + rewrite (bool_decide_eq_false_2 (head b = Some LF)) by naive_solver. done.
    + by rewrite (bool_decide_eq_false_2 (c = CR)).
  - cbn [app head]. by case_match.
Qed.
Lemma input_nil a : input_of a = [] -> a = [].
Proof. induction a as [|c a IH]; [done|]. cbn. case_match eqn:E; [|done]. intros H. apply IH in H as ->. by rewrite andb_false_r in E. Qed.

(** ** Views *)
Definition view (s : stream) (p f : list N) : Prop :=
  cr_lf_as_one (cfg s) = true /\ replace_cr_as_lf (cfg s) = false /\ StreamEnd ∉ chars s /\
  exists a b, chars s = a ++ b /\ length a = pos s /\ p = rev (input_of a) /\ f = input_of b /\ ~ (last a = Some CR /\ head b = Some LF).
Lemma view_read s p f : view s p f ->
  match f with
  | [] => read_and_next s = (s, StreamEnd)
  | x :: r => exists s' c, read_and_next s = (s', c) /\ code c = Some x /\ view s' (x :: p) r
  end.
Proof.
  intros (C1 & C2 & E & a & b & Ec & L & -> & -> & J). unfold read_and_next, read. rewrite Ec, <- L.
  rewrite (lookup_app_r a b) by lia. rewrite Nat.sub_diag. destruct b as [|c b]; [done|]. cbn [lookup list_lookup].
  assert (NE : c <> StreamEnd) by (intros ->; apply E; rewrite Ec; apply elem_of_app; right; left).
  rewrite C1, C2. cbn [andb pos set_pos chars].
  assert (R : match chars s !! S (length a) with Some c => c | None => StreamEnd end = LF <-> head b = Some LF).
  { rewrite Ec, lookup_app_r by lia. replace (S (length a) - length a)%nat with 1%nat by lia. cbn. destruct b as [|y b]; cbn; [done|]. split; [by intros ->|by intros [= ->]]. }
  destruct (decide (c = CR)) as [->|NC].
  - destruct (decide (head b = Some LF)) as [HL|HL].
    + destruct b as [|y b]; [done|]. injection HL as ->. cbn [input_of head]. rewrite !bool_decide_eq_true_2 by done. cbn [andb bool_decide].
      change (bool_decide (LF = CR)) with false. cbn [andb].
      eexists _, LF. split; [|split; [reflexivity|]].
      { cbn. rewrite (bool_decide_eq_true_2 (_ = LF)) by (by apply R). reflexivity. }
      split_and!; try done. exists (a ++ [CR; LF]), b. split_and!; [cbn; rewrite Ec; by rewrite <- app_assoc|cbn; rewrite app_length; cbn; lia| |done|].
      * rewrite (input_app a) by (intros [_ ?]; done). rewrite rev_app_distr. done.
      * rewrite last_app. cbn. intros [? _]. done.
    + cbn [input_of]. rewrite (bool_decide_eq_false_2 (head b = _)) by done. rewrite andb_false_r.
      eexists _, CR. split; [|split; [reflexivity|]].
      { cbn. rewrite (bool_decide_eq_false_2 (_ = LF)) by (by rewrite R). rewrite andb_false_r. reflexivity. }
      split_and!; try done. exists (a ++ [CR]), b. split_and!; [cbn; rewrite Ec; by rewrite <- app_assoc|cbn; rewrite app_length; cbn; lia| |done|].
      * rewrite (input_app a) by (intros [_ ?]; done). rewrite rev_app_distr. done.
      * rewrite last_app. cbn. tauto.
  - cbn [input_of]. rewrite (bool_decide_eq_false_2 (c = CR)) by done. cbn [andb].
    exists (set_pos s (S (length a))), c. split; [|split].
    { destruct c; [|done..]. by rewrite (bool_decide_eq_false_2 (Ch _ = CR)). }
    { by destruct c. }
    split_and!; try done. exists (a ++ [c]), b. split_and!; [cbn; rewrite Ec; by rewrite <- app_assoc|cbn; rewrite app_length; cbn; lia| |done|].
    * rewrite (input_app a) by (intros [X Y]; cbn in Y; injection Y as ->; by apply J). rewrite rev_app_distr. cbn. rewrite (bool_decide_eq_false_2 (c = CR)) by done. done.
    * rewrite last_app. cbn. intros [[= ->] _]. done.
Qed.

Lemma view_unread s x p f : view s (x :: p) f -> view (prev s) p (x :: f).
Proof.
  intros (C1 & C2 & E & a & b & Ec & L & P & -> & J).
  destruct a as [|c a _] using rev_ind; [done|]. rewrite app_length in L. cbn in L.
  assert (Ps : (pos s - 1 = length a)%nat) by lia.
  assert (Ech : chars s = a ++ c :: b) by (by rewrite Ec, <- app_assoc).
  unfold prev. cbn [pos set_pos]. rewrite Ps, C1. cbn [andb].
  assert (R : read (set_pos s (length a)) = c).
  { unfold read. cbn. rewrite Ech, lookup_app_r by lia. by rewrite Nat.sub_diag. }
  rewrite R. destruct (decide (last a = Some CR /\ c = LF)) as [[X ->]|N].
  - destruct a as [|c' a _] using rev_ind; [done|]. rewrite last_snoc in X. injection X as ->.
    rewrite app_length. cbn [length]. rewrite bool_decide_eq_true_2 by done.
    replace (0 <? length a + 1)%nat with true by (symmetry; apply Nat.ltb_lt; lia). cbn [andb].
    replace (length a + 1 - 1)%nat with (length a) by lia.
    rewrite bool_decide_eq_true_2 by (rewrite Ech, <- app_assoc, lookup_app_r, Nat.sub_diag by lia; done). cbn [andb].
    assert (P' : x :: p = 10%N :: rev (input_of a)).
    { rewrite P. rewrite <- app_assoc, input_app by (intros [_ ?]; done). by rewrite rev_app_distr. }
    injection P' as -> ->. split_and!; try done. exists a, (CR :: LF :: b). split_and!; try done.
    + cbn. by rewrite Ech, <- app_assoc.
    + intros [_ ?]. done.
  - replace (_ && _ && _) with false.
    2: { symmetry. destruct (decide (c = LF)) as [->|]; [|by rewrite (bool_decide_eq_false_2 (c = LF))].
         rewrite (bool_decide_eq_true_2 (LF = LF)) by done. cbn [andb]. apply andb_false_iff.
         destruct a as [|c' a _] using rev_ind; [by left|]. right. apply bool_decide_eq_false_2. rewrite Ech, app_length. cbn [length].
         replace (length a + 1 - 1)%nat with (length a) by lia. rewrite <- app_assoc, lookup_app_r, Nat.sub_diag by lia. cbn.
         intros [= ->]. apply N. by rewrite last_snoc. }
    assert (J2 : ~ (last a = Some CR /\ head [c] = Some LF)) by (intros [? [= ?]]; by apply N).
    rewrite input_app, rev_app_distr in P by done. cbn in P. rewrite andb_false_r in P. cbn in P. injection P as -> ->.
    split_and!; try done. exists a, (c :: b). split_and!; try done.
    + cbn [input_of]. destruct (decide (c = CR)) as [->|NC].
      * rewrite (bool_decide_eq_false_2 (head b = _)); [by rewrite andb_false_r|]. intros X. apply J. by rewrite last_snoc.
      * by rewrite (bool_decide_eq_false_2 (c = CR)).
Qed.
Lemma view_start s p f : view s p f -> p = [] -> prev s = s.
Proof.
  intros (C1 & C2 & E & a & b & Ec & L & P & -> & J) ->. assert (Ea : a = []).
  { apply input_nil. apply (f_equal (@rev N)) in P. by rewrite rev_involutive in P. }
  subst a. cbn in L. unfold prev. cbn [pos set_pos]. rewrite <- L. cbn [Nat.sub Nat.ltb Nat.leb].
  rewrite andb_false_r. cbn [andb]. destruct s; cbn in *; subst; done.
Qed.

(** ** Simulation *)
Definition sim (st : stream * character) (t : T.tk) : Prop := view st.1 (T.past t) (T.future t) /\ code st.2 = T.last_char t.
Lemma code_end c : code c = None -> c = StreamEnd.
Proof. by destruct c. Qed.
Lemma sim_read s lc t : sim (s, lc) t -> forall s' c, read_and_next s = (s', c) ->
  exists t', T.stream_read_and_next t = (code c, t') /\ sim (s', c) t'.
Proof.
  intros [V _] s' c R. cbn in V. pose proof (view_read _ _ _ V) as H. unfold T.stream_read_and_next. destruct (T.future t) as [|x r] eqn:F.
  - rewrite H in R. injection R as <- <-. eexists. split; [done|]. split; [|done]. exact V.
  - destruct H as (s1 & c1 & R1 & Cx & V1). rewrite R1 in R. injection R as <- <-. rewrite Cx. eexists. split; [done|]. by split.
Qed.
Lemma sim_skip n s lc t : sim (s, lc) t -> sim (skip_stream n s lc) (T.stream_next_n n t).
Proof.
  revert s lc t. induction n as [|n IH]; intros s lc t H; [done|]. cbn. destruct (read_and_next s) as [s' c] eqn:R.
  destruct (sim_read _ _ _ H _ _ R) as (t' & -> & H'). by apply IH.
Qed.
Lemma sim_slice n s p f : view s p f -> map code (snd (read_many n s)) = T.slice n f.
Proof.
  revert s p f. induction n as [|n IH]; intros s p f V; [done|]. cbn. pose proof (view_read _ _ _ V) as H. destruct f as [|x r].
  - rewrite H. specialize (IH _ _ _ V). destruct (read_many n s). cbn in *. by rewrite IH.
  - destruct H as (s1 & c1 & -> & Cx & V1). specialize (IH _ _ _ V1). destruct (read_many n s1). cbn in *. by rewrite IH, Cx.
Qed.
Lemma sim_op st t o : sim st t -> exists st' t' l, stream_op st o = (st', l) /\ input_op t o = (t', l) /\ sim st' t'.
Proof.
  destruct st as [s lc]. intros H. destruct o as [| |n|n]; cbn.
  - destruct (read_and_next s) as [s' c] eqn:R. destruct (sim_read _ _ _ H _ _ R) as (t' & -> & H'). by eexists _, _, _.
  - destruct H as [V C]. cbn in V, C. unfold T.stream_prev. destruct (decide (lc = StreamEnd)) as [->|N].
    + cbn in C. rewrite <- C. by eexists _, _, _.
    + destruct (code lc) as [x|] eqn:Cl; [|by apply code_end in Cl]. rewrite <- C. destruct (T.past t) as [|y p] eqn:P.
      * rewrite (view_start _ _ _ V eq_refl). eexists _, _, _. split_and!; [done..|]. split; cbn; [by rewrite P|congruence].
      * eexists _, _, _. split_and!; [done..|]. split; cbn; [by apply view_unread|congruence].
  - eexists _, _, _. split_and!; [done..|]. by apply sim_skip.
  - unfold get_slice, T.get_slice. destruct H as [V C]. cbn in V. pose proof (sim_slice n _ _ _ V) as S. destruct (read_many n s) as [s1 cs] eqn:R. cbn in S.
    eexists _, _, _. split_and!; [done|by rewrite S|]. split; [|done]. cbn.
    pose proof (get_slice_pos s n) as G. unfold get_slice in G. rewrite R in G. cbn in G. by rewrite G.
Qed.
(** Any use of the stream gives the same characters. *)
Lemma input_refines_stream s st ls os :
  cr_lf_as_one (cfg s) = true -> replace_cr_as_lf (cfg s) = false -> StreamEnd ∉ chars s -> pos s = 0 ->
  stream_ops (s, StreamEnd) os = input_ops (T.new (input_of (chars s)) st ls) os.
Proof.
  intros C1 C2 E P. assert (H : sim (s, StreamEnd) (T.new (input_of (chars s)) st ls)).
  { split; [|done]. split_and!; try done. exists [], (chars s). split_and!; try done. by intros [? _]. }
  revert H. generalize (T.new (input_of (chars s)) st ls). generalize (s, StreamEnd). clear. induction os as [|o os IH]; intros st t H; [done|].
  cbn. destruct (sim_op st t o H) as (st' & t' & l & -> & -> & H'). f_equal. by apply IH.
Qed.

(** ** Streams never hold the end marker *)
Lemma utf8_no_end fuel c p rest l e : utf8_loop fuel c p rest = (l, e) -> StreamEnd ∉ map snd l.
Proof.
  revert p rest l e. induction fuel as [|fuel IH]; intros p rest l e H; destruct rest as [|b rest]; cbn -[from_utf8] in H; try (injection H as <- <-; by apply not_elem_of_nil).
  destruct (from_utf8 _ _ _) as [[l0 valid] verdict].
  assert (N : StreamEnd ∉ map snd (map (fun q : nat * N => (p + q.1, Ch q.2)) l0)).
  { rewrite map_map. cbn. clear. induction l0; cbn; [by apply not_elem_of_nil|]. by apply not_elem_of_cons. }
  destruct verdict as [[n|]|].
  - destruct (utf8_loop _ _ _ _) as [l' e'] eqn:E. injection H as <- <-. rewrite map_app. apply not_elem_of_app. split; [done|]. cbn.
    apply not_elem_of_cons. split; [done|]. by eapply IH.
  - destruct c; injection H as <- <-; [|done]. rewrite map_app. apply not_elem_of_app. split; [done|]. cbn. apply not_elem_of_cons. split; [done|]. by apply not_elem_of_nil.
  - by injection H as <- <-.
Qed.
Lemma latin1_no_end h p rest l e : latin1_loop h p rest = (l, e) -> StreamEnd ∉ map snd l.
Proof.
  revert p l e. induction rest as [|b rest IH]; intros p l e H; cbn in H; [injection H as <- <-; by apply not_elem_of_nil|].
  destruct (latin1_loop _ _ _) as [l' e'] eqn:E. injection H as <- <-. cbn. apply not_elem_of_cons. split; [by case_match|]. by eapply IH.
Qed.
Lemma utf16_no_end fuel be p rest l e : utf16_loop fuel be p rest = (l, e) -> StreamEnd ∉ map snd l.
Proof.
  revert p rest l e. induction fuel as [|fuel IH]; intros p rest l e H; [cbn in H; injection H as <- <-; by apply not_elem_of_nil|].
  destruct rest as [|a [|b rest]]; cbn -[decode_utf16_char] in H; try (injection H as <- <-; by apply not_elem_of_nil).
  destruct (decode_utf16_char _ _) as [ch n] eqn:D. destruct (utf16_loop _ _ _ _) as [l' e'] eqn:E. injection H as <- <-. cbn. apply not_elem_of_cons. split; [|by eapply IH].
  unfold decode_utf16_char in D. repeat case_match; by simplify_eq.
Qed.
Lemma decode_no_end s p : StreamEnd ∉ chars s -> StreamEnd ∉ chars (decode_from s p).
Proof.
  intros H. unfold decode_from. destruct (decode_loop s p) as [l e] eqn:D.
  match goal with |- context [extend_line_starts ?t] => destruct (extend_same t) as (-> & _) end. cbn. apply not_elem_of_app. split; [done|].
  unfold decode_loop in D. destruct (enc s); [|by eapply latin1_no_end|by eapply utf8_no_end|by eapply utf16_no_end..].
  injection D as <- <-. by apply not_elem_of_nil.
Qed.
Lemma decode_buffer_no_end s : StreamEnd ∉ chars (decode_buffer s).
Proof. apply decode_no_end. by apply not_elem_of_nil. Qed.
Lemma reachable_no_end s : reachable s -> StreamEnd ∉ chars s.
Proof.
  intros (e & c & os & ->). unfold run_ops.
  assert (H : forall s, StreamEnd ∉ chars s -> StreamEnd ∉ chars (foldl run_op s os)).
  { induction os as [|o os IH]; intros s Hs; [done|]. cbn. apply IH. destruct o; cbn.
    - by destruct (rop_same s o) as (_ & -> & _).
    - by apply decode_no_end.
    - by apply decode_no_end.
    - done.
    - unfold set_encoding. case_decide; [done|]. apply decode_buffer_no_end.
    - apply decode_buffer_no_end.
    - apply decode_buffer_no_end. }
  apply H. by apply not_elem_of_nil.
Qed.
Lemma stream_input s st ls os :
  reachable s -> cr_lf_as_one (cfg s) = true -> replace_cr_as_lf (cfg s) = false -> pos s = 0 ->
  stream_ops (s, StreamEnd) os = input_ops (T.new (input_of (chars s)) st ls) os.
Proof. intros R C1 C2 P. apply input_refines_stream; try done. by apply reachable_no_end. Qed.

(** ** Line ends *)
Definition crlf (u : list N) : list N := concat (map (fun x => if (x =? 10)%N then [13; 10]%N else [x]) u).
Lemma input_crlf u : 13%N ∉ u -> input_of (map Ch (crlf u)) = u.
Proof.
  induction u as [|x u IH]; [done|]. intros H. apply not_elem_of_cons in H as [H1 H2]. unfold crlf. cbn. rewrite map_app.
  destruct (N.eqb_spec x 10) as [->|N].
  - cbn. f_equal. by apply IH.
  - cbn. rewrite (bool_decide_eq_false_2 (Ch x = CR)) by (intros [= ->]; done). cbn. f_equal. by apply IH.
Qed.
Lemma input_same u : 13%N ∉ u -> input_of (map Ch u) = u.
Proof.
  induction u as [|x u IH]; [done|]. intros H. apply not_elem_of_cons in H as [H1 H2]. cbn.
  rewrite (bool_decide_eq_false_2 (Ch x = CR)) by (intros [= ->]; done). cbn. f_equal. by apply IH.
Qed.
Lemma feed_op s f : exists o, run_feed s f = run_op s o.
Proof. destruct f as [bs|o]; [by exists (OAppend bs)|by exists (ORead o)]. Qed.
Lemma feeds_reachable fs : forall e c, reachable (reset_stream (close (foldl run_feed (new e c) fs))).
Proof.
  intros e c. assert (H : forall s, reachable s -> reachable (foldl run_feed s fs)).
  { induction fs as [|f fs IH]; intros s Hs; [done|]. cbn. apply IH. destruct (feed_op s f) as [o ->].
    destruct Hs as (e' & c' & os & ->). exists e', c', (os ++ [o]). unfold run_ops. by rewrite foldl_app. }
  destruct (H (new e c)) as (e' & c' & os & ->); [by exists e, c, []|]. exists e', c', (os ++ [OClose; ORead RReset]).
  unfold run_ops. by rewrite foldl_app.
Qed.
Lemma feeds_cfg fs e c : cfg (foldl run_feed (new e c) fs) = c.
Proof.
  assert (H : forall s, cfg s = c -> cfg (foldl run_feed s fs) = c); [|by apply H].
  induction fs as [|f fs IH]; intros s Hs; [done|]. cbn. apply IH. destruct f as [bs|o]; cbn.
  - unfold append. by destruct (decode_from_fields (set_buffer s (buffer s ++ bs)) (decoded s)) as (_ & _ & -> & _).
  - by destruct (rop_same s o) as (_&_&_&_&_&_&_&_&->).
Qed.
Lemma text_input u w encs fs st ls os :
  13%N ∉ u -> w = u \/ w = crlf u -> Forall2 utf8_of w encs -> fed fs = concat encs ->
  stream_ops (reset_stream (close (foldl run_feed (new UTF8 default_config) fs)), StreamEnd) os = input_ops (T.new u st ls) os.
Proof.
  intros H W F E. rewrite (stream_input _ st ls).
  - cbn [chars reset_stream set_pos]. rewrite (decode_encode default_config w encs fs F E).
    replace (input_of (map Ch w)) with u; [done|]. symmetry. destruct W as [->| ->]; [by apply input_same|by apply input_crlf].
  - apply feeds_reachable.
  - cbn. unfold close. destruct (decode_from_fields (set_closed (foldl run_feed (new UTF8 default_config) fs) true) (decoded (foldl run_feed (new UTF8 default_config) fs))) as (_ & _ & -> & _). cbn. by rewrite feeds_cfg.
  - cbn. unfold close. destruct (decode_from_fields (set_closed (foldl run_feed (new UTF8 default_config) fs) true) (decoded (foldl run_feed (new UTF8 default_config) fs))) as (_ & _ & -> & _). cbn. by rewrite feeds_cfg.
  - done.
Qed.
