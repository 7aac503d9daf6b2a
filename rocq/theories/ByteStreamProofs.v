From Verif Require Import Base ByteStreamModel ByteStreamSpec.

(** * A uniform one-character view of the decoders *)

Definition step (e : encoding) (hi : bool) (cl : bool) (bs : list N) : option (character * nat) :=
  match e with
  | Unknown => None
  | Latin1 => match bs with [] => None | b :: _ => Some (if hi && (127 <? b)%N then Ch 63 else Ch b, 1) end
  | UTF8 =>
      match bs with
      | [] => None
      | _ => match utf8_first bs with
             | UValid c n => Some (Ch c, n)
             | UError n => Some (Ch REPLACEMENT, n)
             | UIncomplete => if cl then Some (Ch REPLACEMENT, length bs) else None
             end
      end
  | UTF16LE | UTF16BE =>
      match bs with
      | a :: b :: r =>
          Some (decode_utf16_char (unit16 (bool_decide (e = UTF16BE)) a b)
            (match r with c :: d :: _ => Some (unit16 (bool_decide (e = UTF16BE)) c d) | _ => None end))
      | _ => None
      end
  end.

Fixpoint run (fuel : nat) (e : encoding) (hi cl : bool) (off : nat) (bs : list N) : list (nat * character) * nat :=
  match fuel with
  | O => ([], off)
  | S f =>
      match step e hi cl bs with
      | None => ([], off)
      | Some (c, n) => let '(l, x) := run f e hi cl (off + n) (drop n bs) in ((off, c) :: l, x)
      end
  end.

Lemma utf8_first_len bs :
  match utf8_first bs with
  | UValid _ n => 1 <= n <= length bs
  | UError n => 1 <= n <= length bs
  | UIncomplete => True
  end.
Proof.
  destruct bs as [|b0 [|b1 [|b2 [|b3 r]]]]; simpl; repeat case_match; simplify_eq; simpl; try done; lia.
Qed.

Lemma step_len e hi cl bs c n : step e hi cl bs = Some (c, n) -> 1 <= n <= length bs.
Proof.
  destruct e; simpl; try done.
  - destruct bs; [done|]. intros [= <- <-]. simpl; lia.
  - destruct bs as [|b r]; [done|]. pose proof (utf8_first_len (b :: r)) as Hl.
    destruct (utf8_first (b :: r)); [| |destruct cl; [|done]]; intros [= <- <-]; simpl in *; lia.
  - destruct bs as [|a [|b r]]; try done. unfold decode_utf16_char. intros H.
    repeat case_match; simplify_eq; simpl in *; lia.
  - destruct bs as [|a [|b r]]; try done. unfold decode_utf16_char. intros H.
    repeat case_match; simplify_eq; simpl in *; lia.
Qed.

Lemma run_cons f e hi cl off bs c n :
  step e hi cl bs = Some (c, n) ->
  run (S f) e hi cl off bs = let '(l, x) := run f e hi cl (off + n) (drop n bs) in ((off, c) :: l, x).
Proof. intros H. simpl. by rewrite H. Qed.

Lemma step_utf8 hi cl bs :
  bs <> [] ->
  step UTF8 hi cl bs = match utf8_first bs with
             | UValid c n => Some (Ch c, n)
             | UError n => Some (Ch REPLACEMENT, n)
             | UIncomplete => if cl then Some (Ch REPLACEMENT, length bs) else None
             end.
Proof. by destruct bs. Qed.

Lemma run_fuel e hi cl f1 f2 off bs :
  length bs <= f1 -> length bs <= f2 -> run f1 e hi cl off bs = run f2 e hi cl off bs.
Proof.
  revert f2 off bs. induction f1 as [|f1 IH]; intros f2 off bs H1 H2.
  - destruct bs; [|simpl in *; lia]. destruct f2; [done|]. by destruct e.
  - destruct f2 as [|f2].
    + destruct bs; [|simpl in *; lia]. by destruct e.
    + simpl. destruct (step e hi cl bs) as [[c n]|] eqn:Hs; [|done].
      apply step_len in Hs. rewrite (IH f2); rewrite ?drop_length; try lia. done.
Qed.

Lemma latin1_run hi cl off bs : latin1_loop hi off bs = run (length bs) Latin1 hi cl off bs.
Proof.
  revert off. induction bs as [|b r IH]; intros off; [done|].
  simpl. rewrite IH. rewrite Nat.add_1_r, drop_0. done.
Qed.

Lemma utf16_run (be : bool) hi cl f off bs :
  utf16_loop f be off bs = run f (if be then UTF16BE else UTF16LE) hi cl off bs.
Proof.
  revert off bs. induction f as [|f IH]; intros off bs; [done|].
  destruct bs as [|a [|b r]]; [by destruct be..|].
  simpl utf16_loop. destruct be; simpl run; rewrite ?bool_decide_eq_true_2, ?bool_decide_eq_false_2 by done.
  - destruct (decode_utf16_char _ _) as [ch n]. by rewrite IH.
  - destruct (decode_utf16_char _ _) as [ch n]. by rewrite IH.
Qed.

Lemma from_utf8_run hi cl fuel k off bs :
  length bs <= fuel -> length bs <= k ->
  let '(l, valid, v) := from_utf8 fuel off bs in
  exists d, valid = off + d /\ d <= length bs /\
  forall base,
  run k UTF8 hi cl (base + off) bs =
    (let pre := map (fun p => (base + p.1, Ch p.2)) l in
     let '(l2, x) := run k UTF8 hi cl (base + valid) (drop d bs) in (pre ++ l2, x)) /\
  match v with
  | None => drop d bs = []
  | Some (Some n) => utf8_first (drop d bs) = UError n /\ drop d bs <> []
  | Some None => utf8_first (drop d bs) = UIncomplete /\ drop d bs <> []
  end.
Proof.
  revert k off bs. induction fuel as [|fuel IH]; intros k off bs Hf Hk.
  { destruct bs; [|simpl in *; lia]. simpl. exists 0. split_and!; [lia|lia|]. intros base. rewrite drop_nil.
    destruct (run k UTF8 hi cl (base + off) []) eqn:E. done. }
  destruct bs as [|b r].
  { simpl. exists 0. split_and!; [lia|lia|]. intros base. rewrite drop_nil. destruct (run k UTF8 hi cl (base + off) []) eqn:E. done. }
  remember (b :: r) as bs eqn:Ebs.
  assert (Hne : bs <> []) by (subst; done).
  replace (from_utf8 (S fuel) off bs) with
    (match utf8_first bs with
      | UValid c n =>
          let '(l, e, v) := from_utf8 fuel (off + n) (drop n bs) in ((off, c) :: l, e, v)
      | UError n => ([], off, Some (Some n))
      | UIncomplete => ([], off, Some None)
      end) by (subst; done).
  pose proof (utf8_first_len bs) as Hl.
  destruct (utf8_first bs) as [c n|n|] eqn:Hu.
  - destruct k as [|k]; [subst; simpl in *; lia|].
    specialize (IH k (off + n) (drop n bs)). rewrite drop_length in IH.
    destruct (from_utf8 fuel (off + n) (drop n bs)) as [[l e] v].
    destruct IH as (d & He & Hd & IH); [lia|lia|].
    exists (n + d). split_and!; [lia|lia|]. intros base. specialize (IH base) as [IHr IHv].
    rewrite drop_drop in IHr, IHv. split; [|done].
    assert (Hst : step UTF8 hi cl bs = Some (Ch c, n)) by (by rewrite step_utf8, Hu).
    cbn [run]. rewrite Hst.
    replace (base + off + n) with (base + (off + n)) by lia. rewrite IHr.
    rewrite (run_fuel UTF8 hi cl k (S k) _ (drop (n + d) bs)) by (rewrite drop_length; lia).
    change (match step UTF8 hi cl (drop (n + d) bs) with
            | Some (c0, n0) => let '(l0, x) := run k UTF8 hi cl (base + e + n0) (drop n0 (drop (n + d) bs)) in ((base + e, c0) :: l0, x)
            | None => ([], base + e) end) with (run (S k) UTF8 hi cl (base + e) (drop (n + d) bs)).
    destruct (run (S k) UTF8 hi cl (base + e) (drop (n + d) bs)) as [l2 x]. done.
  - exists 0. split_and!; [lia|lia|]. intros base. rewrite drop_0.
    destruct (run k UTF8 hi cl (base + off) bs). split; [done|]. split; [done|]. done.
  - exists 0. split_and!; [lia|lia|]. intros base. rewrite drop_0.
    destruct (run k UTF8 hi cl (base + off) bs). split; [done|]. split; [done|]. done.
Qed.

Lemma utf8_run hi cl fuel off bs :
  length bs <= fuel -> utf8_loop fuel cl off bs = run (length bs) UTF8 hi cl off bs.
Proof.
  revert off bs. induction fuel as [|fuel IH]; intros off bs Hf.
  { destruct bs; [done|simpl in *; lia]. }
  destruct bs as [|b r]; [done|]. remember (b :: r) as bs eqn:Ebs.
  replace (utf8_loop (S fuel) cl off bs) with
    (let '(l, valid, verdict) := from_utf8 (length bs) 0 bs in
      let pre := map (fun p => (off + p.1, Ch p.2)) l in
      match verdict with
      | None => (pre, off + length bs)
      | Some (Some n) =>
          let bp := off + valid in
          let '(l', e) := utf8_loop fuel cl (bp + n) (drop (valid + n) bs) in
          (pre ++ (bp, Ch REPLACEMENT) :: l', e)
      | Some None =>
          let bp := off + valid in
          if cl then (pre ++ [(bp, Ch REPLACEMENT)], off + length bs)
          else (pre, bp)
      end) by (subst; done).
  pose proof (from_utf8_run hi cl (length bs) (length bs) 0 bs (le_n _) (le_n _)) as H.
  destruct (from_utf8 (length bs) 0 bs) as [[l valid] v]. destruct H as (d & Hv & Hd & H).
  simpl in Hv. subst valid. specialize (H off) as [Hr Hv]. rewrite Nat.add_0_r in Hr. rewrite Hr. clear Hr.
  cbn zeta. destruct v as [[n|]|].
  - destruct Hv as [Hu Hne].
    assert (Hst : step UTF8 hi cl (drop d bs) = Some (Ch REPLACEMENT, n)).
    { by rewrite step_utf8, Hu. }
    pose proof (step_len _ _ _ _ _ _ Hst) as Hn. rewrite drop_length in Hn.
    destruct (length bs) as [|k] eqn:Hlen; [lia|]. cbn [run]. rewrite Hst.
    rewrite drop_drop. rewrite IH by (rewrite drop_length; lia).
    rewrite (run_fuel UTF8 hi cl k (length (drop (d + n) bs))) by (rewrite ?drop_length; lia).
    destruct (run _ _ _ _ _ _) as [l' e]. done.
  - destruct Hv as [Hu Hne].
    assert (Hlen : 0 < length (drop d bs)) by (destruct (drop d bs); [done|simpl; lia]). rewrite drop_length in Hlen.
    assert (Hst : step UTF8 hi cl (drop d bs) = if cl then Some (Ch REPLACEMENT, length (drop d bs)) else None).
    { by rewrite step_utf8, Hu. }
    destruct (length bs) as [|k] eqn:Hlen2; [lia|]. cbn [run]. rewrite Hst.
    destruct cl.
    + rewrite drop_length, Hlen2.
      rewrite (drop_ge (drop d bs)) by (rewrite drop_length; lia).
      destruct k; simpl; f_equal; lia.
    + by rewrite app_nil_r.
  - rewrite Hv. assert (length (drop d bs) = 0) as Hl by (rewrite Hv; done). rewrite drop_length in Hl.
    destruct (length bs) as [|k] eqn:Hlen2; [subst; done|]. simpl. rewrite app_nil_r. f_equal. lia.
Qed.

Lemma decode_loop_run s byte_pos :
  enc s <> Unknown ->
  decode_loop s byte_pos =
  run (length (drop byte_pos (buffer s))) (enc s) (replace_high_ascii (cfg s)) (closed s) byte_pos (drop byte_pos (buffer s)).
Proof.
  intros He. unfold decode_loop. destruct (enc s) eqn:E; [done| | | |].
  - by rewrite (latin1_run _ (closed s)).
  - by rewrite (utf8_run (replace_high_ascii (cfg s))).
  - by rewrite (utf16_run false (replace_high_ascii (cfg s)) (closed s)).
  - by rewrite (utf16_run true (replace_high_ascii (cfg s)) (closed s)).
Qed.

Lemma run_bounds e hi cl fuel off bs l x :
  run fuel e hi cl off bs = (l, x) ->
  off <= x <= off + length bs /\
  (forall p, p ∈ l -> off <= p.1 < x) /\ StronglySorted lt (map fst l).
Proof.
  revert off bs l x. induction fuel as [|f IH]; intros off bs l x; simpl.
  { intros [= <- <-]. split; [lia|]. split; [intros ? ?%elem_of_nil; done|constructor]. }
  destruct (step e hi cl bs) as [[c n]|] eqn:Hs.
  - apply step_len in Hs. destruct (run f e hi cl (off + n) (drop n bs)) as [l' x'] eqn:Hr.
    intros [= <- <-]. apply IH in Hr as (Hx & Hp & Hss). rewrite drop_length in Hx.
    split; [lia|]. split.
    + intros p [-> | Hin]%elem_of_cons; simpl; [lia|]. apply Hp in Hin. lia.
    + simpl. constructor; [done|]. apply Forall_forall. intros y (q & -> & Hq)%elem_of_list_fmap.
      apply Hp in Hq. lia.
  - intros [= <- <-]. split; [lia|]. split; [intros ? ?%elem_of_nil; done|constructor].
Qed.

(** * Splitting the input *)

Lemma utf8_first_app bs x :
  utf8_first bs <> UIncomplete -> utf8_first (bs ++ x) = utf8_first bs.
Proof.
  destruct bs as [|b0 [|b1 [|b2 [|b3 r]]]]; simpl; try done; repeat case_match; done.
Qed.

Lemma step_app e hi cl bs x r :
  (e = UTF8 \/ e = Latin1) ->
  step e hi false bs = Some r -> step e hi cl (bs ++ x) = Some r.
Proof.
  intros [-> | ->]; simpl.
  - destruct bs as [|b bs]; [done|]. intros H.
    destruct (utf8_first (b :: bs)) eqn:Hu; [| |done];
      (simpl app; change (b :: bs ++ x) with ((b :: bs) ++ x); rewrite utf8_first_app by (rewrite Hu; done); rewrite Hu; done).
  - by destruct bs.
Qed.

Lemma run_app e hi cl m off B x k :
  length B <= m ->
  length (B ++ x) <= k ->
  (forall d c n, d <= length B -> step e hi false (drop d B) = Some (c, n) ->
     (forall c' n', step e hi cl (drop d B ++ x) = Some (c', n') -> (off + d, c') ∈ (run k e hi cl off (B ++ x)).1) ->
     step e hi cl (drop d B ++ x) = Some (c, n)) ->
  forall l1 e1, run m e hi false off B = (l1, e1) ->
  run k e hi cl off (B ++ x) =
  let '(l2, y) := run k e hi cl e1 (drop (e1 - off) B ++ x) in (l1 ++ l2, y).
Proof.
  revert off B k. induction m as [|m IH]; intros off B k Hle Hk Hst l1 e1.
  { simpl. intros [= <- <-]. destruct B; [|simpl in *; lia].
    rewrite Nat.sub_diag. simpl. destruct (run k e hi cl off x); done. }
  simpl. destruct (step e hi false B) as [[c n]|] eqn:Hs.
  - pose proof (step_len _ _ _ _ _ _ Hs) as Hn.
    destruct (run m e hi false (off + n) (drop n B)) as [l' e'] eqn:Hr.
    intros [= <- <-].
    pose proof (run_bounds _ _ _ _ _ _ _ _ Hr) as (Hb & Hp & _). rewrite drop_length in Hb.
    destruct k as [|k]; [rewrite app_length in Hk; lia|].
    assert (Hs' : step e hi cl (B ++ x) = Some (c, n)).
    { apply (Hst 0); [lia|done|]. rewrite drop_0. intros c' n' H.
      rewrite (run_cons _ _ _ _ _ _ _ _ H). destruct (run k e hi cl (off + n') _). rewrite Nat.add_0_r. by left. }
    rewrite (run_cons _ _ _ _ _ _ _ _ Hs'). rewrite drop_app_le by lia.
    rewrite (IH (off + n) (drop n B) k) with (l1 := l') (e1 := e').
    + rewrite drop_drop. replace (n + (e' - (off + n))) with (e' - off) by lia.
      rewrite (run_fuel e hi cl k (S k) e') by (rewrite app_length in *; rewrite drop_length; lia).
      destruct (run (S k) e hi cl e' _). done.
    + rewrite drop_length. lia.
    + rewrite app_length in *. rewrite drop_length. lia.
    + intros d c' n' Hd Hs2 Hmem. rewrite drop_length in Hd. rewrite !drop_drop in *.
      apply (Hst (n + d)); [lia|done|]. intros c2 n2 H2. specialize (Hmem _ _ H2).
      rewrite (run_cons _ _ _ _ _ _ _ _ Hs'). rewrite drop_app_le by lia.
      destruct (run k e hi cl (off + n) (drop n B ++ x)). right.
      by replace (off + (n + d)) with (off + n + d) by lia.
    + done.
  - intros [= <- <-]. rewrite Nat.sub_diag, drop_0. destruct (run k e hi cl off (B ++ x)); done.
Qed.

(** * Line table *)

Definition lines (c : config) (cs : list character) : list nat :=
  0 :: filter (fun q => line_break c cs q = true) (seq 1 (length cs)).

Lemma head_drop {A} (l : list A) i : head (drop i l) = l !! i.
Proof. rewrite <- (Nat.add_0_r i) at 2. rewrite <- lookup_drop. by destruct (drop i l). Qed.

Lemma scan_lines_spec c cs i ls :
  i <= length cs ->
  scan_lines c i (drop i cs) ls =
  ls ++ filter (fun q => line_break c cs q = true) (seq (S i) (length cs - i)).
Proof.
  remember (length cs - i) as m eqn:Hm. revert i ls Hm.
  induction (lt_wf m) as [m _ IH]. intros i ls Hm Hi.
  destruct (cs !! i) as [x|] eqn:Hx.
  2:{ apply lookup_ge_None in Hx. rewrite drop_ge by lia. replace m with 0 by lia. simpl. by rewrite app_nil_r. }
  pose proof (lookup_lt_Some _ _ _ Hx) as Hlt.
  rewrite (drop_S _ _ _ Hx). cbn [scan_lines]. rewrite head_drop.
  destruct m as [|m]; [lia|].
  case_decide as H1.
  - destruct H1 as (-> & Hone & Hlf). pose proof (lookup_lt_Some _ _ _ Hlf) as Hlt2.
    rewrite (drop_S _ _ _ Hlf). destruct m as [|m]; [lia|].
    replace (i + 2) with (S (S i)) by lia. rewrite (IH m) by lia.
    cbn [seq]. rewrite !filter_cons.
    rewrite (decide_False (P := line_break c cs (S i) = true)).
    2:{ cbn [line_break]. rewrite Hx. unfold CR. rewrite bool_decide_eq_false_2 by done. simpl.
        rewrite bool_decide_eq_true_2 with (P := cs !! S i = _) by done. rewrite andb_false_r. done. }
    rewrite (decide_True (P := line_break c cs (S (S i)) = true)).
    2:{ cbn [line_break]. rewrite Hlf. unfold LF. rewrite bool_decide_eq_true_2 by done. done. }
    by rewrite <- app_assoc.
  - cbn [seq]. rewrite filter_cons. case_decide as H2.
    + destruct H2 as (-> & Hrep & Hlf). rewrite (IH m) by lia.
      rewrite (decide_True (P := line_break c cs (S i) = true)).
      2:{ cbn [line_break]. rewrite Hx, Hrep. rewrite (bool_decide_eq_true_2 (Some CR = Some (Ch 13))) by done.
          rewrite bool_decide_eq_false_2 with (P := cs !! S i = _) by done. by rewrite orb_true_r. }
      rewrite <- app_assoc. simpl. by replace (i + 1) with (S i) by lia.
    + case_decide as H3.
      * subst x. rewrite (IH m) by lia.
        rewrite (decide_True (P := line_break c cs (S i) = true)).
        2:{ cbn [line_break]. rewrite Hx. rewrite bool_decide_eq_true_2 by done. done. }
        rewrite <- app_assoc. simpl. by replace (i + 1) with (S i) by lia.
      * rewrite (IH m) by lia.
        rewrite (decide_False (P := line_break c cs (S i) = true)); [done|].
        cbn [line_break]. rewrite Hx. rewrite bool_decide_eq_false_2 by (unfold LF in H3; congruence). simpl.
        intros [[Hr Hc%bool_decide_eq_true]%andb_prop Hn%negb_true_iff%bool_decide_eq_false]%andb_prop.
        apply H2. split_and!; [unfold CR; congruence|done|done].
Qed.

Lemma drop_while_gt_app i a b :
  (forall v, v ∈ a -> i < v) -> (forall v, v ∈ b -> v <= i) -> drop_while_gt i (a ++ b) = b.
Proof.
  intros Ha Hb. induction a as [|v a IH]; simpl.
  - destruct b as [|w b]; [done|]. simpl. assert (w <= i) by (apply Hb; by left).
    rewrite (proj2 (Nat.ltb_ge i w)) by lia. done.
  - assert (i < v) by (apply Ha; by left). rewrite (proj2 (Nat.ltb_lt i v)) by lia.
    apply IH. intros w Hw. apply Ha. by right.
Qed.

Lemma pop_after_app i a b :
  (forall v, v ∈ a -> v <= i) -> (forall v, v ∈ b -> i < v) -> pop_after i (a ++ b) = a.
Proof.
  intros Ha Hb. unfold pop_after. rewrite rev_app_distr, drop_while_gt_app.
  - by rewrite rev_involutive.
  - intros v Hv. apply Hb. apply elem_of_list_In, in_rev. by apply elem_of_list_In in Hv.
  - intros v Hv. apply Ha. apply elem_of_list_In, in_rev. by apply elem_of_list_In in Hv.
Qed.

Lemma line_break_app c cs1 cs2 q :
  q <= length cs1 -> (cs1 !! (length cs1 - 1) <> Some CR \/ q < length cs1) ->
  line_break c (cs1 ++ cs2) q = line_break c cs1 q.
Proof.
  intros Hq H. destruct q as [|p]; [done|]. cbn [line_break].
  rewrite lookup_app_l by lia. destruct (decide (S p < length cs1)).
  - rewrite lookup_app_l by lia. done.
  - destruct H as [H|]; [|lia]. replace (length cs1 - 1) with p in H by lia.
    rewrite (bool_decide_eq_false_2 (cs1 !! p = Some (Ch 13))) by done.
    by rewrite !andb_false_r.
Qed.

Lemma extend_lines_ok c cs1 cs2 s :
  chars s = cs1 ++ cs2 -> scanned s = length cs1 -> cfg s = c -> line_starts s = lines c cs1 ->
  line_starts (extend_line_starts s) = lines c (cs1 ++ cs2) /\ scanned (extend_line_starts s) = length (cs1 ++ cs2).
Proof.
  intros Hc Hs <- Hl. unfold extend_line_starts. rewrite Hs, Hc, Hl.
  destruct ((0 <? length cs1) && bool_decide ((cs1 ++ cs2) !! (length cs1 - 1) = Some CR)) eqn:Hb; simpl.
  - split; [|done]. apply andb_prop in Hb as [Hlt%Nat.ltb_lt Hcr%bool_decide_eq_true].
    rewrite scan_lines_spec by (rewrite app_length; lia).
    destruct (length cs1) as [|m] eqn:Hm; [lia|]. replace (S m - 1) with m by lia.
    unfold lines. rewrite Hm.
    replace (S m) with (m + 1) at 1 by lia. rewrite seq_app, filter_app.
    rewrite app_comm_cons, pop_after_app.
    + rewrite app_length, Hm. replace (S m + length cs2) with (m + (S m + length cs2 - m)) at 2 by lia.
      rewrite seq_app, filter_app. rewrite <- app_comm_cons. f_equal. f_equal.
      apply filter_ext_iff. intros q Hq%elem_of_seq. rewrite line_break_app by lia. done.
    + intros v [-> | [_ Hv%elem_of_seq]%elem_of_list_filter]%elem_of_cons; lia.
    + intros v [_ Hv%elem_of_seq]%elem_of_list_filter. lia.
  - split; [|done].
    rewrite scan_lines_spec by (rewrite app_length; lia).
    unfold lines. rewrite app_length. replace (length cs1 + length cs2 - length cs1) with (length cs2) by lia.
    rewrite seq_app, filter_app. rewrite <- app_comm_cons. f_equal. f_equal.
    apply filter_ext_iff. intros q Hq%elem_of_seq. rewrite line_break_app; [done|lia|].
    left. apply andb_false_iff in Hb as [Hb%Nat.ltb_ge|Hb%bool_decide_eq_false]; [lia|].
    rewrite lookup_app_l in Hb by lia. done.
Qed.

(** * Invariant of all reachable streams *)

Record inv (s : stream) : Prop := {
  inv_lines : line_starts s = lines (cfg s) (chars s);
  inv_scanned : scanned s = length (chars s);
  inv_len : length (offs s) = length (chars s);
  inv_sorted : StronglySorted lt (offs s);
  inv_bound : forall o, o ∈ offs s -> o < decoded s;
  inv_dec : decoded s <= length (buffer s);
}.

Lemma strongly_sorted_app_lt l1 l2 :
  StronglySorted lt l1 -> StronglySorted lt l2 -> (forall a b, a ∈ l1 -> b ∈ l2 -> a < b) ->
  StronglySorted lt (l1 ++ l2).
Proof.
  intros H1 H2 H. induction H1 as [|x l1 Hs IH Hx]; [done|]. simpl. constructor.
  - apply IH. intros a b Ha Hb. apply H; [by right|done].
  - apply Forall_app. split; [done|]. apply Forall_forall. intros b Hb. apply H; [by left|done].
Qed.

Lemma decode_loop_bounds s p l x :
  p <= length (buffer s) -> decode_loop s p = (l, x) ->
  p <= x <= length (buffer s) /\ (forall q, q ∈ map fst l -> p <= q < x) /\ StronglySorted lt (map fst l).
Proof.
  intros Hp H. destruct (decide (enc s = Unknown)) as [He|He].
  - unfold decode_loop in H. rewrite He in H. simplify_eq. split; [lia|]. split; [intros ? ?%elem_of_nil; done|constructor].
  - rewrite decode_loop_run in H by done. apply run_bounds in H as (Hx & Hq & Hs).
    rewrite drop_length in Hx. split; [lia|]. split; [|done].
    intros q (y & -> & Hy)%elem_of_list_fmap. by apply Hq.
Qed.

Lemma decode_from_inv s :
  line_starts s = lines (cfg s) (chars s) -> scanned s = length (chars s) ->
  length (offs s) = length (chars s) -> StronglySorted lt (offs s) ->
  (forall o, o ∈ offs s -> o < decoded s) -> decoded s <= length (buffer s) ->
  inv (decode_from s (decoded s)).
Proof.
  intros Hl Hs Hlen Hso Hb Hd. unfold decode_from. destruct (decode_loop s (decoded s)) as [l x] eqn:Hdl.
  apply decode_loop_bounds in Hdl as (Hx & Hq & Hss); [|done].
  match goal with |- inv (extend_line_starts ?t) => set (t' := t) end.
  destruct (extend_lines_ok (cfg s) (chars s) (map snd l) t') as [E1 E2]; [done..|].
  assert (Hcom : forall t, chars (extend_line_starts t) = chars t /\ offs (extend_line_starts t) = offs t /\
     decoded (extend_line_starts t) = decoded t /\ buffer (extend_line_starts t) = buffer t /\ cfg (extend_line_starts t) = cfg t).
  { intros t. unfold extend_line_starts. case_match. done. }
  destruct (Hcom t') as (C1 & C2 & C3 & C4 & C5).
  split; rewrite ?E1, ?E2, ?C1, ?C2, ?C3, ?C4, ?C5; simpl.
  - done.
  - done.
  - rewrite !app_length, Hlen, !map_length. done.
  - apply strongly_sorted_app_lt; [done|done|]. intros a b Ha Hb'. apply Hb in Ha. apply Hq in Hb'. lia.
  - intros o [Ho|Ho]%elem_of_app; [apply Hb in Ho; lia|apply Hq in Ho; lia].
  - lia.
Qed.

Lemma decode_buffer_inv s : inv (decode_buffer s).
Proof.
  unfold decode_buffer. match goal with |- inv (decode_from ?t 0) => change 0 with (decoded t) end.
  apply decode_from_inv; simpl; try done; try lia. - constructor. - intros o ?%elem_of_nil. done.
Qed.

(** everything except position and hint *)
Definition same_text (s t : stream) : Prop :=
  buffer s = buffer t /\ chars s = chars t /\ offs s = offs t /\ decoded s = decoded t /\
  line_starts s = line_starts t /\ scanned s = scanned t /\ closed s = closed t /\ enc s = enc t /\ cfg s = cfg t.

Lemma same_text_refl s : same_text s s.
Proof. by repeat split. Qed.
Lemma same_text_trans s t u : same_text s t -> same_text t u -> same_text s u.
Proof. intros (?&?&?&?&?&?&?&?&?) (?&?&?&?&?&?&?&?&?). repeat split; congruence. Qed.

Lemma same_text_inv s t : same_text t s -> inv s -> inv t.
Proof.
  intros (E1&E2&E3&E4&E5&E6&E7&E8&E9) [I1 I2 I3 I4 I5 I6].
  split; rewrite ?E1, ?E2, ?E3, ?E4, ?E5, ?E6, ?E7, ?E8, ?E9; done.
Qed.

Lemma read_and_next_same s : same_text (fst (read_and_next s)) s.
Proof. unfold read_and_next. repeat case_match; apply same_text_refl || by repeat split. Qed.

Lemma prev_same s : same_text (prev s) s.
Proof. unfold prev. case_match; by repeat split. Qed.

Lemma prev_n_same n s : same_text (prev_n n s) s.
Proof.
  revert s. induction n as [|n IH]; intros s; [apply same_text_refl|].
  simpl. eapply same_text_trans; [apply IH|apply prev_same].
Qed.

Lemma read_many_same n s : same_text (fst (read_many n s)) s.
Proof.
  revert s. induction n as [|n IH]; intros s; simpl; [apply same_text_refl|].
  pose proof (read_and_next_same s) as H. destruct (read_and_next s) as [s1 c].
  specialize (IH s1). destruct (read_many n s1) as [s2 cs]. simpl in *.
  eapply same_text_trans; done.
Qed.

Lemma rop_same s o : same_text (run_rop s o) s.
Proof.
  destruct o; simpl; try by repeat split.
  - apply read_and_next_same.
  - apply prev_n_same.
  - unfold loc_effect, get_location. destruct (length (line_starts s)); [by repeat split|].
    unfold rbind. repeat case_match; simplify_eq; by repeat split.
  - unfold get_slice. pose proof (read_many_same n s) as H. destruct (read_many n s) as [s1 cs].
    simpl in *. destruct H as (?&?&?&?&?&?&?&?&?). repeat split; done.
Qed.

Lemma step_inv s o : inv s -> inv (run_op s o).
Proof.
  intros Hi. destruct o; simpl.
  - eapply same_text_inv; [apply rop_same|done].
  - unfold append. destruct Hi. change (decoded s) with (decoded (set_buffer s (buffer s ++ bs))).
    apply decode_from_inv; simpl; try done. rewrite app_length. lia.
  - unfold close. destruct Hi. change (decoded s) with (decoded (set_closed s true)).
    apply decode_from_inv; simpl; done.
  - destruct Hi. by split.
  - unfold set_encoding. case_decide; [done|].
    eapply (same_text_inv (decode_buffer (set_enc s e))); [by repeat split|]. apply decode_buffer_inv.
  - eapply same_text_inv with (s := decode_buffer _); [|apply decode_buffer_inv]. by repeat split.
  - eapply same_text_inv with (s := decode_buffer _); [|apply decode_buffer_inv]. by repeat split.
Qed.

Lemma new_inv e c : inv (new e c).
Proof. split; simpl; try done; try lia. - constructor. - intros o ?%elem_of_nil. done. Qed.

Lemma reachable_inv s : reachable s -> inv s.
Proof.
  intros (e & c & os & ->). unfold run_ops.
  assert (H : forall s, inv s -> inv (foldl run_op s os)).
  { induction os as [|o os IH]; intros s Hs; [done|]. simpl. apply IH. by apply step_inv. }
  apply H, new_inv.
Qed.

(** * Locations *)

Lemma lines_sorted c cs : StronglySorted lt (lines c cs).
Proof.
  unfold lines. constructor.
  - generalize 1. induction (length cs) as [|n IH]; intros a; [constructor|]. simpl. rewrite filter_cons.
    case_decide; [|apply IH]. constructor; [apply IH|]. apply Forall_forall.
    intros x [_ Hx%elem_of_seq]%elem_of_list_filter. lia.
  - apply Forall_forall. intros x [_ Hx%elem_of_seq]%elem_of_list_filter. lia.
Qed.

Lemma sorted_lookup_lt l i j x y : StronglySorted lt l -> i < j -> l !! i = Some x -> l !! j = Some y -> x < y.
Proof.
  intros Hs. revert i j. induction Hs as [|a l Hs IH Ha]; intros i j Hij Hi Hj; [done|].
  destruct j as [|j]; [lia|]. destruct i as [|i]; simpl in *.
  - simplify_eq. rewrite Forall_forall in Ha. apply Ha. by eapply elem_of_list_lookup_2.
  - eapply (IH i j); [lia|done|done].
Qed.

Lemma walk_back_ok ls p idx :
  idx < length ls -> ls !! 0 = Some 0 ->
  exists i v, walk_back ls p idx = Ok i /\ ls !! i = Some v /\ v <= p.
Proof.
  intros Hi H0. induction idx as [|i IH]; simpl.
  - exists 0, 0. split; [done|]. split; [done|lia].
  - destruct (lookup_lt_is_Some_2 ls (S i)) as [v Hv]; [lia|]. rewrite Hv. simpl.
    destruct (p <? v) eqn:Hp; [apply IH; lia|]. apply Nat.ltb_ge in Hp. eauto.
Qed.

Lemma walk_fwd_ok ls p fuel idx v :
  ls !! idx = Some v -> v <= p -> length ls <= idx + fuel -> StronglySorted lt ls ->
  exists i w, walk_fwd fuel ls p idx = Ok i /\ ls !! i = Some w /\ w <= p /\
    (forall j u, i < j -> ls !! j = Some u -> p < u).
Proof.
  intros Hl Hv Hf Hs. revert idx v Hl Hv Hf. induction fuel as [|fuel IH]; intros idx v Hl Hv Hf; simpl.
  - apply lookup_lt_Some in Hl. lia.
  - destruct (idx + 1 <? length ls) eqn:Hlt.
    + apply Nat.ltb_lt in Hlt. destruct (lookup_lt_is_Some_2 ls (idx + 1)) as [w Hw]; [lia|].
      rewrite Hw. simpl. destruct (w <=? p) eqn:Hwp.
      * apply Nat.leb_le in Hwp. eapply IH; [done|done|lia].
      * apply Nat.leb_gt in Hwp. exists idx, v. split_and!; [done|done|done|].
        intros j u Hj Hu. destruct (decide (j = idx + 1)) as [->|]; [simplify_eq; lia|].
        assert (w < u) by (eapply (sorted_lookup_lt ls (idx + 1) j); [done|lia|done|done]). lia.
    + apply Nat.ltb_ge in Hlt. exists idx, v. split_and!; [done|done|done|].
      intros j u Hj Hu. apply lookup_lt_Some in Hu. lia.
Qed.

Lemma count_le_sorted ls p i w :
  StronglySorted lt ls -> ls !! i = Some w -> w <= p ->
  (forall j u, i < j -> ls !! j = Some u -> p < u) ->
  length (filter (fun q => q <= p) ls) = i + 1.
Proof.
  intros Hs. revert i. induction Hs as [|a l Hs IH Ha]; intros i Hi Hw Hj; [done|].
  rewrite filter_cons. destruct i as [|i]; simpl in Hi.
  - simplify_eq. rewrite decide_True by done. simpl. rewrite filter_none; [done|].
    intros q (j & Hq)%elem_of_list_lookup. specialize (Hj (S j) q ltac:(lia) Hq). lia.
  - assert (a < w). { rewrite Forall_forall in Ha. apply Ha. by eapply elem_of_list_lookup_2. }
    rewrite decide_True by lia. simpl. rewrite (IH i); [lia|done|done|].
    intros j u Hlt Hu. apply (Hj (S j)); [lia|done].
Qed.

Lemma filter_filter_comm_seq (f : nat -> bool) p n :
  (forall q, n < q -> f q = false) ->
  length (filter (fun q => q <= p) (filter (fun q => f q = true) (seq 1 n))) =
  length (filter (fun q => f q = true) (seq 1 p)).
Proof.
  intros Hf. rewrite list_filter_filter.
  destruct (decide (p <= n)) as [H|H].
  - replace n with (p + (n - p)) by lia. rewrite seq_app, filter_app, app_length.
    rewrite (filter_none _ (seq (1 + p) _)) by (intros x Hx%elem_of_seq; lia). simpl. rewrite Nat.add_0_r.
    f_equal. apply filter_ext_iff. intros x Hx%elem_of_seq. split; [tauto|]. split; [lia|done].
  - assert (E : seq 1 p = seq 1 n ++ seq (1 + n) (p - n)) by (rewrite <- seq_app; f_equal; lia).
    rewrite E, filter_app, app_length.
    rewrite (filter_none _ (seq (1 + n) _)).
    2:{ intros x Hx%elem_of_seq. rewrite Hf by lia. done. } simpl. rewrite Nat.add_0_r.
    f_equal. apply filter_ext_iff. intros x Hx%elem_of_seq. split; [tauto|]. split; [lia|done].
Qed.

Lemma line_break_big c cs q : length cs < q -> line_break c cs q = false.
Proof.
  intros H. destruct q as [|p]; [done|]. cbn [line_break]. rewrite (lookup_ge_None_2 cs p) by lia.
  rewrite bool_decide_eq_false_2 by done. rewrite (bool_decide_eq_false_2 (None = _)) by done. by rewrite andb_false_r.
Qed.

Lemma location_ok s :
  inv s ->
  exists s' l q, get_location s = Ok (s', l) /\ same_text s' s /\ pos s' = pos s /\
    l_line l = line_of (cfg s) (chars s) (pos s) /\
    line_start_of (cfg s) (chars s) (pos s) q /\ l_column l = pos s - q + 1 /\
    l_offset l = tell_bytes s.
Proof.
  intros [Hl _ _ _ _ _]. unfold get_location.
  assert (Hlen : length (line_starts s) = S (length (filter (fun q => line_break (cfg s) (chars s) q = true) (seq 1 (length (chars s)))))) by (rewrite Hl; done).
  set (n := length (filter _ _)) in Hlen. rewrite Hlen.
  assert (Hs : StronglySorted lt (line_starts s)) by (rewrite Hl; apply lines_sorted).
  assert (H0 : line_starts s !! 0 = Some 0) by (rewrite Hl; done).
  destruct (walk_back_ok (line_starts s) (pos s) (Nat.min (line_hint s) n)) as (i1 & v1 & E1 & Hv1 & Hle1); [lia|done|].
  rewrite E1. cbn [rbind].
  destruct (walk_fwd_ok (line_starts s) (pos s) (S n) i1 v1) as (i & w & E2 & Hw & Hle & Hnext); [done|done|lia|done|].
  rewrite E2. cbn [rbind]. rewrite Hw. cbn [rbind of_opt]. rewrite (proj2 (Nat.ltb_ge (pos s) w)) by lia.
  eexists _, _, w. split; [done|]. split; [by repeat split|]. split; [done|]. simpl.
  assert (Hcount := count_le_sorted _ _ _ _ Hs Hw Hle Hnext).
  split; [|split; [|done]].
  - rewrite <- Hcount, Hl. unfold lines, line_of. rewrite filter_cons, decide_True by lia. simpl.
    f_equal. apply filter_filter_comm_seq. apply line_break_big.
  - split; [done|]. assert (Hin : w ∈ line_starts s) by (by eapply elem_of_list_lookup_2).
    split.
    + rewrite Hl in Hin. unfold lines in Hin. apply elem_of_cons in Hin as [Hin|[Hin _]%elem_of_list_filter]; [by left|by right].
    + intros r Hr. destruct (line_break (cfg s) (chars s) r) eqn:Hb; [|done].
      assert (Hin' : r ∈ line_starts s).
      { rewrite Hl. unfold lines. apply elem_of_cons. right. apply elem_of_list_filter. split; [done|].
        apply elem_of_seq. split; [lia|]. destruct (decide (r <= length (chars s))); [lia|].
        rewrite line_break_big in Hb by lia. done. }
      apply elem_of_list_lookup in Hin' as (j & Hj).
      destruct (decide (i < j)).
      * specialize (Hnext j r). specialize (Hnext ltac:(lia) Hj). lia.
      * destruct (decide (i = j)) as [->|]; [simplify_eq; lia|].
        assert (r < w) by (eapply (sorted_lookup_lt (line_starts s) j i); [done|lia|done|done]). lia.
Qed.

(** * Reading and un-reading *)

Lemma read_end s : read s = StreamEnd -> read_and_next s = (s, StreamEnd).
Proof. intros H. unfold read_and_next. by rewrite H. Qed.

Lemma set_pos_id s : set_pos s (pos s) = s.
Proof. by destruct s. Qed.

Definition inside_crlf (s : stream) : Prop :=
  cr_lf_as_one (cfg s) = true /\ 0 < pos s /\ chars s !! (pos s - 1) = Some (Ch 13) /\ chars s !! pos s = Some (Ch 10).

Lemma read_set_pos s p : read (set_pos s p) = match chars s !! p with Some c => c | None => StreamEnd end.
Proof. done. Qed.

Lemma prev_read s : ~ inside_crlf s -> read s <> StreamEnd -> prev (fst (read_and_next s)) = s.
Proof.
  intros Hn Hr. unfold read_and_next.
  assert (Hx : chars s !! pos s = Some (read s)).
  { unfold read in *. destruct (chars s !! pos s); [done|]. done. }
  remember (read s) as ch eqn:Ech.
  assert (H1 : prev (set_pos s (S (pos s))) = s).
  { unfold prev. simpl. rewrite Nat.sub_0_r. rewrite read_set_pos. simpl. rewrite Hx.
    destruct (cr_lf_as_one (cfg s) && bool_decide (ch = LF) && (0 <? pos s) && bool_decide (chars s !! (pos s - 1) = Some CR)) eqn:E.
    - exfalso. apply andb_prop in E as [[[E1 E2%bool_decide_eq_true]%andb_prop E3%Nat.ltb_lt]%andb_prop E4%bool_decide_eq_true].
      apply Hn. split_and!; [done|lia|done|]. by rewrite Hx, E2.
    - destruct s; done. }
  assert (H2 : ch = CR -> cr_lf_as_one (cfg s) = true -> read (set_pos s (S (pos s))) = LF ->
     prev (set_pos s (S (S (pos s)))) = s).
  { intros -> Hc Hlf. unfold prev. simpl. rewrite read_set_pos in *. simpl in *. rewrite Hlf, Hc.
    rewrite (bool_decide_eq_true_2 (LF = LF)) by done. simpl. rewrite Nat.sub_0_r.
    rewrite bool_decide_eq_true_2 by done. destruct s; done. }
  destruct ch as [c| |]; [| |done].
  - destruct (cr_lf_as_one (cfg s) && bool_decide (Ch c = CR) && bool_decide (read (set_pos s (S (pos s))) = LF)) eqn:E.
    + apply andb_prop in E as [[E1 E2%bool_decide_eq_true]%andb_prop E3%bool_decide_eq_true]. simpl. by apply H2.
    + case_match; done.
  - rewrite bool_decide_eq_false_2 by done. rewrite !andb_false_r. simpl. done.
Qed.

Lemma get_slice_pos s n : fst (get_slice s n) = s.
Proof.
  unfold get_slice. pose proof (read_many_same n s) as H.
  assert (Hh : line_hint (fst (read_many n s)) = line_hint s).
  { clear H. revert s. induction n as [|n IH]; intros s; [done|]. simpl.
    assert (line_hint (fst (read_and_next s)) = line_hint s) as E.
    { unfold read_and_next. repeat case_match; done. }
    destruct (read_and_next s) as [s1 c]. specialize (IH s1). destruct (read_many n s1). simpl in *. congruence. }
  destruct (read_many n s) as [s1 cs]. simpl in *. destruct H as (?&?&?&?&?&?&?&?&?).
  destruct s, s1; unfold reset_to_mark, set_pos, mark; simpl in *. by subst.
Qed.

Lemma line_of_S c cs p :
  line_of c cs (S p) = line_of c cs p + (if line_break c cs (S p) then 1 else 0).
Proof.
  unfold line_of. replace (S p) with (p + 1) at 1 by lia. rewrite seq_app, filter_app, app_length.
  change (seq (1 + p) 1) with [S p]. rewrite filter_cons.
  generalize (line_break c cs (S p)). intros []; simpl; lia.
Qed.
Local Opaque line_of.

(** The line number counts the line feeds a reader has been given. *)
Lemma read_lf_count s :
  ~ inside_crlf s ->
  let r := read_and_next s in
  line_of (cfg s) (chars s) (pos (fst r)) =
  line_of (cfg s) (chars s) (pos s) + (if decide (snd r = Ch 10) then 1 else 0) /\ ~ inside_crlf (fst r).
Proof.
  intros Hn r.
  destruct (chars s !! pos s) as [ch|] eqn:Hx.
  2:{ unfold r. rewrite read_end by (unfold read; by rewrite Hx). simpl. split; [lia|done]. }
  assert (Hread : read s = ch) by (unfold read; by rewrite Hx).
  pose proof (line_of_S (cfg s) (chars s) (pos s)) as Hl1.
  pose proof (line_of_S (cfg s) (chars s)) as Hrest.
  unfold r, read_and_next. rewrite Hread. clear r.
  destruct ch as [c|u|].
  - rewrite read_set_pos.
    destruct (decide (c = 13)%N) as [->|Hc].
    + rewrite (bool_decide_eq_true_2 (Ch 13 = CR)) by done. rewrite !andb_true_r.
      destruct (chars s !! S (pos s)) as [d|] eqn:Hd.
      * destruct (decide (d = LF)) as [->|Hdl].
        -- rewrite (bool_decide_eq_true_2 (LF = LF)) by done. simpl. rewrite !andb_true_r, !andb_false_r.
           assert (Hb1 : line_break (cfg s) (chars s) (S (pos s)) = false).
           { cbn [line_break]. rewrite Hx, Hd. rewrite bool_decide_eq_false_2 by done.
             rewrite (bool_decide_eq_true_2 (Some LF = _)) by done. by rewrite andb_false_r. }
           destruct (cr_lf_as_one (cfg s)) eqn:Hone; simpl.
           ++ rewrite (Hrest (S (pos s))), Hl1, Hb1.
              assert (Hb2 : line_break (cfg s) (chars s) (S (S (pos s))) = true).
              { cbn [line_break]. rewrite Hd. rewrite bool_decide_eq_true_2 by done. done. }
              rewrite Hb2. split; [lia|]. intros (_ & _ & H & _). simpl in H. rewrite Hd in H. done.
           ++ rewrite Hl1, Hb1. split; [lia|]. intros (H & _). simpl in H. congruence.
        -- rewrite (bool_decide_eq_false_2 (d = LF)) by done. simpl. rewrite andb_false_r, andb_true_r.
           assert (Hb1 : line_break (cfg s) (chars s) (S (pos s)) = replace_cr_as_lf (cfg s)).
           { cbn [line_break]. rewrite Hx, Hd. rewrite bool_decide_eq_false_2 by done.
             rewrite (bool_decide_eq_true_2 (Some (Ch 13) = _)) by done.
             rewrite (bool_decide_eq_false_2 (Some d = _)) by (unfold LF in Hdl; congruence). by rewrite !andb_true_r. }
           destruct (replace_cr_as_lf (cfg s)) eqn:Hrep; simpl; rewrite Hl1, Hb1; (split; [simpl; lia|]);
             intros (_ & _ & _ & H); simpl in H; rewrite Hd in H; unfold LF in Hdl; congruence.
      * rewrite (bool_decide_eq_false_2 (StreamEnd = LF)) by done. simpl. rewrite andb_false_r, andb_true_r.
           assert (Hb1 : line_break (cfg s) (chars s) (S (pos s)) = replace_cr_as_lf (cfg s)).
           { cbn [line_break]. rewrite Hx, Hd. rewrite bool_decide_eq_false_2 by done.
             rewrite (bool_decide_eq_true_2 (Some (Ch 13) = _)) by done.
             rewrite (bool_decide_eq_false_2 (None = _)) by done. by rewrite !andb_true_r. }
           destruct (replace_cr_as_lf (cfg s)) eqn:Hrep; simpl; rewrite Hl1, Hb1; (split; [simpl; lia|]);
             intros (_ & _ & _ & H); simpl in H; rewrite Hd in H; congruence.
    + rewrite (bool_decide_eq_false_2 (Ch c = CR)) by (unfold CR; congruence). rewrite !andb_false_r. simpl.
      rewrite Hl1. cbn [line_break]. rewrite Hx.
      rewrite (bool_decide_eq_false_2 (Some (Ch c) = Some (Ch 13))) by congruence. rewrite andb_false_r, orb_false_r.
      split.
      * destruct (decide (Ch c = Ch 10)) as [E|E].
        -- rewrite bool_decide_eq_true_2 by (by rewrite E). lia.
        -- rewrite bool_decide_eq_false_2 by congruence. lia.
      * intros (_ & _ & H & _). simpl in H. rewrite Nat.sub_0_r, Hx in H. congruence.
  - rewrite (bool_decide_eq_false_2 (Surrogate u = CR)) by done. rewrite !andb_false_r. simpl.
    rewrite Hl1. cbn [line_break]. rewrite Hx. rewrite !bool_decide_eq_false_2 by done. rewrite andb_false_r. simpl.
    split; [lia|]. intros (_ & _ & H & _). simpl in H. rewrite Nat.sub_0_r, Hx in H. congruence.
  - simpl. split; [lia|done].
Qed.

Lemma read_many_lines n s :
  ~ inside_crlf s ->
  let r := read_many n s in
  line_of (cfg s) (chars s) (pos (fst r)) =
  line_of (cfg s) (chars s) (pos s) + length (filter (fun c => c = Ch 10) (snd r)).
Proof.
  revert s. induction n as [|n IH]; intros s Hn; simpl; [lia|].
  pose proof (read_lf_count s Hn) as [H1 H2]. pose proof (read_and_next_same s) as Hsame.
  destruct (read_and_next s) as [s1 c]. simpl in *. specialize (IH s1 H2).
  destruct (read_many n s1) as [s2 cs]. simpl in *. destruct Hsame as (_&Ec&_&_&_&_&_&_&Eg).
  rewrite Ec, Eg in IH. rewrite IH, H1. rewrite filter_cons. destruct (decide (c = Ch 10)); simpl; lia.
Qed.

(** * Chunked decoding *)

Definition ok_cut (e : encoding) (hi : bool) (W : list N) (k : nat) : Prop :=
  forall d c n, d <= k -> step e hi false (drop d (take k W)) = Some (c, n) ->
    (forall c' n', step e hi true (drop d W) = Some (c', n') -> (d, c') ∈ (run (length W) e hi true 0 W).1) ->
    step e hi true (drop d W) = Some (c, n).

Lemma ok_cut_utf8 e hi W k : (e = UTF8 \/ e = Latin1) -> ok_cut e hi W k.
Proof.
  intros He d c n Hd Hs _. apply (step_app _ _ true _ (drop k W)) in Hs; [|done].
  rewrite <- Hs. f_equal. rewrite <- drop_app_le.
  - by rewrite take_drop.
  - rewrite take_length. destruct (decide (k <= length W)); [lia|].
    destruct (decide (d <= length W)); [lia|].
    rewrite drop_ge in Hs; [|rewrite take_length; lia]. rewrite (drop_ge W k) in Hs by lia. destruct He as [-> | ->]; done.
Qed.

Lemma utf16_high_low_big cu low :
  in_range 55296 56319 cu = true -> in_range 56320 57343 low = true ->
  (65536 <= 65536 + (cu - 55296) * 1024 + (low - 56320))%N.
Proof. lia. Qed.

Lemma ok_cut_utf16 e hi W k :
  (e = UTF16LE \/ e = UTF16BE) -> k <= length W ->
  ~ splits_pair (run (length W) e hi true 0 W).1 k -> ok_cut e hi W k.
Proof.
  intros He Hk Hns d c n Hd Hs Hm.
  assert (E : drop d W = drop d (take k W) ++ drop k W).
  { rewrite <- drop_app_le by (rewrite take_length; lia). by rewrite take_drop. }
  assert (Hlen : length (drop d (take k W)) = k - d) by (rewrite drop_length, take_length; lia).
  rewrite E in *. remember (drop d (take k W)) as bs eqn:Ebs. clear Ebs E.
  assert (Hst : exists be, forall cl l, step e hi cl l = match l with
      | a :: b :: r => Some (decode_utf16_char (unit16 be a b) (match r with c :: d :: _ => Some (unit16 be c d) | _ => None end))
      | _ => None end).
  { exists (bool_decide (e = UTF16BE)). intros cl l. by destruct He as [-> | ->]. }
  destruct Hst as [be Hst]. rewrite !Hst in *.
  destruct bs as [|a [|b r]]; try done. simpl.
  destruct r as [|x [|y r]]; [| |done].
  - simpl in *. destruct (drop k W) as [|x [|y r]]; [done|done|].
    unfold decode_utf16_char in *. destruct (in_range 55296 56319 (unit16 be a b)) eqn:Hhi; [|done].
    destruct (in_range 56320 57343 (unit16 be x y)) eqn:Hlo; [|done].
    exfalso. apply Hns. eexists d, _. split; [by apply (Hm _ 4)|]. split; [|lia]. lia.
  - simpl in *. destruct (drop k W) as [|y r]; [done|].
    unfold decode_utf16_char in *. destruct (in_range 55296 56319 (unit16 be a b)) eqn:Hhi; [|done].
    destruct (in_range 56320 57343 (unit16 be x y)) eqn:Hlo; [|done].
    exfalso. apply Hns. eexists d, _. split; [by apply (Hm _ 4)|]. split; [|lia]. lia.
Qed.

Record good (W : list N) (e : encoding) (c : config) (s : stream) : Prop := {
  g_prefix : exists rest, W = buffer s ++ rest;
  g_closed : closed s = false;
  g_enc : enc s = e;
  g_cfg : cfg s = c;
  g_len : length (offs s) = length (chars s);
  g_dec : decoded s <= length (buffer s);
  g_run : run (length W) e (replace_high_ascii c) true 0 W =
          let '(l2, y) := run (length W) e (replace_high_ascii c) true (decoded s) (drop (decoded s) W) in
          (zip (offs s) (chars s) ++ l2, y);
}.

Lemma good_new W e c : good W e c (new e c).
Proof.
  split; simpl; try done; [by exists W|]. rewrite drop_0. by destruct (run _ _ _ _ _ _).
Qed.

Lemma good_same W e c s t : same_text t s -> good W e c s -> good W e c t.
Proof.
  intros (E1&E2&E3&E4&E5&E6&E7&E8&E9) [G1 G2 G3 G4 G5 G6 G7].
  split; rewrite ?E1, ?E2, ?E3, ?E4, ?E5, ?E6, ?E7, ?E8, ?E9; done.
Qed.

Lemma extend_same t : chars (extend_line_starts t) = chars t /\ offs (extend_line_starts t) = offs t /\
     decoded (extend_line_starts t) = decoded t /\ buffer (extend_line_starts t) = buffer t /\ cfg (extend_line_starts t) = cfg t /\
     closed (extend_line_starts t) = closed t /\ enc (extend_line_starts t) = enc t.
Proof. unfold extend_line_starts. case_match. done. Qed.

Lemma zip_app_same {A B} (l1 l2 : list A) (k1 k2 : list B) :
  length l1 = length k1 -> zip (l1 ++ l2) (k1 ++ k2) = zip l1 k1 ++ zip l2 k2.
Proof. intros H. by rewrite zip_with_app by done. Qed.

Lemma zip_fst_snd {A B} (l : list (A * B)) : zip (map fst l) (map snd l) = l.
Proof. induction l as [|[a b] l IH]; [done|]. simpl. by rewrite IH. Qed.

Lemma run_elem_mono W e hi l2 y l d1 :
  run (length W) e hi true 0 W = (let '(l2, y) := run (length W) e hi true d1 (drop d1 W) in (l ++ l2, y)) ->
  run (length W) e hi true d1 (drop d1 W) = (l2, y) ->
  forall p, p ∈ l2 -> p ∈ (run (length W) e hi true 0 W).1.
Proof. intros E E2 p Hp. rewrite E, E2. simpl. apply elem_of_app. by right. Qed.

Lemma good_append W e c s bs :
  e <> Unknown -> good W e c s -> (exists rest, W = buffer s ++ bs ++ rest) ->
  ok_cut e (replace_high_ascii c) W (length (buffer s ++ bs)) ->
  good W e c (append s bs).
Proof.
  intros He [_ G2 G3 G4 G5 G6 G7] [rest HW] Hok. unfold append, decode_from.
  rewrite decode_loop_run by (simpl; congruence). simpl. rewrite G2, G3, G4.
  set (hi := replace_high_ascii c) in *. set (B := buffer s ++ bs) in *.
  assert (HW' : W = B ++ rest) by (unfold B; by rewrite <- app_assoc). clear HW.
  assert (HdB : decoded s <= length B) by (unfold B; rewrite app_length; lia).
  destruct (run (length (drop (decoded s) B)) e hi false (decoded s) (drop (decoded s) B)) as [l x] eqn:Hr.
  match goal with |- good _ _ _ (extend_line_starts ?t) => destruct (extend_same t) as (C1&C2&C3&C4&C5&C6&C7) end.
  pose proof (run_bounds _ _ _ _ _ _ _ _ Hr) as (Hx & _ & _). rewrite drop_length in Hx.
  split; rewrite ?C1, ?C2, ?C3, ?C4, ?C5, ?C6, ?C7; simpl; try done.
  - by exists rest.
  - rewrite !app_length, !map_length. lia.
  - lia.
  - clear C1 C2 C3 C4 C5 C6 C7. fold hi. rewrite G7. rewrite zip_app_same by done. rewrite zip_fst_snd.
    assert (Hdrop : drop (decoded s) W = drop (decoded s) B ++ rest) by (rewrite HW'; by rewrite drop_app_le).
    rewrite Hdrop at 1.
    erewrite (run_app e hi true (length (drop (decoded s) B)) (decoded s) (drop (decoded s) B) rest (length W)); [| | |  |exact Hr].
    + rewrite drop_drop. replace (decoded s + (x - decoded s)) with x by lia.
      replace (drop x W) with (drop x B ++ rest) by (rewrite HW'; by rewrite drop_app_le by lia).
      destruct (run _ _ _ _ x _). by rewrite app_assoc.
    + lia.
    + rewrite HW', !app_length, drop_length. lia.
    + intros d c' n Hd Hst Hmem. rewrite drop_length in Hd. rewrite drop_drop in *.
      assert (Hd2 : drop (decoded s + d) W = drop (decoded s + d) B ++ rest) by (rewrite HW'; by rewrite drop_app_le by lia).
      rewrite <- Hd2 in *.
      apply Hok; [lia| |].
      * rewrite HW'. by rewrite take_app.
      * intros c2 n2 H2. specialize (Hmem _ _ H2). rewrite <- Hdrop in Hmem.
        rewrite G7. destruct (run (length W) e hi true (decoded s) (drop (decoded s) W)). simpl in *.
        apply elem_of_app. by right.
Qed.

Lemma close_good W e c s :
  e <> Unknown -> good W e c s -> buffer s = W ->
  zip (offs (close s)) (chars (close s)) = (run (length W) e (replace_high_ascii c) true 0 W).1 /\
  length (offs (close s)) = length (chars (close s)) /\ cfg (close s) = c.
Proof.
  intros He [_ G2 G3 G4 G5 G6 G7] HW. unfold close, decode_from.
  rewrite decode_loop_run by (simpl; congruence). simpl. rewrite G3, G4, HW.
  set (hi := replace_high_ascii c) in *.
  rewrite (run_fuel e hi true _ (length W)) by (rewrite ?drop_length; lia).
  rewrite G7. destruct (run (length W) e hi true (decoded s) (drop (decoded s) W)) as [l x].
  match goal with |- context [extend_line_starts ?t] => destruct (extend_same t) as (C1&C2&C3&C4&C5&C6&C7) end.
  rewrite C1, C2, C5. simpl. rewrite zip_app_same by done. rewrite zip_fst_snd. split; [done|].
  rewrite !app_length, !map_length. split; [lia|done].
Qed.

Lemma feed_good W e c fs s at_ :
  e <> Unknown -> good W e c s -> length (buffer s) = at_ ->
  (exists rest, W = buffer s ++ fed fs ++ rest) ->
  (forall k, k ∈ cuts at_ fs -> ok_cut e (replace_high_ascii c) W k) ->
  good W e c (foldl run_feed s fs) /\ buffer (foldl run_feed s fs) = buffer s ++ fed fs.
Proof.
  intros He. revert s at_. induction fs as [|f fs IH]; intros s at_ Hg Hat [rest HW] Hok; simpl.
  - split; [done|]. by rewrite app_nil_r.
  - destruct f as [bs|o]; simpl in *.
    + assert (Hb : buffer (append s bs) = buffer s ++ bs).
      { unfold append, decode_from. case_match. match goal with |- context [extend_line_starts ?t] => destruct (extend_same t) as (_&_&_&C4&_) end.
        by rewrite C4. }
      destruct (IH (append s bs) (at_ + length bs)) as [H1 H2].
      * apply good_append; [done|done| |]. { exists (fed fs ++ rest). rewrite HW. unfold fed. simpl. by rewrite <- !app_assoc. }
        rewrite app_length, Hat. apply Hok. by left.
      * rewrite Hb, app_length. lia.
      * exists rest. rewrite Hb, HW. unfold fed. simpl. by rewrite <- !app_assoc.
      * intros k Hk. apply Hok. by right.
      * split; [done|]. rewrite H2, Hb. unfold fed. simpl. by rewrite <- !app_assoc.
    + pose proof (rop_same s o) as Hs. destruct (IH (run_rop s o) at_) as [H1 H2].
      * eapply good_same; done.
      * destruct Hs as (->&_). done.
      * exists rest. destruct Hs as (->&_). done.
      * done.
      * split; [done|]. rewrite H2. destruct Hs as (->&_). done.
Qed.

Lemma feed_inv fs s : inv s -> inv (foldl run_feed s fs).
Proof.
  revert s. induction fs as [|f fs IH]; intros s Hs; [done|]. simpl. apply IH. destruct f as [bs|o].
  - exact (step_inv s (OAppend bs) Hs).
  - exact (step_inv s (ORead o) Hs).
Qed.

Lemma zip_inj {A B} (l l' : list A) (k k' : list B) :
  length l = length k -> length l' = length k' -> zip l k = zip l' k' -> l = l' /\ k = k'.
Proof.
  intros H H' E. split.
  - rewrite <- (fst_zip l k), <- (fst_zip l' k') by lia. by rewrite E.
  - rewrite <- (snd_zip l k), <- (snd_zip l' k') by lia. by rewrite E.
Qed.

Lemma chunk_general e c fs :
  e <> Unknown ->
  (forall k, k ∈ cuts 0 fs -> ok_cut e (replace_high_ascii c) (fed fs) k) ->
  ok_cut e (replace_high_ascii c) (fed fs) (length (fed fs)) ->
  let s := close (foldl run_feed (new e c) fs) in
  let w := close (append (new e c) (fed fs)) in
  chars s = chars w /\ offs s = offs w /\ line_starts s = line_starts w /\
  zip (offs s) (chars s) = (run (length (fed fs)) e (replace_high_ascii c) true 0 (fed fs)).1.
Proof.
  intros He Hcut Hfull s w. set (W := fed fs) in *.
  destruct (feed_good W e c fs (new e c) 0) as [G1 B1]; [done|apply good_new|done|exists []; simpl; by rewrite app_nil_r|done|].
  assert (G2 : good W e c (append (new e c) W)).
  { apply good_append; [done|apply good_new|exists []; simpl; by rewrite app_nil_r|done]. }
  assert (B2 : buffer (append (new e c) W) = W).
  { unfold append, decode_from. case_match. match goal with |- context [extend_line_starts ?t] => destruct (extend_same t) as (_&_&_&C4&_) end.
    by rewrite C4. }
  destruct (close_good W e c _ He G1 B1) as (Z1 & L1 & F1).
  destruct (close_good W e c _ He G2 B2) as (Z2 & L2 & F2).
  assert (I1 : inv s). { apply (step_inv _ OClose). apply feed_inv, new_inv. }
  assert (I2 : inv w). { apply (step_inv _ OClose). apply (step_inv _ (OAppend W)), new_inv. }
  destruct (zip_inj (offs s) (offs w) (chars s) (chars w)) as [E1 E2]; [done|done|by rewrite <- Z2 in Z1|].
  split_and!; [done|done| |done].
  rewrite (inv_lines _ I1), (inv_lines _ I2). unfold s, w in *. rewrite F1, F2. by rewrite E2.
Qed.

Lemma chunk_utf8 c fs :
  let s := close (foldl run_feed (new UTF8 c) fs) in
  let w := close (append (new UTF8 c) (fed fs)) in
  chars s = chars w /\ offs s = offs w /\ line_starts s = line_starts w.
Proof.
  intros s w. destruct (chunk_general UTF8 c fs) as (H1 & H2 & H3 & _); [done| | |done].
  - intros. apply ok_cut_utf8. by left.
  - apply ok_cut_utf8. by left.
Qed.

(** * Correctness of the UTF-8 decoder against the specification *)

Ltac b2p :=
  unfold is_cont, second3, second4, in_range in *;
  repeat match goal with
  | H : (_ && _) = true |- _ => apply andb_prop in H as [? ?]
  | H : (_ && _) = false |- _ => apply andb_false_iff in H
  | H : (_ <? _)%N = true |- _ => apply N.ltb_lt in H
  | H : (_ <? _)%N = false |- _ => apply N.ltb_ge in H
  | H : (_ <=? _)%N = true |- _ => apply N.leb_le in H
  | H : (_ <=? _)%N = false |- _ => apply N.leb_gt in H
  | H : (_ =? _)%N = true |- _ => apply N.eqb_eq in H
  | H : (_ =? _)%N = false |- _ => apply N.eqb_neq in H
  end.

Lemma U2' c b0 b1 x y : b0 = (192 + x)%N -> b1 = (128 + y)%N ->
  (128 <= c < 2048)%N -> c = (x * 64 + y)%N -> (y < 64)%N -> utf8_of c [b0; b1].
Proof. intros -> ->. apply U2. Qed.
Lemma U3' c b0 b1 b2 x y z : b0 = (224 + x)%N -> b1 = (128 + y)%N -> b2 = (128 + z)%N ->
  (2048 <= c < 65536)%N -> ~ (55296 <= c <= 57343)%N ->
  c = (x * 4096 + y * 64 + z)%N -> (y < 64)%N -> (z < 64)%N -> utf8_of c [b0; b1; b2].
Proof. intros -> -> ->. apply U3. Qed.
Lemma U4' c b0 b1 b2 b3 x y z w : b0 = (240 + x)%N -> b1 = (128 + y)%N -> b2 = (128 + z)%N -> b3 = (128 + w)%N ->
  (65536 <= c <= 1114111)%N -> c = (x * 262144 + y * 4096 + z * 64 + w)%N ->
  (y < 64)%N -> (z < 64)%N -> (w < 64)%N -> utf8_of c [b0; b1; b2; b3].
Proof. intros -> -> -> ->. apply U4. Qed.

Lemma utf8_valid_ok bs c n :
  utf8_first bs = UValid c n -> utf8_of c (take n bs) /\ length (take n bs) = n.
Proof.
  intros H. pose proof (utf8_first_len bs) as Hl. rewrite H in Hl.
  split; [|rewrite take_length; lia].
  destruct bs as [|b0 r]; [done|]. simpl in H.
  destruct (b0 <? 128)%N eqn:E0.
  { simplify_eq. simpl. constructor. by apply N.ltb_lt. }
  destruct (in_range 194 223 b0) eqn:E1.
  { destruct r as [|b1 r]; [done|]. destruct (is_cont b1) eqn:E2; [|done]. simplify_eq. simpl. clear E0. b2p.
    apply (U2' _ _ _ (b0 - 192) (b1 - 128)); lia. }
  destruct (in_range 224 239 b0) eqn:E2.
  { destruct r as [|b1 r]; [done|]. destruct (second3 b0 b1) eqn:E3; [|done].
    destruct r as [|b2 r]; [done|]. destruct (is_cont b2) eqn:E4; [|done]. simplify_eq. simpl.
    assert (128 <= b1 <= 191 /\ (b0 = 224 -> 160 <= b1) /\ (b0 = 237 -> b1 <= 159))%N as ((H1 & H1') & H2 & H3).
    { unfold second3 in E3. destruct (b0 =? 224)%N eqn:F1; [|destruct (b0 =? 237)%N eqn:F2]; b2p; lia. }
    clear E0 E1. b2p.
    apply (U3' _ _ _ _ (b0 - 224) (b1 - 128) (b2 - 128)); lia. }
  destruct (in_range 240 244 b0) eqn:E3; [|done].
  destruct r as [|b1 r]; [done|]. destruct (second4 b0 b1) eqn:E4; [|done].
  destruct r as [|b2 r]; [done|]. destruct (is_cont b2) eqn:E5; [|done].
  destruct r as [|b3 r]; [done|]. destruct (is_cont b3) eqn:E6; [|done]. simplify_eq. simpl.
  assert (128 <= b1 <= 191 /\ (b0 = 240 -> 144 <= b1) /\ (b0 = 244 -> b1 <= 143))%N as ((H1 & H1') & H2 & H3).
  { unfold second4 in E4. destruct (b0 =? 240)%N eqn:F1; [|destruct (b0 =? 244)%N eqn:F2]; b2p; lia. }
  clear E0 E1 E2. b2p.
  apply (U4' _ _ _ _ _ (b0 - 240) (b1 - 128) (b2 - 128) (b3 - 128)); lia.
Qed.

(** a well-formed sequence at the start is recognised *)
Lemma utf8_of_first c full tail : utf8_of c full -> utf8_first (full ++ tail) = UValid c (length full).
Proof.
  intros H. destruct H as [c H|c x y H -> Hy|c x y z H Hs -> Hy Hz|c x y z w H -> Hy Hz Hw]; cbn [app utf8_first length].
  - by rewrite (proj2 (N.ltb_lt c 128)).
  - assert (2 <= x <= 31)%N by lia.
    rewrite (proj2 (N.ltb_ge _ 128)) by lia.
    replace (in_range 194 223 (192 + x)) with true by (unfold in_range; symmetry; apply andb_true_intro; split; apply N.leb_le; lia).
    replace (is_cont (128 + y)) with true by (unfold is_cont, in_range; symmetry; apply andb_true_intro; split; apply N.leb_le; lia).
    f_equal; lia.
  - assert (x <= 15)%N by lia.
    rewrite (proj2 (N.ltb_ge _ 128)) by lia.
    replace (in_range 194 223 (224 + x)) with false by (unfold in_range; symmetry; apply andb_false_intro2; apply N.leb_gt; lia).
    replace (in_range 224 239 (224 + x)) with true by (unfold in_range; symmetry; apply andb_true_intro; split; apply N.leb_le; lia).
    replace (second3 (224 + x) (128 + y)) with true.
    2:{ unfold second3. destruct (224 + x =? 224)%N eqn:F1; [|destruct (224 + x =? 237)%N eqn:F2];
        b2p; symmetry; apply andb_true_intro; split; apply N.leb_le; lia. }
    replace (is_cont (128 + z)) with true by (unfold is_cont, in_range; symmetry; apply andb_true_intro; split; apply N.leb_le; lia).
    f_equal; lia.
  - assert (x <= 4)%N by lia.
    rewrite (proj2 (N.ltb_ge _ 128)) by lia.
    replace (in_range 194 223 (240 + x)) with false by (unfold in_range; symmetry; apply andb_false_intro2; apply N.leb_gt; lia).
    replace (in_range 224 239 (240 + x)) with false by (unfold in_range; symmetry; apply andb_false_intro2; apply N.leb_gt; lia).
    replace (in_range 240 244 (240 + x)) with true by (unfold in_range; symmetry; apply andb_true_intro; split; apply N.leb_le; lia).
    replace (second4 (240 + x) (128 + y)) with true.
    2:{ unfold second4. destruct (240 + x =? 240)%N eqn:F1; [|destruct (240 + x =? 244)%N eqn:F2];
        b2p; symmetry; apply andb_true_intro; split; apply N.leb_le; lia. }
    replace (is_cont (128 + z)) with true by (unfold is_cont, in_range; symmetry; apply andb_true_intro; split; apply N.leb_le; lia).
    replace (is_cont (128 + w)) with true by (unfold is_cont, in_range; symmetry; apply andb_true_intro; split; apply N.leb_le; lia).
    f_equal; lia.
Qed.

Lemma utf8_prefix_not_error bs n x : utf8_prefix bs -> utf8_first (bs ++ x) = UError n -> length bs <= n.
Proof.
  intros [Hne (c & full & rest & Hu & E)] Herr.
  destruct (decide (length bs <= n)) as [|Hgt]; [done|]. exfalso.
  (* an error is found within the first n+1 bytes, which are also those of [full] *)
  assert (Hfull := utf8_of_first c full [] Hu). rewrite app_nil_r in Hfull.
  assert (Hb : utf8_first bs = UError n).
  { destruct (utf8_first bs) eqn:F.
    - rewrite utf8_first_app in Herr by (rewrite F; done). congruence.
    - rewrite utf8_first_app in Herr by (rewrite F; done). congruence.
    - (* incomplete prefix: the error needs a byte of x, so n >= length bs *)
      destruct bs as [|b0 [|b1 [|b2 [|b3 r]]]]; [done| | | |]; destruct x as [|x0 [|x1 [|x2 x]]]; simpl in *;
        repeat (case_match; simplify_eq; try lia). }
  rewrite E in Hfull. rewrite utf8_first_app in Hfull by (rewrite Hb; done). congruence.
Qed.

Lemma utf8_error_prefix bs n : utf8_first bs = UError n -> n = 1 \/ utf8_prefix (take n bs).
Proof.
  intros H. destruct bs as [|b0 r]; [done|]. simpl in H.
  destruct (b0 <? 128)%N eqn:E0; [done|].
  destruct (in_range 194 223 b0) eqn:E1.
  { destruct r as [|b1 r]; [done|]. destruct (is_cont b1); simplify_eq. by left. }
  destruct (in_range 224 239 b0) eqn:E2.
  { destruct r as [|b1 r]; [done|]. destruct (second3 b0 b1) eqn:E3; [|simplify_eq; by left].
    destruct r as [|b2 r]; [done|]. destruct (is_cont b2); simplify_eq. right. simpl. split; [done|].
    assert (128 <= b1 <= 191 /\ (b0 = 224 -> 160 <= b1) /\ (b0 = 237 -> b1 <= 159))%N as (H1 & H2 & H3).
    { unfold second3 in E3. destruct (b0 =? 224)%N eqn:F1; [|destruct (b0 =? 237)%N eqn:F2]; b2p; lia. }
    b2p. exists ((b0 - 224) * 4096 + (b1 - 128) * 64 + 0)%N, [224 + (b0 - 224); 128 + (b1 - 128); 128 + 0]%N, [128]%N.
    split; [constructor; lia|]. simpl. repeat f_equal; lia. }
  destruct (in_range 240 244 b0) eqn:E3; [|simplify_eq; by left].
  destruct r as [|b1 r]; [done|]. destruct (second4 b0 b1) eqn:E4; [|simplify_eq; by left].
  assert (128 <= b1 <= 191 /\ (b0 = 240 -> 144 <= b1) /\ (b0 = 244 -> b1 <= 143))%N as (H1 & H2 & H3).
  { unfold second4 in E4. destruct (b0 =? 240)%N eqn:F1; [|destruct (b0 =? 244)%N eqn:F2]; b2p; lia. }
  destruct r as [|b2 r]; [done|]. destruct (is_cont b2) eqn:E5.
  - destruct r as [|b3 r]; [done|]. destruct (is_cont b3); simplify_eq. right. simpl. split; [done|].
    b2p. exists ((b0 - 240) * 262144 + (b1 - 128) * 4096 + (b2 - 128) * 64 + 0)%N,
      [240 + (b0 - 240); 128 + (b1 - 128); 128 + (b2 - 128); 128 + 0]%N, [128]%N.
    split; [constructor; lia|]. simpl. repeat f_equal; lia.
  - simplify_eq. right. simpl. split; [done|]. b2p.
    exists ((b0 - 240) * 262144 + (b1 - 128) * 4096 + 0 * 64 + 0)%N,
      [240 + (b0 - 240); 128 + (b1 - 128); 128 + 0; 128 + 0]%N, [128; 128]%N.
    split; [constructor; lia|]. simpl. repeat f_equal; lia.
Qed.

Lemma utf8_incomplete_prefix bs : bs <> [] -> utf8_first bs = UIncomplete -> utf8_prefix bs.
Proof.
  intros Hne H. split; [done|]. destruct bs as [|b0 r]; [done|]. simpl in H.
  destruct (b0 <? 128)%N eqn:E0; [done|].
  destruct (in_range 194 223 b0) eqn:E1.
  { destruct r as [|b1 r]; [|destruct (is_cont b1); done]. b2p.
    exists ((b0 - 192) * 64 + 0)%N, [192 + (b0 - 192); 128 + 0]%N, [128]%N. split; [constructor; lia|]. simpl. repeat f_equal; lia. }
  destruct (in_range 224 239 b0) eqn:E2.
  { destruct r as [|b1 r].
    - b2p. set (y := (if b0 =? 224 then 32 else 0)%N).
      exists ((b0 - 224) * 4096 + y * 64 + 0)%N, [224 + (b0 - 224); 128 + y; 128 + 0]%N, [128 + y; 128]%N.
      split; [|simpl; repeat f_equal; lia]. unfold y. destruct (b0 =? 224)%N eqn:F; b2p; constructor; lia.
    - destruct (second3 b0 b1) eqn:E3; [|done]. destruct r as [|b2 r]; [|destruct (is_cont b2); done].
      assert (128 <= b1 <= 191 /\ (b0 = 224 -> 160 <= b1) /\ (b0 = 237 -> b1 <= 159))%N as (H1 & H2 & H3).
      { unfold second3 in E3. destruct (b0 =? 224)%N eqn:F1; [|destruct (b0 =? 237)%N eqn:F2]; b2p; lia. }
      b2p. exists ((b0 - 224) * 4096 + (b1 - 128) * 64 + 0)%N, [224 + (b0 - 224); 128 + (b1 - 128); 128 + 0]%N, [128]%N.
      split; [constructor; lia|]. simpl. repeat f_equal; lia. }
  destruct (in_range 240 244 b0) eqn:E3; [|done].
  destruct r as [|b1 r].
  - b2p. set (y := (if b0 =? 240 then 16 else 0)%N).
    exists ((b0 - 240) * 262144 + y * 4096 + 0 * 64 + 0)%N, [240 + (b0 - 240); 128 + y; 128 + 0; 128 + 0]%N, [128 + y; 128; 128]%N.
    split; [|simpl; repeat f_equal; lia]. unfold y. destruct (b0 =? 240)%N eqn:F; b2p; constructor; lia.
  - destruct (second4 b0 b1) eqn:E4; [|done].
    assert (128 <= b1 <= 191 /\ (b0 = 240 -> 144 <= b1) /\ (b0 = 244 -> b1 <= 143))%N as (H1 & H2 & H3).
    { unfold second4 in E4. destruct (b0 =? 240)%N eqn:F1; [|destruct (b0 =? 244)%N eqn:F2]; b2p; lia. }
    destruct r as [|b2 r].
    + b2p. exists ((b0 - 240) * 262144 + (b1 - 128) * 4096 + 0 * 64 + 0)%N,
        [240 + (b0 - 240); 128 + (b1 - 128); 128 + 0; 128 + 0]%N, [128; 128]%N.
      split; [constructor; lia|]. simpl. repeat f_equal; lia.
    + destruct (is_cont b2) eqn:E5; [|done]. destruct r as [|b3 r]; [|destruct (is_cont b3); done].
      b2p. exists ((b0 - 240) * 262144 + (b1 - 128) * 4096 + (b2 - 128) * 64 + 0)%N,
        [240 + (b0 - 240); 128 + (b1 - 128); 128 + (b2 - 128); 128 + 0]%N, [128]%N.
      split; [constructor; lia|]. simpl. repeat f_equal; lia.
Qed.

Lemma run_lossy hi fuel off bs :
  length bs <= fuel -> lossy off bs (run fuel UTF8 hi true off bs).1.
Proof.
  revert off bs. induction fuel as [|fuel IH]; intros off bs Hf.
  { destruct bs; [constructor|simpl in *; lia]. }
  destruct (decide (bs = [])) as [->|Hne]; [constructor|].
  cbn [run]. rewrite step_utf8 by done. pose proof (utf8_first_len bs) as Hl.
  destruct (utf8_first bs) as [c n|n|] eqn:Hu.
  - destruct (utf8_valid_ok _ _ _ Hu) as [Hof Hlen].
    specialize (IH (off + n) (drop n bs)). rewrite drop_length in IH. specialize (IH ltac:(lia)).
    destruct (run fuel UTF8 hi true (off + n) (drop n bs)) as [l x]. simpl in *.
    rewrite <- (take_drop n bs) at 1. apply lossy_good; [done|]. by rewrite Hlen.
  - specialize (IH (off + n) (drop n bs)). rewrite drop_length in IH. specialize (IH ltac:(lia)).
    destruct (run fuel UTF8 hi true (off + n) (drop n bs)) as [l x]. simpl in *.
    rewrite <- (take_drop n bs) at 1.
    assert (Hlen : length (take n bs) = n) by (rewrite take_length; lia).
    apply lossy_bad.
    + intros E. rewrite E in Hlen. simpl in Hlen. lia.
    + intros c seq tail Hof E. rewrite take_drop in E. rewrite E, (utf8_of_first c seq tail Hof) in Hu. done.
    + rewrite Hlen. by apply utf8_error_prefix.
    + intros b rest' E Hp. assert (Hb : bs = (take n bs ++ [b]) ++ rest') by (rewrite <- app_assoc; simpl; rewrite <- E; by rewrite take_drop).
      rewrite Hb in Hu. apply utf8_prefix_not_error in Hu; [|done]. rewrite app_length, Hlen in Hu. simpl in Hu. lia.
    + by rewrite Hlen.
  - rewrite drop_ge by lia.
    assert (E : run fuel UTF8 hi true (off + length bs) [] = ([], off + length bs)) by (by destruct fuel).
    rewrite E. simpl. rewrite <- (app_nil_r bs) at 1. apply lossy_bad.
    + done.
    + intros c seq tail Hof E2. rewrite app_nil_r in E2. rewrite E2, (utf8_of_first c seq tail Hof) in Hu. done.
    + right. by apply utf8_incomplete_prefix.
    + done.
    + constructor.
Qed.

Lemma chunk_utf8_lossy c fs :
  let s := close (foldl run_feed (new UTF8 c) fs) in
  lossy 0 (fed fs) (zip (offs s) (chars s)) /\ length (offs s) = length (chars s).
Proof.
  intros s. destruct (chunk_general UTF8 c fs) as (_ & _ & _ & H); [done| | |].
  - intros. apply ok_cut_utf8. by left.
  - apply ok_cut_utf8. by left.
  - split; [unfold s; rewrite H; by apply run_lossy|].
    apply inv_len. apply (step_inv _ OClose). apply feed_inv, new_inv.
Qed.

(** the specification determines the result *)
Lemma lossy_run hi off bs l : lossy off bs l -> (run (length bs) UTF8 hi true off bs).1 = l.
Proof.
  intros H. induction H as [off|off c seq rest l Hof H IH|off bad rest l Hne Hno Hpre Hmax H IH].
  - done.
  - pose proof (utf8_of_first c seq rest Hof) as Hu.
    assert (Hl : 1 <= length seq) by (destruct Hof; simpl; lia).
    assert (Hnn : seq ++ rest <> []) by (destruct seq; [simpl in *; lia|done]).
    rewrite app_length. destruct (length seq + length rest) as [|k] eqn:Hk; [lia|].
    cbn [run]. rewrite step_utf8, Hu by done. rewrite drop_app.
    rewrite (run_fuel UTF8 hi true k (length rest)) by lia.
    destruct (run (length rest) UTF8 hi true (off + length seq) rest) as [l' x]. simpl in *. by subst.
  - assert (Hnn : bad ++ rest <> []) by (destruct bad; done).
    assert (Hlb : 1 <= length bad) by (destruct bad; [done|simpl; lia]).
    assert (Hst : step UTF8 hi true (bad ++ rest) = Some (Ch REPLACEMENT, length bad)).
    { rewrite step_utf8 by done. pose proof (utf8_first_len (bad ++ rest)) as Hl. destruct (utf8_first (bad ++ rest)) as [c n|n|] eqn:Hu.
      - exfalso. destruct (utf8_valid_ok _ _ _ Hu) as [Hof _].
        apply (Hno _ _ (drop n (bad ++ rest)) Hof). by rewrite take_drop.
      - assert (length bad <= n).
        { destruct Hpre as [Hp|Hp]; [lia|]. eapply utf8_prefix_not_error; done. }
        destruct (decide (length bad = n)) as [->|Hneq]; [done|]. exfalso.
        destruct rest as [|b rest']; [rewrite app_nil_r in *; lia|].
        apply (Hmax b rest'); [done|]. apply utf8_error_prefix in Hu as [Hu|Hu]; [lia|].
        destruct Hu as [_ (c & full & r & Hof & E)]. split; [by destruct bad|].
        exists c, full. exists (drop (S (length bad)) full). split; [done|].
        rewrite <- (take_drop (S (length bad)) full) at 1. f_equal. rewrite E.
        rewrite take_app_le by (rewrite take_length; lia). rewrite take_take, Nat.min_l by lia.
        replace (bad ++ b :: rest') with ((bad ++ [b]) ++ rest') by (by rewrite <- app_assoc).
        rewrite take_app_alt by (rewrite app_length; simpl; lia). done.
      - destruct rest as [|b rest']; [by rewrite app_nil_r|]. exfalso.
        apply (Hmax b rest'); [done|]. apply utf8_incomplete_prefix in Hu as [_ (c & full & r & Hof & E)]; [|done].
        split; [by destruct bad|]. exists c, full, (rest' ++ r). split; [done|]. rewrite E, <- !app_assoc. done. }
    rewrite app_length. destruct (length bad + length rest) as [|k] eqn:Hk; [lia|].
    rewrite (run_cons _ _ _ _ _ _ _ _ Hst). rewrite drop_app.
    rewrite (run_fuel UTF8 hi true k (length rest)) by lia.
    destruct (run (length rest) UTF8 hi true (off + length bad) rest) as [l' x]. simpl in *. by subst.
Qed.

(** well-formed text survives *)
Lemma lossy_good_text off cs encs :
  Forall2 utf8_of cs encs -> exists os, lossy off (concat encs) (zip os (map Ch cs)) /\ length os = length cs.
Proof.
  intros H. revert off. induction H as [|c e cs encs Hce H IH]; intros off; simpl.
  - exists []. split; [constructor|done].
  - destruct (IH (off + length e)) as (os & Ho & Hl). exists (off :: os). simpl. split; [|lia].
    by apply lossy_good.
Qed.

Lemma decode_encode c cs encs fs :
  Forall2 utf8_of cs encs -> fed fs = concat encs ->
  chars (close (foldl run_feed (new UTF8 c) fs)) = map Ch cs.
Proof.
  intros H Hf. destruct (chunk_utf8_lossy c fs) as [Hl Hlen]. set (s := close _) in *.
  destruct (lossy_good_text 0 cs encs H) as (os & Ho & Hlo).
  rewrite Hf in Hl. pose proof (lossy_run false _ _ _ Hl) as E1. pose proof (lossy_run false _ _ _ Ho) as E2.
  rewrite E1 in E2. destruct (zip_inj (offs s) os (chars s) (map Ch cs)) as [_ E]; [done|by rewrite map_length|done|done].
Qed.

(** * UTF-16 *)
Lemma run_pair_inside e hi fuel cl off bs p c :
  (e = UTF16LE \/ e = UTF16BE) ->
  (p, Ch c) ∈ (run fuel e hi cl off bs).1 -> (65536 <= c)%N -> (Forall (fun b => b < 256)%N bs) ->
  p + 4 <= off + length bs.
Proof.
  intros He. revert off bs. induction fuel as [|fuel IH]; intros off bs Hin Hc Hb; simpl in Hin.
  { by apply elem_of_nil in Hin. }
  destruct (step e hi cl bs) as [[ch n]|] eqn:Hs; [|by apply elem_of_nil in Hin].
  pose proof (step_len _ _ _ _ _ _ Hs) as Hn.
  specialize (IH (off + n) (drop n bs)).
  destruct (run fuel e hi cl (off + n) (drop n bs)) as [l x]. simpl in Hin.
  apply elem_of_cons in Hin as [Hin|Hin].
  - simplify_eq. assert (n = 4).
    { destruct He as [-> | ->]; simpl in Hs; destruct bs as [|a [|b r]]; try done;
      unfold decode_utf16_char in Hs;
      (destruct (in_range 55296 56319 _) eqn:E1; [repeat case_match; simplify_eq; done|]);
      (destruct (in_range 56320 57343 _) eqn:E2; [done|]); simplify_eq;
      inversion Hb as [|? ? Ha Hb']; inversion Hb' as [|? ? Hbb _]; simplify_eq;
      unfold unit16 in Hc; simpl in Hc; lia. }
    lia.
  - specialize (IH Hin Hc). rewrite drop_length in IH.
    assert (Forall (fun b => b < 256)%N (drop n bs)) by (by apply Forall_drop). specialize (IH H). lia.
Qed.

Lemma chunk_utf16 e c fs :
  (e = UTF16LE \/ e = UTF16BE) ->
  Forall (fun b => b < 256)%N (fed fs) ->
  let s := close (foldl run_feed (new e c) fs) in
  let w := close (append (new e c) (fed fs)) in
  (forall k, k ∈ cuts 0 fs -> ~ splits_pair (zip (offs w) (chars w)) k) ->
  chars s = chars w /\ offs s = offs w /\ line_starts s = line_starts w.
Proof.
  intros He Hb s w Hcut. set (W := fed fs) in *.
  assert (Hun : e <> Unknown) by (destruct He as [-> | ->]; done).
  assert (Hfull : ok_cut e (replace_high_ascii c) W (length W)).
  { apply ok_cut_utf16; [done|lia|]. intros (o & ch & Hin & Hge & Hk).
    pose proof (run_pair_inside _ _ _ _ _ _ _ _ He Hin Hge Hb). lia. }
  assert (Hrun : zip (offs w) (chars w) = (run (length W) e (replace_high_ascii c) true 0 W).1).
  { destruct (chunk_general e c [FChunk W]) as (_ & _ & _ & H); [done| | |].
    - assert (fed [FChunk W] = W) as -> by (unfold fed; simpl; by rewrite app_nil_r).
      intros k [-> | []%elem_of_nil]%elem_of_cons. done.
    - assert (fed [FChunk W] = W) as -> by (unfold fed; simpl; by rewrite app_nil_r). done.
    - assert (fed [FChunk W] = W) as E by (unfold fed; simpl; by rewrite app_nil_r). rewrite E in H. done. }
  assert (Hle : forall k, k ∈ cuts 0 fs -> k <= length W).
  { unfold W. replace (length (fed fs)) with (0 + length (fed fs)) by lia. generalize 0. clear.
    induction fs as [|f fs IH]; intros a k Hk; simpl in *; [by apply elem_of_nil in Hk|].
    unfold fed in *. simpl. destruct f as [bs|o]; simpl in *.
    - rewrite app_length. apply elem_of_cons in Hk as [->|Hk]; [lia|]. apply IH in Hk. lia.
    - by apply IH. }
  destruct (chunk_general e c fs) as (H1 & H2 & H3 & _); [done| |done|done].
  intros k Hk. apply ok_cut_utf16; [done|by apply Hle|]. fold W. rewrite <- Hrun. by apply Hcut.
Qed.

(** * Seek and tell *)
Lemma partition_point_sorted l p o : StronglySorted lt l -> l !! p = Some o -> partition_point o l = p.
Proof.
  intros Hs. revert p. induction Hs as [|a l Hs IH Ha]; intros p Hp; [done|].
  destruct p as [|p]; simpl in *.
  - simplify_eq. by rewrite Nat.ltb_irrefl.
  - assert (a < o). { rewrite Forall_forall in Ha. apply Ha. by eapply elem_of_list_lookup_2. }
    rewrite (proj2 (Nat.ltb_lt a o)) by done. f_equal. by apply IH.
Qed.

Lemma partition_point_all l x : (forall o, o ∈ l -> o < x) -> partition_point x l = length l.
Proof.
  intros H. induction l as [|a l IH]; [done|]. simpl.
  rewrite (proj2 (Nat.ltb_lt a x)) by (apply H; by left). f_equal. apply IH. intros o Ho. apply H. by right.
Qed.

Lemma seek_tell s : inv s -> pos s <= length (chars s) -> seek_bytes s (tell_bytes s) = s.
Proof.
  intros [_ _ Hl Hs Hb Hd] Hp. unfold seek_bytes, tell_bytes.
  destruct (offs s !! pos s) as [o|] eqn:Ho.
  - rewrite (partition_point_sorted _ _ _ Hs Ho), Nat.min_l by done. apply set_pos_id.
  - apply lookup_ge_None in Ho. rewrite partition_point_all.
    + replace (Nat.min _ _) with (pos s) by lia. apply set_pos_id.
    + intros o Hin. apply Hb in Hin. lia.
Qed.

Lemma partition_point_le x l : partition_point x l <= length l.
Proof. induction l as [|b l IH]; simpl; [lia|]. destruct (b <? x); lia. Qed.

Lemma partition_point_lookup x l o : l !! partition_point x l = Some o -> x <= o.
Proof.
  induction l as [|b l IH]; [done|]. simpl. destruct (b <? x) eqn:E; simpl; [apply IH|].
  intros [= ->]. by apply Nat.ltb_ge.
Qed.

Lemma partition_point_below x l j o : j < partition_point x l -> l !! j = Some o -> o < x.
Proof.
  revert j. induction l as [|b l IH]; intros j Hj Ho; [done|]. simpl in Hj.
  destruct (b <? x) eqn:E; [|lia]. destruct j as [|j]; simpl in Ho.
  - simplify_eq. by apply Nat.ltb_lt.
  - apply (IH j); [lia|done].
Qed.

Lemma tell_bound s : inv s -> tell_bytes s <= length (buffer s).
Proof.
  intros [_ _ _ _ Hb Hd]. unfold tell_bytes. destruct (offs s !! pos s) eqn:E; [|done].
  apply elem_of_list_lookup_2, Hb in E. lia.
Qed.

(** seeking finds the first character at or after the offset *)
Lemma seek_first s o :
  inv s -> o <= length (buffer s) ->
  let s' := seek_bytes s o in
  o <= tell_bytes s' /\ pos s' <= length (chars s) /\
  forall j p, j < pos s' -> offs s !! j = Some p -> p < o.
Proof.
  intros [_ _ Hl Hs Hb Hd] Ho s'. unfold s', seek_bytes, tell_bytes. simpl.
  rewrite <- Hl. pose proof (partition_point_le o (offs s)) as Hle. rewrite Nat.min_l by done.
  split_and!; [|done|].
  - destruct (offs s !! partition_point o (offs s)) eqn:E; [by eapply partition_point_lookup|done].
  - intros j p Hj Hp. by eapply partition_point_below.
Qed.

Lemma set_encoding_pos s e :
  inv s ->
  let s' := set_encoding s e in
  tell_bytes s <= tell_bytes s' <= length (buffer s) /\ buffer s' = buffer s /\
  (e <> enc s -> forall j p, j < pos s' -> offs s' !! j = Some p -> p < tell_bytes s).
Proof.
  intros Hi s'. pose proof (tell_bound s Hi) as Ht.
  assert (Hbuf : buffer s' = buffer s).
  { unfold s', set_encoding. case_decide; [done|]. simpl. unfold decode_buffer, decode_from. case_match.
    match goal with |- context [extend_line_starts ?t] => destruct (extend_same t) as (_&_&_&C4&_) end. by rewrite C4. }
  assert (Hi' : inv s') by exact (step_inv s (OSetEncoding e) Hi).
  pose proof (tell_bound s' Hi') as Ht'. rewrite Hbuf in Ht'.
  split; [split; [|done]|split; [done|]].
  - unfold s', set_encoding in *. case_decide; [done|].
    set (s1 := decode_buffer (set_enc s e)) in *.
    assert (I1 : inv s1) by apply decode_buffer_inv.
    assert (Hb1 : buffer s1 = buffer s) by done.
    unfold tell_bytes at 2. simpl.
    rewrite <- (inv_len _ I1). pose proof (partition_point_le (tell_bytes s) (offs s1)). rewrite Nat.min_l by done.
    destruct (offs s1 !! _) eqn:E; [by eapply partition_point_lookup|]. by rewrite Hb1.
  - intros Hne j p Hj Hp. unfold s', set_encoding in *. case_decide; [done|].
    set (s1 := decode_buffer (set_enc s e)) in *. simpl in *.
    eapply partition_point_below; [|done]. lia.
Qed.

(** * Reloading *)
Lemma decode_from_fields s p :
  buffer (decode_from s p) = buffer s /\ enc (decode_from s p) = enc s /\ cfg (decode_from s p) = cfg s /\ closed (decode_from s p) = closed s.
Proof.
  unfold decode_from. case_match. match goal with |- context [extend_line_starts ?t] => destruct (extend_same t) as (_&_&_&C4&C5&C6&C7) end.
  by rewrite C4, C5, C6, C7.
Qed.

(** decode_buffer looks at the buffer, encoding, configuration and the closed flag only *)
Lemma extend_line_starts_ls c ch sc ls b1 b2 o1 o2 d1 d2 h1 h2 p1 p2 k1 k2 e1 e2 :
  line_starts (extend_line_starts (mk_stream b1 ch o1 d1 ls h1 sc p1 k1 e1 c)) =
  line_starts (extend_line_starts (mk_stream b2 ch o2 d2 ls h2 sc p2 k2 e2 c)).
Proof. unfold extend_line_starts. simpl. case_match. done. Qed.

Lemma decode_buffer_dep s t :
  buffer s = buffer t -> enc s = enc t -> cfg s = cfg t -> closed s = closed t ->
  chars (decode_buffer s) = chars (decode_buffer t) /\ offs (decode_buffer s) = offs (decode_buffer t) /\
  line_starts (decode_buffer s) = line_starts (decode_buffer t).
Proof.
  intros E1 E2 E3 E4. unfold decode_buffer, decode_from, decode_loop. simpl. rewrite E1, E2, E3, E4.
  case_match. destruct (extend_same (mk_stream (buffer t) (map snd l) (map fst l) n [0] 0 0 (pos s) (closed t) (enc t) (cfg t))) as (C1&C2&_).
  destruct (extend_same (mk_stream (buffer t) (map snd l) (map fst l) n [0] 0 0 (pos t) (closed t) (enc t) (cfg t))) as (D1&D2&_).
  rewrite C1, C2, D1, D2. split; [done|]. split; [done|]. apply extend_line_starts_ls.
Qed.

Lemma reload_ok s bs :
  chars (read_from_file s bs) = chars (read_from_file (new (enc s) (cfg s)) bs) /\
  offs (read_from_file s bs) = offs (read_from_file (new (enc s) (cfg s)) bs) /\
  line_starts (read_from_file s bs) = line_starts (read_from_file (new (enc s) (cfg s)) bs) /\
  pos (read_from_file s bs) = 0 /\
  (forall e, chars (read_from_str s bs e) = chars (read_from_str (new (enc s) (cfg s)) bs e) /\
             line_starts (read_from_str s bs e) = line_starts (read_from_str (new (enc s) (cfg s)) bs e) /\
             pos (read_from_str s bs e) = 0).
Proof.
  unfold read_from_file. simpl.
  destruct (decode_from_fields (set_closed (set_buffer s bs) true) (decoded s)) as (B1 & B2 & B3 & B4).
  destruct (decode_from_fields (set_closed (set_buffer (new (enc s) (cfg s)) bs) true) 0) as (F1 & F2 & F3 & F4).
  destruct (decode_buffer_dep (close (set_buffer s bs)) (close (set_buffer (new (enc s) (cfg s)) bs))) as (H1 & H2 & H3).
  { unfold close. simpl in *. by rewrite B1, F1. } { unfold close. simpl in *. by rewrite B2, F2. }
  { unfold close. simpl in *. by rewrite B3, F3. } { unfold close. simpl in *. by rewrite B4, F4. }
  split_and!; [done|done|done|done|]. intros e. unfold read_from_str. simpl.
  destruct e as [e|]; simpl.
  - destruct (decode_buffer_dep (set_enc (set_closed (set_buffer s bs) false) e) (set_enc (set_closed (set_buffer (new (enc s) (cfg s)) bs) false) e)) as (G1 & G2 & G3); done.
  - destruct (decode_buffer_dep (set_closed (set_buffer s bs) false) (set_closed (set_buffer (new (enc s) (cfg s)) bs) false)) as (G1 & G2 & G3); done.
Qed.
