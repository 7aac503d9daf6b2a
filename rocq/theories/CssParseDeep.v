(** The recursion of conditions is not bounded by the parser's depth limit. *)
From Verif Require Import Base Text CssTokenModel SelectorModel CssParseModel CssParseTotal.
From Coq Require Import Lia ZifyBool.

(** [(,)] written [k] times. *)
Fixpoint pairs (k : nat) : list token :=
  match k with O => [] | S k => TLParen :: TComma :: TRParen :: pairs k end.
Lemma pairs_app j k : pairs (j + k) = pairs j ++ pairs k.
Proof. induction j as [|j IH]; [done|]. cbn [Nat.add pairs app]. by rewrite IH. Qed.
Lemma pairs_len k : length (pairs k) = (3 * k)%nat.
Proof. induction k as [|k IH]; [done|]. cbn [pairs length]. lia. Qed.
Lemma pairs_at j k i x : pairs (S k) !! i = Some x -> tok (pairs (j + S k)) (3 * j + i) = x.
Proof.
  intros H. unfold tok. rewrite pairs_app, lookup_app_r by (rewrite pairs_len; lia).
  rewrite pairs_len. replace (3 * j + i - 3 * j)%nat with i by lia. by rewrite H.
Qed.

Section deep.
Context (show : str -> str) (drained d : nat).
Lemma loop_first {A B} ts (body : A -> par (A + B)) a : ploop (fuel ts) body a =
  pbind (body a) (fun r => match r with inl a' => ploop (2 * length ts + 31) body a' | inr b => ret b end).
Proof. unfold fuel. replace (2 * length ts + 32)%nat with (S (2 * length ts + 31)) by lia. done. Qed.

Lemma bind_diverges {A B} (p : par A) (k : A -> par B) s :
  wp p s (fun r s' => exists a, r = Some a /\ k a s' = Diverge) -> pbind p k s = Diverge.
Proof. intros (r & s' & H & a & -> & Hk). unfold pbind. by rewrite H. Qed.
Lemma bind_diverges0 {A B} (p : par A) (k : A -> par B) s : p s = Diverge -> pbind p k s = Diverge.
Proof. intros H. unfold pbind. by rewrite H. Qed.
Lemma wp_first {A B} ts (body : A -> par (A + B)) a s (P : option B -> pst -> Prop) :
  wp (body a) s (fun r s' =>
    match r with None => P None s' | Some (inl _) => False | Some (inr b) => P (Some b) s' end) ->
  wp (ploop (fuel ts) body a) s P.
Proof.
  intros (r & s' & H & HP). unfold wp. rewrite loop_first. unfold pbind. rewrite H.
  destruct r as [[a'|b]|]; [done|by eexists _, _|by eexists _, _].
Qed.

Ltac go := cbn [ps_pos ps_len ps_allow pred]; lazymatch goal with
  | |- wp (pbind _ _) _ _ => apply wp_bind
  | |- wp (ret _) _ _ => apply wp_ret
  | |- wp fail _ _ => apply wp_fail
  | |- wp (attempt _) _ _ => apply wp_attempt
  | |- wp (consume_any _) _ _ => apply wp_consume
  | |- wp (look _ _) _ _ => apply wp_look
  | |- wp CssParseModel.unread _ _ => apply wp_unread
  | |- wp (ploop _ _ _) _ _ => apply wp_first
  | |- wp (look_sc _ _) _ _ => unfold look_sc
  | |- wp (skip_ws _) _ _ => unfold skip_ws
  | |- wp (expect _ _) _ _ => unfold expect
  end.

Lemma condition_deep calls j k s : ps_pos s = (3 * j)%nat -> (calls <= k)%nat ->
  condition show (pairs (j + k)) drained calls d s = Diverge.
Proof.
  revert j k s. induction calls as [|calls IH]; intros j k s Hs Hk; [done|].
  destruct k as [|k]; [lia|]. cbn [condition]. rewrite loop_first.
  pose proof (fun i x H => pairs_at j k i x H) as Ht.
  pose proof (Ht 0%nat _ eq_refl) as H0. pose proof (Ht 1%nat _ eq_refl) as H1. pose proof (Ht 2%nat _ eq_refl) as H2. clear Ht.
  rewrite <- Hs in H0, H1, H2.
  replace (j + S k)%nat with (S j + k)%nat in * by lia.
  set (ts := pairs (S j + k)) in *. rewrite Nat.add_0_r in H0.
  assert (tok ts (S (ps_pos s)) = TComma) as H1' by (rewrite <- H1; f_equal; lia).
  assert (tok ts (S (S (ps_pos s))) = TRParen) as H2' by (rewrite <- H2; f_equal; lia).
  apply bind_diverges0, bind_diverges. go. rewrite H0. eexists. split; [done|].
  apply bind_diverges. go. eexists. split; [done|].
  apply bind_diverges. go.
  repeat first [go|progress cbn beta iota|progress cbn [ps_pos ps_len ps_allow pred]|progress unfold feature_or_range, media_range, media_term
    |rewrite H0|rewrite H1|rewrite H2|rewrite H1'|rewrite H2'|rewrite bool_decide_true by done].
  idtac. eexists. split; [done|]. cbn beta iota. apply bind_diverges. repeat go. cbn [ps_pos]. rewrite H2', bool_decide_true by done.
  go. eexists. split; [done|].
  apply bind_diverges0. apply IH; [cbn [ps_pos]; lia|lia].
Qed.
End deep.
