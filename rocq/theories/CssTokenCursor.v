(** Every name and string can be written, and the cursor reads one list. *)
From Coq Require Import ZifyBool.
From Verif Require Import Base Text CssTokenModel CssTokenSpec CssTokenProofs CssTokenRead.
Local Open Scope N_scope.

Lemma hex_code_snoc h n d : hex_code h n -> d < 16 -> exists c, hex_code (h ++ [c]) (16 * n + d).
Proof.
  intros H Hd. destruct (decide (d < 10)).
  - exists (d + 48). replace d with ((d + 48) - 48) at 2 by lia. apply hex_dec; [done|]. unfold digit. lia.
  - exists (d + 87). replace d with ((d + 87) - 87) at 2 by lia. apply hex_lower; [done|]. lia.
Qed.
Lemma hex_code_exists k n : n < 16 ^ N.of_nat k -> exists h, hex_code h n /\ length h = k.
Proof.
  revert n. induction k as [|k IH]; intros n Hn.
  - exists []. cbn in Hn. assert (n = 0) as -> by lia. split; [constructor|done].
  - rewrite Nat2N.inj_succ, N.pow_succ_r' in Hn.
    destruct (IH (n / 16)) as (h & Hh & Hl).
    { apply N.div_lt_upper_bound; [done|lia]. }
    destruct (hex_code_snoc h (n / 16) (n mod 16) Hh) as (c & Hc).
    { by apply N.mod_lt. }
    exists (h ++ [c]). rewrite <- N.div_mod in Hc by done. split; [done|]. rewrite app_length. cbn. lia.
Qed.
Lemma code_exists c : scalar c -> exists h, code_text h c.
Proof.
  intros Hc. destruct (hex_code_exists 6 c) as (h & Hh & Hl).
  { unfold scalar in Hc. change (16 ^ N.of_nat 6) with 0x1000000. lia. }
  exists h. unfold code_text. exists c. unfold scalar in *. repeat split; [done|lia|lia|lia|]. left. repeat split; lia.
Qed.
Lemma body_exists plain line simple stop v : Forall scalar v ->
  exists t, body_text plain line simple stop t v /\ (v <> [] -> begins (fun c => c = 92) t).
Proof.
  induction 1 as [|c v Hc Hv (t & Ht & _)].
  - exists []. split; [constructor|done].
  - destruct (code_exists c Hc) as (h & Hh). exists (92 :: h ++ [32] ++ t). split.
    + apply body_code; [done|unfold closer; auto|done].
    + intros _. by rewrite begins_cons.
Qed.

Section cursor.
Context (beyond : N -> bool).

Lemma name_exists v : Forall scalar v -> v <> [] -> exists t, tokenize beyond t = Ok [TIdent v; TEof].
Proof.
  intros Hv Hne. destruct (body_exists (name_char beyond) False True [] v Hv) as (t & Ht & Hb).
  specialize (Hb Hne). exists t. change [TIdent v; TEof] with ([TIdent v] ++ [] ++ [TEof]).
  rewrite app_assoc. apply tokenize_written.
  - rewrite <- (app_nil_r t). apply written_piece; [|constructor].
    assert (Hn : forall P, ~ begins P []) by (intros; apply begins_nil).
    apply p_ident; [|apply Hn|apply Hn| |].
    + split; [done|]. left. destruct Hb as (c & r & -> & ->). rewrite begins_cons. by right.
    + intros [_ H]. by apply Hn in H.
    + intros [_ (?&?&?&[=]&_)].
  - destruct Hb as (c & r & -> & ->). rewrite begins_cons. lia.
Qed.
Lemma string_exists v : Forall scalar v -> exists t, tokenize beyond t = Ok [TString v; TEof].
Proof.
  intros Hv. destruct (body_exists (string_char 34) True True [34] v Hv) as (t & Ht & _).
  exists (34 :: t ++ [34]). change [TString v; TEof] with ([TString v] ++ [] ++ [TEof]).
  rewrite app_assoc. apply tokenize_written; [|rewrite begins_cons; lia].
  rewrite <- (app_nil_r (34 :: t ++ [34])). apply written_piece; [|constructor].
  apply p_string; auto.
Qed.

(** * The cursor *)
Lemma tokens_from_mono f f' b s x : tokens_from beyond f b s = Ok x -> (f <= f')%nat ->
  tokens_from beyond f' b s = Ok x.
Proof.
  revert f' b s x. induction f as [|f IH]; intros f' b s x H Hf; [done|].
  destruct f' as [|f']; [lia|]. cbn [tokens_from] in *.
  destruct (consume_token beyond b s) as [[t r]| |]; [|done..]. cbn [rbind] in *.
  destruct (decide (t = TEof)) as [->|Ht]; [done|].
  destruct (tokens_from beyond f false r) as [ts| |] eqn:E; cbn [rbind] in H; [|by destruct t..].
  rewrite (IH f' false r ts E) by lia. done.
Qed.

Definition unread (c : cursor) : bool := match cu_tokens c with [] => true | _ => false end.
Definition reads (ts : list token) (c : cursor) : Prop :=
  (cu_position c <= length (cu_tokens c))%nat
  /\ (forall i, (i < length (cu_tokens c))%nat -> cu_tokens c !! i = Some (token_at ts i))
  /\ exists rem, tokens_from beyond (S (length (cu_stream c))) (unread c) (cu_stream c) = Ok rem
       /\ forall i, token_at ts (length (cu_tokens c) + i) = token_at rem i.

Lemma fetch_reads ts c : reads ts c -> exists c', fetch beyond c = Ok c' /\ reads ts c'
  /\ length (cu_tokens c') = S (length (cu_tokens c)) /\ cu_position c' = cu_position c.
Proof.
  intros (Hp & Hi & rem & Hrem & Hts). unfold fetch. fold (unread c).
  cbn [tokens_from] in Hrem.
  destruct (consume_token_total beyond (unread c) (cu_stream c)) as (t & r & E & Ht). rewrite E in Hrem |- *.
  cbn [rbind] in *. eexists. split; [done|]. cbn [cu_tokens cu_position].
  rewrite app_length. cbn [length]. split; [|split; [lia|done]].
  assert (Hrem' : exists rem', tokens_from beyond (S (length r)) false r = Ok rem'
    /\ forall i, token_at rem (S i) = token_at rem' i /\ token_at rem 0 = t).
  { destruct Ht as [[-> ->]|[Ht Hl]].
    - exists [TEof]. split; [done|]. injection Hrem as <-. intros [|i]; done.
    - destruct (tokens_from beyond (length (cu_stream c)) false r) as [ts'| |] eqn:E';
        [|by destruct t..].
      destruct (tokens_from_total beyond (S (length r)) false r) as (y & Hy & _); [lia|].
      pose proof (tokens_from_mono _ (length (cu_stream c)) _ _ _ Hy) as Hy'.
      rewrite E' in Hy'. specialize (Hy' ltac:(lia)). injection Hy' as ->.
      exists (y ++ [TEof]). split; [done|]. assert (rem = t :: y ++ [TEof]) as -> by (by destruct t; injection Hrem).
      done. }
  destruct Hrem' as (rem' & Hr' & Hi').
  split; [cbn [cu_tokens cu_position]; rewrite app_length; cbn; lia|]. cbn [cu_tokens cu_stream].
  split.
  - intros i Hl. rewrite app_length in Hl. cbn [length] in Hl.
    destruct (decide (i < length (cu_tokens c))%nat) as [Hlt|Hge].
    + rewrite lookup_app_l by done. auto.
    + assert (i = length (cu_tokens c)) as -> by lia. rewrite lookup_app_r by lia. rewrite Nat.sub_diag. cbn.
      f_equal. specialize (Hts 0%nat). rewrite Nat.add_0_r in Hts. rewrite Hts. symmetry. apply (Hi' 0%nat).
  - exists rem'. unfold unread. cbn [cu_tokens]. split.
    + destruct (cu_tokens c); done.
    + intros i. rewrite app_length. cbn [length]. destruct (Hi' i) as [<- _]. rewrite <- Hts. f_equal. lia.
Qed.

Lemma reads_new s ts : tokenize beyond s = Ok ts -> reads ts (new_cursor s).
Proof.
  intros H. split; [done|]. split; [cbn; lia|]. exists ts. done.
Qed.

Lemma consume_reads ts c : reads ts c -> exists c', consume beyond c = Ok (token_at ts (cu_position c), c')
  /\ reads ts c' /\ cu_position c' = S (cu_position c).
Proof.
  intros H. unfold consume.
  assert (Hf : exists c1, (if (match cu_tokens c with [] => true | _ => false end) || (length (cu_tokens c) =? cu_position c)%nat
     then fetch beyond c else Ok c) = Ok c1 /\ reads ts c1 /\ cu_position c1 = cu_position c
     /\ (cu_position c < length (cu_tokens c1))%nat).
  { destruct (_ || _) eqn:E.
    - destruct (fetch_reads ts c H) as (c' & -> & Hc' & Hl & Hp). exists c'. pose proof H as (Hpos & _).
      split; [done|]. split; [done|]. split; [done|lia].
    - exists c. apply orb_false_iff in E as [_ E]. apply Nat.eqb_neq in E. pose proof H as (Hpos & _).
      split; [done|]. split; [done|]. split; [done|lia]. }
  destruct Hf as (c1 & -> & Hc1 & Hp & Hl). cbn [rbind]. destruct Hc1 as (Hp1 & Hi & Hrem).
  rewrite Hp. rewrite (Hi _ Hl). cbn [of_opt rbind]. eexists. split; [done|]. split; [|done].
  split; [cbn; lia|]. done.
Qed.

Lemma fetch_to_reads ts fuel n c : reads ts c -> (n <= fuel + length (cu_tokens c))%nat ->
  exists c', fetch_to beyond fuel n c = Ok c' /\ reads ts c' /\ cu_position c' = cu_position c
    /\ (n <= length (cu_tokens c'))%nat.
Proof.
  revert c. induction fuel as [|fuel IH]; intros c Hc Hn; cbn [fetch_to].
  - destruct (Nat.ltb_spec (length (cu_tokens c)) n); [lia|]. exists c. auto.
  - destruct (Nat.ltb_spec (length (cu_tokens c)) n); [|exists c; auto].
    destruct (fetch_reads ts c Hc) as (c' & -> & Hc' & Hl & Hp). cbn [rbind].
    destruct (IH c' Hc') as (c2 & -> & Hc2 & Hp2 & Hl2); [lia|]. exists c2. rewrite Hp2, Hp. auto.
Qed.

Lemma lookahead_reads ts i c : reads ts c -> exists c', lookahead beyond i c = Ok (token_at ts (cu_position c + i), c')
  /\ reads ts c' /\ cu_position c' = cu_position c.
Proof.
  intros Hc. unfold lookahead.
  destruct (fetch_to_reads ts (cu_position c + i + 1) (cu_position c + i + 1) c Hc) as (c' & -> & Hc' & Hp & Hl); [lia|].
  cbn [rbind]. destruct Hc' as (Hp' & Hi & Hrem). rewrite Hp. rewrite (Hi (cu_position c + i)%nat) by lia.
  exists c'. split; [done|]. split; [|done]. done.
Qed.

Lemma calls_reads ts c os : reads ts c -> cursor_calls beyond c os = Ok (list_calls ts (cu_position c) os).
Proof.
  revert c. induction os as [|o os IH]; intros c Hc; [done|]. cbn [cursor_calls list_calls].
  destruct o as [|i|]; cbn [cursor_call list_call fst snd].
  - destruct (consume_reads ts c Hc) as (c' & -> & Hc' & Hp). cbn [rbind]. rewrite (IH c' Hc'), Hp. done.
  - destruct (lookahead_reads ts i c Hc) as (c' & -> & Hc' & Hp). cbn [rbind]. rewrite (IH c' Hc'), Hp. done.
  - cbn [rbind]. rewrite IH; [done|]. destruct Hc as (Hp & Hi & Hrem). split; [cbn; lia|]. done.
Qed.
End cursor.
