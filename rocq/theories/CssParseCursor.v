(** The parser's view of the tokenizer's cursor: a position and a number of tokens
    fetched answer as the cursor itself. *)
From Verif Require Import Base Text CssTokenModel CssTokenSpec CssTokenProofs CssTokenCursor SelectorModel CssParseModel.
From Coq Require Import Lia ZifyBool.

Section cursor.
Context (beyond : N -> bool).

(** The calls the parser makes, and the answers. *)
Inductive call := CConsume | CLook (i : nat) | CUnread | CEof | CCurrent.
Inductive answer := AToken (t : token) | AUnit | ABool (b : bool).
(** tokenizer.rs:264-275 [current]. *)
Definition cursor_current (c : cursor) : token :=
  match cu_position c with O => TEof | S p => default TEof (cu_tokens c !! p) end.
Definition ask_cursor (c : cursor) (o : call) : res (answer * cursor) :=
  match o with
  | CConsume => let* (t, c) := consume beyond c in Ok (AToken t, c)
  | CLook i => let* (t, c) := lookahead beyond i c in Ok (AToken t, c)
  | CUnread => Ok (AUnit, reconsume c)
  | CEof => Ok (ABool (at_eof c), c)
  | CCurrent => Ok (AToken (cursor_current c), c)
  end.
Fixpoint asks_cursor (c : cursor) (os : list call) : res (list answer) :=
  match os with
  | [] => Ok []
  | o :: os => let* (a, c) := ask_cursor c o in let* l := asks_cursor c os in Ok (a :: l)
  end.
Definition got {A} (f : A -> answer) (r : res (option A * pst)) : res (answer * pst) :=
  let* (x, s) := r in match x with Some x => Ok (f x, s) | None => Panic end.
Definition ask_state (ts : list token) (drained : nat) (s : pst) (o : call) : res (answer * pst) :=
  match o with
  | CConsume => got AToken (consume_any ts s)
  | CLook i => got AToken (look ts i s)
  | CUnread => got (fun _ => AUnit) (CssParseModel.unread s)
  | CEof => got ABool (eof drained s)
  | CCurrent => got AToken (current ts s)
  end.
Fixpoint asks_state (ts : list token) (drained : nat) (s : pst) (os : list call) : res (list answer) :=
  match os with
  | [] => Ok []
  | o :: os => let* (a, s) := ask_state ts drained s o in let* l := asks_state ts drained s os in Ok (a :: l)
  end.

(** * The fetches of a text *)
Lemma fetches_mono f f' b s : (length s < f)%nat -> (f <= f')%nat -> fetches beyond f b s = fetches beyond f' b s.
Proof.
  revert f' b s. induction f as [|f IH]; intros f' b s Hs Hf; [lia|]. destruct f' as [|f']; [lia|].
  destruct s as [|c s]; [done|]. cbn [fetches].
  destruct (consume_token_total beyond b (c :: s)) as (t & r & -> & [[-> ->]|[Ht Hr]]).
  - destruct f, f'; done.
  - cbn [length] in *. f_equal. apply IH; lia.
Qed.
Lemma fetches_bounds f b s ts : (length s < f)%nat -> tokens_from beyond f b s = Ok (ts ++ [TEof]) -> TEof ∉ ts ->
  (length ts <= fetches beyond f b s <= S (length ts))%nat.
Proof.
  revert b s ts. induction f as [|f IH]; intros b s ts Hs H Hts; [lia|]. cbn [tokens_from] in H.
  destruct (consume_token_total beyond b s) as (t & r & E & Ht). rewrite E in H. cbn [rbind] in H.
  destruct Ht as [[-> ->]|[Ht Hr]].
  - injection H as H. assert (ts = []) as ->.
    { destruct ts as [|x [|y ts]]; [done|..]; cbn in H; injection H as -> ?; [|];
        exfalso; apply Hts; apply elem_of_cons; by left. }
    destruct s; cbn [fetches length]; [lia|]. rewrite E. destruct f; cbn; lia.
  - destruct (tokens_from_total beyond f false r) as (l & El & Hl & _); [lia|]. rewrite El in H. cbn [rbind] in H.
    assert (ts = t :: l) as ->.
    { assert (Ok (t :: l ++ [TEof]) = Ok (ts ++ [TEof])) as H' by (by destruct t). injection H' as H'.
      change (t :: l ++ [TEof]) with ((t :: l) ++ [TEof]) in H'. by apply app_inj_tail in H' as [-> _]. }
    destruct s as [|c s]; [cbn in Hr; lia|]. cbn [fetches]. rewrite E. cbn [length] in *.
    apply not_elem_of_cons in Hts as [_ Hts]. specialize (IH false r l ltac:(lia) El Hl). lia.
Qed.

(** * The simulation *)
Definition follows (ts : list token) (drained : nat) (c : cursor) (s : pst) : Prop :=
  reads beyond (ts ++ [TEof]) c /\ cu_position c = ps_pos s /\ length (cu_tokens c) = ps_len s
  /\ match cu_stream c with
     | [] => (drained <= ps_len s)%nat
     | _ => drained = (ps_len s + fetches beyond (S (length (cu_stream c))) (CssTokenCursor.unread c) (cu_stream c))%nat
     end.
Lemma token_at_tok ts i : token_at (ts ++ [TEof]) i = tok ts i.
Proof.
  unfold token_at, tok. destruct (decide (i < length ts)%nat).
  - by rewrite lookup_app_l.
  - rewrite lookup_app_r by lia. rewrite (lookup_ge_None_2 ts) by lia. by destruct (i - length ts)%nat as [|[|]].
Qed.
Lemma fetch_follows ts dr c s c' : follows ts dr c s -> fetch beyond c = Ok c' ->
  follows ts dr c' (mk_pst (ps_pos s) (S (ps_len s)) (ps_allow s)).
Proof.
  intros (Hr & Hp & Hl & Hd) Hf. destruct (fetch_reads beyond _ c Hr) as (c1 & E & H1 & L1 & P1).
  rewrite Hf in E. injection E as <-. split; [done|]. cbn [ps_pos ps_len]. split; [by rewrite P1|]. split; [by rewrite L1, Hl|].
  unfold fetch in Hf. fold (CssTokenCursor.unread c) in Hf.
  destruct (consume_token_total beyond (CssTokenCursor.unread c) (cu_stream c)) as (t & r & E & Ht).
  rewrite E in Hf. cbn [rbind] in Hf. injection Hf as <-. cbn [cu_stream].
  destruct (cu_stream c) as [|x l] eqn:Ec.
  - destruct Ht as [[-> ->]|[_ Hx]]; [lia|cbn in Hx; lia].
  - cbn [fetches] in Hd. rewrite E in Hd. destruct r as [|y r].
    + cbn [length fetches] in Hd. lia.
    + destruct Ht as [[_ ?]|[_ Hx]]; [done|].
      rewrite (fetches_mono (S (length (y :: r))) (length (x :: l))) by (cbn [length] in *; lia).
      replace (CssTokenCursor.unread _) with false; [lia|].
      unfold CssTokenCursor.unread. cbn [cu_tokens]. by destruct (cu_tokens c).
Qed.
Lemma fetch_to_follows ts dr f m c s c' : follows ts dr c s -> fetch_to beyond f m c = Ok c' ->
  follows ts dr c' (mk_pst (ps_pos s) (max (ps_len s) m) (ps_allow s)).
Proof.
  revert c s. induction f as [|f IH]; intros c s Hc H; cbn [fetch_to] in H.
  - destruct (Nat.ltb_spec (length (cu_tokens c)) m); [done|]. injection H as <-.
    destruct Hc as (? & ? & Hl & ?). replace (max (ps_len s) m) with (ps_len s) by lia. by split; [|split; [|split]].
  - destruct (Nat.ltb_spec (length (cu_tokens c)) m) as [Hlt|].
    + destruct (fetch beyond c) as [c1| |] eqn:E; [|done..]. cbn [rbind] in H.
      pose proof (fetch_follows _ _ _ _ _ Hc E) as H1. specialize (IH _ _ H1 H). cbn [ps_pos ps_len ps_allow] in IH.
      destruct Hc as (_ & _ & Hl & _). replace (max (ps_len s) m) with (max (S (ps_len s)) m) by lia. done.
    + injection H as <-. destruct Hc as (? & ? & Hl & ?). replace (max (ps_len s) m) with (ps_len s) by lia. by split; [|split; [|split]].
Qed.
Lemma ask_follows ts dr c s o : follows ts dr c s ->
  exists a c' s', ask_cursor c o = Ok (a, c') /\ ask_state ts dr s o = Ok (a, s') /\ follows ts dr c' s'.
Proof.
  intros Hc. pose proof Hc as (Hr & Hp & Hl & Hd). pose proof Hr as (Hle & Hi & _). destruct o as [|i| | |]; cbn [ask_cursor ask_state].
  - destruct (consume_reads beyond _ _ Hr) as (c' & E & H1 & P1). rewrite E. cbn [rbind].
    eexists _, _, _. split; [done|]. split; [by rewrite token_at_tok, Hp|].
    unfold consume in E.
    assert (exists c1, (if (match cu_tokens c with [] => true | _ => false end) || (length (cu_tokens c) =? cu_position c)%nat
       then fetch beyond c else Ok c) = Ok c1
       /\ follows ts dr c1 (mk_pst (ps_pos s) (max (ps_len s) (S (ps_pos s))) (ps_allow s))) as (c1 & E1 & F1).
    { destruct (_ || _) eqn:Eb.
      - destruct (fetch_reads beyond _ c Hr) as (c1 & E1 & _). exists c1. split; [done|].
        assert (ps_len s = ps_pos s) as Heq.
        { apply orb_true_iff in Eb as [Eb|Eb]; [|apply Nat.eqb_eq in Eb; lia].
          destruct (cu_tokens c); [cbn in *; lia|done]. }
        replace (max (ps_len s) (S (ps_pos s))) with (S (ps_len s)) by lia. by apply fetch_follows with c.
      - exists c. split; [done|]. apply orb_false_iff in Eb as [_ Eb]. apply Nat.eqb_neq in Eb.
        replace (max (ps_len s) (S (ps_pos s))) with (ps_len s) by lia. by split; [|split; [|split]]. }
    rewrite E1 in E. cbn [rbind] in E.
    destruct (of_opt (cu_tokens c1 !! cu_position c1)) as [t'| |]; [|done..]. cbn [rbind] in E. injection E as _ <-.
    destruct F1 as (? & Q1 & ? & ?). split; [done|]. cbn [cu_position ps_pos ps_len cu_tokens cu_stream] in *.
    split; [lia|]. by split.
  - destruct (lookahead_reads beyond _ i _ Hr) as (c' & E & H1 & P1). rewrite E. cbn [rbind].
    eexists _, _, _. split; [done|]. split; [by rewrite token_at_tok, Hp|].
    unfold lookahead in E. destruct (fetch_to beyond _ _ c) as [c1| |] eqn:E1; [|done..]. cbn [rbind] in E.
    injection E as _ <-. pose proof (fetch_to_follows _ _ _ _ _ _ _ Hc E1) as F. by rewrite Hp in F.
  - eexists _, _, _. split; [done|]. split; [done|]. unfold reconsume, follows. cbn [cu_position cu_tokens cu_stream ps_pos ps_len].
    split; [|split; [by rewrite Hp|by split]]. destruct Hr as (? & ? & ?). split; [cbn; lia|]. by split.
  - eexists _, _, _. split; [done|]. split; [|exact Hc]. cbn [got eof rbind]. unfold eof. cbn [rbind got]. do 3 f_equal.
    unfold at_eof. rewrite Hl, Hp. f_equal. destruct (cu_stream c) as [|x l] eqn:Ec.
    + by apply Nat.leb_le.
    + apply Nat.leb_gt. cbn [fetches] in Hd.
      destruct (consume_token_total beyond (CssTokenCursor.unread c) (x :: l)) as (t & r & E & _). rewrite E in Hd. lia.
  - eexists _, _, _. split; [done|]. split; [|exact Hc]. unfold current, got. cbn [rbind]. do 3 f_equal.
    unfold cursor_current. rewrite Hp. destruct (ps_pos s) as [|p]; [done|].
    replace (ps_len s <? S p)%nat with false by (symmetry; apply Nat.ltb_ge; lia).
    rewrite Hi by lia. cbn [default]. symmetry. apply token_at_tok.
Qed.
Lemma asks_follow ts dr c s os : follows ts dr c s -> asks_cursor c os = asks_state ts dr s os.
Proof.
  revert c s. induction os as [|o os IH]; intros c s H; [done|]. cbn [asks_cursor asks_state].
  destruct (ask_follows _ _ _ _ o H) as (a & c' & s' & -> & -> & H'). cbn [rbind]. by rewrite (IH c' s').
Qed.
Lemma follows_new s ts : tokenize beyond s = Ok (ts ++ [TEof]) ->
  follows ts (fetches beyond (S (length s)) true s) (new_cursor s) start.
Proof. intros H. split; [by apply reads_new|]. destruct s; (split; [done|]; split; [done|]; cbn; done || lia). Qed.
End cursor.
