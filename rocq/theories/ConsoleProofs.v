(** Proofs about the console. *)
From stdpp Require Import numbers option list gmap.
From Verif Require Import Base ConsoleModel ConsoleSpec.
Local Open Scope N_scope.

Lemma calls_app c h h' : calls c (h ++ h') = rbind (calls c h) (fun c' => calls c' h').
Proof. revert c. induction h as [|[now o] h IH]; intros c; [done|]. cbn. destruct (call c now o) as [r| |]; cbn; auto. Qed.
Lemma count_step c now o c' out r l n :
  call c now o = Ok (c', out, r) -> default 0 (count_map c !! l) = n -> default 0 (count_map c' !! l) = counted l [(now, o)] n.
Proof.
  intros H <-. destruct o as [k|k|k|k|k|b g|]; cbn in *.
  - simplify_eq. cbn. destruct (N.eqb_spec k l) as [->|?]; [rewrite lookup_insert; by destruct (count_map c !! l)|by rewrite lookup_insert_ne].
  - destruct (count_map c !! k) eqn:E; simplify_eq; cbn; destruct (N.eqb_spec k l) as [->|?]; rewrite ?lookup_insert, ?lookup_insert_ne, ?E by done; done.
  - destruct (timer_map c !! k); by simplify_eq.
  - destruct (timer_map c !! k); [unfold elapsed in H; destruct (_ <? _); cbn in H|]; by simplify_eq.
  - destruct (timer_map c !! k); [unfold elapsed in H; destruct (_ <? _); cbn in H|]; by simplify_eq.
  - by simplify_eq.
  - by simplify_eq.
Qed.
Lemma counted_cons l x h n : counted l (x :: h) n = counted l h (counted l [x] n).
Proof. destruct x as [now []]; done. Qed.
Lemma count_ok c h c' l n :
  calls c h = Ok c' -> default 0 (count_map c !! l) = n -> default 0 (count_map c' !! l) = counted l h n.
Proof.
  revert c n. induction h as [|[now o] h IH]; intros c n H E; [cbn in *; by simplify_eq|]. cbn in H.
  destruct (call c now o) as [[[c1 ou] r]| |] eqn:Ec; cbn in H; try done. rewrite counted_cons. eapply IH; [exact H|]. by eapply count_step.
Qed.
Definition first (a b : option N) : option N := match a with Some s => Some s | None => b end.
Lemma timer_step c now o c' out r l :
  call c now o = Ok (c', out, r) -> timer_map c' !! l = first (timer_map c !! l) (started l [(now, o)]).
Proof.
  intros H. assert (forall x : option N, x = first x None) as F by (by intros []). destruct o as [k|k|k|k|k|b g|]; cbn in *.
  - simplify_eq. apply F.
  - destruct (count_map c !! k); simplify_eq; apply F.
  - destruct (timer_map c !! k) eqn:E; simplify_eq; cbn; destruct (N.eqb_spec k l) as [->|?]; rewrite ?lookup_insert, ?lookup_insert_ne, ?E by done; auto.
  - destruct (timer_map c !! k); [unfold elapsed in H; destruct (_ <? _); cbn in H|]; simplify_eq; apply F.
  - destruct (timer_map c !! k); [unfold elapsed in H; destruct (_ <? _); cbn in H|]; simplify_eq; apply F.
  - simplify_eq. apply F.
  - simplify_eq. apply F.
Qed.
Lemma started_cons l x h : started l (x :: h) = first (started l [x]) (started l h).
Proof. destruct x as [now []]; try done. cbn. by destruct (_ =? _). Qed.
Lemma timer_ok c h c' l : calls c h = Ok c' -> timer_map c' !! l = first (timer_map c !! l) (started l h).
Proof.
  revert c. induction h as [|[now o] h IH]; intros c H; [cbn in *; simplify_eq; by destruct (timer_map c' !! l)|]. cbn in H.
  destruct (call c now o) as [[[c1 ou] r]| |] eqn:Ec; cbn in H; try done. rewrite (IH _ H), (timer_step _ _ _ _ _ _ _ Ec), (started_cons l (now, o) h).
  by destruct (timer_map c !! l).
Qed.
Lemma group_other c now o c' out r :
  call c now o = Ok (c', out, r) -> (forall b g, o <> Group b g) -> o <> GroupEnd -> group_stacks c' = group_stacks c.
Proof.
  intros H H1 H2. destruct o as [k|k|k|k|k|b g|]; cbn in *; [| | | | |by destruct (H1 b g)|done].
  - by simplify_eq.
  - destruct (count_map c !! k); by simplify_eq.
  - destruct (timer_map c !! k); by simplify_eq.
  - destruct (timer_map c !! k); [unfold elapsed in H; destruct (_ <? _); cbn in H|]; by simplify_eq.
  - destruct (timer_map c !! k); [unfold elapsed in H; destruct (_ <? _); cbn in H|]; by simplify_eq.
Qed.
Lemma take_snoc (l : list N) g : take (length (l ++ [g]) - 1) (l ++ [g]) = l.
Proof. rewrite app_length. cbn. replace (length l + 1 - 1)%nat with (length l) by lia. by rewrite take_app. Qed.
Lemma balanced_ok h : balanced h -> forall c c', calls c h = Ok c' -> group_stacks c' = group_stacks c.
Proof.
  induction 1 as [|now o h H1 H2 B IH|now b g h now' h' B IH B' IH']; intros c c' H.
  - cbn in H. by simplify_eq.
  - cbn in H. destruct (call c now o) as [[[c1 ou] r]| |] eqn:Ec; cbn in H; try done. rewrite (IH _ _ H). by eapply group_other.
  - cbn in H. rewrite calls_app in H. destruct (calls _ h) as [c1| |] eqn:E1; cbn in H; try done. apply IH in E1. cbn in E1.
    rewrite (IH' _ _ H). cbn. rewrite E1. apply take_snoc.
Qed.
Lemma forwards_ok h c t :
  (forall l s, timer_map c !! l = Some s -> s <= t) -> forwards t h -> exists c', calls c h = Ok c'.
Proof.
  revert c t. induction h as [|[now o] h IH]; intros c t H F; [by exists c|]. destruct F as [F1 F2]. cbn.
  assert (exists r, call c now o = Ok r) as [[[c1 ou] r] Ec].
  { assert (forall k s, timer_map c !! k = Some s -> elapsed now s = Ok (now - s)) as T.
    { intros k s E. unfold elapsed. apply H in E. destruct (N.ltb_spec now s); [lia|done]. }
    destruct o as [k|k|k|k|k|b g|]; cbn; eauto.
    - destruct (count_map c !! k); eauto.
    - destruct (timer_map c !! k); eauto.
    - destruct (timer_map c !! k) as [s|] eqn:E; [rewrite (T _ _ E); cbn|]; eauto.
    - destruct (timer_map c !! k) as [s|] eqn:E; [rewrite (T _ _ E); cbn|]; eauto. }
  rewrite Ec. cbn. apply (IH _ now); [|done]. intros l s. rewrite (timer_step _ _ _ _ _ _ l Ec).
  destruct (timer_map c !! l) as [s'|] eqn:E; cbn [first]; [intros [= <-]; apply H in E; lia|].
  destruct o; cbn; try done. destruct (_ =? _); [|done]. intros [= <-]. lia.
Qed.
