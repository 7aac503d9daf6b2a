(** A stable sort, used for every [sort_by]/[sort_by_key] of the code: Rust documents these
    as stable. Not tied to one source file. *)
From Verif Require Import Base.

Section sort.
  Context {A : Type} (leb : A -> A -> bool).

  Fixpoint insert_sorted (x : A) (l : list A) : list A :=
    match l with
    | [] => [x]
    | y :: l' => if leb x y then x :: l else y :: insert_sorted x l'
    end.

  Definition stable_sort (l : list A) : list A := foldr insert_sorted [] l.

  Lemma insert_perm x l : insert_sorted x l ≡ₚ x :: l.
  Proof.
    induction l as [|y l IH]; [done|]. simpl. case_match; [done|]. rewrite IH. apply Permutation_swap.
  Qed.

  Lemma stable_sort_perm l : stable_sort l ≡ₚ l.
  Proof. induction l as [|x l IH]; [done|]. simpl. by rewrite insert_perm, IH. Qed.

  Definition le (x y : A) : Prop := leb x y = true.

  Lemma insert_sorted_ok x l :
    (forall a b, leb a b = true \/ leb b a = true) ->
    (forall a b c, le a b -> le b c -> le a c) ->
    StronglySorted le l -> StronglySorted le (insert_sorted x l).
  Proof.
    intros Htot Htr Hs. induction Hs as [|y l Hs IH Hy]; simpl; [repeat constructor|].
    destruct (leb x y) eqn:E.
    - constructor; [by constructor|]. constructor; [done|]. eapply Forall_impl; [exact Hy|].
      intros z Hz. by eapply Htr.
    - constructor; [done|]. rewrite insert_perm. constructor; [|done].
      destruct (Htot x y) as [H|H]; [congruence|done].
  Qed.

  Lemma stable_sort_sorted l :
    (forall a b, leb a b = true \/ leb b a = true) ->
    (forall a b c, le a b -> le b c -> le a c) ->
    StronglySorted le (stable_sort l).
  Proof. intros. induction l as [|x l IH]; [constructor|]. by apply insert_sorted_ok. Qed.

  (** Elements that compare equal keep their order. *)
  Lemma stable_sort_stable (P : A -> Prop) `{!forall x, Decision (P x)} l :
    (forall a b, P a -> P b -> leb a b = true) ->
    filter P (stable_sort l) = filter P l.
  Proof.
    intros HP. induction l as [|x l IH]; [done|]. simpl. rewrite filter_cons, <- IH. clear IH.
    induction (stable_sort l) as [|y k IH]; simpl.
    - by rewrite filter_cons.
    - destruct (leb x y) eqn:E.
      + by rewrite filter_cons.
      + rewrite !filter_cons. rewrite IH. destruct (decide (P x)) as [Hx|Hx], (decide (P y)) as [Hy|Hy]; try done.
        rewrite HP in E by done. done.
  Qed.
End sort.
