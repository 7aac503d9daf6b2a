(** Shared conventions of the model. Nothing here models a specific source file. *)
From stdpp Require Export numbers option list list_numbers sorting.

(** Outcome of a Rust call: normal return, panic (index out of range, unwrap on
    [None], arithmetic overflow), or exhaustion of the fuel given to a loop. *)
Inductive res (A : Type) : Type :=
| Ok (a : A)
| Panic
| Diverge.
Arguments Ok {A} a.
Arguments Panic {A}.
Arguments Diverge {A}.

Definition rbind {A B} (r : res A) (f : A -> res B) : res B :=
  match r with
  | Ok a => f a
  | Panic => Panic
  | Diverge => Diverge
  end.

Notation "'let*' x ':=' r 'in' k" := (rbind r (fun x => k))
  (at level 200, x pattern, r at level 100, k at level 200, right associativity).

Definition of_opt {A} (o : option A) : res A :=
  match o with Some a => Ok a | None => Panic end.

(** A text is a list of Unicode code points. *)
Definition str := list N.

Global Instance str_eq_dec : EqDecision str.
Proof. unfold str. apply _. Defined.

Lemma filter_ext_iff {A} (P Q : A -> Prop) `{!forall x, Decision (P x)} `{!forall x, Decision (Q x)} (l : list A) :
  (forall x, x ∈ l -> P x <-> Q x) -> filter P l = filter Q l.
Proof.
  intros HPQ. induction l as [|x l IH]; [done|].
  rewrite !filter_cons. rewrite IH by (intros; apply HPQ; by right).
  assert (P x <-> Q x) by (apply HPQ; by left). repeat case_decide; naive_solver.
Qed.

Lemma filter_none {A} (P : A -> Prop) `{!forall x, Decision (P x)} (l : list A) :
  (forall x, x ∈ l -> ~ P x) -> filter P l = [].
Proof.
  intros HP. induction l as [|x l IH]; [done|]. rewrite filter_cons.
  rewrite decide_False by (apply HP; by left). apply IH. intros y Hy. apply HP. by right.
Qed.

Lemma filter_all {A} (P : A -> Prop) `{!forall x, Decision (P x)} (l : list A) :
  (forall x, x ∈ l -> P x) -> filter P l = l.
Proof.
  intros HP. induction l as [|x l IH]; [done|]. rewrite filter_cons.
  rewrite decide_True by (apply HP; by left). f_equal. apply IH. intros y Hy. apply HP. by right.
Qed.
