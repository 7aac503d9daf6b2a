(** What the colours of a gradient should be. *)
From Coq Require Import QArith Qabs.
From stdpp Require Import numbers option list.
From Verif Require Import Base GradientModel.
Local Open Scope Q_scope.

(** The four components. *)
Definition component (ch : color -> Q) : Prop := ch = c_r \/ ch = c_g \/ ch = c_b \/ ch = c_a.
(** Stops in order. *)
Fixpoint in_order (stops : list stop) : Prop :=
  match stops with a :: ((b :: _) as rest) => fst a <= fst b /\ in_order rest | _ => True end.
