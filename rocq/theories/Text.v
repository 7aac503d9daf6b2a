(** String literals as lists of code points. *)
From stdpp Require Export strings.
From Coq Require Import Ascii.
From Verif Require Export Base.

Fixpoint txt (s : string) : str :=
  match s with
  | EmptyString => []
  | String a r => N_of_ascii a :: txt r
  end.
Arguments txt s%string : simpl never.
