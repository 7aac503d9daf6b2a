(** What callers of the media store can rely on, in terms of calls, answers and what loads gave. *)
From stdpp Require Import numbers option list gmap.
From Verif Require Import Base MediaModel.
Local Open Scope N_scope.

(** Everything that was called has returned and no thread is left. *)
Definition quiet (M : machine) : Prop := forall k p, threads M !! k = Some p -> p = Done.
(** A load or a decoding of [s] gave the picture [m]. *)
Definition gave (tr : list event) (s : key) (m : N) : Prop := Fetched s (Some m) ∈ tr \/ Decoded s m ∈ tr.
(** The picture of an id. *)
Definition picture (M : machine) (i : N) : option N := snd <$> entries (shared M) !! i.
(** A background load of [s] is going on. *)
Definition loading (s : key) (p : pc) : Prop :=
  match p with
  | LdCheck w t | LdFetch w t | LdFail w t | LdAlloc w t _ | LdStore w t _ _ | LdCache w t _ => w = true /\ t = s
  | _ => False
  end.
(** In a trace, [b] comes after [a]. *)
Definition later (tr : list event) (a b : event) : Prop := exists t1 t2, tr = t1 ++ a :: t2 /\ b ∈ t2.
