(** What a script expects of its console. *)
From stdpp Require Import numbers option list.
From Verif Require Import Base ConsoleModel.
Local Open Scope N_scope.

(** How often [l] was counted since it was reset. *)
Fixpoint counted (l : N) (h : list (N * op)) (n : N) : N :=
  match h with
  | [] => n
  | (_, Count k) :: h => counted l h (if k =? l then n + 1 else n)
  | (_, CountReset k) :: h => counted l h (if k =? l then 0 else n)
  | _ :: h => counted l h n
  end.
(** When a timer was first started. *)
Fixpoint started (l : N) (h : list (N * op)) : option N :=
  match h with
  | [] => None
  | (now, Time k) :: h => if k =? l then Some now else started l h
  | _ :: h => started l h
  end.
(** When a timer was started that has not ended, as scripts expect it. *)
Fixpoint running (l : N) (h : list (N * op)) (r : option N) : option N :=
  match h with
  | [] => r
  | (now, Time k) :: h => running l h (if k =? l then (match r with Some s => Some s | None => Some now end) else r)
  | (_, TimeEnd k) :: h => running l h (if k =? l then None else r)
  | _ :: h => running l h r
  end.
(** Calls in which each group that is opened is closed. *)
Inductive balanced : list (N * op) -> Prop :=
  | bal_nil : balanced []
  | bal_other now o h : (forall b g, o <> Group b g) -> o <> GroupEnd -> balanced h -> balanced ((now, o) :: h)
  | bal_group now b g h now' h' : balanced h -> balanced h' -> balanced ((now, Group b g) :: h ++ (now', GroupEnd) :: h').
(** The clock never goes back. *)
Fixpoint forwards (t : N) (h : list (N * op)) : Prop :=
  match h with [] => True | (now, _) :: h => t <= now /\ forwards now h end.
