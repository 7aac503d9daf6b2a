(** Model of the console of scripts (crates/gosub_jsapi/src/console.rs): counters, timers and groups. Labels and the text
    of messages are numbers; the clock is read in milliseconds and given with each call. What is handed to the printer
    is a list, oldest first. Not modelled: the plain messages, the formatter, [usize] counters running out, and groups
    without a label (which get a random one). *)
From stdpp Require Import numbers option list gmap.
From Verif Require Import Base.
Local Open Scope N_scope.

(** console.rs:48-65; a timer has a start, and an end that is never set *)
Record console := mk_console { count_map : gmap N N; timer_map : gmap N N; group_stacks : list N }.
(** console.rs:78-86 *)
Definition new_console : console := mk_console ∅ ∅ [].
(** What the printer is given, with the text in place of its format: counters (170), a reset of an unknown counter (176),
    a timer that runs already (227), elapsed times (266, 282), unknown timers (260, 278), the heads of groups (195, 213),
    the ends of groups (220). *)
Inductive out :=
  | Counted (l n : N) | NoCounter | Started (l : N) | Elapsed (l ms : N) | Ended (l ms : N) | NoTimer (l : N)
  | Head (collapsed : bool) (g : N) | Foot.
Inductive op :=
  | Count (l : N) | CountReset (l : N) | Time (l : N) | TimeLog (l : N) | TimeEnd (l : N)
  | Group (collapsed : bool) (g : N) | GroupEnd.
(** The subtraction of [u128], which panics in debug builds: 266 and 282 *)
Definition elapsed (now start : N) : res N := if now <? start then Panic else Ok (now - start).
(** A call at the time [now]: the new state, what is printed, and what [group_end] returns. *)
Definition call (c : console) (now : N) (o : op) : res (console * option out * option N) :=
  match o with
  (** console.rs:165-171 *)
  | Count l =>
      let cnt := match count_map c !! l with Some n => n + 1 | None => 1 end in
      Ok (mk_console (<[l := cnt]> (count_map c)) (timer_map c) (group_stacks c), Some (Counted l cnt), None)
  (** console.rs:174-181 *)
  | CountReset l =>
      match count_map c !! l with
      | None => Ok (c, Some NoCounter, None)
      | Some _ => Ok (mk_console (<[l := 0]> (count_map c)) (timer_map c) (group_stacks c), None, None)
      end
  (** console.rs:225-245 *)
  | Time l =>
      match timer_map c !! l with
      | Some _ => Ok (c, Some (Started l), None)
      | None => Ok (mk_console (count_map c) (<[l := now]> (timer_map c)) (group_stacks c), None, None)
      end
  (** console.rs:248-268 *)
  | TimeLog l =>
      match timer_map c !! l with
      | None => Ok (c, Some (NoTimer l), None)
      | Some start => let* ms := elapsed now start in Ok (c, Some (Elapsed l ms), None)
      end
  (** console.rs:271-285 *)
  | TimeEnd l =>
      match timer_map c !! l with
      | None => Ok (c, Some (NoTimer l), None)
      | Some start => let* ms := elapsed now start in Ok (c, Some (Ended l ms), None)
      end
  (** console.rs:184-216 *)
  | Group collapsed g => Ok (mk_console (count_map c) (timer_map c) (group_stacks c ++ [g]), Some (Head collapsed g), None)
  (** console.rs:219-222 *)
  | GroupEnd => Ok (mk_console (count_map c) (timer_map c) (take (length (group_stacks c) - 1) (group_stacks c)), Some Foot, last (group_stacks c))
  end.
(** All calls of a history, each with its time. *)
Fixpoint calls (c : console) (h : list (N * op)) : res console :=
  match h with
  | [] => Ok c
  | (now, o) :: h => let* r := call c now o in calls (fst (fst r)) h
  end.
