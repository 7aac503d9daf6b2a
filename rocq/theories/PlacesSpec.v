(** What a user of places expects, stated over the list of calls alone. *)
From Verif Require Import Base PlacesModel.

(** The visits of [url] since history was last cleared, oldest first: (title, time). *)
Fixpoint visits_of (url : str) (acc : list (str * N)) (ops : list (op * N)) : list (str * N) :=
  match ops with
  | [] => acc
  | (OVisit u t, now) :: r => visits_of url (if decide (u = url) then acc ++ [(t, now)] else acc) r
  | (OClear, _) :: r => visits_of url [] r
  | _ :: r => visits_of url acc r
  end.

(** The title shown: the most recent non-empty one. *)
Definition latest_title (vs : list (str * N)) : str :=
  match last (filter (fun t => t <> []) (map fst vs)) with Some t => t | None => [] end.
Definition latest_time (vs : list (str * N)) : N :=
  match last vs with Some (_, n) => n | None => 0 end.

(** The bookmark of [url]: title of the latest add, time of the first add since it was last
    absent. *)
Fixpoint bookmark_of (url : str) (acc : option (str * N)) (ops : list (op * N)) : option (str * N) :=
  match ops with
  | [] => acc
  | (OAdd u t, now) :: r =>
      bookmark_of url
        (if decide (u = url) then Some (t, match acc with Some (_, c) => c | None => now end) else acc) r
  | (ORemove u, _) :: r => bookmark_of url (if decide (u = url) then None else acc) r
  | _ :: r => bookmark_of url acc r
  end.

(** [q] occurs in [s]. *)
Definition occurs (q s : str) : Prop := exists pre post, s = pre ++ q ++ post.

(** Equal up to the case of ASCII letters, stated without the folding function. *)
Definition same_letter (a b : N) : Prop :=
  a = b \/ (65 <= a <= 90 /\ b = a + 32)%N \/ (65 <= b <= 90 /\ a = b + 32)%N.

(** [q] occurs in [s] up to the case of ASCII letters. *)
Definition occurs_ignoring_case (q s : str) : Prop :=
  exists pre m post, s = pre ++ m ++ post /\ Forall2 same_letter q m.

(** Ranking of visited pages: [a] may be listed before [b]. *)
Definition ranks_before (a b : page) : Prop :=
  (p_count b < p_count a)%N \/ (p_count a = p_count b /\ (p_last b <= p_last a)%N).

(** The clock never runs backwards. *)
Definition monotone (ops : list (op * N)) : Prop := StronglySorted N.le (map snd ops).
