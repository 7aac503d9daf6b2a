(** What the user of a cookie store expects. *)
From stdpp Require Import gmap.
From Verif Require Import Text SettingsModel CookieModel CookieSpec CookieStoreModel.

(** Every name has a file of its own. *)
Record sound_fs (f : fsys) : Prop := {
  fs_named : forall p i, names f !! p = Some i -> is_Some (data f !! i) /\ i < fresh_ino f;
  fs_no_links : forall p q i, names f !! p = Some i -> names f !! q = Some i -> p = q }.
(** The last component of [p] is a real file name. *)
Definition proper_path (p : str) : Prop :=
  exists d n, p = d ++ n /\ 47%N ∉ n /\ n <> [] /\ n <> txt ".." /\ (d = [] \/ last d = Some 47%N).

Section store.
  Context {J : Type}.
  Notation event := (@event J).
  Notation state := (@state J).

  (** The states a store over the saved jars [d] can get into, all of them satisfying [ok]. *)
  Inductive reachable (empty : J) (reload : J -> J) (bk : backend) (ok : state -> Prop) (d : gmap N J) : state -> Prop :=
  | reach_init : ok (init d) -> reachable empty reload bk ok d (init d)
  | reach_step s a s' : reachable empty reload bk ok d s -> act empty reload bk s a = Some s' -> ok s' ->
      reachable empty reload bk ok d s'.

  (** All calls have returned. *)
  Definition quiet (s : state) : Prop := threads s = ∅.
  (** What handle [h] holds after the writes of a log, starting from what it was made with. *)
  Fixpoint replay (h : N) (l : list event) (j : option J) : option J :=
    match l with
    | [] => j
    | Made h' _ j' :: r => replay h r (if (h' =? h)%N then Some j' else j)
    | Wrote h' f :: r => replay h r (if (h' =? h)%N then option_map f j else j)
    | _ :: r => replay h r j
    end.
  (** What is saved for zone [z] after a log. *)
  Fixpoint last_saved (z : N) (l : list event) (j : option J) : option J :=
    match l with
    | [] => j
    | Saved z' j' :: r => last_saved z r (if (z' =? z)%N then Some j' else j)
    | Deleted z' :: r => last_saved z r (if (z' =? z)%N then None else j)
    | _ :: r => last_saved z r j
    end.
  (** A thread between reading and replacing the JSON file. *)
  Definition in_file (p : @pc J) : Prop := match p with Saving _ _ _ _ | AllJson _ _ => True | _ => False end.
  (** No two threads are. *)
  Definition file_alone (s : state) : Prop :=
    forall t t' p p', threads s !! t = Some p -> threads s !! t' = Some p' -> in_file p -> in_file p' -> t = t'.
  (** The store keeps its promise to save for zone [z]: what was last written is on disk. *)
  Definition zone_saved (s : state) (z : N) : Prop :=
    forall h f j, Got z h ∈ log s -> Wrote h f ∈ log s -> heap s !! h = Some (z, j) -> disk s !! z = Some j.
End store.
