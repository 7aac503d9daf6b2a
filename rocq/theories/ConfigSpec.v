(** What a user of the settings store expects. *)
From stdpp Require Import gmap.
From Verif Require Import Base SettingsModel ConfigModel.

(** Settings the text form can carry: integers fit 64 bits, floats print and parse back, map
    elements hold no comma and the map is not a single empty element. *)
Definition survives {fo : float_ops} (a : setting) : Prop :=
  match a with
  | SInt z => (imin <= z <= imax)%Z
  | UInt n => (n <= umax)%N
  | Float x => fl_parse (fl_show x) = Some x
  | Map l => l <> [[]] /\ Forall (fun e => comma ∉ e) l
  | _ => True
  end.

(** [*] stands for any sequence, [?] for one character, anything else for itself. *)
Inductive wild_matches : str -> str -> Prop :=
| wm_nil : wild_matches [] []
| wm_skip p s : wild_matches p s -> wild_matches (42%N :: p) s
| wm_more p c s : wild_matches (42%N :: p) s -> wild_matches (42%N :: p) (c :: s)
| wm_any p c s : wild_matches p s -> wild_matches (63%N :: p) (c :: s)
| wm_lit p c s : c <> 42%N -> c <> 63%N -> wild_matches p s -> wild_matches (c :: p) (c :: s).

Section spec.
  Context {fo : float_ops} (is_bool_value : str -> bool).

  (** The declaration of a key: the last one given. *)
  Definition declared (schema : list info) (k : str) : option info :=
    last (filter (fun i => i_key i = k) schema).

  (** The number a range constraint looks at. *)
  Definition numeric (v : setting) : Z :=
    match v with
    | SInt z => z
    | UInt n => Z.of_N n
    | Float x => fl_isize x
    | Bool b => if b then 1 else 0
    | String s => if is_bool_value s then 1 else 0
    | Map l => Z.of_nat (length l)
    end.
  Definition satisfies (c : constraint) (v : setting) : Prop :=
    match c with
    | Enum l => value_string v ∈ l
    | Range l => exists lo hi, (lo, hi) ∈ l /\ (lo <= numeric v <= hi)%Z
    end.
  Definition same_type (a b : setting) : Prop :=
    match a, b with
    | SInt _, SInt _ | UInt _, UInt _ | Float _, Float _ | String _, String _ | Bool _, Bool _ | Map _, Map _ => True
    | _, _ => False
    end.
  Definition valid_for (i : info) (v : setting) : Prop :=
    same_type (i_default i) v /\ match i_constraint i with None => True | Some c => satisfies c v end.

  (** Unsigned values above [isize::MAX] wrap around in range checks; see the refutation. *)
  Definition not_huge (v : setting) : Prop := match v with UInt n => (Z.of_N n <= imax)%Z | _ => True end.

  (** Replies and callbacks of a sequence of calls. *)
  Fixpoint replies (s : store) (ops : list op) : list bool :=
    match ops with
    | [] => []
    | o :: r => let '(s', b, _) := step is_bool_value s o in b :: replies s' r
    end.

  (** The storage adapter never fails. *)
  Definition storage_ok (o : op) : Prop :=
    match o with OSet _ _ ok | ORemove _ ok | OGet _ ok => ok = true | _ => True end.

  (** The value of [k] according to the calls that reported success. *)
  Fixpoint value_after (k : str) (dflt cur : setting) (log : list (op * bool)) : setting :=
    match log with
    | [] => cur
    | (OSet k' v _, true) :: r => value_after k dflt (if decide (k' = k) then v else cur) r
    | (ORemove k' _, true) :: r => value_after k dflt (if decide (k' = k) then dflt else cur) r
    | _ :: r => value_after k dflt cur r
    end.

  (** Equality of values; floats compare as floats. *)
  Definition same_value (a b : setting) : Prop :=
    match a, b with Float x, Float y => fl_eqb x y = true | _, _ => a = b end.
  Definition is_float (a : setting) : Prop := match a with Float _ => True | _ => False end.

  (** All callbacks run by a sequence of calls, in order. *)
  Fixpoint callbacks (s : store) (ops : list op) : list note :=
    match ops with
    | [] => []
    | o :: r => let '(s', _, ns) := step is_bool_value s o in ns ++ callbacks s' r
    end.
  (** What subscription [id] believes [k] to be, having started from [cur]. *)
  Definition told (id : N) (k : str) (cur : setting) (ns : list note) : setting :=
    default cur (last (map (fun n => n.2) (filter (fun n => n.1 = (id, k)) ns))).

  (** The live subscriptions: (id, pattern), in order of subscription; ids count up from 0. *)
  Fixpoint live (next : N) (acc : list (N * str)) (ops : list op) : list (N * str) :=
    match ops with
    | [] => acc
    | OSubscribe p :: r => live (next + 1) (acc ++ [(next, p)]) r
    | OUnsubscribe id :: r => live next (filter (fun x => x.1 <> id) acc) r
    | _ :: r => live next acc r
    end.
  Definition subscriptions_made (ops : list op) : nat :=
    length (filter (fun o => match o with OSubscribe _ => true | _ => false end = true) ops).

  (** [ns] tells each live subscription matching [k], once and in order, that [k] is now [v]. *)
  Definition notifies_all (ops : list op) (k : str) (v : setting) (ns : list note) : Prop :=
    exists l, ns = map (fun x => (x.1, k, v)) l /\ l `sublist_of` live 0 [] ops /\
      forall x, x ∈ l <-> x ∈ live 0 [] ops /\ wild_matches x.2 k.

  (** [k] prefixed with a namespace: trailing dots of the namespace do not count. *)
  Definition qualified (ns k p : str) : Prop :=
    exists base n, ns = base ++ replicate n 46%N /\ last base <> Some 46%N /\
      p = match base with [] => k | _ => base ++ [46%N] ++ k end.

  (** * Several threads *)
  (** A configuration shared by threads: each finished critical section leaves the callbacks it
      must still run; delivering is a separate step, outside the lock (lib.rs:122-138). *)
  Record shared := mk_shared { sh_store : store; sh_pending : list (list note); sh_log : list note }.
  Definition all_delivered (x : shared) : Prop := Forall (fun l => l = []) (sh_pending x).
  (** Interleavings; the second index collects what the critical sections decided to announce. *)
  Inductive sh_run (st0 : store) : shared -> list note -> Prop :=
  | sr_init : sh_run st0 (mk_shared st0 [] []) []
  | sr_set x k v ok st' r ns all :
      sh_run st0 x all -> cfg_set is_bool_value (sh_store x) k v ok = (st', r, ns) ->
      sh_run st0 (mk_shared st' (sh_pending x ++ [ns]) (sh_log x)) (all ++ ns)
  | sr_remove x k ok st' r ns all :
      sh_run st0 x all -> cfg_remove (sh_store x) k ok = (st', r, ns) ->
      sh_run st0 (mk_shared st' (sh_pending x ++ [ns]) (sh_log x)) (all ++ ns)
  | sr_deliver x all pre n ns post :
      sh_run st0 x all -> sh_pending x = pre ++ (n :: ns) :: post ->
      sh_run st0 (mk_shared (sh_store x) (pre ++ ns :: post) (sh_log x ++ [n])) all.
End spec.
