(** Model of crates/gosub_config/src/settings.rs *)
From Verif Require Import Base.

(** 64-bit floats are left abstract: their printing, parsing, comparison and cast to [isize]
    come from the Rust standard library. *)
Class float_ops := {
  fl : Type;
  fl_show : fl -> str;
  fl_parse : str -> option fl;
  fl_isize : fl -> Z;
  fl_eqb : fl -> fl -> bool;
}.

(** * Decimal integers (Rust standard library: [Display] and [FromStr] of isize/usize, 64-bit) *)
Definition imin : Z := -9223372036854775808.
Definition imax : Z := 9223372036854775807.
Definition umax : N := 18446744073709551615.

Fixpoint show_digits (fuel : nat) (n : N) : str :=
  match fuel with
  | O => []
  | S f => if (n <? 10)%N then [(48 + n)%N] else show_digits f (n / 10) ++ [(48 + n mod 10)%N]
  end.
Definition show_N (n : N) : str := show_digits (S (N.size_nat n)) n.
Definition show_Z (z : Z) : str :=
  match z with
  | Zneg p => 45%N :: show_N (Npos p)
  | _ => show_N (Z.to_N z)
  end.

Fixpoint digits_acc (acc : N) (s : str) : option N :=
  match s with
  | [] => Some acc
  | c :: r => if (48 <=? c)%N && (c <=? 57)%N then digits_acc (acc * 10 + (c - 48)) r else None
  end.
Definition parse_digits (s : str) : option N :=
  match s with [] => None | _ => digits_acc 0 s end.
Definition in_isize (z : Z) : bool := (imin <=? z)%Z && (z <=? imax)%Z.
(** [str::parse::<isize>]: optional sign, at least one digit, no overflow. *)
Definition parse_isize (s : str) : option Z :=
  let v := match s with
           | 45%N :: r => Z.opp <$> (Z.of_N <$> parse_digits r)
           | 43%N :: r => Z.of_N <$> parse_digits r
           | _ => Z.of_N <$> parse_digits s
           end in
  match v with Some z => if in_isize z then Some z else None | None => None end.
Definition parse_usize (s : str) : option N :=
  let v := match s with 43%N :: r => parse_digits r | _ => parse_digits s end in
  match v with Some n => if (n <=? umax)%N then Some n else None | None => None end.

(** * Splitting *)
(** [str::split_once(c)] *)
Fixpoint split_once (c : N) (s : str) : option (str * str) :=
  match s with
  | [] => None
  | x :: r => if (x =? c)%N then Some ([], r)
              else match split_once c r with Some (a, b) => Some (x :: a, b) | None => None end
  end.
(** [str::split(c)] *)
Fixpoint split (c : N) (s : str) : list str :=
  match s with
  | [] => [[]]
  | x :: r => if (x =? c)%N then [] :: split c r
              else match split c r with a :: l => (x :: a) :: l | [] => [[x]] end
  end.
(** [slice::join(sep)] *)
Fixpoint join (sep : str) (l : list str) : str :=
  match l with
  | [] => []
  | [a] => a
  | a :: l' => a ++ sep ++ join sep l'
  end.

Definition comma : N := 44.
Definition colon : N := 58.
Definition dash : N := 45.

Section settings.
  Context {fo : float_ops}.

  (** settings.rs:10-18 [Setting] *)
  Inductive setting :=
  | SInt (z : Z) | UInt (n : N) | Float (x : fl) | String (s : str) | Bool (b : bool) | Map (l : list str).

  (** The derived [PartialEq] of settings.rs:10 *)
  Definition setting_eqb (a b : setting) : bool :=
    match a, b with
    | SInt x, SInt y => (x =? y)%Z
    | UInt x, UInt y => (x =? y)%N
    | Float x, Float y => fl_eqb x y
    | String x, String y => bool_decide (x = y)
    | Bool x, Bool y => Bool.eqb x y
    | Map x, Map y => bool_decide (x = y)
    | _, _ => false
    end.

  (** [mem::discriminant] *)
  Definition kind (a : setting) : nat :=
    match a with SInt _ => 0 | UInt _ => 1 | Float _ => 2 | String _ => 3 | Bool _ => 4 | Map _ => 5 end.

  (** "true" and "false" *)
  Definition show_bool (b : bool) : str := if b then [116;114;117;101]%N else [102;97;108;115;101]%N.
  Definition parse_bool (s : str) : option bool :=
    if bool_decide (s = show_bool true) then Some true
    else if bool_decide (s = show_bool false) then Some false else None.

  (** settings.rs:138-147 [Setting::value_string] *)
  Definition value_string (a : setting) : str :=
    match a with
    | SInt z => show_Z z
    | UInt n => show_N n
    | Float x => fl_show x
    | String s => s
    | Bool b => show_bool b
    | Map l => join [comma] l
    end.

  (** settings.rs:87-108 [Setting::to_string]: the map arm appends a comma after each element
      and pops the last character *)
  Definition to_string (a : setting) : str :=
    match a with
    | Map l => removelast (flat_map (fun v => v ++ [comma]) l)
    | _ => value_string a
    end.

  (** settings.rs:178-189 [Display] *)
  Definition prefix_of (a : setting) : N :=
    match a with SInt _ => 105 | UInt _ => 117 | Float _ => 102 | String _ => 115 | Bool _ => 98 | Map _ => 109 end.
  Definition display (a : setting) : str := prefix_of a :: colon :: value_string a.

  (** settings.rs:205-244 [from_str]; [None] is [Err] *)
  Definition from_str (key : str) : option setting :=
    match split_once colon key with
    | None => None
    | Some (t, v) =>
        match t with
        | [98%N] => Bool <$> parse_bool v
        | [105%N] => SInt <$> parse_isize v
        | [117%N] => UInt <$> parse_usize v
        | [102%N] => Float <$> fl_parse v
        | [115%N] => Some (String v)
        | [109%N] => Some (match v with [] => Map [] | _ => Map (split comma v) end)
        | _ => None
        end
    end.

  (** settings.rs:249-256 [Constraint] *)
  Inductive constraint := Enum (l : list str) | Range (l : list (Z * Z)).

  Section upper.
    (** [cow_to_uppercase], used by settings.rs:150-157 [is_bool_value] *)
    Context (is_bool_value : str -> bool).

    (** settings.rs:38-51 [Setting::to_sint]; [as isize] from usize wraps around *)
    Definition to_sint (a : setting) : Z :=
      match a with
      | SInt z => z
      | UInt n => if (Z.of_N n <=? imax)%Z then Z.of_N n else Z.of_N n - 18446744073709551616
      | Float x => fl_isize x
      | Bool b => if b then 1 else 0
      | String s => if is_bool_value s then 1 else 0
      | Map l => Z.of_nat (length l)
      end.

    (** settings.rs:297-308 [Constraint::allows] *)
    Definition allows (c : constraint) (a : setting) : bool :=
      match c with
      | Enum l => existsb (fun t => bool_decide (t = value_string a)) l
      | Range l => existsb (fun r => (r.1 <=? to_sint a)%Z && (to_sint a <=? r.2)%Z) l
      end.
  End upper.
End settings.

(** Unicode [White_Space], used by [str::trim] *)
Definition is_space (c : N) : bool :=
  ((9 <=? c) && (c <=? 13) || (c =? 32) || (c =? 133) || (c =? 160) || (c =? 5760)
   || (8192 <=? c) && (c <=? 8202) || (c =? 8232) || (c =? 8233) || (c =? 8239) || (c =? 8287) || (c =? 12288))%N.
Fixpoint trim_start (s : str) : str :=
  match s with c :: r => if is_space c then trim_start r else s | [] => [] end.
Definition trim (s : str) : str := rev (trim_start (rev (trim_start s))).

(** settings.rs:320-330 [parse_range_token]. [token[1..]] is a byte slice and panics when the
    first character takes more than one byte. *)
Definition parse_range_token (t : str) : res (option (Z * Z)) :=
  match parse_isize t with
  | Some n => Ok (Some (n, n))
  | None =>
      match t with
      | [] => Panic
      | c :: r =>
          if (c <? 128)%N then
            Ok (match split_once dash r with
                | None => None
                | Some (a, b) =>
                    match parse_isize (c :: a), parse_isize b with
                    | Some lo, Some hi => Some (lo, hi)
                    | _, _ => None
                    end
                end)
          else Panic
      end
  end.
(** [.map(parse_range_token).collect::<Option<Vec<_>>>()] stops at the first [None] *)
Fixpoint parse_ranges (ts : list str) : res (option (list (Z * Z))) :=
  match ts with
  | [] => Ok (Some [])
  | t :: r =>
      let* x := parse_range_token t in
      match x with
      | None => Ok None
      | Some p => let* y := parse_ranges r in Ok ((p ::.) <$> y)
      end
  end.
(** settings.rs:263-274 [Constraint::parse] *)
Definition constraint_tokens (values : str) : list str :=
  filter (fun t => t <> []) (map trim (split comma values)).
Definition constraint_parse (values : str) : res (option constraint) :=
  match constraint_tokens values with
  | [] => Ok None
  | ts => let* r := parse_ranges ts in
          Ok (Some (match r with Some l => Range l | None => Enum ts end))
  end.
(** settings.rs:279-287 [Constraint::tokens] *)
Definition tokens (c : constraint) : list str :=
  match c with
  | Enum l => l
  | Range l => map (fun r => if (r.1 =? r.2)%Z then show_Z r.1 else show_Z r.1 ++ [dash] ++ show_Z r.2) l
  end.
