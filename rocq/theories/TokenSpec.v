(** What the properties of the HTML tokenizer (C40-C43 and later ones) are stated with. *)
From stdpp Require Import gmap.
From Verif Require Import Text CookieModel TokenModel.
Local Open Scope N_scope.

(** ** Pulling tokens *)
(** The states a tree builder may switch to between two tokens, and in which text is read *)
Definition content (s : tstate) : Prop := s ∈ [Data; RCDATA; RAWTEXT; ScriptData; PLAINTEXT].
(** One pull: the tree builder first switches the state (or not) and says whether it is in foreign
    content. *)
Record pull := mk_pull { p_foreign : bool; p_switch : option tstate }.
Definition allowed (p : pull) : Prop := match p_switch p with Some s => content s | None => True end.
Definition switched (p : pull) (t : tk) : tk := match p_switch p with Some s => goto s t | None => t end.
(** The tokens a list of pulls gives; [None] as soon as a pull does not return a token. *)
Fixpoint pulls (ent : list (list N * list N)) (fuel : nat) (ps : list pull) (t : tk) : option (list token * tk) :=
  match ps with
  | [] => Some ([], t)
  | p :: r =>
      match next_token ent fuel (p_foreign p) (switched p t) with
      | Ok (Some (tok, t)) => match pulls ent fuel r t with Some (l, t) => Some (tok :: l, t) | None => None end
      | _ => None
      end
  end.

(** ** Character references *)
Definition digit (x : N) : Prop := 48 <= x <= 57.
Definition hexdigit (x : N) : Prop := digit x \/ 65 <= x <= 70 \/ 97 <= x <= 102.
Definition letter (x : N) : Prop := 65 <= x <= 90 \/ 97 <= x <= 122.
Definition alnum (x : N) : Prop := letter x \/ digit x.
Definition white (x : N) : Prop := x = 9 \/ x = 10 \/ x = 12 \/ x = 32.
(** the text is empty or its first character is as given *)
Definition starts (P : N -> Prop) (s : list N) : Prop := match s with [] => True | x :: _ => P x end.

(** the number digits stand for, in a base *)
Definition digit_value (x : N) : N := if x <=? 57 then x - 48 else if x <=? 70 then x - 65 + 10 else x - 97 + 10.
Definition number (base : N) (ds : list N) : N := fold_left (fun a d => a * base + digit_value d) ds 0.
(** Windows-1252 at 0x80 to 0x9F *)
Definition windows_1252 : list N :=
  [0x20AC; 0x81; 0x201A; 0x192; 0x201E; 0x2026; 0x2020; 0x2021; 0x2C6; 0x2030; 0x160; 0x2039; 0x152; 0x8D; 0x17D; 0x8F;
   0x90; 0x2018; 0x2019; 0x201C; 0x201D; 0x2022; 0x2013; 0x2014; 0x2DC; 0x2122; 0x161; 0x203A; 0x153; 0x9D; 0x17E; 0x178].
(** the character a number refers to *)
Definition referenced (n : N) : N :=
  if (n =? 0) || ((0xD800 <=? n) && (n <=? 0xDFFF)) || (0x10FFFF <? n) then 0xFFFD
  else if (0x80 <=? n) && (n <=? 0x9F) then nth (N.to_nat (n - 0x80)) windows_1252 n
  else n.

(** [ref tbl attr u o s]: a text [&u] begins with a reference, or with something that is none, which
    stands for [o]; [s] is what follows it. [tbl] is the table of names, [attr] tells attribute values
    from text. *)
Inductive ref (tbl : list (list N * list N)) (attr : bool) : list N -> list N -> list N -> Prop :=
| ref_ampersand s : starts (fun x => ~ alnum x /\ x <> 35) s -> ref tbl attr s [38] s
| ref_decimal ds s : ds <> [] -> Forall digit ds -> starts (fun x => ~ digit x /\ x <> 59) s ->
    ref tbl attr (35 :: ds ++ s) [referenced (number 10 ds)] s
| ref_decimal_semicolon ds s : ds <> [] -> Forall digit ds ->
    ref tbl attr (35 :: ds ++ 59 :: s) [referenced (number 10 ds)] s
| ref_hex x ds s : x = 120 \/ x = 88 -> ds <> [] -> Forall hexdigit ds -> starts (fun x => ~ hexdigit x /\ x <> 59) s ->
    ref tbl attr (35 :: x :: ds ++ s) [referenced (number 16 ds)] s
| ref_hex_semicolon x ds s : x = 120 \/ x = 88 -> ds <> [] -> Forall hexdigit ds ->
    ref tbl attr (35 :: x :: ds ++ 59 :: s) [referenced (number 16 ds)] s
| ref_no_digits s : starts (fun x => ~ digit x /\ x <> 120 /\ x <> 88) s -> ref tbl attr (35 :: s) [38; 35] s
| ref_no_hex_digits x s : x = 120 \/ x = 88 -> starts (fun x => ~ hexdigit x) s -> ref tbl attr (35 :: x :: s) [38; 35; x] s
| ref_named k r s : (k, r) ∈ tbl -> (forall k' r', (k', r') ∈ tbl -> k' `prefix_of` k ++ s -> (length k' <= length k)%nat) ->
    attr = false \/ last k = Some 59 \/ starts (fun x => x <> 61 /\ ~ alnum x) s -> ref tbl attr (k ++ s) r s
| ref_legacy k r x s : (k, r) ∈ tbl -> (forall k' r', (k', r') ∈ tbl -> k' `prefix_of` k ++ x :: s -> (length k' <= length k)%nat) ->
    attr = true -> last k <> Some 59 -> x = 61 \/ alnum x -> ref tbl attr (k ++ x :: s) (38 :: k) (x :: s)
| ref_unknown w s : w <> [] -> Forall alnum w -> starts (fun x => ~ alnum x) s ->
    (forall k r, (k, r) ∈ tbl -> ~ k `prefix_of` w ++ s) -> ref tbl attr (w ++ s) (38 :: w) s.

(** Where the characters of a text come from. Lone surrogates become U+FFFD; so does U+0000 where
    [nul] says so. *)
Definition shown (nul : bool) (x : N) : N :=
  if (0xD800 <=? x) && (x <=? 0xDFFF) then 0xFFFD else if nul && (x =? 0) then 0xFFFD else x.
(** [reads tbl attr nul s o]: the source text [s] stands for the characters [o]. *)
Inductive reads (tbl : list (list N * list N)) (attr nul : bool) : list N -> list N -> Prop :=
| reads_nil : reads tbl attr nul [] []
| reads_char x s o : x <> 38 -> reads tbl attr nul s o -> reads tbl attr nul (x :: s) (shown nul x :: o)
| reads_ref u o1 s o : ref tbl attr u o1 s -> reads tbl attr nul s o -> reads tbl attr nul (38 :: u) (o1 ++ o).

(** What is assumed of a table of names *)
Record table_ok (tbl : list (list N * list N)) : Prop := {
  keys_distinct : NoDup (map fst tbl);
  keys_shape : forall k r, (k, r) ∈ tbl -> exists w, w <> [] /\ Forall alnum w /\ (k = w \/ k = w ++ [59]);
  keys_no_end : forall k r a b, (k, r) ∈ tbl -> k <> a ++ txt "StreamEnd" ++ b;
  values_not_empty : forall k r, (k, r) ∈ tbl -> r <> [] }.

(** ** Documents *)
(** A letter of a tag or attribute name, as it arrives *)
Definition folded (x : N) : N := if (65 <=? x) && (x <=? 90) then x + 32 else shown true x.
(** How an attribute is written: after its name nothing, or an equals sign and a value. White space may
    stand on both sides of the equals sign. *)
Inductive value_src :=
| no_value
| unquoted (w1 w2 v : list N)
| quoted (w1 w2 : list N) (q : N) (v : list N).
(** what stands before the name, the name and the value *)
Record attr_src := mk_attr { a_sep : list N; a_name : list N; a_value : value_src }.
Inductive markup :=
| start_tag (name : list N) (attributes : list attr_src) (space : list N) (self_closing : bool)
| end_tag (name : list N) (space : list N)
| comment (body : list N).
(** Text and markup in turns, and the text after the last markup *)
Record doc := mk_doc { d_parts : list (list N * markup); d_last : list N }.

Definition value_source (v : value_src) : list N :=
  match v with
  | no_value => []
  | unquoted w1 w2 v => w1 ++ 61 :: w2 ++ v
  | quoted w1 w2 q v => w1 ++ 61 :: w2 ++ q :: v ++ [q]
  end.
Definition attr_source (a : attr_src) : list N := a_sep a ++ a_name a ++ value_source (a_value a).
Definition markup_source (m : markup) : list N :=
  match m with
  | start_tag n l w sc => 60 :: n ++ concat (map attr_source l) ++ w ++ (if sc then [47; 62] else [62])
  | end_tag n w => 60 :: 47 :: n ++ w ++ [62]
  | comment b => txt "<!--" ++ b ++ txt "-->"
  end.
Definition doc_source (d : doc) : list N := concat (map (fun p => p.1 ++ markup_source p.2) (d_parts d)) ++ d_last d.

Definition name_end (x : N) : Prop := white x \/ x = 47 \/ x = 62.
(** a tag name begins with a letter and goes on to white space, a slash or [>] *)
Definition tag_name_ok (n : list N) : Prop :=
  match n with [] => False | x :: r => letter x /\ Forall (fun y => ~ name_end y) r end.
Definition value_ok (v : value_src) : Prop :=
  match v with
  | no_value => True
  | unquoted w1 w2 v => Forall white w1 /\ Forall white w2 /\ Forall (fun x => ~ white x /\ x <> 62) v /\
      match v with [] => False | x :: _ => x <> 34 /\ x <> 39 end
  | quoted w1 w2 q v => Forall white w1 /\ Forall white w2 /\ (q = 34 \/ q = 39) /\ q ∉ v
  end.
(** An attribute name may begin with an equals sign, and goes on to one. Attributes are separated by white
    space or slashes; nothing need stand between a tag name or a closing quote and a slash. *)
Definition attr_ok (a : attr_src) : Prop :=
  Forall (fun x => white x \/ x = 47) (a_sep a) /\
  match a_name a with [] => False | x :: r => ~ name_end x /\ Forall (fun y => ~ name_end y /\ y <> 61) r end /\
  value_ok (a_value a).
(** only after a quoted value may the separator be left out; an unquoted value swallows slashes *)
Definition is_quoted (v : value_src) : Prop := match v with quoted _ _ _ _ => True | _ => False end.
Definition is_unquoted (v : value_src) : Prop := match v with unquoted _ _ _ => True | _ => False end.
Fixpoint attrs_ok (before : option value_src) (l : list attr_src) : Prop :=
  match l with
  | [] => True
  | a :: r =>
      attr_ok a /\
      (a_sep a = [] -> match before with Some v => is_quoted v | None => False end) /\
      (match before with Some v => is_unquoted v -> starts white (a_sep a) | None => True end) /\
      (* a name that begins with an equals sign would be taken for a value after a name without one *)
      (match before with Some no_value => starts (fun x => x <> 61) (a_name a) \/ 47 ∈ a_sep a | _ => True end) /\
      attrs_ok (Some (a_value a)) r
  end.
Definition last_value (l : list attr_src) : option value_src := option_map a_value (last l).
Definition markup_ok (m : markup) : Prop :=
  match m with
  | start_tag n l w sc =>
      tag_name_ok n /\ attrs_ok None l /\ Forall white w /\
      (sc = true -> match last_value l with Some v => is_unquoted v -> w <> [] | None => True end)
  | end_tag n w => tag_name_ok n /\ Forall white w
  | comment b =>
      (forall a c, b <> a ++ 45 :: 45 :: c) /\ (forall a, b <> a ++ [45]) /\ (forall a, b <> 62 :: a) /\ (forall a, b <> 45 :: 62 :: a)
  end.
Definition text_ok (s : list N) : Prop := 60 ∉ s.
Definition doc_ok (d : doc) : Prop := Forall (fun p => text_ok p.1 /\ markup_ok p.2) (d_parts d) /\ text_ok (d_last d).

(** What it means *)
Inductive value_means (tbl : list (list N * list N)) : value_src -> list N -> Prop :=
| means_none : value_means tbl no_value []
| means_unquoted w1 w2 v o : reads tbl true true v o -> value_means tbl (unquoted w1 w2 v) o
| means_quoted w1 w2 q v o : reads tbl true true v o -> value_means tbl (quoted w1 w2 q v) o.
Definition attr_means (tbl : list (list N * list N)) (a : attr_src) (nv : list N * list N) : Prop :=
  nv.1 = map folded (a_name a) /\ value_means tbl (a_value a) nv.2.
(** the value of the first attribute of a name *)
Fixpoint first_value (l : list (list N * list N)) (n : list N) : option (list N) :=
  match l with [] => None | (n', v) :: r => if decide (n = n') then Some v else first_value r n end.
Definition first_wins (l : list (list N * list N)) (m : attr_map) : Prop := forall n, m !! n = first_value l n.
Inductive markup_means (tbl : list (list N * list N)) : markup -> token -> Prop :=
| means_start n l w sc nvs m : Forall2 (attr_means tbl) l nvs -> first_wins nvs m ->
    markup_means tbl (start_tag n l w sc) (StartTag (map folded n) sc m)
| means_end n w : markup_means tbl (end_tag n w) (EndTag (map folded n))
| means_comment b : markup_means tbl (comment b) (Comment (map (shown true) b)).
Definition text_tokens (o : list N) : list token := match o with [] => [] | _ => [Text o] end.
Inductive doc_means (tbl : list (list N * list N)) : doc -> list token -> Prop :=
| means_last s o : reads tbl false false s o -> doc_means tbl (mk_doc [] s) (text_tokens o ++ [Eof])
| means_part s o m k r l ts : reads tbl false false s o -> markup_means tbl m k -> doc_means tbl (mk_doc r l) ts ->
    doc_means tbl (mk_doc ((s, m) :: r) l) (text_tokens o ++ k :: ts).

(** ** Elements whose body is text *)
(** The tree builder switches the tokenizer after the start tags of some elements: to [RCDATA] (title,
    textarea), to [RAWTEXT] (style, xmp, iframe, noembed, noframes) or to [ScriptData]. *)
Inductive raw_kind := Rcdata | Rawtext | Script.
Definition raw_state (K : raw_kind) : tstate := match K with Rcdata => RCDATA | Rawtext => RAWTEXT | Script => ScriptData end.
(** Markup, or such an element: its start tag, the body, and the name and the space of its end tag *)
Inductive item :=
| plain_item (m : markup)
| raw_item (K : raw_kind) (name : list N) (attributes : list attr_src) (space : list N) (body : list N) (end_name end_space : list N).
Record page := mk_page { p_parts : list (list N * item); p_last : list N }.
Definition item_source (i : item) : list N :=
  match i with
  | plain_item m => markup_source m
  | raw_item K n l w b n2 w2 => markup_source (start_tag n l w false) ++ b ++ markup_source (end_tag n2 w2)
  end.
Definition page_source (d : page) : list N := concat (map (fun p => p.1 ++ item_source p.2) (p_parts d)) ++ p_last d.

(** The body holds no end tag of the element: no [</name] in any case, followed by what ends a name. A
    script holds no [<!--], after which other rules apply. *)
Definition body_ok (K : raw_kind) (n b : list N) : Prop :=
  (forall a x c z, b = a ++ 60 :: 47 :: x ++ c :: z -> map folded x = map folded n -> ~ name_end c) /\
  (K = Script -> forall a z, b <> a ++ txt "<!--" ++ z).
Definition item_ok (i : item) : Prop :=
  match i with
  | plain_item m => markup_ok m
  | raw_item K n l w b n2 w2 =>
      markup_ok (start_tag n l w false) /\ Forall letter n /\ body_ok K n b /\
      Forall letter n2 /\ map folded n2 = map folded n /\ Forall white w2
  end.
Definition page_ok (d : page) : Prop := Forall (fun p => text_ok p.1 /\ item_ok p.2) (p_parts d) /\ text_ok (p_last d).

(** References count in a title or a text area only. *)
Definition body_means (tbl : list (list N * list N)) (K : raw_kind) (b o : list N) : Prop :=
  match K with Rcdata => reads tbl false true b o | _ => o = map (shown true) b end.
Inductive item_means (tbl : list (list N * list N)) : item -> list token -> Prop :=
| means_plain m k : markup_means tbl m k -> item_means tbl (plain_item m) [k]
| means_raw K n l w b n2 w2 k o : markup_means tbl (start_tag n l w false) k -> body_means tbl K b o ->
    item_means tbl (raw_item K n l w b n2 w2) (k :: text_tokens o ++ [EndTag (map folded n)]).
Inductive page_means (tbl : list (list N * list N)) : page -> list token -> Prop :=
| means_page_last s o : reads tbl false false s o -> page_means tbl (mk_page [] s) (text_tokens o ++ [Eof])
| means_page_part s o i ks r l ts : reads tbl false false s o -> item_means tbl i ks -> page_means tbl (mk_page r l) ts ->
    page_means tbl (mk_page ((s, i) :: r) l) (text_tokens o ++ ks ++ ts).

(** How a tree builder pulls: what it switches to depends on the token before. [fgs] says, for each pull,
    whether it is in foreign content. *)
Definition builder := token -> option tstate.
Fixpoint driven (sw : builder) (before : option tstate) (fgs : list bool) (ts : list token) : list pull :=
  match fgs, ts with
  | fg :: fgs, k :: ts => mk_pull fg before :: driven sw (sw k) fgs ts
  | _, _ => []
  end.
(** It switches after the start tags of the elements whose body is text, and not after other tokens. *)
Definition switches (sw : builder) (d : page) : Prop :=
  (forall s, sw (Text s) = None) /\ (forall n, sw (EndTag n) = None) /\ (forall s, sw (Comment s) = None) /\
  Forall (fun p => match p.2 with
                   | plain_item (start_tag n _ _ _) => forall sc m, sw (StartTag (map folded n) sc m) = None
                   | plain_item _ => True
                   | raw_item K n _ _ _ _ _ => forall sc m, sw (StartTag (map folded n) sc m) = Some (raw_state K)
                   end) (p_parts d).
