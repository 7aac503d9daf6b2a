(** Model of the CSS parser: crates/gosub_css3/src/{lib,parser,ast}.rs and parser/.

    The parser reads the tokens of a text through the tokenizer's cursor, which
    [CssTokenModel] models: [C99_cursor] shows that the cursor answers as a fixed list of
    tokens read at a position, and [CssParseCursor] that the cursor's end test depends on
    the position and the number of tokens fetched only. So the parser's state here is
    that position and that number. Locations, tracing and error messages are left out;
    the arms for comment tokens are left out too, as the tokenizer produces none. *)
From Verif Require Import Base Text CssTokenModel SelectorModel.
Local Open Scope N_scope.

(** node.rs:20-221, without locations. [NCalc] keeps the text of its [Raw] child;
    [NSupports] stands for the [Raw] node of an [@supports] prelude and keeps the tokens
    whose text that node holds. *)
Inductive node :=
| NSheet (l : list node) | NRule (prelude block : node)
| NAtRule (name : str) (prelude block : option node)
| NBlock (l : list node) | NDecl (property : str) (value : list node) (important : bool)
| NIdent (v : str) | NNumber (n : str) | NPercentage (n : str) | NDimension (n unit : str)
| NString (v : str) | NHash (v : str) | NUrl (v : str) | NFunction (name : str) (args : list node)
| NCalc (expr : str) | NOperator (v : str) | NComma
| NMSFunction (f : node) | NMSIdent (v d : str)
| NSelectorList (l : list node) | NSelector (l : list node) | NCombinator (v : str)
| NClass (v : str) | NId (v : str) | NType (namespace : option str) (v : str)
| NAttr (name : str) (matcher : option str) (v flags : str) | NNesting
| NPseudoClass (v : node) | NPseudoElement (v : str)
| NNth (nth : node) (selector : option node) | NAnPlusB (a b : str)
| NValue (l : list node) | NContainer (l : list node) | NCdo | NCdc
| NCondition (l : list node) | NFeature (name : str) (v : option node) | NFeatureFunction
| NRange (left comparison middle : node) (right : option (node * node))
| NMediaQuery (modifier media : str) (condition : option node) | NMediaQueryList (l : list node)
| NLayerList (l : list node) | NImportList (l : list node) | NScope (root limit : option node)
| NSupports (l : list token).

(** block.rs:6-10. *)
Inductive mode := StyleBlock | RegularBlock.

(** lib.rs:41-54: the cursor's position, the number of tokens fetched so far, and the
    length of [allow_values_in_argument_list], whose entries are never looked at. *)
Record pst := mk_pst { ps_pos : nat; ps_len : nat; ps_allow : nat }.

(** [CssResult] is an option: the parser never looks at an error. *)
Definition par (A : Type) : Type := pst -> res (option A * pst).
Definition ret {A} (a : A) : par A := fun s => Ok (Some a, s).
Definition fail {A} : par A := fun s => Ok (None, s).
Definition pbind {A B} (p : par A) (f : A -> par B) : par B := fun s =>
  match p s with
  | Ok (Some a, s') => f a s'
  | Ok (None, s') => Ok (None, s')
  | Panic => Panic
  | Diverge => Diverge
  end.
Notation "'do' x <- p ; k" := (pbind p (fun x => k))
  (at level 200, x pattern, p at level 99, k at level 200, right associativity).
Notation "p ;; k" := (pbind p (fun _ => k)) (at level 100, k at level 200, right associativity).
(** Keeps an error as a value. *)
Definition attempt {A} (p : par A) : par (option A) := fun s =>
  match p s with
  | Ok (r, s') => Ok (Some r, s')
  | Panic => Panic
  | Diverge => Diverge
  end.
(** [while]/[loop]: [inl] goes round again, [inr] leaves. *)
Fixpoint ploop {A B} (fuel : nat) (body : A -> par (A + B)) (a : A) : par B :=
  match fuel with
  | O => fun _ => Diverge
  | S fuel =>
      do r <- body a;
      match r with inl a => ploop fuel body a | inr b => ret b end
  end.

(** lib.rs:39. *)
Definition max_depth : nat := 64.
(** lib.rs:74-87. The depth is restored whatever [f] answers, so it is passed as an
    argument: [d] is the number of levels that may still be entered. *)
Definition recurse {A} (d : nat) (f : nat -> par A) : par A :=
  match d with O => fail | S d => f d end.

Definition one_of (x : str) (l : list str) : bool := bool_decide (x ∈ l).
(** [str::trim]. *)
Fixpoint trim_start (s : str) : str :=
  match s with c :: r => if is_white c then trim_start r else s | [] => [] end.
Definition trim (s : str) : str := rev (trim_start (rev (trim_start s))).

Section parser.
(** [f32::to_string] of a number, given by its text; [str::to_lowercase]. *)
Context (show lower : str -> str).
(** config.ignore_errors. *)
Context (ignore : bool).
(** The tokens of the text without the end, and the number of tokens after whose
    reading the text is used up: one more when the text ends in a comment. *)
Context (ts : list token) (drained : nat).

(** [tokens[k]], the end repeated. *)
Definition tok (k : nat) : token := default TEof (ts !! k).
(** Rounds of any loop of the parser. *)
Definition fuel : nat := (2 * length ts + 32)%nat.

(** * The cursor (tokenizer.rs:257-329) *)
Definition consume_any : par token := fun s =>
  Ok (Some (tok (ps_pos s)), mk_pst (S (ps_pos s)) (max (ps_len s) (S (ps_pos s))) (ps_allow s)).
Definition look (k : nat) : par token := fun s =>
  Ok (Some (tok (ps_pos s + k)), mk_pst (ps_pos s) (max (ps_len s) (ps_pos s + k + 1)) (ps_allow s)).
Definition unread : par unit := fun s =>
  Ok (Some tt, mk_pst (pred (ps_pos s)) (ps_len s) (ps_allow s)).
Definition eof : par bool := fun s =>
  Ok (Some ((drained <=? ps_len s)%nat && (ps_len s <=? ps_pos s)%nat), s).
Definition current : par token := fun s =>
  Ok (Some (match ps_pos s with O => TEof | S p => if (ps_len s <? S p)%nat then TEof else tok p end), s).
(** tokenizer.rs:277-290. *)
Definition look_sc (k : nat) : par token :=
  ploop fuel (fun i =>
    do t <- look i;
    match t with TWhitespace _ => ret (inl (S i)) | _ => ret (inr t) end) k.

(** * Reading single tokens (parser.rs) *)
(** parser.rs:27-37. *)
Definition expect (x : token) : par token :=
  do t <- consume_any; if bool_decide (t = x) then ret t else fail.
(** parser.rs:44-53, 55-64, 66-75, 77-86. *)
Definition consume_function : par str :=
  do t <- consume_any; match t with TFunction n => ret n | _ => fail end.
Definition consume_any_number : par str :=
  do t <- consume_any; match t with TNumber n => ret n | _ => fail end.
Definition consume_any_delim : par N :=
  do t <- consume_any; match t with TDelim c => ret c | _ => fail end.
Definition consume_any_string : par str :=
  do t <- consume_any; match t with TString v => ret v | _ => fail end.
(** parser.rs:88-97. *)
Definition consume_delim (c : N) : par token := expect (TDelim c).
(** parser.rs:99-113. *)
Definition skip_ws : par unit :=
  ploop fuel (fun _ =>
    do t <- consume_any;
    match t with TWhitespace _ => ret (inl tt) | _ => unread;; ret (inr tt) end) tt.
(** parser.rs:115-135. *)
Definition consume_ident_ci (x : str) : par str :=
  do t <- consume_any;
  match t with TIdent v => if same_ignoring_case v x then ret v else fail | _ => fail end.
Definition consume_ident (x : str) : par str :=
  do t <- consume_any;
  match t with TIdent v => if bool_decide (v = x) then ret v else fail | _ => fail end.
(** parser.rs:137-157. *)
Definition consume_any_ident : par str :=
  do t <- consume_any;
  match t with
  | TDelim 46 => do t <- consume_any; match t with TIdent v => ret (46 :: v) | _ => fail end
  | TIdent v => ret v
  | _ => fail
  end.
(** parser.rs:159-169 and tokenizer.rs:957-978. The text between two positions of the
    stream is that of the tokens fetched in between, those looked at included. *)
Definition consume_raw_condition : par (list token) := fun s =>
  let start := ps_len s in
  (do _ <- ploop fuel (fun _ =>
     do e <- eof;
     if e then ret (inr tt) else
     do t <- consume_any;
     match t with TLCurly => unread;; ret (inr tt) | _ => ret (inl tt) end) tt;
   fun s => Ok (Some (take (ps_len s - start) (drop start ts)), s)) s.

(** * Values *)
(** operator.rs:8-27. *)
Definition parse_operator : par node :=
  do t <- consume_any;
  match t with
  | TDelim c => if bool_decide (c ∈ [47; 42; 44; 58; 43; 45; 61]) then ret (NOperator [c]) else fail
  | _ => fail
  end.
(** url.rs:8-35. *)
Definition parse_url : par node :=
  do n <- consume_function;
  if same_ignoring_case n (txt "url") then
    do t <- consume_any;
    match t with TString u => expect TRParen;; ret (NUrl u) | _ => fail end
  else fail.

(** tokenizer.rs:188-225. *)
Definition show_token (t : token) : str :=
  match t with
  | TAt v | TUrl v | TBadUrl v | THash v | TIdent v | TFunction v | TString v | TBadString v
  | TRange v => v
  | TDelim c => [c]
  | TNumber n => show n
  | TPercentage n => show n ++ [37]
  | TDimension n u => show n ++ u
  | TCdc => txt "-->" | TCdo => txt "<!--" | TColon => [58] | TSemicolon => [59] | TComma => [44]
  | TLBracket => [91] | TRBracket => [93] | TLCurly => [123] | TRCurly => [125]
  | TLParen => [40] | TRParen => [41] | TWhitespace _ => [32] | TEof => txt "eof"
  end.
(** calc.rs:17-65; the [Raw] node is its text. *)
Fixpoint calc_expr (d : nat) : par str :=
  do e <- ploop fuel (fun e =>
    do t <- consume_any;
    match t with
    | TEof => ret (inr e)
    | TFunction n =>
        do i <- match d with O => fail | S d => calc_expr d end;
        ret (inl (e ++ n ++ [40] ++ i ++ [41]))
    | TLParen =>
        do i <- match d with O => fail | S d => calc_expr d end;
        ret (inl (e ++ [40] ++ i ++ [41]))
    | TRParen => ret (inr e)
    | _ => ret (inl (e ++ show_token t))
    end) [];
  ret (trim e).

(** function.rs:12-36; [args] reads the arguments one level deeper. *)
Definition push_allow : par unit := fun s => Ok (Some tt, mk_pst (ps_pos s) (ps_len s) (S (ps_allow s))).
Definition pop_allow : par unit := fun s => Ok (Some tt, mk_pst (ps_pos s) (ps_len s) (pred (ps_allow s))).
Definition function_with (args : par (list node)) : par node :=
  do n <- consume_function;
  do a <- (if bool_decide (n = txt "alpha")
           then push_allow;; do a <- attempt args; pop_allow;;
                match a with Some a => ret a | None => fail end
           else args);
  do e <- eof;
  (if e then ret tt else expect TRParen;; ret tt);;
  ret (NFunction n a).

Definition allowing : par bool := fun s => Ok (Some (negb (ps_allow s =? 0)%nat), s).
(** value.rs:98-155: a name. On an error the entry pushed at line 105 stays. *)
Definition value_name (v : str) (args : par (list node)) : par (option node) :=
  if same_ignoring_case v (txt "progid") then
    expect TColon;; consume_ident_ci (txt "dximagetransform");; consume_delim 46;;
    consume_ident_ci (txt "microsoft");; consume_delim 46;;
    push_allow;; do f <- function_with args; pop_allow;; ret (Some (NMSFunction f))
  else
    do al <- allowing;
    do eq <- (if al then do t <- look 0; ret (bool_decide (t = TDelim 61)) else ret false);
    if eq then
      consume_delim 61;;
      do t <- consume_any;
      match t with
      | TString d => ret (Some (NMSIdent v d))
      | TNumber n => ret (Some (NMSIdent v (show n)))
      | TIdent d => ret (Some (NMSIdent v d))
      | _ => fail
      end
    else if same_ignoring_case v (txt "u+") then fail
    else ret (Some (NIdent v)).
(** value.rs:42-176; [d] levels are left. *)
Definition value_with (d : nat) (args : par (list node)) : par (option node) :=
  do t <- consume_any;
  match t with
  | THash v => ret (Some (NHash v))
  | TComma => ret (Some NComma)
  | TLBracket => fail
  | TString v => ret (Some (NString v))
  | TDimension n u => ret (Some (NDimension n u))
  | TPercentage n => ret (Some (NPercentage n))
  | TNumber n => ret (Some (NNumber n))
  | TFunction n =>
      if same_ignoring_case n (txt "calc") then do e <- calc_expr d; ret (Some (NCalc e))
      else if same_ignoring_case n (txt "url") then unread;; do u <- parse_url; ret (Some u)
      else unread;; do f <- function_with args; ret (Some f)
  | TUrl v => ret (Some (NUrl v))
  | TRange v => ret (Some (NString v))
  | TIdent v => value_name v args
  | TDelim c =>
      if bool_decide (c ∈ [43; 45; 42; 47]) then unread;; do o <- parse_operator; ret (Some o)
      else if c =? 35 then fail
      else unread;; ret None
  | _ => unread;; ret None
  end.
(** value.rs:9-35. *)
Definition sequence_with (value : par (option node)) : par (list node) :=
  ploop fuel (fun l =>
    do e <- eof;
    if e then ret (inr l) else
    do t <- consume_any;
    (match t with TWhitespace _ => ret tt | _ => unread end);;
    do v <- value;
    match v with Some v => ret (inl (l ++ [v])) | None => ret (inr l) end) [].
Fixpoint value_sequence (d : nat) : par (list node) :=
  sequence_with (value_with d (match d with O => fail | S d => value_sequence d end)).
(** function.rs:12-36. *)
Definition parse_function (d : nat) : par node := function_with (recurse d value_sequence).

(** * Selectors *)
(** selector.rs:9-36. *)
Definition attribute_operator : par str :=
  do c <- consume_any_delim;
  if bool_decide (c ∈ [61; 126; 124; 94; 36; 42]) then
    if c =? 61 then ret [61] else consume_delim 61;; ret [c; 61]
  else unread;; fail.
(** selector.rs:38-48. *)
Definition class_selector : par node :=
  expect (TDelim 46);; do v <- consume_any_ident; ret (NClass v).
(** selector.rs:50-58. *)
Definition nesting_selector : par node := expect (TDelim 38);; ret NNesting.
(** selector.rs:60-76. *)
Definition ident_or_asterisk : par str :=
  do t <- look 0;
  match t with
  | TIdent v => consume_any;; ret v
  | TDelim 42 => consume_any;; ret [42]
  | _ => fail
  end.
(** [str::split_once('|')]. *)
Fixpoint split_bar (s : str) : option (str * str) :=
  match s with
  | [] => None
  | 124 :: r => Some ([], r)
  | c :: r => match split_bar r with Some (a, b) => Some (c :: a, b) | None => None end
  end.
(** selector.rs:78-112. *)
Definition type_selector : par node :=
  do t <- current;
  do v <- (if bool_decide (t = TDelim 124) then consume_any;; do v <- ident_or_asterisk; ret (124 :: v)
           else
             do v <- ident_or_asterisk;
             do t <- current;
             if bool_decide (t = TDelim 124) then consume_any;; do w <- ident_or_asterisk; ret (v ++ 124 :: w)
             else ret v);
  ret (match split_bar v with Some (a, b) => NType (Some a) b | None => NType None v end).
(** selector.rs:137-148: the value of an attribute. *)
Definition attribute_value : par str :=
  do t <- look 0;
  match t with TString _ => consume_any_string | TIdent _ => consume_any_ident | _ => fail end.
(** selector.rs:114-171. *)
Definition attribute_selector : par node :=
  expect TLBracket;; skip_ws;;
  do name <- consume_any_ident; skip_ws;;
  do t <- look 0;
  do r <- (if bool_decide (t = TRBracket) then ret (None, [], [])
           else
             do r <- match t with
                     | TIdent _ => ret (None, [])
                     | _ => do op <- attribute_operator; skip_ws;;
                            do v <- attribute_value; ret (Some op, v)
                     end;
             skip_ws;;
             do t <- look 0;
             do f <- match t with TIdent _ => do f <- consume_any_ident; skip_ws;; ret f | _ => ret [] end;
             ret (r.1, r.2, f));
  expect TRBracket;; skip_ws;;
  ret (NAttr name r.1.1 r.1.2 r.2).
(** selector.rs:173-192. *)
Definition id_selector : par node :=
  expect (TDelim 35);; do t <- consume_any; match t with TIdent v => ret (NId v) | _ => fail end.
(** combinator.rs:8-40. *)
Definition parse_combinator : par node :=
  do t <- consume_any;
  do v <- match t with
          | TWhitespace _ => ret [32]
          | TDelim 43 => ret [43]
          | TDelim 62 => ret [62]
          | TDelim 126 => ret [126]
          | TDelim 47 =>
              do a <- look 1;
              do b <- look 2;
              if bool_decide (a = TIdent (txt "deep")) && bool_decide (b = TDelim 47)
              then ret (txt "/deep/") else fail
          | _ => fail
          end;
  skip_ws;; ret (NCombinator v).

(** [char::to_lowercase] gives [n] for [n] and [N] only; [-] for itself only. *)
Definition is_n (c : N) : bool := (c =? 110) || (c =? 78).
(** anplusb.rs:48-58, with [c] the letter n (first argument [true]) or a hyphen. *)
Definition char_is (n : bool) (v : str) (i : nat) : bool :=
  match v !! i with Some c => if n then is_n c else c =? 45 | None => false end.
(** anplusb.rs:25-46 with no sign allowed: an error, or an answer nobody looks at. *)
Definition check_integer (v : str) (i : nat) : par unit :=
  match v !! i with Some c => if (c =? 43) || (c =? 45) then fail else ret tt | None => ret tt end.
(** anplusb.rs:60-108. *)
Definition anplusb_b : par str :=
  skip_ws;;
  do t <- look 0;
  match t with
  | TEof | TSemicolon | TRCurly | TRParen => ret (txt "0")
  | _ =>
      do neg <- match t with
                | TDelim 45 => consume_delim 45;; ret true
                | TDelim 43 => consume_delim 43;; ret false
                | TNumber _ => ret false
                | _ => fail
                end;
      skip_ws;;
      do n <- consume_any_number;
      ret (if neg : bool then 45 :: show n else show n)
  end.
(** anplusb.rs:110-142 and 144-176; [i] is where the letter n is expected. The lengths
    are those in bytes, but a name with other characters at these places is refused. *)
Definition name_block (v : str) (i : nat) (a : str) : par (str * str) :=
  if char_is true v i then
    if (length v =? i + 1)%nat then consume_any;; do b <- anplusb_b; ret (a, b)
    else if char_is false v (i + 1) then
      if (length v =? i + 2)%nat then
        consume_any;; skip_ws;; check_integer v 0;;
        do n <- consume_any_number; ret (a, 45 :: show n)
      else check_integer v (i + 2);; ret (a, txt "foobar")
    else fail
  else fail.
(** anplusb.rs:7-23. *)
Definition dimension_block (n unit : str) : par (str * str) :=
  match unit with
  | c :: r =>
      if is_n c then
        match r with [] => do b <- anplusb_b; ret (show n, b) | _ => ret (show n, r) end
      else fail
  | [] => fail
  end.
Definition without_plus (v : str) : str := match v with 43 :: r => r | _ => v end.
(** anplusb.rs:178-225. The case of a leading [+] is left out: the only caller puts back
    a name or a dimension. *)
Definition parse_anplusb : par node :=
  do t <- consume_any;
  do (a, b) <- match t with
          | TNumber n => ret (txt "1", show n)
          | TIdent v =>
              unread;;
              match v with 45 :: _ => name_block v 1 (txt "-1") | _ => name_block v 0 (txt "1") end
          | TDimension n u => dimension_block n u
          | _ => unread;; fail
          end;
  ret (NAnPlusB (without_plus a) (without_plus b)).

(** selector_list.rs:6-25. *)
Definition selector_list_with (selector : par node) : par node :=
  do l <- ploop fuel (fun l =>
    do e <- eof;
    if e then ret (inr l) else
    do x <- selector;
    do t <- consume_any;
    match t with TComma => ret (inl (l ++ [x])) | _ => unread;; ret (inr (l ++ [x])) end) [];
  ret (NSelectorList l).
(** pseudo.rs:19-27. *)
Definition ident_list : par node := do v <- consume_any_ident; ret (NIdent v).
(** pseudo.rs:30-47. *)
Definition ident_sequence : par node :=
  do l <- ploop fuel (fun l =>
    skip_ws;;
    do t <- look 0;
    match t with TIdent _ => do v <- consume_any_ident; ret (inl (l ++ [NIdent v])) | _ => ret (inr l) end) [];
  ret (NValue l).
(** pseudo.rs:49-102. *)
Definition pseudo_nth (selector : par node) : par node :=
  skip_ws;;
  do t <- consume_any;
  do nth <- match t with
            | TIdent v =>
                if bool_decide (v = txt "odd") then ret (NAnPlusB (txt "2") (txt "1"))
                else if bool_decide (v = txt "even") then ret (NAnPlusB (txt "2") (txt "0"))
                else unread;; parse_anplusb
            | TDimension _ _ => unread;; parse_anplusb
            | TNumber n => ret (NNumber n)
            | _ => look 0;; fail
            end;
  skip_ws;;
  do t <- look 0;
  do sel <- match t with
            | TIdent v =>
                consume_any;;
                if bool_decide (v = txt "of") then do l <- selector_list_with selector; ret (Some l) else ret None
            | _ => ret None
            end;
  ret (NNth nth sel).
(** pseudo.rs:110-136; [selector] reads a selector at the level of the function's body. *)
Definition pseudo_inner (selector : par node) (name : str) : par node :=
  if one_of name [txt "dir"; txt "lang"; txt "highlight"] then ident_list
  else if one_of name [txt "has"; txt "matches"; txt "is"; txt "-moz-any"; txt "-webkit-any"; txt "where"; txt "not"]
  then selector_list_with selector
  else if one_of name [txt "nth-child"; txt "nth-last-child"; txt "nth-last-of-type"; txt "nth-of-type"]
  then pseudo_nth selector
  else if one_of name [txt "slotted"; txt "host"; txt "host-context"] then selector
  else if one_of name [txt "part"] then ident_sequence
  else fail.
(** selector.rs:194-223. *)
Definition pseudo_element (pseudo : str -> par node) : par node :=
  expect TColon;; expect TColon;;
  do t <- consume_any;
  match t with
  | TIdent v => ret (NPseudoElement v)
  | TFunction n => pseudo (lower n);; expect TRParen;; ret (NPseudoElement n)
  | _ => fail
  end.
(** selector.rs:225-257. *)
Definition pseudo_selector (pseudo : str -> par node) : par node :=
  expect TColon;;
  do t <- consume_any;
  match t with
  | TIdent v => ret (NPseudoClass (NIdent v))
  | TFunction n => do a <- pseudo (lower n); expect TRParen;; ret (NPseudoClass (NFunction (lower n) [a]))
  | _ => fail
  end.
(** selector.rs:293-350: the node that a token begins, if any; [space] is cleared by a
    combinator. *)
Definition simple_selector (pseudo : str -> par node) (t : token) : par (option node) :=
  let back (p : par node) := unread;; do x <- p; ret (Some x) in
  match t with
  | TLBracket => back attribute_selector
  | THash v => ret (Some (NId v))
  | TColon =>
      do n <- look 0;
      if bool_decide (n = TColon) then back (pseudo_element pseudo) else back (pseudo_selector pseudo)
  | TIdent v => ret (Some (NIdent v))
  | TNumber n => ret (Some (NNumber n))
  | TPercentage n => ret (Some (NPercentage n))
  | TDimension n u => ret (Some (NDimension n u))
  | TDelim c =>
      if bool_decide (c ∈ [43; 62; 126; 47]) then back parse_combinator
      else if c =? 46 then back class_selector
      else if bool_decide (c ∈ [124; 42]) then back type_selector
      else if c =? 35 then back id_selector
      else if c =? 38 then back nesting_selector
      else unread;; ret None
  | TComma => ret (Some NComma)
  | _ => unread;; ret None
  end.
Definition is_combinator (t : token) : bool :=
  match t with TDelim c => bool_decide (c ∈ [43; 62; 126; 47]) | _ => false end.
(** selector.rs:259-364. The loop's state: the children, [space] and [skip_space]. *)
Definition selector_with (pseudo : str -> par node) : par node :=
  do l <- ploop fuel (fun '(l, space, skip) =>
    do e <- eof;
    if e then ret (inr l) else
    do t <- consume_any;
    match t with
    | TWhitespace _ => ret (inl (l, if skip : bool then space else true, skip))
    | _ =>
        do x <- simple_selector pseudo t;
        match x with
        | None => ret (inr l)
        | Some x =>
            let space := space && negb (is_combinator t) in
            ret (inl (l ++ (if space : bool then [NCombinator [32]] else []) ++ [x], false,
                      match t with TComma => true | _ => false end))
        end
    end) ([], false, false);
  ret (NSelector l).
Fixpoint selector (d : nat) : par node :=
  selector_with (match d with O => fun _ => fail | S d => pseudo_inner (selector d) end).
Definition selector_list (d : nat) : par node := selector_list_with (selector d).

(** * Blocks *)
Definition opens (t : token) : bool := match t with TLParen | TLBracket | TFunction _ => true | _ => false end.
Definition closes (t : token) : bool := match t with TRParen | TRBracket => true | _ => false end.
(** block.rs:25-41. *)
Definition starts_nested_rule : par bool :=
  ploop fuel (fun '(depth, i) =>
    do t <- look i;
    if opens t then ret (inl (S depth, S i))
    else if closes t then ret (inl (pred depth, S i))
    else match t with
    | TLCurly => if (depth =? 0)%nat then ret (inr true) else ret (inl (depth, S i))
    | TSemicolon | TRCurly => if (depth =? 0)%nat then ret (inr false) else ret (inl (depth, S i))
    | TEof => ret (inr false)
    | _ => ret (inl (depth, S i))
    end) (0%nat, 0%nat).
(** block.rs:61-95. *)
Definition until_rule_end : par unit :=
  ploop fuel (fun depth =>
    do t <- consume_any;
    if opens t then ret (inl (S depth))
    else if closes t then ret (inl (pred depth))
    else match t with
    | TLCurly => ret (inl (S depth))
    | TRCurly =>
        if (depth =? 0)%nat then unread;; ret (inr tt)
        else if (pred depth =? 0)%nat then ret (inr tt) else ret (inl (pred depth))
    | TSemicolon => if (depth =? 0)%nat then ret (inr tt) else ret (inl depth)
    | TEof => ret (inr tt)
    | _ => ret (inl depth)
    end) 0%nat.
(** block.rs:101-122. *)
Definition skip_to_declaration_end : par unit :=
  ploop fuel (fun depth =>
    do t <- look 0;
    if opens t then consume_any;; ret (inl (S depth))
    else if closes t then consume_any;; ret (inl (pred depth))
    else match t with
    | TEof => ret (inr tt)
    | TSemicolon =>
        if (depth =? 0)%nat then consume_any;; ret (inr tt) else consume_any;; ret (inl depth)
    | TRCurly => if (depth =? 0)%nat then ret (inr tt) else consume_any;; ret (inl (pred depth))
    | TLCurly => consume_any;; ret (inl (S depth))
    | _ => consume_any;; ret (inl depth)
    end) 0%nat.
(** declaration.rs:107-124. *)
Definition skip_custom_property_remainder : par unit :=
  ploop fuel (fun depth =>
    do t <- look 0;
    if opens t then consume_any;; ret (inl (S depth))
    else if closes t then consume_any;; ret (inl (pred depth))
    else match t with
    | TEof => ret (inr tt)
    | TSemicolon => if (depth =? 0)%nat then ret (inr tt) else consume_any;; ret (inl depth)
    | TRCurly => if (depth =? 0)%nat then ret (inr tt) else consume_any;; ret (inl (pred depth))
    | TLCurly => consume_any;; ret (inl (S depth))
    | _ => consume_any;; ret (inl depth)
    end) 0%nat.
(** declaration.rs:126-149. *)
Definition until_declaration_end : par unit :=
  ploop fuel (fun _ =>
    do t <- consume_any;
    match t with
    | TSemicolon | TRCurly => unread;; ret (inr tt)
    | TEof => ret (inr tt)
    | _ => ret (inl tt)
    end) tt.
(** declaration.rs:51-101. *)
Definition declaration_internal (d : nat) : par node :=
  do property <- consume_any_ident;
  let custom := prefixb [45; 45] property in
  skip_ws;; expect TColon;;
  (if custom then ret tt else skip_ws);;
  skip_ws;;
  do v <- value_sequence d;
  (if custom then skip_custom_property_remainder
   else match v with [] => fail | _ => ret tt end);;
  do t <- consume_any;
  if bool_decide (t = TDelim 33) then
    consume_ident (txt "important");; skip_ws;; ret (NDecl property v true)
  else unread;; ret (NDecl property v false).
(** declaration.rs:35-49: without [ignore_errors] the error is dropped all the same. *)
Definition parse_declaration (d : nat) : par (option node) :=
  do r <- attempt (declaration_internal d);
  match r with
  | Some x => ret (Some x)
  | None => if ignore then until_declaration_end;; ret None else ret None
  end.
(** rule.rs:14-22 and at_rule.rs:172-180. *)
Definition recover (p : par node) : par (option node) :=
  do r <- attempt p;
  match r with
  | Some x => ret (Some x)
  | None => if ignore then until_rule_end;; ret None else fail
  end.
(** rule.rs:25-44; [block] is [parse_block]. *)
Definition rule_with (d : nat) (block : mode -> par node) : par (option node) :=
  recover (
    do prelude <- selector_list d;
    expect TLCurly;; skip_ws;;
    do b <- block StyleBlock;
    expect TRCurly;;
    ret (NRule prelude b)).
(** block.rs:130-215. The loop's state: the children and [semicolon_seperated]. *)
Definition block_with (at_rule : bool -> par (option node)) (rule declaration : par (option node))
    (m : mode) : par node :=
  let add (l : list node) (x : option node) := match x with Some x => l ++ [x] | None => l end in
  ploop fuel (fun '(l, sep) =>
    do e <- eof;
    if e then ret (inr (NBlock l)) else
    do t <- consume_any;
    match t with
    | TRCurly => unread;; ret (inr (NBlock l))
    | TWhitespace _ => ret (inl (l, sep))
    | TAt _ =>
        unread;;
        do x <- at_rule (match m with StyleBlock => true | RegularBlock => false end);
        ret (inl (add l x, false))
    | TSemicolon => ret (inl (l, true))
    | _ =>
        match m with
        | StyleBlock =>
            if sep : bool then
              unread;;
              do n <- starts_nested_rule;
              if n : bool then do x <- rule; ret (inl (add l x, true))
              else do x <- declaration; ret (inl (add l x, false))
            else if ignore then unread;; skip_to_declaration_end;; ret (inl (l, true))
            else fail
        | RegularBlock => unread;; do x <- rule; ret (inl (add l x, false))
        end
    end) ([], true).

(** * Preludes of at-rules *)
(** media.rs:8-27. *)
Definition media_term (d : nat) : par node :=
  skip_ws;;
  do t <- consume_any;
  match t with
  | TIdent v => ret (NIdent v)
  | TNumber n => ret (NNumber n)
  | TDimension n u => ret (NDimension n u)
  | TFunction _ => unread;; parse_function d
  | _ => fail
  end.
(** media.rs:29-51. *)
Definition media_comparison : par node :=
  skip_ws;;
  do c <- consume_any_delim;
  if c =? 61 then ret (NOperator [61])
  else if bool_decide (c ∈ [62; 60]) then
    skip_ws;;
    do t <- look 0;
    if bool_decide (t = TDelim 61) then consume_any;; ret (NOperator [c; 61]) else ret (NOperator [c])
  else fail.
(** media.rs:99-114: the first value of a feature. *)
Definition feature_value (d : nat) : par node :=
  do t <- consume_any;
  match t with
  | TNumber n => ret (NNumber n)
  | TDimension n u => ret (NDimension n u)
  | TIdent v => ret (NIdent v)
  | TFunction _ => unread;; parse_function d
  | _ => fail
  end.
(** media.rs:76-141. *)
Definition media_feature (d : nat) : par node :=
  expect TLParen;; skip_ws;;
  do name <- consume_any_ident; skip_ws;;
  do t <- consume_any; skip_ws;;
  if bool_decide (t = TRParen) then ret (NFeature name None)
  else if bool_decide (t = TColon) then
    skip_ws;;
    do first <- feature_value d; skip_ws;;
    do t <- look 0;
    do v <- (if bool_decide (t = TDelim 47)
             then consume_any;; do second <- media_term d; ret (NValue [first; NOperator [47]; second])
             else ret first);
    skip_ws;;
    do e <- eof;
    (if e then ret tt else expect TRParen;; ret tt);;
    ret (NFeature name (Some v))
  else fail.
(** media.rs:143-182. *)
Definition media_range (d : nat) : par node :=
  skip_ws;; expect TLParen;;
  do lhs <- media_term d;
  do comparison <- media_comparison;
  do middle <- media_term d;
  skip_ws;;
  do t <- look_sc 0;
  do rhs <- match t with
              | TDelim c =>
                  if bool_decide (c ∈ [60; 62; 61])
                  then do c <- media_comparison; do r <- media_term d; ret (Some (c, r))
                  else ret None
              | _ => ret None
              end;
  skip_ws;; expect TRParen;;
  ret (NRange lhs comparison middle rhs).
(** media.rs:184-196. *)
Definition feature_or_range (d : nat) : par node :=
  do t <- look_sc 1;
  do n <- look_sc 2;
  match t with
  | TIdent _ => if bool_decide (n = TColon) || bool_decide (n = TRParen) then media_feature d else media_range d
  | _ => media_range d
  end.
(** condition.rs:8-67 for media and container queries. The call at line 44 does not go
    through [recurse]; [calls] bounds how deep such calls go. *)
Fixpoint condition (calls d : nat) : par node :=
  match calls with
  | O => fun _ => Diverge
  | S calls =>
      ploop fuel (fun l =>
        do t <- consume_any;
        match t with
        | TWhitespace _ => ret (inl l)
        | TUrl u => ret (inl (l ++ [NUrl u]))
        | TIdent v => ret (inl (l ++ [NIdent v]))
        | TLParen =>
            unread;;
            do term <- attempt (feature_or_range d);
            match term with
            | Some x => ret (inl (l ++ [x]))
            | None => expect TRParen;; do r <- condition calls d; expect TLParen;; ret (inr r)
            end
        | TFunction _ => ret (inl (l ++ [NFeatureFunction]))
        | _ => unread;; match l with [] => fail | _ => ret (inr (NCondition l)) end
        end) []
  end.
(** media.rs:198-274. *)
Definition media_query (d : nat) : par node :=
  skip_ws;;
  do t <- consume_any;
  do n <- look_sc 0;
  match t, bool_decide (n = TLParen) with
  | TIdent ident, false =>
      do (modifier, media) <-
        (if one_of (lower ident) [txt "not"; txt "only"]
         then skip_ws;; do m <- consume_any_ident; ret (ident, m) else ret ([], ident));
      skip_ws;;
      do n <- look_sc 0;
      match n with
      | TIdent a =>
          if bool_decide (a = txt "and")
          then consume_ident (txt "and");; do c <- condition fuel d; ret (NMediaQuery modifier media (Some c))
          else fail
      | TLCurly | TSemicolon | TComma => ret (NMediaQuery modifier media None)
      | _ => fail
      end
  | (TIdent _ | TLParen | TFunction _), _ =>
      unread;; do c <- condition fuel d; ret (NMediaQuery [] [] (Some c))
  | (TLCurly | TSemicolon), _ => ret (NMediaQuery [] [] None)
  | _, _ => fail
  end.
(** media.rs:53-74; nest.rs:6-27 and page.rs:6-27 with another element. *)
Definition comma_list (p : par node) : par (list node) :=
  ploop fuel (fun l =>
    do e <- eof;
    if e then ret (inr l) else
    do x <- p;
    skip_ws;;
    do t <- consume_any;
    match t with TComma => ret (inl (l ++ [x])) | _ => unread;; ret (inr (l ++ [x])) end) [].
(** container.rs:7-27. *)
Definition container_prelude (d : nat) : par node :=
  do t <- consume_any;
  do l <- match t with
          | TIdent v =>
              if one_of v [txt "none"; txt "and"; txt "not"; txt "or"] then ret [] else ret [NIdent v]
          | _ => unread;; ret []
          end;
  do c <- condition fuel d;
  ret (NContainer (l ++ [c])).
(** at_rule.rs:50-77. *)
Definition custom_selector_prelude (d : nat) : par node :=
  expect TColon;;
  do name <- consume_any_ident; skip_ws;;
  do l <- selector_list d;
  ret (NValue [NIdent (58 :: name); l]).
(** media.rs:286-302. *)
Definition custom_media_prelude (d : nat) : par node :=
  do name <- consume_any_ident; skip_ws;;
  do l <- comma_list (media_query d);
  ret (NValue [NIdent name; NMediaQueryList l]).
(** import.rs:7-60. *)
Definition import_prelude (d : nat) : par node :=
  do t <- consume_any;
  do x <- match t with
          | TString v => ret (NString v)
          | TUrl u => ret (NUrl u)
          | TFunction n => if same_ignoring_case n (txt "url") then unread;; parse_url else fail
          | _ => fail
          end;
  skip_ws;;
  do t <- look_sc 0;
  do layer <- match t with
              | TIdent v => if same_ignoring_case v (txt "layer") then ret [NIdent v] else ret []
              | TFunction n =>
                  if same_ignoring_case n (txt "layer") then do f <- parse_function d; ret [f] else ret []
              | _ => ret []
              end;
  skip_ws;;
  do t <- look_sc 0;
  do supports <- match t with
                 | TFunction n =>
                     if same_ignoring_case n (txt "supports") then do f <- parse_function d; ret [f] else ret []
                 | _ => ret []
                 end;
  skip_ws;;
  ret (NImportList (x :: layer ++ supports)).
(** layer.rs:9-35. *)
Definition layer_name : par node :=
  do first <- consume_any_ident;
  do name <- ploop fuel (fun name =>
    do t <- look 0;
    if bool_decide (t = TDelim 46) then
      consume_any;;
      do t <- consume_any;
      match t with TIdent p => ret (inl (name ++ 46 :: p)) | _ => unread;; ret (inr name) end
    else ret (inr name)) first;
  ret (NIdent name).
(** layer.rs:37-68. *)
Definition layer_prelude : par node :=
  skip_ws;;
  do l <- ploop fuel (fun l =>
    do e <- eof;
    if e then ret (inr l) else
    do t <- look 0;
    match t with
    | TLCurly | TSemicolon | TEof => ret (inr l)
    | _ =>
        do x <- layer_name;
        skip_ws;;
        do t <- consume_any;
        match t with
        | TComma => skip_ws;; ret (inl (l ++ [x]))
        | _ => unread;; ret (inr (l ++ [x]))
        end
    end) [];
  ret (NLayerList l).
(** scope.rs:7-37. *)
Definition scope_prelude (d : nat) : par node :=
  skip_ws;;
  do t <- consume_any;
  match t with
  | TLParen =>
      skip_ws;; do r <- selector_list d; skip_ws;; expect TRParen;; ret (NScope (Some r) None)
  | TIdent _ =>
      skip_ws;; consume_ident (txt "to");; skip_ws;; expect TRParen;; skip_ws;;
      do l <- selector_list d; skip_ws;; expect TRParen;; ret (NScope None (Some l))
  | _ => ret (NScope None None)
  end.
(** at_rule.rs:79-90. *)
Definition sequence_prelude (d : nat) : par node :=
  look 0;; do l <- value_sequence d; ret (NContainer l).
(** at_rule.rs:92-123. *)
Definition at_rule_prelude (d : nat) (name : str) : par (option node) :=
  let some (p : par node) := do x <- p; ret (Some x) in
  let l := lower name in
  skip_ws;;
  do x <- (if bool_decide (l = txt "container") then some (container_prelude d)
           else if bool_decide (l = txt "custom-media") then some (custom_media_prelude d)
           else if bool_decide (l = txt "custom-selector") then some (custom_selector_prelude d)
           else if one_of l [txt "font-face"; txt "starting-style"] then ret None
           else if bool_decide (l = txt "import") then some (import_prelude d)
           else if bool_decide (l = txt "layer") then some layer_prelude
           else if bool_decide (l = txt "media")
           then some (do q <- comma_list (media_query d); ret (NMediaQueryList q))
           else if one_of l [txt "nest"; txt "page"]
           then some (do q <- comma_list (selector d); ret (NSelectorList q))
           else if bool_decide (l = txt "scope") then some (scope_prelude d)
           else if bool_decide (l = txt "supports")
           then some (do c <- consume_raw_condition; ret (NSupports c))
           else some (sequence_prelude d));
  skip_ws;;
  do t <- look 0;
  do e <- eof;
  if negb e && negb (bool_decide (t = TSemicolon)) && negb (bool_decide (t = TLCurly)) then fail else ret x.
(** at_rule.rs:20-44: the mode is always the regular one. *)
Definition declaration_block_at_rule : par mode :=
  ploop fuel (fun i =>
    do t <- look i;
    match t with
    | TRCurly | TLCurly | TEof | TAt _ => ret (inr RegularBlock)
    | _ => ret (inl (S i))
    end) 1%nat.
(** at_rule.rs:125-164. *)
Definition at_rule_block (block : mode -> par node) (name : str) (is_declaration : bool) : par (option node) :=
  do t <- consume_any;
  if bool_decide (t = TLCurly) then
    let m := if is_declaration then StyleBlock else RegularBlock in
    let l := lower name in
    if bool_decide (l = txt "import") then ret None
    else
      do b <- (if one_of l [txt "container"; txt "media"; txt "scope"; txt "starting-style"; txt "supports"]
               then block m
               else if one_of l [txt "font-face"; txt "nest"; txt "page"] then block StyleBlock
               else if bool_decide (l = txt "layer") then block RegularBlock
               else do m <- declaration_block_at_rule; block m);
      expect TRCurly;; ret (Some b)
  else ret None.
(** at_rule.rs:169-208. *)
Definition at_rule_with (d : nat) (block : mode -> par node) (is_declaration : bool) : par (option node) :=
  recover (
    do t <- consume_any;
    match t with
    | TAt name =>
        skip_ws;;
        do prelude <- at_rule_prelude d name; skip_ws;;
        do b <- at_rule_block block name is_declaration; skip_ws;;
        ret (NAtRule name prelude b)
    | _ => fail
    end).

(** block.rs:126-128: [block d m] is [parse_block] with [d] levels left. *)
Fixpoint block (d : nat) (m : mode) : par node :=
  match d with
  | O => fail
  | S d => block_with (at_rule_with d (block d)) (rule_with d (block d)) (parse_declaration d) m
  end.

(** * The sheet (stylesheet.rs:7-59) *)
Definition stylesheet : par (option node) :=
  let add (l : list node) (x : option node) := match x with Some x => l ++ [x] | None => l end in
  do l <- ploop fuel (fun l =>
    do e <- eof;
    if e then ret (inr l) else
    do t <- consume_any;
    match t with
    | TEof | TWhitespace _ => ret (inl l)
    | TCdo => ret (inl (l ++ [NCdo]))
    | TCdc => ret (inl (l ++ [NCdc]))
    | TAt _ => unread;; do x <- at_rule_with max_depth (block max_depth) false; ret (inl (add l x))
    | _ => unread;; do x <- rule_with max_depth (block max_depth); ret (inl (add l x))
    end) [];
  ret (match l with [] => None | _ => Some (NSheet l) end).

(** A new parser (lib.rs:58-67). *)
Definition start : pst := mk_pst 0 0 0.
End parser.

(** * The style sheet (ast.rs) *)

(** stylesheet.rs:414-437 [CssValue], as far as the conversion makes them: a number as
    its text, a colour written with [#] by its digits, any other colour as [VColor]. *)
Inductive cval :=
| VString (v : str) | VZero | VNumber (n : str) | VPercentage (n : str) | VUnit (n unit : str)
| VHash (v : str) | VColor (c : N) | VFunction (name : str) (args : list cval) | VComma
| VList (l : list cval).
Record css_declaration := mk_decl { cd_property : str; cd_value : cval; cd_important : bool }.
Record css_rule := mk_rule { cr_selector : list (list part); cr_declarations : list css_declaration }.

Section convert.
Context (show : str -> str).
(** Is a number, given by its text, zero? *)
Context (is_zero : str -> bool).
(** stylesheet.rs:586-590: the colour of a colour function. *)
Context (colour : str -> list cval -> option N).

Definition join (sep : str) (l : list str) : str :=
  match l with [] => [] | x :: l => x ++ concat (map (fun y => sep ++ y) l) end.
(** node.rs:424-487. *)
Fixpoint show_node (x : node) : str :=
  match x with
  | NSelectorList l => join [44; 32] (map show_node l)
  | NSelector l => concat (map show_node l)
  | NId v | NIdent v | NString v | NUrl v | NOperator v | NCombinator v => v
  | NNumber n => show n
  | NPercentage n => show n ++ [37]
  | NDimension n u => show n ++ u
  | NHash v => 35 :: v
  | NFunction n a => n ++ [40] ++ join [44; 32] (map show_node a) ++ [41]
  | NAttr n m v f => [91] ++ n ++ default [] m ++ v ++ f ++ [93]
  | NPseudoClass v => 58 :: show_node v
  | NPseudoElement v => 58 :: 58 :: v
  | NClass v => 46 :: v
  | NType ns v => match ns with Some n => n ++ [124] | None => [] end ++ v
  | NNth n s => show_node n ++ match s with Some s => show_node s | None => [] end
  | NAnPlusB a b => a ++ txt "n+" ++ b
  | NCalc e => txt "calc(" ++ e ++ [41]
  | _ => []
  end.

(** stylesheet.rs:543-600; [None] is an error. *)
Fixpoint value_of (x : node) : option cval :=
  match x with
  | NIdent v | NString v | NOperator v => Some (VString v)
  | NNumber n => Some (if is_zero n then VZero else VNumber n)
  | NPercentage n => Some (VPercentage n)
  | NDimension n u => Some (VUnit n u)
  | NHash v => Some (VHash v)
  | NCalc e => Some (VFunction (txt "calc") [VString e])
  | NUrl u => Some (VFunction (txt "url") [VString u])
  | NFunction n a =>
      (fix go l acc := match l with
       | [] => Some (match colour n acc with Some c => VColor c | None => VFunction n acc end)
       | y :: l => match value_of y with Some v => go l (acc ++ [v]) | None => None end
       end) a []
  | NComma => Some VComma
  | _ => None
  end.

(** ast.rs:88-100. *)
Definition combinator_of (v : str) : option combinator :=
  if bool_decide (v = [62]) then Some Child
  else if bool_decide (v = [43]) then Some NextSibling
  else if bool_decide (v = [126]) then Some SubsequentSibling
  else if bool_decide (v = [32]) then Some Descendant
  else if bool_decide (v = [124; 124]) then Some Column
  else if bool_decide (v = [124]) then Some Namespace
  else None.
(** ast.rs:112-134. *)
Definition matcher_of (m : option str) : matcher :=
  match m with
  | None => MNone
  | Some v =>
      if bool_decide (v = [61]) then MEquals
      else if bool_decide (v = [126; 61]) then MIncludes
      else if bool_decide (v = [124; 61]) then MDash
      else if bool_decide (v = [94; 61]) then MPrefix
      else if bool_decide (v = [36; 61]) then MSuffix
      else if bool_decide (v = [42; 61]) then MSubstring
      else MEquals
  end.
(** ast.rs:85-152 without the comma. *)
Definition part_of (x : node) : option part :=
  match x with
  | NIdent v => Some (PType v)
  | NClass v => Some (PClass v)
  | NCombinator v => match combinator_of v with Some c => Some (PCombinator c) | None => None end
  | NId v => Some (PId v)
  | NType _ v => Some (if bool_decide (v = [42]) then PUniversal else PType v)
  | NPseudoClass v => Some (PPseudoClass (show_node v))
  | NPseudoElement v => Some (PPseudoElement v)
  | NAttr n m v f => Some (PAttribute (mk_attr n (matcher_of m) v (same_ignoring_case f (txt "i"))))
  | _ => None
  end.
(** ast.rs:84-158: the groups of parts; a comma opens the next group. *)
Fixpoint groups_of (l : list node) (done : list (list part)) (cur : list part) : option (list (list part)) :=
  match l with
  | [] => Some (done ++ [cur])
  | NComma :: l => groups_of l (done ++ [cur]) []
  | x :: l => match part_of x with Some p => groups_of l done (cur ++ [p]) | None => None end
  end.
(** ast.rs:79-159: the selectors of the list share one sequence of groups. *)
Definition selector_nodes (x : node) : list node := match x with NSelector l => l | _ => [] end.
(** ast.rs:184-191. *)
Definition whole_value (l : list cval) : cval := match l with [v] => v | _ => VList l end.
(** ast.rs:167-198: nested rules are passed over. *)
Fixpoint declarations_of (l : list node) : list css_declaration :=
  match l with
  | [] => []
  | NDecl p v i :: l =>
      match omap value_of v with
      | [] => declarations_of l
      | vs => mk_decl p (whole_value vs) i :: declarations_of l
      end
  | _ :: l => declarations_of l
  end.
(** ast.rs:64-202: [None] is an error, [Some None] no rule. *)
Definition collect_rule (x : node) : option (option css_rule) :=
  match x with
  | NRule (NSelectorList sels) b =>
      match groups_of (concat (map selector_nodes sels)) [] [] with
      | None => None
      | Some g => match b with NBlock l => Some (Some (mk_rule g (declarations_of l))) | _ => Some None end
      end
  | _ => Some None
  end.
(** ast.rs:204-236, without the faces of [@font-face]. *)
Fixpoint collect_node (x : node) : option (list css_rule) :=
  match x with
  | NRule _ _ => match collect_rule x with None => None | Some None => Some [] | Some (Some r) => Some [r] end
  | NAtRule n _ (Some (NBlock l)) =>
      if same_ignoring_case n (txt "layer") then
        (fix go l := match l with
         | [] => Some []
         | y :: l => match collect_node y with
                     | None => None
                     | Some r => match go l with None => None | Some s => Some (r ++ s) end
                     end
         end) l
      else Some []
  | _ => Some []
  end.
Fixpoint collect_rules (l : list node) : option (list css_rule) :=
  match l with
  | [] => Some []
  | x :: l => match collect_node x with
              | None => None
              | Some r => match collect_rules l with None => None | Some s => Some (r ++ s) end
              end
  end.
End convert.

(** lib.rs:111-132 in the style sheet context: [None] is an error. *)
Definition parse_sheet (show lower : str -> str) (is_zero : str -> bool) (colour : str -> list cval -> option N)
    (ignore : bool) (ts : list token) (drained : nat) : res (option (list css_rule)) :=
  let* (r, _) := stylesheet show lower ignore ts drained start in
  Ok (match r with
      | Some (Some (NSheet l)) => collect_rules show is_zero colour l
      | _ => None
      end).

(** How many tokens are fetched before the stream of a text is exhausted
    (tokenizer.rs:257-260 asks the stream): one more than there are if a comment or a lone
    byte order mark is last. *)
Fixpoint fetches (beyond : N -> bool) (fuel : nat) (first : bool) (s : str) : nat :=
  match fuel, s with
  | S fuel, _ :: _ =>
      match consume_token beyond first s with Ok (_, s') => S (fetches beyond fuel false s') | _ => O end
  | _, _ => O
  end.
(** lib.rs:111-132 from the text. *)
Definition parse_text (beyond : N -> bool) (show lower : str -> str) (is_zero : str -> bool)
    (colour : str -> list cval -> option N) (ignore : bool) (s : str) : res (option (list css_rule)) :=
  let* ts := tokenize beyond s in
  parse_sheet show lower is_zero colour ignore (removelast ts) (fetches beyond (S (length s)) true s).
