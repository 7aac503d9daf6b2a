(** Model of crates/gosub_engine/src/engine/places.rs *)
From Verif Require Import Base Sorting.

(** places.rs:16-23 [Bookmark] *)
Record bookmark := mk_bm { b_url : str; b_title : str; b_created : N }.
(** places.rs:25-33 [VisitedPage]. Counts are unbounded here; the u64 of the code would need
    2^64 visits to differ. *)
Record page := mk_page { p_url : str; p_title : str; p_count : N; p_last : N }.

(** places.rs:69-73 [MemoryInner]. Every operation holds the mutex for its whole duration,
    so operations are atomic steps. *)
Record places := mk_places { bookmarks : list bookmark; visits : list page }.
Definition empty_places : places := mk_places [] [].

(** [iter_mut().find(|b| p b)] followed by an update of the element found. *)
Fixpoint update_first {A} (p : A -> bool) (f : A -> A) (l : list A) : option (list A) :=
  match l with
  | [] => None
  | x :: r => if p x then Some (f x :: r) else (x ::.) <$> update_first p f r
  end.

Definition same_url (u v : str) : bool := bool_decide (u = v).

(** places.rs:82-93 [add_bookmark]; [now] is the value of [now_secs()] *)
Definition add_bookmark (s : places) (url title : str) (now : N) : places :=
  match update_first (fun b => same_url (b_url b) url) (fun b => mk_bm (b_url b) title (b_created b)) (bookmarks s) with
  | Some bs => mk_places bs (visits s)
  | None => mk_places (bookmarks s ++ [mk_bm url title now]) (visits s)
  end.

(** places.rs:95-97 [remove_bookmark] *)
Definition remove_bookmark (s : places) (url : str) : places :=
  mk_places (filter (fun b => same_url (b_url b) url = false) (bookmarks s)) (visits s).

(** places.rs:99-101 [is_bookmarked] *)
Definition is_bookmarked (s : places) (url : str) : bool :=
  existsb (fun b => same_url (b_url b) url) (bookmarks s).

(** places.rs:107-123 [record_visit] *)
Definition record_visit (s : places) (url title : str) (now : N) : places :=
  match update_first (fun v => same_url (p_url v) url)
          (fun v => mk_page (p_url v) (match title with [] => p_title v | _ => title end) (p_count v + 1) now)
          (visits s) with
  | Some vs => mk_places (bookmarks s) vs
  | None => mk_places (bookmarks s) (visits s ++ [mk_page url title 1 now])
  end.

(** [str::contains]: substring test *)
Fixpoint starts_with (p s : str) : bool :=
  match p, s with
  | [], _ => true
  | a :: p', b :: s' => (a =? b)%N && starts_with p' s'
  | _, [] => false
  end.
Fixpoint contains (s q : str) : bool :=
  starts_with q s || match s with [] => false | _ :: s' => contains s' q end.

(** the key order of places.rs:141: [Reverse((visit_count, last_visit))] *)
Definition page_leb (a b : page) : bool :=
  (p_count b <? p_count a)%N || ((p_count a =? p_count b)%N && (p_last b <=? p_last a)%N).

Section lower.
  (** [CowUtils::cow_to_lowercase]: Unicode lower-casing, external *)
  Context (lower : str -> str).

  (** the filter of places.rs:134-138 *)
  Definition query_match (q : str) (v : page) : bool :=
    match q with [] => true | _ => contains (lower (p_url v)) q || contains (lower (p_title v)) q end.

  (** places.rs:125-144 [query_visited] *)
  Definition query_visited (s : places) (query : str) (limit : nat) : list page :=
    let q := lower query in
    take limit (stable_sort page_leb (filter (fun v => query_match q v = true) (visits s))).
End lower.

(** places.rs:146-148 [clear_history] *)
Definition clear_history (s : places) : places := mk_places (bookmarks s) [].

(** * SQLite backend *)

(** places.rs:203-214 [like_pattern]. 37 is [%], 95 is [_], 92 is the backslash. *)
Definition like_escape (c : N) : list N :=
  if (c =? 92)%N || (c =? 37)%N || (c =? 95)%N then [92%N; c] else [c].
Definition like_pattern (q : str) : str := [37%N] ++ flat_map like_escape q ++ [37%N].

(** SQLite's [X LIKE P ESCAPE '\'] (external; sqlite.org/lang_expr.html#like): [%] matches any
    sequence, [_] any one character, the escape character makes the next pattern character
    literal; literals compare with upper and lower case ASCII letters equal. *)
Definition fold_ascii (c : N) : N := if (65 <=? c)%N && (c <=? 90)%N then (c + 32)%N else c.
Definition like_eq (a b : N) : bool := (fold_ascii a =? fold_ascii b)%N.

(** a parsed pattern *)
Inductive like_tok := Any | One | Lit (c : N).
Fixpoint like_parse (p : str) : list like_tok :=
  match p with
  | [] => []
  | c :: r =>
      if (c =? 37)%N then Any :: like_parse r
      else if (c =? 95)%N then One :: like_parse r
      else if (c =? 92)%N then match r with d :: r' => Lit d :: like_parse r' | [] => [] end
      else Lit c :: like_parse r
  end.
Fixpoint like_toks (ts : list like_tok) : str -> bool :=
  match ts with
  | [] => fun s => match s with [] => true | _ => false end
  | Any :: ts' =>
      fix go (s : str) : bool := like_toks ts' s || match s with [] => false | _ :: s' => go s' end
  | One :: ts' => fun s => match s with [] => false | _ :: s' => like_toks ts' s' end
  | Lit c :: ts' => fun s => match s with [] => false | d :: s' => like_eq c d && like_toks ts' s' end
  end.
Definition like (p s : str) : bool := like_toks (like_parse p) s.

(** places.rs:218-271: the upserts, on rows with a unique url. [sql_length] is SQLite's
    [length()], which counts characters before the first NUL. *)
Fixpoint sql_length (t : str) : nat :=
  match t with [] => 0 | c :: r => if (c =? 0)%N then 0 else S (sql_length r) end.

Definition sql_add_bookmark (s : places) (url title : str) (now : N) : places :=
  match update_first (fun b => same_url (b_url b) url) (fun b => mk_bm (b_url b) title (b_created b)) (bookmarks s) with
  | Some bs => mk_places bs (visits s)
  | None => mk_places (bookmarks s ++ [mk_bm url title now]) (visits s)
  end.
Definition sql_record_visit (s : places) (url title : str) (now : N) : places :=
  match update_first (fun v => same_url (p_url v) url)
          (fun v => mk_page (p_url v) (if 0 <? sql_length title then title else p_title v) (p_count v + 1) now)
          (visits s) with
  | Some vs => mk_places (bookmarks s) vs
  | None => mk_places (bookmarks s) (visits s ++ [mk_page url title 1 now])
  end.

(** places.rs:273-294 [query_visited]: the order among equal (count, time) is up to SQLite, so
    the answer is a relation. *)
Definition sql_match (q : str) (v : page) : bool :=
  bool_decide (like_pattern q = [37; 37]%N) || like (like_pattern q) (p_url v) || like (like_pattern q) (p_title v).
Definition sql_query_visited (s : places) (q : str) (limit : nat) (out : list page) : Prop :=
  exists l, l ≡ₚ filter (fun v => sql_match q v = true) (visits s) /\
    StronglySorted (fun a b => page_leb a b = true) l /\ out = take limit l.

(** * Operations *)
Inductive op :=
| OAdd (url title : str) | ORemove (url : str) | OVisit (url title : str) | OClear.

(** A call together with the clock reading it sees. *)
Definition step (s : places) (o : op * N) : places :=
  match o.1 with
  | OAdd u t => add_bookmark s u t o.2
  | ORemove u => remove_bookmark s u
  | OVisit u t => record_visit s u t o.2
  | OClear => clear_history s
  end.
Definition run (ops : list (op * N)) : places := foldl step empty_places ops.

Definition sql_step (s : places) (o : op * N) : places :=
  match o.1 with
  | OAdd u t => sql_add_bookmark s u t o.2
  | ORemove u => remove_bookmark s u
  | OVisit u t => sql_record_visit s u t o.2
  | OClear => clear_history s
  end.
Definition sql_run (ops : list (op * N)) : places := foldl sql_step empty_places ops.
