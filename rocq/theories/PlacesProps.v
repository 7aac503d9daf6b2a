(** Visited pages and bookmarks: property theorems C23, C24. *)
From Verif Require Import Base PlacesModel PlacesSpec PlacesProofs.

(** Two pages a(97), b(98), with a cleared history in the past and b's title missing at first. *)
Definition demo : list (op * N) :=
  [(OVisit [97%N] [65%N], 5%N); (OClear, 6%N);
   (OVisit [98%N] [], 7%N); (OAdd [98%N] [66%N], 7%N); (OVisit [97%N] [65%N], 8%N);
   (OVisit [98%N] [89%N], 9%N); (OVisit [98%N] [], 9%N); (OAdd [97%N] [65%N], 9%N);
   (OAdd [98%N] [67%N], 12%N); (ORemove [99%N], 13%N)].

(** C23, visited pages. For every sequence of calls, every query and every limit, the answer is
    the first [limit] of one fixed list: exactly the pages visited since the last clear that
    match, each once, with their number of visits, last visit time and latest non-empty title,
    most visited first and most recent first among equals. *)
Theorem C23_visited_pages : forall (lower : str -> str) ops q,
  exists full,
    (forall limit, query_visited lower (run ops) q limit = take limit full) /\
    NoDup (map p_url full) /\
    StronglySorted ranks_before full /\
    forall p, p ∈ full <->
      visits_of (p_url p) [] ops <> [] /\
      p_title p = latest_title (visits_of (p_url p) [] ops) /\
      p_count p = N.of_nat (length (visits_of (p_url p) [] ops)) /\
      p_last p = latest_time (visits_of (p_url p) [] ops) /\
      (occurs (lower q) (lower (p_url p)) \/ occurs (lower q) (lower (p_title p))).
Proof. exact query_answers. Qed.
Print Assumptions C23_visited_pages.

Example C23_visited_example :
  query_visited (map fold_ascii) (run demo) [] 5 =
    [mk_page [98%N] [89%N] 3 9; mk_page [97%N] [65%N] 1 8] /\
  query_visited (map fold_ascii) (run demo) [65%N] 5 = [mk_page [97%N] [65%N] 1 8].
Proof. by vm_compute. Qed.

(** C23, bookmarks. Exactly the urls added and not removed since, each once, with the title of
    the latest add and the time of the add that created it; [is_bookmarked] agrees. *)
Theorem C23_bookmarks : forall ops,
  NoDup (map b_url (bookmarks (run ops))) /\
  (forall b, b ∈ bookmarks (run ops) <-> bookmark_of (b_url b) None ops = Some (b_title b, b_created b)) /\
  (forall u, is_bookmarked (run ops) u = true <-> exists b, bookmark_of u None ops = Some b).
Proof. intros ops. destruct (run_bm_inv ops) as [H1 H2]. repeat split; try apply H2; try done; apply is_bookmarked_spec. Qed.
Print Assumptions C23_bookmarks.

Theorem C23_bookmarks_oldest_first : forall ops,
  monotone ops -> StronglySorted (fun a b => (b_created a <= b_created b)%N) (bookmarks (run ops)).
Proof. intros ops H. exact (proj1 (bookmarks_oldest_first ops H)). Qed.
Print Assumptions C23_bookmarks_oldest_first.

Example C23_bookmarks_example :
  monotone demo /\ bookmarks (run demo) = [mk_bm [98%N] [67%N] 7; mk_bm [97%N] [65%N] 9].
Proof. split; [|by vm_compute]. unfold monotone, demo; simpl. repeat constructor; lia. Qed.

(** C24. The pattern built from a query matches a text exactly when the query occurs in it,
    character for character up to the case of ASCII letters; no character of the query acts as
    a wildcard. *)
Theorem C24_like_is_substring : forall q s,
  like (like_pattern q) s = true <-> occurs_ignoring_case q s.
Proof. exact like_pattern_spec. Qed.
Print Assumptions C24_like_is_substring.

(** "50%_\" is found in "x50%_\y" and not in "x50zzz". *)
Example C24_example :
  like (like_pattern [53;48;37;95;92]%N) [120;53;48;37;95;92;121]%N = true /\
  like (like_pattern [53;48;37;95;92]%N) [120;53;48;122;122;122]%N = false.
Proof. by vm_compute. Qed.

(** C24, backends. On the same calls and clock readings, the in-memory answer is one the SQLite
    backend may give, provided titles hold no NUL and lower-casing acts as ASCII lower-casing on
    the texts involved. *)
Theorem C24_backends_agree_partial : forall (lower : str -> str) ops q limit,
  Forall (fun o => no_nul o.1) ops ->
  lower q = map fold_ascii q ->
  Forall (fun p => lower (p_url p) = map fold_ascii (p_url p) /\
                   lower (p_title p) = map fold_ascii (p_title p)) (visits (run ops)) ->
  sql_query_visited (sql_run ops) q limit (query_visited lower (run ops) q limit).
Proof. exact backends_agree. Qed.
Print Assumptions C24_backends_agree_partial.

Example C24_backends_example :
  Forall (fun o => no_nul o.1) demo /\ length (visits (run demo)) = 2.
Proof. split; [|by vm_compute]. unfold demo. repeat constructor; simpl; intros H; repeat (apply elem_of_cons in H as [H|H]; [done|]); by apply elem_of_nil in H. Qed.

(** Without that proviso the claim is false: "é" (233) is found under "É" (201) by the in-memory
    backend, whose lower-casing maps 201 to 233, and never by SQLite. *)
Definition lower_latin (s : str) : str := map (fun c => if (c =? 201)%N then 233%N else fold_ascii c) s.
Theorem C24_backends_agree_refuted : exists ops q limit,
  ~ sql_query_visited (sql_run ops) q limit (query_visited lower_latin (run ops) q limit).
Proof.
  exists [(OVisit [201%N] [], 1%N)], [233%N], 1. intros (l & H1 & _ & H2).
  vm_compute in H1. apply Permutation_nil_r in H1. subst l. vm_compute in H2. done.
Qed.
Print Assumptions C24_backends_agree_refuted.
