(** The HTML tokenizer (C40-C43, C66-C68): property theorems.

    [new s st ls] is a tokenizer over the characters [s], started in the state [st] with the last start
    tag [ls]; [pulls tbl fuel ps] takes tokens from it, one for each element of [ps]. [tbl] is any table
    of names as described by [table_ok]; [C41_table] shows that the table in the source is one. *)
From stdpp Require Import gmap.
From Verif Require Import Text CookieModel TokenModel Entities TokenSpec TokenTable TokenRefs TokenBody TokenCases.
Local Open Scope N_scope.

(** for the examples *)
Local Ltac inside := apply (bool_decide_unpack _); vm_compute; exact I.
Local Ltac read_chars :=
  match goal with |- reads ?t ?a ?n ?s ?o => let s' := eval vm_compute in s in let o' := eval vm_compute in o in change (reads t a n s' o') end;
  repeat first [apply reads_nil | match goal with |- reads ?t ?a ?n (?x :: ?s) (?y :: ?o) => apply (reads_char t a n x s o); [discriminate|] end].

(** * C40 *)
(** A number of any length in text is one character, with or without its semicolon; what follows is
    read as if it stood alone. *)
Theorem C40_in_text : forall tbl, table_ok tbl -> forall hex ds semicolon s o ps fuel ls,
  (forall x, hex = Some x -> x = 120 \/ x = 88) -> ds <> [] -> Forall (numeric_digit hex) ds ->
  (semicolon = false -> starts (fun x => ~ numeric_digit hex x /\ x <> 59) s) ->
  60 ∉ s -> reads tbl false false s o ->
  Forall (fun p => p_switch p = None) ps -> length ps = 2%nat ->
  (8 * length (numeric_source hex ds semicolon ++ s) + 10 < fuel)%nat ->
  exists t', pulls tbl fuel ps (new (numeric_source hex ds semicolon ++ s) Data ls) =
    Some ([Text (referenced (number (numeric_base hex) ds) :: o); Eof], t').
Proof. exact numeric_text. Qed.
Print Assumptions C40_in_text.
(** The same in the value of an attribute *)
Theorem C40_in_attribute : forall tbl, table_ok tbl -> forall hex ds semicolon s o ps fuel ls,
  (forall x, hex = Some x -> x = 120 \/ x = 88) -> ds <> [] -> Forall (numeric_digit hex) ds ->
  (semicolon = false -> starts (fun x => ~ numeric_digit hex x /\ x <> 59) s) ->
  34 ∉ s -> reads tbl true true s o ->
  Forall (fun p => p_switch p = None) ps -> length ps = 2%nat ->
  (8 * length (one_attribute (numeric_source hex ds semicolon ++ s)) + 10 < fuel)%nat ->
  exists t', pulls tbl fuel ps (new (one_attribute (numeric_source hex ds semicolon ++ s)) Data ls) =
    Some ([StartTag (txt "a") false {[ txt "b" := referenced (number (numeric_base hex) ds) :: o ]}; Eof], t').
Proof. exact numeric_attribute. Qed.
Print Assumptions C40_in_attribute.
(** It is a Unicode scalar value, whatever the number. *)
Theorem C40_scalar : forall n, referenced n <= 0x10FFFF /\ ~ (0xD800 <= referenced n <= 0xDFFF).
Proof. exact referenced_scalar. Qed.
Print Assumptions C40_scalar.
(** 2^32 + 65 in twenty digits does not become an A; 128 is the euro sign. *)
Example C40_example :
  (forall x, Some 120 = Some x -> x = 120 \/ x = 88) /\ Forall (numeric_digit None) (txt "00000000004294967361") /\
  Forall (numeric_digit (Some 120)) (txt "1F600") /\
  starts (fun x => ~ numeric_digit None x /\ x <> 59) (txt "kg") /\ reads named_chars false false (txt "kg") (txt "kg") /\
  number 10 (txt "00000000004294967361") = 4294967361 /\ referenced 4294967361 = 0xFFFD /\ number 16 (txt "1F600") = 0x1F600 /\ referenced 0x1F600 = 0x1F600 /\
  referenced 0xD800 = 0xFFFD /\ referenced 0 = 0xFFFD /\ referenced 128 = 0x20AC /\
  fst <$> pulls named_chars 300 (replicate 2 (mk_pull false None)) (new (txt "&#128kg") Data []) = Some [Text [0x20AC; 107; 103]; Eof].
Proof.
  split_and!; try (vm_compute; done || (split; congruence)).
  - intros x [= <-]. by left.
  - repeat (constructor; [cbv; split; discriminate|]). constructor.
  - repeat (constructor; [cbv; first [by left; split; discriminate|by right; left; split; discriminate|by right; right; split; discriminate]|]). constructor.
  - split; [cbv; intros [H1 H2]; by apply H2|done].
  - read_chars.
Qed.

(** * C41 *)
(** The table in the source is as assumed. *)
Theorem C41_table : table_ok named_chars.
Proof. exact named_ok. Qed.
Print Assumptions C41_table.
(** A name that is the longest in the table at its place stands for its replacement. *)
Theorem C41_longest : forall tbl, table_ok tbl -> forall k r s o ps fuel ls,
  (k, r) ∈ tbl -> (forall k' r', (k', r') ∈ tbl -> k' `prefix_of` k ++ s -> (length k' <= length k)%nat) ->
  60 ∉ s -> reads tbl false false s o ->
  Forall (fun p => p_switch p = None) ps -> length ps = 2%nat -> (8 * length (38%N :: k ++ s) + 10 < fuel)%nat ->
  exists t', pulls tbl fuel ps (new (38 :: k ++ s) Data ls) = Some ([Text (r ++ o); Eof], t').
Proof. exact named_text. Qed.
Print Assumptions C41_longest.
(** The same in the value of an attribute, unless the name lacks its semicolon and a letter, a digit or an
    equals sign follows: then the name is kept as it is. *)
Theorem C41_in_attribute : forall tbl, table_ok tbl -> forall k r s o ps fuel ls,
  (k, r) ∈ tbl -> (forall k' r', (k', r') ∈ tbl -> k' `prefix_of` k ++ s -> (length k' <= length k)%nat) ->
  34 ∉ s -> reads tbl true true s o ->
  Forall (fun p => p_switch p = None) ps -> length ps = 2%nat -> (8 * length (one_attribute (38%N :: k ++ s)) + 10 < fuel)%nat ->
  let v := if bool_decide (last k = Some 59) then r else match s with x :: _ => if (x =? 61) || is_alnum x then 38 :: k else r | [] => r end in
  exists t', pulls tbl fuel ps (new (one_attribute (38 :: k ++ s)) Data ls) =
    Some ([StartTag (txt "a") false {[ txt "b" := v ++ o ]}; Eof], t').
Proof. exact named_attribute. Qed.
Print Assumptions C41_in_attribute.
(** An ampersand with which no name of the table and no number begins is kept, with the letters and digits
    after it. *)
Theorem C41_verbatim : forall tbl, table_ok tbl -> forall w s o ps fuel ls,
  Forall alnum w -> starts (fun x => ~ alnum x /\ (w = [] -> x <> 35)) s ->
  (forall k r, (k, r) ∈ tbl -> ~ k `prefix_of` w ++ s) ->
  60 ∉ s -> reads tbl false false s o ->
  Forall (fun p => p_switch p = None) ps -> length ps = 2%nat -> (8 * length (38%N :: w ++ s) + 10 < fuel)%nat ->
  exists t', pulls tbl fuel ps (new (38 :: w ++ s) Data ls) = Some ([Text (38 :: w ++ o); Eof], t').
Proof. exact verbatim_text. Qed.
Print Assumptions C41_verbatim.
(** Any text without markup, and any value, with any number of references: exactly what [reads] says; and
    [reads] gives every text one meaning. *)
Theorem C41_texts : forall tbl, table_ok tbl -> forall s, 60 ∉ s ->
  exists o, (forall o', reads tbl false false s o' <-> o' = o) /\
    forall ps fuel ls, Forall (fun p => p_switch p = None) ps -> length ps = length (text_tokens o ++ [Eof]) -> (8 * length s + 10 < fuel)%nat ->
    exists t', pulls tbl fuel ps (new s Data ls) = Some (text_tokens o ++ [Eof], t').
Proof. exact texts. Qed.
Print Assumptions C41_texts.
Theorem C41_values : forall tbl, table_ok tbl -> forall v, 34 ∉ v ->
  exists o, (forall o', reads tbl true true v o' <-> o' = o) /\
    forall ps fuel ls, Forall (fun p => p_switch p = None) ps -> length ps = 2%nat -> (8 * length (one_attribute v) + 10 < fuel)%nat ->
    exists t', pulls tbl fuel ps (new (one_attribute v) Data ls) = Some ([StartTag (txt "a") false {[ txt "b" := o ]}; Eof], t').
Proof. exact values. Qed.
Print Assumptions C41_values.
(** In [&notit;] the longest name is [not]; in [&notin;] it is [notin;]. *)
Example C41_example :
  (txt "not", [172]) ∈ named_chars /\ (txt "notin;", [8713]) ∈ named_chars /\
  (forall k' r', (k', r') ∈ named_chars -> k' `prefix_of` txt "not" ++ txt "it;" -> (length k' <= length (txt "not"))%nat) /\
  (forall k r, (k, r) ∈ named_chars -> ~ k `prefix_of` txt "qq" ++ txt " ") /\ Forall alnum (txt "qq") /\
  (fst <$> pulls named_chars 300 (replicate 2 (mk_pull false None)) (new (txt "&notit; &notin; &qq ") Data []) = Some [Text ([172] ++ txt "it; " ++ [8713] ++ txt " &qq "); Eof]) /\
  (fst <$> pulls named_chars 300 (replicate 2 (mk_pull false None)) (new (one_attribute (txt "&notit; &not")) Data []) = Some [StartTag (txt "a") false {[ txt "b" := txt "&notit; " ++ [172] ]}; Eof]).
Proof.
  split_and!.
  - apply in_table. vm_compute. reflexivity.
  - apply in_table. vm_compute. reflexivity.
  - apply longest_checked. vm_compute. reflexivity.
  - intros k r In P. pose proof (longest_checked named_chars [] (txt "qq" ++ txt " ") ltac:(vm_compute; reflexivity) k r In P) as L.
    destruct (keys_shape _ C41_table k r In) as (w & W & _ & [->| ->]); destruct w; cbn in L; try done; lia.
  - repeat (constructor; [left; right; cbv; split; discriminate|]). constructor.
  - inside.
  - inside.
Qed.

(** * C42 *)
(** Any input, any start state but one, any table, and any switching between the content states by the
    caller: every pull returns a token, at most 8 steps per character and 10 more are made in all, the end
    of the file comes, and comes again for ever. *)
Theorem C42_terminates_partial : forall tbl input st ls ps fuel,
  st <> CharacterReferenceInAttributeValue -> Forall allowed ps -> (8 * length input + 10 < fuel)%nat ->
  exists l t', pulls tbl fuel ps (new input st ls) = Some (l, t') /\ length l = length ps /\
    ((16 * length input + 22 <= length ps)%nat -> Eof ∈ l) /\
    (forall i j k, (i <= j)%nat -> l !! i = Some Eof -> l !! j = Some k -> k = Eof).
Proof. exact terminates. Qed.
Print Assumptions C42_terminates_partial.
Example C42_example :
  fst <$> pulls [] 300 ([mk_pull false None; mk_pull true (Some ScriptData)] ++ replicate 3 (mk_pull false None)) (new (txt "<script><!--<scr") Data []) = Some [StartTag (txt "script") false ∅; Text (txt "<!--<scr"); Eof; Eof; Eof].
Proof. inside. Qed.
(** A tokenizer started in the state for references in attribute values gives an error at every pull. *)
Theorem C42_start_state_refuted : forall tbl input ls fuel foreign,
  next_token tbl (S fuel) foreign (new input CharacterReferenceInAttributeValue ls) = Ok None.
Proof. done. Qed.
Print Assumptions C42_start_state_refuted.

(** * C43 *)
(** A start tag in a document whose end tags have no attributes: each attribute has the first value
    written for its name. *)
Theorem C43_first_wins_partial : forall tbl, table_ok tbl -> forall d s n l w sc r last nvs m k ts ps fuel ls,
  (* [d] and the text [s], then a start tag, then [r] and [last] *)
  doc_ok (mk_doc (d ++ (s, start_tag n l w sc) :: r) last) ->
  doc_means tbl (mk_doc d s) (k ++ [Eof]) -> doc_means tbl (mk_doc r last) ts ->
  Forall2 (attr_means tbl) l nvs -> first_wins nvs m ->
  Forall (fun p => p_switch p = None) ps -> length ps = length (k ++ StartTag (map folded n) sc m :: ts) ->
  (8 * length (doc_source (mk_doc (d ++ (s, start_tag n l w sc) :: r) last)) + 10 < fuel)%nat ->
  exists t', pulls tbl fuel ps (new (doc_source (mk_doc (d ++ (s, start_tag n l w sc) :: r) last)) Data ls) =
    Some (k ++ StartTag (map folded n) sc m :: ts, t').
Proof. exact first_wins_somewhere. Qed.
Print Assumptions C43_first_wins_partial.
(** The attributes of an end tag are kept and go to the next start tag that has attributes, where they even
    win over its own. *)
Theorem C43_end_tag_refuted :
  (fst <$> pulls named_chars 300 (replicate 3 (mk_pull false None)) (new (txt "</div a=1><p b=2>") Data []) = Some [EndTag (txt "div"); StartTag (txt "p") false (<[txt "a" := txt "1"]> {[ txt "b" := txt "2" ]}); Eof]) /\
  (fst <$> pulls named_chars 300 (replicate 3 (mk_pull false None)) (new (txt "</div a=1><p a=2>") Data []) = Some [EndTag (txt "div"); StartTag (txt "p") false {[ txt "a" := txt "1" ]}; Eof]).
Proof. split; inside. Qed.
Print Assumptions C43_end_tag_refuted.

(** * C66 *)
(** Documents of text, start tags, end tags and comments, in any number and order and with any text,
    names, attributes and ways of writing them: the tokens are what the document means. *)
Theorem C66_documents : forall tbl, table_ok tbl -> forall d ts ps fuel ls,
  doc_ok d -> doc_means tbl d ts ->
  Forall (fun p => p_switch p = None) ps -> length ps = length ts -> (8 * length (doc_source d) + 10 < fuel)%nat ->
  exists t', pulls tbl fuel ps (new (doc_source d) Data ls) = Some (ts, t').
Proof. exact doc_pulls. Qed.
Print Assumptions C66_documents.
(** Every document means something, and one thing only. *)
Theorem C66_meaning : forall tbl, table_ok tbl -> forall d, exists ts, forall ts', doc_means tbl d ts' <-> ts' = ts.
Proof. exact doc_meaning. Qed.
Print Assumptions C66_meaning.
Definition sample_tag : markup :=
  start_tag (txt "Bx") [mk_attr [32] (txt "A") (unquoted [] [32] (txt "1/")); mk_attr [10] (txt "a") (quoted [32] [] 39 (txt "&lt>")); mk_attr [47] (txt "c") no_value] [32] true.
Definition sample_doc : doc := mk_doc [(txt "Hi ", sample_tag); ([], comment (txt "-x->")); (txt "y", end_tag (txt "bX") [32])] (txt "&amp;").
Example C66_example :
  doc_source sample_doc = txt "Hi <Bx A= 1/" ++ [10] ++ txt "a ='&lt>'/c /><!---x->-->y</bX >&amp;" /\
  doc_ok sample_doc /\
  doc_means named_chars sample_doc [Text (txt "Hi "); StartTag (txt "bx") true (<[txt "a" := txt "1/"]> {[ txt "c" := [] ]});
    Comment (txt "-x->"); Text (txt "y"); EndTag (txt "bx"); Text (txt "&"); Eof].
Proof.
  split_and!; [reflexivity|split; [repeat (apply Forall_cons; split; [split; [inside|]|]); [..|constructor]|inside]|].
  - split_and!; [inside|inside|inside|done].
  - unfold markup_ok. change (txt "-x->") with [45; 120; 45; 62]. split_and!; intros a.
    + intros c E. do 4 (destruct a as [|? a]; [discriminate E|injection E as _ E]). by destruct a.
    + intros E. do 4 (destruct a as [|? a]; [discriminate E|injection E as _ E]). by destruct a.
    + discriminate.
    + discriminate.
  - split; inside.
  - apply (means_part _ (txt "Hi ") (txt "Hi ")); [read_chars| |].
    { apply (means_start _ (txt "Bx") _ [32] true [(txt "a", txt "1/"); (txt "a", txt "<>"); (txt "c", [])]).
      - repeat (constructor; [split; [reflexivity|]|]); [..|constructor].
        + apply means_unquoted. read_chars.
        + apply means_quoted. apply (reads_ref _ _ _ (txt "lt" ++ txt ">") [60] (txt ">") (txt ">")); [|read_chars].
          apply ref_named; [apply in_table; vm_compute; reflexivity|apply longest_checked; vm_compute; reflexivity|].
          right; right. inside.
        + apply means_none.
      - intros n. cbn. case_decide as C; [subst n; by vm_compute|]. case_decide as C2; [subst n; by vm_compute|].
        rewrite lookup_insert_ne by done. by apply lookup_singleton_ne. }
    apply (means_part _ [] []); [constructor|apply (means_comment _ (txt "-x->"))|].
    apply (means_part _ (txt "y") (txt "y")); [read_chars|apply (means_end _ (txt "bX"))|].
    apply (means_last _ (txt "&amp;") (txt "&")).
    apply (reads_ref _ _ _ (txt "amp;" ++ []) (txt "&") [] []); [|constructor].
    apply ref_named; [apply in_table; vm_compute; reflexivity|apply longest_checked; vm_compute; reflexivity|by left].
Qed.

(** * C67 *)
(** Pages that also hold elements whose body is text, read by a tree builder that switches the tokenizer
    after their start tags: markup in the bodies is text, up to the end tag of the element. *)
Theorem C67_pages : forall tbl, table_ok tbl -> forall sw d ts fgs fuel ls,
  page_ok d -> page_means tbl d ts -> switches sw d -> length fgs = length ts ->
  (8 * length (page_source d) + 10 < fuel)%nat ->
  exists t', pulls tbl fuel (driven sw None fgs ts) (new (page_source d) Data ls) = Some (ts, t').
Proof. exact page_pulls. Qed.
Print Assumptions C67_pages.
Theorem C67_meaning : forall tbl, table_ok tbl -> forall d, exists ts, forall ts', page_means tbl d ts' <-> ts' = ts.
Proof. exact page_meaning. Qed.
Print Assumptions C67_meaning.
Definition sample_builder : builder := fun k =>
  match k with
  | StartTag n _ _ => if bool_decide (n = txt "script") then Some ScriptData else if bool_decide (n = txt "title") then Some RCDATA else None
  | _ => None
  end.
Definition sample_page : page :=
  mk_page [([], raw_item Rcdata (txt "title") [] [] (txt "<b>&amp;</b>") (txt "TITLE") []);
           ([], raw_item Script (txt "script") [] [] (txt "a</b></scripts>&amp;") (txt "script") [32]);
           ([], plain_item (start_tag (txt "p") [] [] false))] (txt "z").
Example C67_example :
  page_source sample_page = txt "<title><b>&amp;</b></TITLE><script>a</b></scripts>&amp;</script ><p>z" /\
  page_ok sample_page /\ switches sample_builder sample_page /\
  page_means named_chars sample_page
    [StartTag (txt "title") false ∅; Text (txt "<b>&</b>"); EndTag (txt "title");
     StartTag (txt "script") false ∅; Text (txt "a</b></scripts>&amp;"); EndTag (txt "script"); StartTag (txt "p") false ∅; Text (txt "z"); Eof].
Proof.
  split_and!; [reflexivity|split; [repeat (apply Forall_cons; split; [split; [inside|]|]); [..|constructor]|inside]|split_and!; [done..|]|].
  - split; [split_and!; [inside|inside|inside|done]|]. split; [inside|]. split; [|split_and!; inside].
    split; [|done]. intros a x c z E H. eapply (no_end_tag (txt "<b>&amp;</b>") (txt "title")); [vm_compute; reflexivity|done..].
  - split; [split_and!; [inside|inside|inside|done]|]. split; [inside|]. split; [|split_and!; inside].
    split; [intros a x c z E H; eapply (no_end_tag (txt "a</b></scripts>&amp;") (txt "script")); [vm_compute; reflexivity|done..]|].
    intros _ a z E. eapply (no_infix (txt "a</b></scripts>&amp;") (txt "<!--")); [vm_compute; reflexivity|done].
  - split_and!; [inside|done|constructor|done].
  - repeat constructor; intros sc m; vm_compute; reflexivity.
  - apply (means_page_part _ [] [] _ [_; Text (txt "<b>&</b>"); EndTag (txt "title")]); [constructor| |].
    { apply (means_raw _ Rcdata (txt "title") [] [] _ (txt "TITLE") [] _ (txt "<b>&</b>")); [apply (means_start _ (txt "title") [] [] false []); [constructor|done]|].
      cbn [body_means]. apply (reads_app _ _ _ (txt "<b>") (txt "&amp;</b>") (txt "<b>") (txt "&</b>")); [inside|reflexivity|].
      apply (reads_ref _ _ _ (txt "amp;" ++ txt "</b>") (txt "&") (txt "</b>") (txt "</b>")); [|read_chars].
      apply ref_named; [apply in_table; vm_compute; reflexivity|apply longest_checked; vm_compute; reflexivity|by left]. }
    apply (means_page_part _ [] [] _ [_; Text (txt "a</b></scripts>&amp;"); EndTag (txt "script")]); [constructor| |].
    { apply (means_raw _ Script (txt "script") [] [] _ (txt "script") [32] _ (txt "a</b></scripts>&amp;")); [apply (means_start _ (txt "script") [] [] false []); [constructor|done]|]. reflexivity. }
    apply (means_page_part _ [] [] _ [_]); [constructor|constructor; apply (means_start _ (txt "p") [] [] false []); [constructor|done]|].
    apply (means_page_last _ (txt "z") (txt "z")). read_chars.
Qed.

(** * C68 *)
(** For any input: a text token is never empty, no two follow one another, and when the end of the file has
    come all input was read. *)
Theorem C68_text_whole : forall tbl input st ls ps fuel l t',
  st <> CharacterReferenceInAttributeValue -> Forall allowed ps -> (8 * length input + 10 < fuel)%nat ->
  pulls tbl fuel ps (new input st ls) = Some (l, t') ->
  (forall i s, l !! i = Some (Text s) -> s <> [] /\ forall s', l !! S i <> Some (Text s')) /\
  (Eof ∈ l -> future t' = []).
Proof. exact text_whole. Qed.
Print Assumptions C68_text_whole.
Example C68_example : fst <$> pulls named_chars 300 (replicate 4 (mk_pull false None)) (new (txt "a<?&amp;<") Data []) = Some [Text (txt "a"); Comment (txt "?&amp;<"); Eof; Eof].
Proof. inside. Qed.
