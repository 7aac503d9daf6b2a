(** C100-C104: how a style sheet is parsed. *)
From Verif Require Import Base Text CssTokenModel CssTokenSpec CssTokenProofs CssTokenRead CssTokenCursor SelectorModel
  CssParseModel CssParseTotal CssParseCursor CssParseDeep CssParseSpec CssParseRead.
From Coq Require Import Lia.
Local Open Scope N_scope.

(** C100: parsing any text ends without a crash, whatever the numbers, colours and
    letter cases are, both when errors are ignored and when they are not. *)
Theorem C100_ends beyond show lower is_zero colour ignore s :
  exists r, parse_text beyond show lower is_zero colour ignore s = Ok r.
Proof.
  destruct (tokens_from_total beyond (S (length s)) true s) as (ts & E & Hts & _); [lia|].
  unfold parse_text, tokenize. rewrite E. cbn [rbind]. rewrite removelast_last. unfold parse_sheet.
  destruct (wp_stylesheet show lower ignore ts (fetches beyond (S (length s)) true s) Hts) with start (fun (_ : option (option node)) (_ : pst) => True)
    as (r & s' & -> & _); [by eapply fetches_bounds; eauto|split; cbn; lia|done|].
  cbn [rbind]. eauto.
Qed.
Print Assumptions C100_ends.

(** The parser of the model sees the tokenizer's cursor itself: any sequence of calls is
    answered alike. *)
Theorem C100_cursor beyond s :
  exists ts, tokenize beyond s = Ok (ts ++ [TEof])
    /\ forall os, asks_cursor beyond (new_cursor s) os
                  = asks_state ts (fetches beyond (S (length s)) true s) start os.
Proof.
  destruct (tokens_from_total beyond (S (length s)) true s) as (ts & E & Hts & _); [lia|].
  exists ts. split; [done|]. intros os. by apply asks_follow, follows_new.
Qed.
Print Assumptions C100_cursor.

(** A usual instance: ASCII letters and digits, no colour functions. *)
Definition sheet (s : str) : res (option (list css_rule)) :=
  parse_text (fun _ => false) (fun n => n) (map ascii_low) (fun n => bool_decide (n = txt "0")) (fun _ _ => None) true s.
Definition strict (s : str) : res (option (list css_rule)) :=
  parse_text (fun _ => false) (fun n => n) (map ascii_low) (fun n => bool_decide (n = txt "0")) (fun _ _ => None) false s.

Example C100_example :
  sheet (txt "a{b:c}/**/") = Ok (Some [mk_rule [[PType (txt "a")]] [mk_decl (txt "b") (VString (txt "c")) false]])
  /\ sheet (txt "}}a{b:(]@x[{") = Ok None /\ sheet (txt "{;}@@<!--") = Ok (Some [mk_rule [[]] []]) /\ strict (txt "a{b:c};") = Ok None.
Proof. vm_compute. auto. Qed.
Example C100_cursor_example :
  asks_cursor (fun _ => false) (new_cursor (txt "a/**/")) [CCurrent; CConsume; CEof; CCurrent; CLook 0; CEof; CUnread; CEof; CConsume; CEof]
  = Ok [AToken TEof; AToken (TIdent (txt "a")); ABool false; AToken (TIdent (txt "a")); AToken TEof; ABool false;
        AUnit; ABool false; AToken (TIdent (txt "a")); ABool false].
Proof. vm_compute. reflexivity. Qed.

(** C101: how deep the parser's calls nest is not bounded, although the parser keeps a
    limit for blocks, values and selectors: whatever limit is put on the calls that a
    condition of [@media] makes to itself, the text [(,)(,)...] written often enough
    exceeds it, and with a higher limit it is read. *)
Fixpoint pairs_text (k : nat) : str := match k with O => [] | S k => txt "(,)" ++ pairs_text k end.
Theorem C101_depth_refuted beyond show d : forall limit, exists k,
  tokenize beyond (pairs_text k) = Ok (pairs k ++ [TEof])
  /\ condition show (pairs k) (length (pairs k)) limit d start = Diverge
  /\ exists higher r, condition show (pairs k) (length (pairs k)) higher d start = Ok r.
Proof.
  intros limit. exists limit. split; [|split].
  - apply tokenize_written.
    + induction limit as [|k IH]; [constructor|]. cbn [pairs_text pairs]. change (txt "(,)") with ([40] ++ [44] ++ [41]).
      rewrite <- !app_assoc.
      change (TLParen :: TComma :: TRParen :: pairs k) with ([TLParen] ++ [TComma] ++ [TRParen] ++ pairs k).
      repeat (apply written_piece; [constructor|]). exact IH.
    + intros (c & r & E & Hc). destruct limit; [done|]. by injection E as <- _.
  - apply (condition_deep show _ d limit 0 limit); [done|lia].
  - exists (S (length (pairs limit))).
    destruct (keeps_condition_calls show (pairs limit) (length (pairs limit))) with (S (length (pairs limit))) d start
      (fun (_ : option node) (_ : pst) => True) as (r & s' & E & _); [|lia|split; cbn; lia|cbn; lia|done|eauto].
    clear. induction limit as [|k IH]; [apply not_elem_of_nil|]. cbn [pairs]. rewrite !not_elem_of_cons. by repeat split.
Qed.
Print Assumptions C101_depth_refuted.

Definition ty (v : string) : part := PType (txt v).
Definition dc (p v : string) : css_declaration := mk_decl (txt p) (VString (txt v)) false.

(** C102: a text whose tokens form a sheet of style rules is parsed to exactly these rules:
    their selectors, properties, values and importance, in order. [sheet_of] says how a
    sheet is written; with [false] it has no invalid part, and it does not matter whether
    errors are ignored. At-rules, nested rules, namespaces, pseudo-classes with arguments,
    custom properties and [calc] are not covered, nor are the texts of the refuted
    theorems below; functions nest at most 63 deep. *)
Theorem C102_reads_partial beyond show lower is_zero colour ignore s ts rs :
  tokenize beyond s = Ok (ts ++ [TEof]) -> sheet_of is_zero colour false 63 ts rs -> rs <> [] ->
  parse_text beyond show lower is_zero colour ignore s = Ok (Some rs).
Proof. intros. by eapply text_reads. Qed.
Print Assumptions C102_reads_partial.
(** The same from the text, without the tokenizer. *)
Theorem C102_text_partial beyond show lower is_zero colour ignore s ts rs :
  written beyond s ts -> ~ begins (fun c => c = 0xFEFF) s -> sheet_of is_zero colour false 63 ts rs -> rs <> [] ->
  parse_text beyond show lower is_zero colour ignore s = Ok (Some rs).
Proof. intros Hw Hb. eapply C102_reads_partial. by apply tokenize_written. Qed.
Print Assumptions C102_text_partial.

(** C103: with errors ignored, an invalid declaration costs nothing but itself: the other
    declarations of its rule, before and after it, and all other rules are kept. Covered
    are those of [bad_declaration]: no name first, something else than a colon after the
    name, no value. *)
Theorem C103_dropped_partial beyond show lower is_zero colour s l1 r1 w g sp b1 ds1 bad b2 ds2 l2 r2 :
  sheet_of is_zero colour true 63 l1 r1 -> sheet_of is_zero colour true 63 l2 r2 ->
  selectors w g -> blanks sp -> body is_zero colour true 63 b1 ds1 -> body is_zero colour true 63 b2 ds2 ->
  bad_declaration bad ->
  tokenize beyond s = Ok ((l1 ++ (w ++ sp ++ [TLCurly] ++ (b1 ++ [TSemicolon] ++ bad ++ [TSemicolon] ++ b2) ++ [TRCurly]) ++ l2) ++ [TEof]) ->
  parse_text beyond show lower is_zero colour true s = Ok (Some (r1 ++ mk_rule g (ds1 ++ ds2) :: r2)).
Proof.
  intros H1 H2 Hw Hsp Hb1 Hb2 Hbad Ht. eapply text_reads; [exact Ht| |done|by destruct r1].
  apply sheet_app; [done|]. rewrite <- !app_assoc. cbn [app].
  change (b1 ++ TSemicolon :: _) with (b1 ++ (TSemicolon :: bad ++ TSemicolon :: b2 ++ [TRCurly] ++ l2)).
  replace (b1 ++ _) with ((b1 ++ TSemicolon :: bad ++ TSemicolon :: b2) ++ [TRCurly] ++ l2)
    by (rewrite <- !app_assoc; cbn [app]; by rewrite <- !app_assoc).
  apply sh_rule; [done|done| |done]. apply body_app; [done|]. by apply b_bad.
Qed.
Print Assumptions C103_dropped_partial.

(** C104: with errors ignored, an invalid rule costs nothing but itself, up to the brace
    that closes it, whatever its block contains: all rules before and after it are kept.
    Covered are those of [bad_prelude]: a token no selector contains, first or after valid
    selectors. *)
Theorem C104_dropped_partial beyond show lower is_zero colour s l1 r1 bad b l2 r2 :
  sheet_of is_zero colour true 63 l1 r1 -> sheet_of is_zero colour true 63 l2 r2 ->
  bad_prelude bad -> balanced b -> r1 ++ r2 <> [] ->
  tokenize beyond s = Ok ((l1 ++ (bad ++ [TLCurly] ++ b ++ [TRCurly]) ++ l2) ++ [TEof]) ->
  parse_text beyond show lower is_zero colour true s = Ok (Some (r1 ++ r2)).
Proof.
  intros H1 H2 Hbad Hb Hne Ht. eapply text_reads; [exact Ht| |done|done].
  apply sheet_app; [done|]. rewrite <- !app_assoc. by apply sh_bad.
Qed.
Print Assumptions C104_dropped_partial.

Definition no_colour (n : str) (l : list cval) : option N := None.
Definition zero (n : str) : bool := bool_decide (n = txt "0").
Notation ws := (TWhitespace 32).
Ltac blanks := repeat (apply Forall_cons; split; [by eexists|]); apply Forall_nil_2.

(** A sheet with most of what is covered. *)
Definition example_text : str := txt " a>.b[x~=""y"" i], #c ::d{p:1px f(2%,x) !important;q : 0}".
Definition example_rule : css_rule :=
  mk_rule [[PType (txt "a"); PCombinator Child; PClass (txt "b"); PAttribute (mk_attr (txt "x") MIncludes (txt "y") true)];
           [PId (txt "c"); PCombinator Descendant; PPseudoElement (txt "d")]]
    [mk_decl (txt "p") (VList [VUnit (txt "1") (txt "px"); VFunction (txt "f") [VPercentage (txt "2"); VComma; VString (txt "x")]]) true;
     mk_decl (txt "q") VZero false].
Definition example_tokens : list token :=
  [ws] ++ ((([TIdent (txt "a")] ++ [] ++ [TDelim 62] ++ [] ++
     [TDelim 46; TIdent (txt "b")] ++ [TLBracket] ++ [] ++ [TIdent (txt "x")] ++ [] ++ [TDelim 126; TDelim 61] ++ [] ++ [TString (txt "y")] ++ [ws] ++ [TIdent (txt "i")] ++ [TRBracket])
     ++ [TComma] ++ [ws] ++ [THash (txt "c")] ++ [ws] ++ [TColon; TColon; TIdent (txt "d")]) ++ [] ++ [TLCurly] ++
     (([TIdent (txt "p")] ++ [] ++ [TColon] ++ [] ++ [TDimension (txt "1") (txt "px")] ++
        ([ws] ++ (TFunction (txt "f") :: ([] ++ [TPercentage (txt "2")] ++ [] ++ [TComma] ++ [] ++ [TIdent (txt "x")] ++ []) ++ [] ++ [TRParen]) ++ []) ++
        [ws] ++ [TDelim 33; TIdent (txt "important")]) ++ [] ++ TSemicolon ::
      (([TIdent (txt "q")] ++ [ws] ++ [TColon] ++ [ws] ++ [TNumber (txt "0")] ++ [] ++ [] ++ []) ++ [])) ++ [TRCurly] ++ []).
Example C102_example :
  tokenize (fun _ => false) example_text = Ok (example_tokens ++ [TEof])
  /\ sheet_of zero no_colour false 63 example_tokens [example_rule].
Proof.
  split; [vm_compute; reflexivity|]. apply sh_blank; [by eexists|]. apply sh_rule; [|blanks| |apply sh_nil].
  - apply sl_more; [|blanks|].
    + apply (cx_symbol false _ [_]); [apply cp_one, s_type|blanks|constructor|blanks|]. apply (cx_one true).
      apply (cp_more false true [_; _]); [apply s_class|]. apply cp_one. apply (s_attr (txt "x") [] [] _ _ [] (txt "y") (TString (txt "y")) [ws] [_]); try blanks; constructor. blanks.
    + apply sl_one. apply (cx_descendant [_] [_] [ws]); [apply cp_one, s_id|blanks|done|]. apply (cx_one false), cp_one, s_pseudo_element.
  - apply (b_declaration _ _ _ _ _ _ []); [|blanks|].
    + apply (d_written _ _ _ (txt "p") [] [] _ _ _ [_] [ws] _ true); [done|blanks|blanks|apply v_unit| |by right; eexists|constructor].
      apply (vs_more _ _ _ [ws]); [by right; eexists| |apply vs_nil].
      apply (v_function zero no_colour 62 (txt "f") ([] ++ [TPercentage (txt "2")] ++ [] ++ [TComma] ++ [] ++ [TIdent (txt "x")] ++ [])
        [VPercentage (txt "2"); VComma; VString (txt "x")] []); [split; [done|]; split; [done|]; vm_compute; discriminate| |by left].
      apply (vs_more _ _ _ []); [by left|apply v_percentage|]. apply (vs_more _ _ _ []); [by left|apply v_comma|].
      apply (vs_more _ _ _ []); [by left|by apply v_ident|apply vs_nil].
    + apply (b_last _ _ _ _ _ _ []); [|blanks].
      apply (d_written _ _ _ (txt "q") [ws] [ws] _ _ [] [] [] _ false); [done|blanks|blanks|by apply v_zero|apply vs_nil|by left|constructor].
Qed.
Lemma small_rule (a b c : str) lax : plain_ident c -> prefixb [45; 45] b = false ->
  body zero no_colour lax 63 [TIdent b; TColon; TIdent c] [mk_decl b (VString c) false].
Proof.
  intros Hc Hb. apply (b_last _ _ _ _ ([TIdent b] ++ [] ++ [TColon] ++ [] ++ [TIdent c] ++ [] ++ [] ++ []) _ []); [|blanks].
  apply (d_written _ _ _ b [] [] _ _ [] [] [] _ false); [done|blanks|blanks|by apply v_ident|apply vs_nil|by left|constructor].
Qed.
(** [a{b:c;*x:y;d:e}]: the star of an old trick; and [a{b:c;x y;d:e}]. *)
Example C103_example :
  selectors [TIdent (txt "a")] [[ty "a"]]
  /\ body zero no_colour true 63 [TIdent (txt "b"); TColon; TIdent (txt "c")] [dc "b" "c"]
  /\ bad_declaration [TDelim 42; TIdent (txt "x"); TColon; TIdent (txt "y")]
  /\ bad_declaration [TIdent (txt "x"); ws; TIdent (txt "y")]
  /\ bad_declaration [TIdent (txt "x"); TColon; ws]
  /\ sheet (txt "a{b:c;*x:y;x y;x: ;d:e}") = Ok (Some [mk_rule [[ty "a"]] [dc "b" "c"; dc "d" "e"]]).
Proof.
  split; [apply sl_one, (cx_one false), cp_one, s_type|]. split; [by apply (small_rule (txt "a"))|].
  split; [apply bd_start; [done|by intros [? ?]|done|done|repeat constructor]|].
  split; [apply (bd_no_colon (txt "x") [ws]); [blanks|done|by intros [? ?]|done|constructor]|].
  split; [apply (bd_no_value (txt "x") [] [ws]); [done|blanks|blanks]|]. vm_compute. reflexivity.
Qed.
(** [a{b:c}d!{x:{;}(})}e{f:g}]. *)
Example C104_example :
  bad_prelude [TIdent (txt "d"); TDelim 33]
  /\ balanced [TIdent (txt "x"); TColon; TLCurly; TSemicolon; TRCurly; TLParen; TLCurly; TRCurly; TRParen]
  /\ sheet (txt "a{b:c}d!{x:{;}({})}e{f:g}") = Ok (Some [mk_rule [[ty "a"]] [dc "b" "c"]; mk_rule [[ty "e"]] [dc "f" "g"]]).
Proof.
  split; [|split; [|vm_compute; reflexivity]].
  - apply (bp_after [TIdent (txt "d")] [[ty "d"]] [] (TDelim 33) []); [apply sl_one, (cx_one false), cp_one, s_type|blanks| |constructor].
    cbn [no_selector]. vm_compute. intros H. repeat (apply elem_of_cons in H as [H|H]; [done|]). by apply elem_of_nil in H.
  - apply bl_dull; [by left|]. apply bl_dull; [by left|].
    apply (bl_curly [TSemicolon]); [apply bl_dull; [auto|constructor]|].
    apply (bl_paren TLParen [TLCurly; TRCurly] TRParen []); [by left| |by left|constructor]. apply (bl_curly [] []); constructor.
Qed.

(** Ways to write a sheet that are not read as CSS says. *)

(** C102: a space before a comma becomes a descendant combinator, so the selector before
    it can no longer match. *)
Theorem C102_comma_refuted :
  sheet (txt "a, b{c:d}") = Ok (Some [mk_rule [[ty "a"]; [ty "b"]] [dc "c" "d"]])
  /\ sheet (txt "a , b{c:d}") = Ok (Some [mk_rule [[ty "a"; PCombinator Descendant]; [ty "b"]] [dc "c" "d"]]).
Proof. vm_compute. auto. Qed.
Print Assumptions C102_comma_refuted.
(** The space after an attribute selector is lost: an ancestor becomes the element itself. *)
Theorem C102_attribute_refuted :
  sheet (txt "[x] b{c:d}") = sheet (txt "[x]b{c:d}")
  /\ sheet (txt ".x b{c:d}") <> sheet (txt ".xb{c:d}").
Proof. split; [vm_compute; reflexivity|]. vm_compute. discriminate. Qed.
Print Assumptions C102_attribute_refuted.
(** A comment between two values cuts off what follows it. *)
Theorem C102_comment_refuted :
  sheet (txt "a{b:c d}") = Ok (Some [mk_rule [[ty "a"]] [mk_decl (txt "b") (VList [VString (txt "c"); VString (txt "d")]) false]])
  /\ sheet (txt "a{b:c /**/ d}") = Ok (Some [mk_rule [[ty "a"]] [dc "b" "c"]]).
Proof. vm_compute. auto. Qed.
Print Assumptions C102_comment_refuted.
(** [! important], which CSS allows, costs the declaration. *)
Theorem C102_important_refuted :
  sheet (txt "a{b:c!important}") = Ok (Some [mk_rule [[ty "a"]] [mk_decl (txt "b") (VString (txt "c")) true]])
  /\ sheet (txt "a{b:c! important}") = Ok (Some [mk_rule [[ty "a"]] []])
  /\ sheet (txt "a{b:c!IMPORTANT}") = Ok (Some [mk_rule [[ty "a"]] []]).
Proof. vm_compute. auto. Qed.
Print Assumptions C102_important_refuted.
(** The declaration after a nested at-rule is dropped. *)
Theorem C102_nested_refuted :
  sheet (txt "a{@layer x;b:c;d:e}") = Ok (Some [mk_rule [[ty "a"]] [dc "d" "e"]]).
Proof. vm_compute. reflexivity. Qed.
Print Assumptions C102_nested_refuted.
(** The rules inside [@media] are dropped, whatever the medium. *)
Theorem C102_media_refuted :
  sheet (txt "@media all{a{b:c}}d{e:f}") = Ok (Some [mk_rule [[ty "d"]] [dc "e" "f"]]).
Proof. vm_compute. reflexivity. Qed.
Print Assumptions C102_media_refuted.
(** A rule that the end of the sheet closes is dropped, and so is one with a namespace. *)
Theorem C102_end_refuted :
  sheet (txt "d{e:f}a{b:c") = Ok (Some [mk_rule [[ty "d"]] [dc "e" "f"]])
  /\ sheet (txt "d{e:f}*|a{b:c}") = Ok (Some [mk_rule [[ty "d"]] [dc "e" "f"]]).
Proof. vm_compute. auto. Qed.
Print Assumptions C102_end_refuted.
(** A sheet without rules is an error. *)
Theorem C102_empty_refuted : sheet [] = Ok None /\ sheet (txt " ") = Ok None.
Proof. vm_compute. auto. Qed.
Print Assumptions C102_empty_refuted.

(** C103: an invalid declaration can be kept, cut short; and one can change how the
    declarations of another rule are read: [z=w], cut short to [z] otherwise, is dropped. *)
Theorem C103_kept_refuted :
  sheet (txt "a{b:c = 1}") = Ok (Some [mk_rule [[ty "a"]] [dc "b" "c"]]).
Proof. vm_compute. reflexivity. Qed.
Print Assumptions C103_kept_refuted.
Theorem C103_leak_refuted :
  sheet (txt "a{}x{y:z=w}") = Ok (Some [mk_rule [[ty "a"]] []; mk_rule [[ty "x"]] [dc "y" "z"]])
  /\ sheet (txt "a{b:progid:DXImageTransform.Microsoft.f([)}x{y:z=w}")
     = Ok (Some [mk_rule [[ty "a"]] []; mk_rule [[ty "x"]] []]).
Proof. vm_compute. auto. Qed.
Print Assumptions C103_leak_refuted.

(** A name without a colon costs the declaration after it, or the rule after its own. *)
Theorem C103_neighbour_refuted :
  sheet (txt "a{x;b:c;d:e}") = Ok (Some [mk_rule [[ty "a"]] [dc "d" "e"]])
  /\ sheet (txt "a{x}b{c:d}e{f:g}") = Ok (Some [mk_rule [[ty "a"]] []; mk_rule [[ty "e"]] [dc "f" "g"]]).
Proof. vm_compute. auto. Qed.
Print Assumptions C103_neighbour_refuted.

(** C104: a rule with an invalid selector can cost the whole sheet, and one with an empty
    selector is accepted and applies to every element. *)
Theorem C104_sheet_refuted :
  sheet (txt "a{b:c}") = Ok (Some [mk_rule [[ty "a"]] [dc "b" "c"]])
  /\ sheet (txt "a{b:c}50%{d:e}") = Ok None /\ sheet (txt "a{b:c}&{d:e}") = Ok None.
Proof. vm_compute. auto. Qed.
Print Assumptions C104_sheet_refuted.
Theorem C104_empty_refuted :
  sheet (txt "a,{b:c}") = Ok (Some [mk_rule [[ty "a"]; []] [dc "b" "c"]])
  /\ sheet (txt "{b:c}") = Ok (Some [mk_rule [[]] [dc "b" "c"]])
  /\ forall lower d i, match_selector lower d i [[]] None = Ok (true, (0, 0, 0)).
Proof. split; [vm_compute; reflexivity|]. split; [vm_compute; reflexivity|]. done. Qed.
Print Assumptions C104_empty_refuted.
