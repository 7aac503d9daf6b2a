(** C90: how the notation of grammars is read. *)
From stdpp Require Import list.
From Verif Require Import Base Text SelectorModel SyntaxModel GrammarData GrammarModel GrammarText GrammarRead.

(** ** C90 *)
(** Every grammar is read back from its notation as itself: words, quoted signs, types with their ranges, functions, the four
    combinators with their strengths, brackets, and all the multipliers. *)
Theorem C90_read c : writable c = true -> compile (notation c) = Some [c].
Proof. apply notation_read. Qed.
Example C90_read_demo :
  let c := CGroup ExactlyOne
    [CGroup Juxtaposition [CKeyword (txt "line") [Once]; CDefinition (txt "number") false (txt "0,10") [Optional]] [Once];
     CGroup AtLeastOneAnyOrder [CFunction (txt "fit-content") (Some (CDefinition (txt "length") false [] [CommaRepeat 1 u32_max; Optional])) [Once];
       CGroup AllAnyOrder [CProperty (txt "width") [Between 1 4]; CBuiltin (txt "10px") [] [OneOrMore]] [AtLeastOneValue]] [Once];
     CLiteral (txt "/") [ZeroOrMore]] [Once] in
  writable c = true /\ notation c = txt "line <number [0,10]>? | fit-content(<length>#?) || ['width'{1,4} && 10px+]! | /*".
Proof. by vm_compute. Qed.
(** So no two grammars share a notation. *)
Theorem C90_unambiguous c1 c2 : writable c1 = true -> writable c2 = true -> notation c1 = notation c2 -> c1 = c2.
Proof. intros H1 H2 E. apply notation_read in H1, H2. rewrite E, H2 in H1. by injection H1. Qed.
Example C90_unambiguous_demo : exists c1 c2, writable c1 = true /\ writable c2 = true /\ c1 <> c2 /\
  notation c1 = txt "a b | c" /\ notation c2 = txt "a [b | c]".
Proof.
  exists (CGroup ExactlyOne [CGroup Juxtaposition [CKeyword (txt "a") [Once]; CKeyword (txt "b") [Once]] [Once]; CKeyword (txt "c") [Once]] [Once]).
  exists (CGroup Juxtaposition [CKeyword (txt "a") [Once]; CGroup ExactlyOne [CKeyword (txt "b") [Once]; CKeyword (txt "c") [Once]] [Once]] [Once]).
  by vm_compute.
Qed.
(** Of the 1283 grammars the engine is compiled with, 1115 are, up to blanks, the notation of what they are read as. Of the others,
    161 have brackets or quotes they do not need or lose a multiplier, as below, and seven are not covered by the theorem above. *)
Theorem C90_shipped_partial : length shipped_texts = 1283 /\ exists texts, sublist texts shipped_texts /\ length texts = 1115 /\
  forall t, t ∈ texts -> exists c, compile t = Some [c] /\ writable c = true /\ unblank (notation c) = unblank t.
Proof.
  split; [by vm_compute|]. exists (List.filter reads_back shipped_texts). split; [apply filter_sublist|]. split; [exact shipped_read_back|].
  intros t Ht. apply elem_of_list_In, filter_In in Ht as [_ Ht]. by apply reads_back_ok.
Qed.
(** A multiplier inside brackets that are multiplied themselves is lost, and the shipped grammar of [<dasharray>] is read without
    its [+]: a list such as [1 2, 3] is not taken. *)
Theorem C90_inner_multiplier_refuted :
  compile (txt "[ a+ ]?") = compile (txt "a?") /\
  In ("<dasharray>", "[ [ <length-percentage> | <number> ]+ ]#")%string value_texts /\
  compile (txt "[ [ <length-percentage> | <number> ]+ ]#") = compile (txt "[ <length-percentage> | <number> ]#").
Proof. split; [by vm_compute|]. split; [|by vm_compute]. apply (shipped_value 132). by vm_compute. Qed.
(** A keyword that starts with [initial], [inherit] or [unset] is read as two words. *)
Theorem C90_keyword_refuted : compile (txt "initial-only") = compile (txt "initial -only") /\ compile (txt "initial-only") <> compile (txt "'initial-only'").
Proof. by vm_compute. Qed.
(** Parentheses that stand for themselves, as in [( a )], are read as brackets. *)
Theorem C90_parentheses_refuted : compile (txt "( a )") = compile (txt "[ a ]").
Proof. by vm_compute. Qed.
Print Assumptions C90_read.
Print Assumptions C90_unambiguous.
Print Assumptions C90_shipped_partial.
Print Assumptions C90_inner_multiplier_refuted.
Print Assumptions C90_keyword_refuted.
Print Assumptions C90_parentheses_refuted.
