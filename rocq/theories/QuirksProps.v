(** Doctypes and quirks mode (C44): property theorems. [lower] is any function with the stated properties
    of [str::to_lowercase]. *)
From Verif Require Import Base Text QuirksModel QuirksSpec QuirksProofs.

(** The mode is the standard's, unless the system identifier begins with the listed one and either goes on
    or comes with a public identifier for limited quirks. *)
Theorem C44_standard_partial : forall lower, lowering lower -> forall d,
  (forall s, dt_system d = Some s -> begins std_system s -> same std_system s /\ ~ std_limited d) ->
  std_mode d (identify_quirks_mode lower d).
Proof. exact standard. Qed.
Print Assumptions C44_standard_partial.
(** A longer system identifier: quirks instead of no quirks *)
Theorem C44_longer_system_refuted : forall lower, lowering lower -> forall t, t <> [] ->
  let d := mk_doctype (Some (txt "html")) None (Some (std_system ++ t)) false in
  identify_quirks_mode lower d = Quirks /\ std_mode d NoQuirks.
Proof. exact longer_system. Qed.
Print Assumptions C44_longer_system_refuted.
(** With a public identifier for limited quirks, the system identifier is not looked at. *)
Theorem C44_limited_first_refuted : forall lower, lowering lower -> forall p,
  begins_any std_xhtml_10 p -> ~ (exists q, q ∈ std_public /\ same q p) -> ~ begins_any std_public_prefix p ->
  let d := mk_doctype (Some (txt "html")) (Some p) (Some std_system) false in
  identify_quirks_mode lower d = LimitedQuirks /\ std_mode d Quirks.
Proof. exact limited_first. Qed.
Print Assumptions C44_limited_first_refuted.

(** Lowering ASCII letters only is one such function; so is one that also knows the Kelvin sign. *)
Definition sample_lower (s : list N) : list N := map (fun x => if (x =? 8490)%N then 107%N else ascii_lower x) s.
Example C44_lowering : lowering sample_lower.
Proof.
  intros s. exists (map (fun x => [if (x =? 8490)%N then 107%N else ascii_lower x]) s). split.
  - induction s as [|x s IH]; [constructor|]. cbn. constructor; [|done]. destruct (N.eqb_spec x 8490) as [->|N]; [right; split; [done|by left]|].
    destruct (N.lt_ge_cases x 128) as [L|L]; [by left|]. right. split; [done|]. right; right. exists x, []. by rewrite ascii_lower_big.
  - induction s as [|x s IH]; [done|]. unfold sample_lower in *. cbn. by rewrite IH.
Qed.
Example C44_example :
  let html := Some (txt "html") in
  identify_quirks_mode sample_lower (mk_doctype html None None false) = NoQuirks /\
  identify_quirks_mode sample_lower (mk_doctype html (Some (txt "-//W3C//DTD HTML 4.01 Transitional//EN")) None false) = Quirks /\
  identify_quirks_mode sample_lower (mk_doctype html (Some (txt "-//w3c//dtd HTML 4.01 Transitional//EN")) (Some []) false) = LimitedQuirks /\
  identify_quirks_mode sample_lower (mk_doctype html (Some (txt "-//IETF//dtd html 2.0//x")) (Some []) false) = Quirks /\
  (forall s, Some (txt "about:legacy-compat") = Some s -> begins std_system s -> same std_system s /\ ~ std_limited (mk_doctype html None (Some s) false)) /\
  begins_any std_xhtml_10 (txt "-//W3C//DTD XHTML 1.0 Transitional//EN").
Proof.
  split_and!; try (vm_compute; reflexivity).
  - intros s [= <-] (a & b & E & S). exfalso. apply (f_equal length) in E, S. rewrite app_length in E. rewrite !map_length in S.
    change (length (txt "about:legacy-compat")) with 19 in E. change (length std_system) with 58 in S. lia.
  - exists (txt "-//W3C//DTD XHTML 1.0 Transitional//"). split; [by right; left|]. by exists (txt "-//W3C//DTD XHTML 1.0 Transitional//"), (txt "EN").
Qed.
