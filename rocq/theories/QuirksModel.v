(** Model of crates/gosub_html5/src/parser/quirks.rs and of its only call, in the "initial" insertion mode
    (parser.rs:724-750). *)
From Verif Require Import Base Text.

(** gosub_interface/src/node.rs [QuirksMode] *)
Inductive mode := NoQuirks | LimitedQuirks | Quirks.
Global Instance mode_dec : EqDecision mode. Proof. solve_decision. Defined.
(** tokenizer/token.rs, the fields of [Token::DocType] *)
Record doctype := mk_doctype { dt_name : option (list N); dt_public : option (list N); dt_system : option (list N); dt_force : bool }.

(** quirks.rs:69-73 *)
Definition pub_eq : list (list N) :=
  [txt "-//w3o//dtd w3 html strict 3.0//en//";
   txt "-/w3c/dtd html 4.0 transitional/en";
   txt "html"].
(** quirks.rs:75-131 *)
Definition pub_prefix : list (list N) :=
  [txt "+//silmaril//dtd html pro v0r11 19970101//";
   txt "-//as//dtd html 3.0 aswedit + extensions//";
   txt "-//advasoft ltd//dtd html 3.0 aswedit + extensions//";
   txt "-//ietf//dtd html 2.0 level 1//";
   txt "-//ietf//dtd html 2.0 level 2//";
   txt "-//ietf//dtd html 2.0 strict level 1//";
   txt "-//ietf//dtd html 2.0 strict level 2//";
   txt "-//ietf//dtd html 2.0 strict//";
   txt "-//ietf//dtd html 2.0//";
   txt "-//ietf//dtd html 2.1e//";
   txt "-//ietf//dtd html 3.0//";
   txt "-//ietf//dtd html 3.2 final//";
   txt "-//ietf//dtd html 3.2//";
   txt "-//ietf//dtd html 3//";
   txt "-//ietf//dtd html level 0//";
   txt "-//ietf//dtd html level 1//";
   txt "-//ietf//dtd html level 2//";
   txt "-//ietf//dtd html level 3//";
   txt "-//ietf//dtd html strict level 0//";
   txt "-//ietf//dtd html strict level 1//";
   txt "-//ietf//dtd html strict level 2//";
   txt "-//ietf//dtd html strict level 3//";
   txt "-//ietf//dtd html strict//";
   txt "-//ietf//dtd html//";
   txt "-//metrius//dtd metrius presentational//";
   txt "-//microsoft//dtd internet explorer 2.0 html strict//";
   txt "-//microsoft//dtd internet explorer 2.0 html//";
   txt "-//microsoft//dtd internet explorer 2.0 tables//";
   txt "-//microsoft//dtd internet explorer 3.0 html strict//";
   txt "-//microsoft//dtd internet explorer 3.0 html//";
   txt "-//microsoft//dtd internet explorer 3.0 tables//";
   txt "-//netscape comm. corp.//dtd html//";
   txt "-//netscape comm. corp.//dtd strict html//";
   txt "-//o'reilly and associates//dtd html 2.0//";
   txt "-//o'reilly and associates//dtd html extended 1.0//";
   txt "-//o'reilly and associates//dtd html extended relaxed 1.0//";
   txt "-//sq//dtd html 2.0 hotmetal + extensions//";
   txt "-//softquad software//dtd hotmetal pro 6.0::19990601::extensions to html 4.0//";
   txt "-//softquad//dtd hotmetal pro 4.0::19971010::extensions to html 4.0//";
   txt "-//spyglass//dtd html 2.0 extended//";
   txt "-//sun microsystems corp.//dtd hotjava html//";
   txt "-//sun microsystems corp.//dtd hotjava strict html//";
   txt "-//w3c//dtd html 3 1995-03-24//";
   txt "-//w3c//dtd html 3.2 draft//";
   txt "-//w3c//dtd html 3.2 final//";
   txt "-//w3c//dtd html 3.2//";
   txt "-//w3c//dtd html 3.2s draft//";
   txt "-//w3c//dtd html 4.0 frameset//";
   txt "-//w3c//dtd html 4.0 transitional//";
   txt "-//w3c//dtd html experimental 19960712//";
   txt "-//w3c//dtd html experimental 970421//";
   txt "-//w3c//dtd w3 html//";
   txt "-//w3o//dtd w3 html 3.0//";
   txt "-//webtechs//dtd mozilla html 2.0//";
   txt "-//webtechs//dtd mozilla html//"].
(** quirks.rs:133-136 *)
Definition pub_prefix_missing_sys : list (list N) :=
  [txt "-//w3c//dtd html 4.01 frameset//";
   txt "-//w3c//dtd html 4.01 transitional//"].
(** quirks.rs:138 *)
Definition sys_eq : list (list N) :=
  [txt "http://www.ibm.com/data/dtd/v11/ibmxhtml1-transitional.dtd"].
(** quirks.rs:140-143 *)
Definition limited_pub_prefix : list (list N) :=
  [txt "-//w3c//dtd xhtml 1.0 frameset//";
   txt "-//w3c//dtd xhtml 1.0 transitional//"].
(** quirks.rs:145-148 *)
Definition limited_pub_prefix_not_missing_sys : list (list N) :=
  [txt "-//w3c//dtd html 4.01 frameset//";
   txt "-//w3c//dtd html 4.01 transitional//"].

Definition any_prefix (l : list (list N)) (s : list N) : bool := existsb (fun p => bool_decide (p `prefix_of` s)) l.

Section quirks.
(** [str::to_lowercase] *)
Variable lower : list N -> list N.

(** quirks.rs:8-66 [identify_quirks_mode] *)
Definition identify_quirks_mode (d : doctype) : mode :=
  if dt_force d || negb (bool_decide (default [] (dt_name d) = txt "html")) then Quirks
  else
    let by_system :=
      match dt_system d with
      | Some v => if any_prefix sys_eq (lower v) then Quirks else NoQuirks
      | None => NoQuirks
      end in
    match dt_public d with
    | Some v =>
        let pub_id := lower v in
        if bool_decide (pub_id ∈ pub_eq) then Quirks
        else if any_prefix pub_prefix pub_id then Quirks
        else if bool_decide (is_Some (dt_system d)) && any_prefix limited_pub_prefix_not_missing_sys pub_id then LimitedQuirks
        else if negb (bool_decide (is_Some (dt_system d))) && any_prefix pub_prefix_missing_sys pub_id then Quirks
        else if any_prefix limited_pub_prefix pub_id then LimitedQuirks
        else by_system
    | None => by_system
    end.
(** parser.rs:740-747: the mode of the document after the doctype *)
Definition doctype_mode (iframe_srcdoc cannot_change : bool) (before : mode) (d : doctype) : mode :=
  if negb iframe_srcdoc && negb cannot_change then identify_quirks_mode d else before.
End quirks.
