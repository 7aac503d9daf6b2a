(** The HTML standard on doctypes (section 13.2.6.4.1, the "initial" insertion mode), written from the
    standard and not from the source; comparisons are ASCII case-insensitive. *)
From Verif Require Import Base Text QuirksModel.

Definition ascii_lower (x : N) : N := (if (65 <=? x) && (x <=? 90) then x + 32 else x)%N.
(** the same text, and begins with the text, up to the case of ASCII letters *)
Definition same (a b : list N) : Prop := map ascii_lower a = map ascii_lower b.
Definition begins (p s : list N) : Prop := exists a b, s = a ++ b /\ same p a.

Definition std_public : list (list N) :=
  [txt "-//W3O//DTD W3 HTML Strict 3.0//EN//";
   txt "-/W3C/DTD HTML 4.0 Transitional/EN";
   txt "HTML"].
Definition std_public_prefix : list (list N) :=
  [txt "+//Silmaril//dtd html Pro v0r11 19970101//";
   txt "-//AS//DTD HTML 3.0 asWedit + extensions//";
   txt "-//AdvaSoft Ltd//DTD HTML 3.0 asWedit + extensions//";
   txt "-//IETF//DTD HTML 2.0 Level 1//";
   txt "-//IETF//DTD HTML 2.0 Level 2//";
   txt "-//IETF//DTD HTML 2.0 Strict Level 1//";
   txt "-//IETF//DTD HTML 2.0 Strict Level 2//";
   txt "-//IETF//DTD HTML 2.0 Strict//";
   txt "-//IETF//DTD HTML 2.0//";
   txt "-//IETF//DTD HTML 2.1E//";
   txt "-//IETF//DTD HTML 3.0//";
   txt "-//IETF//DTD HTML 3.2 Final//";
   txt "-//IETF//DTD HTML 3.2//";
   txt "-//IETF//DTD HTML 3//";
   txt "-//IETF//DTD HTML Level 0//";
   txt "-//IETF//DTD HTML Level 1//";
   txt "-//IETF//DTD HTML Level 2//";
   txt "-//IETF//DTD HTML Level 3//";
   txt "-//IETF//DTD HTML Strict Level 0//";
   txt "-//IETF//DTD HTML Strict Level 1//";
   txt "-//IETF//DTD HTML Strict Level 2//";
   txt "-//IETF//DTD HTML Strict Level 3//";
   txt "-//IETF//DTD HTML Strict//";
   txt "-//IETF//DTD HTML//";
   txt "-//Metrius//DTD Metrius Presentational//";
   txt "-//Microsoft//DTD Internet Explorer 2.0 HTML Strict//";
   txt "-//Microsoft//DTD Internet Explorer 2.0 HTML//";
   txt "-//Microsoft//DTD Internet Explorer 2.0 Tables//";
   txt "-//Microsoft//DTD Internet Explorer 3.0 HTML Strict//";
   txt "-//Microsoft//DTD Internet Explorer 3.0 HTML//";
   txt "-//Microsoft//DTD Internet Explorer 3.0 Tables//";
   txt "-//Netscape Comm. Corp.//DTD HTML//";
   txt "-//Netscape Comm. Corp.//DTD Strict HTML//";
   txt "-//O'Reilly and Associates//DTD HTML 2.0//";
   txt "-//O'Reilly and Associates//DTD HTML Extended 1.0//";
   txt "-//O'Reilly and Associates//DTD HTML Extended Relaxed 1.0//";
   txt "-//SQ//DTD HTML 2.0 HoTMetaL + extensions//";
   txt "-//SoftQuad Software//DTD HoTMetaL PRO 6.0::19990601::extensions to HTML 4.0//";
   txt "-//SoftQuad//DTD HoTMetaL PRO 4.0::19971010::extensions to HTML 4.0//";
   txt "-//Spyglass//DTD HTML 2.0 Extended//";
   txt "-//Sun Microsystems Corp.//DTD HotJava HTML//";
   txt "-//Sun Microsystems Corp.//DTD HotJava Strict HTML//";
   txt "-//W3C//DTD HTML 3 1995-03-24//";
   txt "-//W3C//DTD HTML 3.2 Draft//";
   txt "-//W3C//DTD HTML 3.2 Final//";
   txt "-//W3C//DTD HTML 3.2//";
   txt "-//W3C//DTD HTML 3.2S Draft//";
   txt "-//W3C//DTD HTML 4.0 Frameset//";
   txt "-//W3C//DTD HTML 4.0 Transitional//";
   txt "-//W3C//DTD HTML Experimental 19960712//";
   txt "-//W3C//DTD HTML Experimental 970421//";
   txt "-//W3C//DTD W3 HTML//";
   txt "-//W3O//DTD W3 HTML 3.0//";
   txt "-//WebTechs//DTD Mozilla HTML 2.0//";
   txt "-//WebTechs//DTD Mozilla HTML//"].
Definition std_system : list N := txt "http://www.ibm.com/data/dtd/v11/ibmxhtml1-transitional.dtd".
Definition std_html_401 : list (list N) := [txt "-//W3C//DTD HTML 4.01 Frameset//"; txt "-//W3C//DTD HTML 4.01 Transitional//"].
Definition std_xhtml_10 : list (list N) := [txt "-//W3C//DTD XHTML 1.0 Frameset//"; txt "-//W3C//DTD XHTML 1.0 Transitional//"].

Definition has_public (P : list N -> Prop) (d : doctype) : Prop := exists p, dt_public d = Some p /\ P p.
Definition begins_any (l : list (list N)) (s : list N) : Prop := exists p, p ∈ l /\ begins p s.
(** "Then, if the DOCTYPE token matches one of the conditions in the following list, then set the Document
    to quirks mode" *)
Definition std_quirks (d : doctype) : Prop :=
  dt_force d = true \/ dt_name d <> Some (txt "html") \/
  has_public (fun p => exists q, q ∈ std_public /\ same q p) d \/
  (exists s, dt_system d = Some s /\ same std_system s) \/
  has_public (begins_any std_public_prefix) d \/
  (dt_system d = None /\ has_public (begins_any std_html_401) d).
(** "Otherwise, ... then set the Document to limited-quirks mode" *)
Definition std_limited (d : doctype) : Prop :=
  has_public (begins_any std_xhtml_10) d \/ (dt_system d <> None /\ has_public (begins_any std_html_401) d).
Definition std_mode (d : doctype) (m : mode) : Prop :=
  match m with
  | Quirks => std_quirks d
  | LimitedQuirks => ~ std_quirks d /\ std_limited d
  | NoQuirks => ~ std_quirks d /\ ~ std_limited d
  end.

(** What is assumed of [str::to_lowercase]: a character below 128 becomes its lower-case form. A character
    from 128 on becomes [k] (the Kelvin sign), [i] and a combining dot (a capital I with a dot), or
    something that begins with a character from 128 on. *)
Definition lowers (x : N) (l : list N) : Prop :=
  ((x < 128 /\ l = [ascii_lower x]) \/ (128 <= x /\ (l = [107] \/ l = [105; 775] \/ exists y r, l = y :: r /\ 128 <= y)))%N.
Definition lowering (lower : list N -> list N) : Prop :=
  forall s, exists parts, Forall2 lowers s parts /\ lower s = concat parts.
