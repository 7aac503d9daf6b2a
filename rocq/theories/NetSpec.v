(** What the properties of response handling (C35-C37, C63, C65) are stated with. *)
From Verif Require Import Text SettingsModel CookieModel ByteStreamModel ByteStreamSpec NetModel.
Import NetModel.

(** ** Headers *)
(** The first header called [n] is [v], which is visible ASCII. *)
Definition sends (m : meta) (n v : str) : Prop :=
  (exists l1 l2, m_headers m = l1 ++ (n, v) :: l2 /\ forall w, (n, w) ∉ l1) /\
  Forall (fun b => (32 <= b < 127 \/ b = 9)%N) v.
(** The server forbids sniffing. *)
Definition nosniff (m : meta) : Prop :=
  exists v, sends m (txt "x-content-type-options") v /\ lower v = txt "nosniff".
(** The server asks for the response to be saved. *)
Definition attached (m : meta) : Prop :=
  exists v ws w rest, sends m (txt "content-disposition") v /\ v = ws ++ w ++ rest /\
    Forall (fun c => c = 32 \/ c = 9)%N ws /\ lower w = txt "attachment".
(** The server declares the type [t]; or nothing that can be read. *)
Definition declares {D I} (ext : externals D I) (m : meta) (t : mime) : Prop :=
  exists v, sends m (txt "content-type") v /\ parse_mime ext v = Some t.
Definition declares_nothing (m : meta) : Prop := forall v, (txt "content-type", v) ∉ m_headers m.

(** The types whose declaration is believed, and what they are. *)
Inductive known : mime -> class -> Prop :=
| known_html sf : known (mk_mime (txt "text") (txt "html") sf) CHtml
| known_css sf : known (mk_mime (txt "text") (txt "css") sf) CCss
| known_js sf : known (mk_mime (txt "application") (txt "javascript") sf) CJs
| known_image s sf : known (mk_mime (txt "image") s sf) CImage
| known_font s sf : known (mk_mime (txt "font") s sf) CFont
| known_pdf sf : known (mk_mime (txt "application") (txt "pdf") sf) CPdf
| known_json sf : known (mk_mime (txt "application") (txt "json") sf) CJson
| known_text s sf : s <> txt "html" -> s <> txt "css" -> known (mk_mime (txt "text") s sf) CText.

(** ** Outcomes *)
(** Something of the response is shown, run or applied. *)
Definition used {D I} (o : routed D I) : bool :=
  match o with Blocked | DownloadOffer _ | Failed => false | _ => true end.
(** What each kind of request for a part of a page is for. *)
Inductive fits : destination -> class -> Prop :=
| fits_style : fits Style CCss
| fits_script : fits Script CJs
| fits_image : fits Image CImage
| fits_font : fits Font CFont.
(** The outcome is the part of a page asked for, made from these bytes. *)
Inductive loads {D I} (ext : externals D I) (b : list N) : destination -> routed D I -> Prop :=
| loads_style : loads ext b Style (CssLoaded (lossy b))
| loads_script : loads ext b Script (ScriptExecuted (lossy b))
| loads_image i : decode_image ext b = Some i -> loads ext b Image (ImageDecoded i)
| loads_no_image : decode_image ext b = None -> loads ext b Image Failed
| loads_font : loads ext b Font (FontLoaded (lossy b)).

(** ** Bodies *)
Definition fetched_meta (f : fetched) : option meta :=
  match f with FStream m _ _ => Some m | FBuffered m _ => Some m | FError => None end.
(** The bytes a reader gets before the end; [None] when reading fails. *)
Fixpoint delivered (l : list read_result) : option (list N) :=
  match l with
  | [] => Some []
  | Data b :: r => app b <$> delivered r
  | Fail :: _ => None
  | Cancelled :: r => delivered r
  end.
Definition body_of (f : fetched) : option (list N) :=
  match f with FStream _ p r => app p <$> delivered r | FBuffered _ b => Some b | FError => None end.
(** What the decision may look at. *)
Definition peek_of (f : fetched) : list N :=
  match f with FStream _ p _ => p | FBuffered _ b => take peek_limit b | FError => [] end.
(** Reading never fails and is not cancelled. *)
Definition smooth (l : list read_result) : Prop := Forall (fun r => exists b, r = Data b) l.
Definition smooth_fetch (f : fetched) : Prop :=
  match f with FStream _ _ r => smooth r | FBuffered _ _ => True | FError => False end.
Fixpoint data (l : list read_result) : list N :=
  match l with [] => [] | Data b :: r => b ++ data r | _ :: r => data r end.

(** The bytes are the UTF-8 form of a text. *)
Inductive utf8_text : list N -> str -> Prop :=
| utf8_text_nil : utf8_text [] []
| utf8_text_cons c seq b t : utf8_of c seq -> utf8_text b t -> utf8_text (seq ++ b) (c :: t).
(** A text that starts like an HTML document: white space, then [<!doctype html] or [<html] in any
    case *)
Definition html_start (t : str) : Prop :=
  exists ws w rest, t = ws ++ w ++ rest /\ Forall (fun c => c = 32 \/ c = 9 \/ c = 10 \/ c = 12 \/ c = 13)%N ws /\
    (lower w = txt "<!doctype html" \/ lower w = txt "<html").

(** ** Markup *)
(** Cutting a document into tags and characters: every [<] opens a tag, the next [>] closes it. *)
Inductive piece := Tag (t : str) | Char (c : N) | Unclosed (t : str).
Fixpoint scan (tag : option str) (s : str) : list piece :=
  match s, tag with
  | [], None => []
  | [], Some t => [Unclosed (rev t)]
  | c :: r, None => if N.eqb c 60 then scan (Some []) r else Char c :: scan None r
  | c :: r, Some t => if N.eqb c 62 then Tag (rev t) :: scan None r else scan (Some (c :: t)) r
  end.
Definition pieces (s : str) : list piece := scan None s.
Definition tags (l : list piece) : list str := omap (fun p => match p with Tag t => Some t | _ => None end) l.
Definition chars_of (l : list piece) : str := omap (fun p => match p with Char c => Some c | _ => None end) l.
Definition closed (l : list piece) : Prop := forall t, Unclosed t ∉ l.

(** Reading the three character references *)
Fixpoint unescape_loop (fuel : nat) (s : str) : str :=
  match fuel, s with
  | S f, c :: r =>
      if starts_with (txt "&amp;") s then 38%N :: unescape_loop f (drop 5 s)
      else if starts_with (txt "&lt;") s then 60%N :: unescape_loop f (drop 4 s)
      else if starts_with (txt "&gt;") s then 62%N :: unescape_loop f (drop 4 s)
      else c :: unescape_loop f r
  | _, _ => []
  end.
Definition unescape (s : str) : str := unescape_loop (length s) s.

(** The lines of a document: each [div] and the text in it *)
Fixpoint lines_of (cur : option (str * str)) (l : list piece) : list (str * str) :=
  match l with
  | [] => []
  | Tag t :: r =>
      if starts_with (txt "div") t then lines_of (Some (t, [])) r
      else match cur with
           | Some (d, s) => if bool_decide (t = txt "/div") then (d, unescape s) :: lines_of None r else lines_of cur r
           | None => lines_of None r
           end
  | Char c :: r =>
      match cur with Some (d, s) => lines_of (Some (d, s ++ [c])) r | None => lines_of None r end
  | Unclosed _ :: r => lines_of cur r
  end.

(** ** JSON *)
(** The usual layout of a JSON value: lines with their depth *)
Definition on_first (p : str) (l : list (nat * str)) : list (nat * str) :=
  match l with [] => [] | (d, s) :: r => (d, p ++ s) :: r end.
Fixpoint on_last (p : str) (l : list (nat * str)) : list (nat * str) :=
  match l with [] => [] | [(d, s)] => [(d, s ++ p)] | x :: r => x :: on_last p r end.
Definition indent (l : list (nat * str)) : list (nat * str) := map (fun x => (S x.1, x.2)) l.
Fixpoint commas (l : list (list (nat * str))) : list (nat * str) :=
  match l with [] => [] | [x] => x | x :: r => on_last (txt ",") x ++ commas r end.
Definition quoted (s : str) : str := quote ++ s ++ quote.
Fixpoint pretty (v : json) : list (nat * str) :=
  match v with
  | JNull => [(0, txt "null")]
  | JBool b => [(0, if b then txt "true" else txt "false")]
  | JNum n => [(0, n)]
  | JStr s => [(0, quoted s)]
  | JArr [] => [(0, txt "[]")]
  | JObj [] => [(0, txt "{}")]
  | JArr l => (0, txt "[") :: indent (commas (map pretty l)) ++ [(0, txt "]")]
  | JObj l =>
      (0, txt "{") :: indent (commas (map (fun kx => on_first (quoted kx.1 ++ txt ": ") (pretty kx.2)) l)) ++ [(0, txt "}")]
  end.
(** Numbers are written without [<], [>] and [&]. *)
Definition plain (s : str) : Prop := Forall (fun c => c <> 60 /\ c <> 62 /\ c <> 38)%N s.
Fixpoint plain_numbers (v : json) : Prop :=
  match v with
  | JNum n => plain n
  | JArr l => (fix all (l : list json) : Prop := match l with [] => True | x :: r => plain_numbers x /\ all r end) l
  | JObj l => (fix all (l : list (str * json)) : Prop := match l with [] => True | (_, x) :: r => plain_numbers x /\ all r end) l
  | _ => True
  end.
(** The tag of a line at a depth *)
Definition div_tag (d : nat) : str :=
  match d with
  | 0 => txt "div"
  | _ => txt "div style=" ++ quoted (txt "padding-left:" ++ show_N (N.of_nat (2 * d)) ++ txt "em")
  end.
(** The tags of the JSON viewer besides those of its lines *)
Definition template : list str :=
  [txt "!DOCTYPE html"; txt "html"; txt "head"; txt "meta charset=" ++ quoted (txt "utf-8"); txt "/head";
   txt "body style=" ++ quoted (txt "font-family:monospace;font-size:13px;color:#24292e;background:#ffffff");
   txt "/div"; txt "/span"; txt "/body"; txt "/html"] ++
  map (fun c => txt "span style=" ++ quoted (txt "color:" ++ c)) [txt "#6f42c1"; txt "#22863a"; txt "#005cc5"; txt "#d73a49"].
