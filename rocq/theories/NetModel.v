(** Model of crates/gosub_engine/src/net: deciding what to do with a response (decision.rs,
    decision/sniff.rs, decision/types.rs), routing it (router.rs), and buffering the document
    (html/parser.rs). *)
From Verif Require Import Text SettingsModel CookieModel ByteStreamModel.

Notation bytes := (list N) (only parsing).

(** decision/types.rs:7-24 *)
Inductive destination :=
| Document | Image | Style | Script | Font | Audio | Video | Worker | SharedWorker | ServiceWorker
| Manifest | Track | Xslt | Fetch | Xhr | Other.
(** decision/sniff.rs:9-24 [ResponseClass] *)
Inductive class :=
| CHtml | CXHtml | CXml | CText | CCss | CJs | CJson | CImage | CAudio | CVideo | CFont | CPdf | CBinary | CUnknown.
(** decision/types.rs:70-85 [RenderTarget] *)
Inductive target := HtmlParser | CssParser | JsEngine | ImageDecoder | FontLoader | PdfViewer.
(** decision/types.rs:46-51 [HandlingDecision]; the path of a download is always empty and left out *)
Inductive handling := Render (t : target) | Download.
Global Instance destination_eq_dec : EqDecision destination. Proof. solve_decision. Defined.
Global Instance class_eq_dec : EqDecision class. Proof. solve_decision. Defined.
Global Instance target_eq_dec : EqDecision target. Proof. solve_decision. Defined.
Global Instance handling_eq_dec : EqDecision handling. Proof. solve_decision. Defined.

(** The parts of a parsed [mime::Mime] that are looked at (parsing lower-cases them) *)
Record mime := mk_mime { m_type : str; m_subtype : str; m_suffix : option str }.
(** engine/policy.rs:3-13 [UaPolicy] and its default, 15-23 *)
Record policy := mk_policy { sniffing : bool; nav_upgrade : bool; pdf_viewer : bool; auto_download : bool }.
Definition default_policy : policy := mk_policy true true true false.
(** The parts of a [FetchResultMeta] used here: the final URL and the headers, in order, under
    lower-case names *)
Record meta := mk_meta { m_url : str; m_headers : list (str * bytes) }.
(** decision/types.rs:27-39 [DecisionOutcome] *)
Record decided := mk_decided {
  d_class : class; d_sniffed : option class; d_declared : option mime; d_attachment : bool; d_decision : handling }.

(** serde_json::Value: a number by the text it displays as, an object by its entries in iteration
    order *)
Inductive json :=
| JNull | JBool (b : bool) | JNum (s : str) | JStr (s : str) | JArr (l : list json) | JObj (l : list (str * json)).

(** Everything the model leaves to other crates: the mime and MIME-detection crates, the JSON
    parser, the image decoder and the HTML parser (which always yields a document,
    html/parser.rs:152-154). *)
Record externals (D I : Type) := mk_ext {
  parse_mime : str -> option mime; detect : bytes -> str; parse_json : bytes -> option json;
  decode_image : bytes -> option I; parse_doc : str -> bytes -> D }.
Arguments parse_mime {D I}. Arguments detect {D I}. Arguments parse_json {D I}.
Arguments decode_image {D I}. Arguments parse_doc {D I}.

Definition eqs (a b : str) : bool := bool_decide (a = b).
Fixpoint starts_with (p s : str) : bool :=
  match p, s with [], _ => true | x :: p', y :: s' => N.eqb x y && starts_with p' s' | _ :: _, [] => false end.
Fixpoint contains (p s : str) : bool :=
  starts_with p s || match s with [] => false | _ :: s' => contains p s' end.

(** [HeaderMap::get] (the first value) and [HeaderValue::to_str] (visible ASCII, space and tab) *)
Fixpoint header (n : str) (l : list (str * bytes)) : option bytes :=
  match l with [] => None | (k, v) :: r => if eqs k n then Some v else header n r end.
Definition to_str (v : bytes) : option str :=
  if forallb (fun b => ((32 <=? b) && (b <? 127) || (b =? 9))%N) v then Some v else None.
Definition header_str (m : meta) (n : str) : option str := header n (m_headers m) ≫= to_str.

(** [std::str::from_utf8] and [String::from_utf8_lossy] *)
Definition utf8 (b : bytes) : option str :=
  match from_utf8 (length b) 0 b with (l, _, None) => Some (map snd l) | _ => None end.
Fixpoint lossy_loop (fuel : nat) (b : bytes) : str :=
  match fuel, b with
  | S f, _ :: _ =>
      match utf8_first b with
      | UValid c n => c :: lossy_loop f (drop n b)
      | UError n => REPLACEMENT :: lossy_loop f (drop n b)
      | UIncomplete => [REPLACEMENT]
      end
  | _, _ => []
  end.
Definition lossy (b : bytes) : str := lossy_loop (length b) b.

Section decide.
  Context {D I : Type} (ext : externals D I).

  (** decision.rs:143-148 *)
  Definition content_type_from_headers (m : meta) : option mime :=
    header_str m (txt "content-type") ≫= parse_mime ext.
  (** decision.rs:151-156 [header_eq] *)
  Definition header_eq (m : meta) (n v : str) : bool :=
    match header_str m n with Some s => eqs (lower s) (lower v) | None => false end.
  (** decision.rs:159-165 *)
  Definition content_disposition_is_attachment (m : meta) : bool :=
    match header_str m (txt "content-disposition") with
    | Some s => starts_with (txt "attachment") (lower (trim s))
    | None => false
    end.
  (** decision.rs:168-170 *)
  Definition essence (m : mime) : str :=
    m_type m ++ txt "/" ++ m_subtype m ++ match m_suffix m with Some s => txt "+" ++ s | None => [] end.
  Definition mime_is_pdf (m : mime) : bool :=
    (eqs (m_type m) (txt "application") && eqs (m_subtype m) (txt "pdf")) || eqs (lower (essence m)) (txt "application/pdf").
  (** decision.rs:173-194 *)
  Definition class_from_mime (m : mime) : option class :=
    if eqs (m_type m) (txt "text") && eqs (m_subtype m) (txt "html") then Some CHtml
    else if eqs (m_type m) (txt "text") && eqs (m_subtype m) (txt "css") then Some CCss
    else if eqs (m_type m) (txt "application") && eqs (m_subtype m) (txt "javascript") then Some CJs
    else if eqs (m_type m) (txt "image") then Some CImage
    else if eqs (m_type m) (txt "font") then Some CFont
    else if mime_is_pdf m then Some CPdf
    else if eqs (m_type m) (txt "application") && eqs (m_subtype m) (txt "json") then Some CJson
    else if eqs (m_type m) (txt "text") then Some CText
    else None.
  (** decision/sniff.rs:28-62 [ResponseClass::from_mime] *)
  Definition from_mime (m : mime) : class :=
    let top := m_type m in
    let sub := m_subtype m in
    if eqs top (txt "application") && eqs sub (txt "xhtml") && bool_decide (m_suffix m = Some (txt "xml")) then CXHtml
    else if eqs top (txt "text") && eqs sub (txt "html") then CHtml
    else if (eqs top (txt "application") || eqs top (txt "text")) && eqs sub (txt "xml") then CXml
    else if (eqs top (txt "application") || eqs top (txt "text")) && eqs sub (txt "json") then CJson
    else if eqs top (txt "text") && eqs sub (txt "plain") then CText
    else if eqs top (txt "text") && eqs sub (txt "css") then CCss
    else if ((eqs top (txt "application") || eqs top (txt "text")) && eqs sub (txt "javascript"))
            || (eqs top (txt "application") && eqs sub (txt "ecmascript")) then CJs
    else if eqs top (txt "image") then CImage
    else if eqs top (txt "audio") then CAudio
    else if eqs top (txt "video") then CVideo
    else if eqs top (txt "font") then CFont
    else if eqs top (txt "application") && (eqs sub (txt "font-woff") || eqs sub (txt "font-woff2")
            || eqs sub (txt "font-ttf") || eqs sub (txt "vnd.ms-fontobject")) then CFont
    else if eqs top (txt "application") && eqs sub (txt "pdf") then CPdf
    else if eqs top (txt "application") && eqs sub (txt "octet-stream") then CBinary
    else CUnknown.

  (** decision/sniff.rs:70-90: the text signatures *)
  Definition sniff_text (t : str) : option class :=
    let low := lower (trim_start t) in
    if starts_with (txt "<!doctype html") low || starts_with (txt "<html") low then Some CHtml
    else if starts_with (txt "<?xml") low || starts_with (txt "<rss") low || starts_with (txt "<feed") low then Some CXml
    else if contains (txt "{") low && (contains (txt ":") low || contains (txt ";") low) && negb (starts_with (txt "<") low)
    then Some CCss
    else if contains (txt "function ") low || contains (txt "console.") low || contains (txt "var ") low
            || contains (txt "const ") low || contains (txt "let ") low then Some CJs
    else None.
  (** decision/sniff.rs:66-96 [sniff_class] *)
  Definition sniff_class (peek : bytes) : class :=
    match utf8 (take 512 peek) ≫= sniff_text with
    | Some c => c
    | None =>
        from_mime (match parse_mime ext (detect ext peek) with
                   | Some m => m
                   | None => mk_mime (txt "application") (txt "octet-stream") None
                   end)
    end.

  (** decision.rs:36-140 [decide_handling] *)
  Definition decide_handling (m : meta) (dest : destination) (peek : bytes) (p : policy) : decided :=
    let declared := content_type_from_headers m in
    let nosniff := header_eq m (txt "x-content-type-options") (txt "nosniff") in
    let attachment := content_disposition_is_attachment m in
    let sniffed := if sniffing p && negb nosniff then Some (sniff_class peek) else None in
    let effective := match declared ≫= class_from_mime with Some c => Some c | None => sniffed end in
    let effective :=
      if nav_upgrade p && bool_decide (dest = Document) && bool_decide (effective = None)
      then match sniffed with
           | Some CHtml => Some CHtml
           | Some CXml => Some CXml
           | _ => effective
           end
      else effective in
    if attachment && auto_download p
    then mk_decided (default CBinary effective) sniffed declared true Download
    else if pdf_viewer p && (match declared with Some d => mime_is_pdf d | None => false end || bool_decide (sniffed = Some CPdf))
    then mk_decided CPdf sniffed declared false (Render PdfViewer)
    else
      let c := default CBinary effective in
      let h :=
        match c with
        | CHtml | CXHtml | CXml => Render HtmlParser
        | CImage => Render ImageDecoder
        | CJs => Render JsEngine
        | CCss => Render CssParser
        | CFont => Render FontLoader
        | CPdf => Download
        | CJson | CText | CBinary =>
            if bool_decide (dest = Document) && nav_upgrade p
               && (bool_decide (sniffed = Some CHtml) || bool_decide (sniffed = Some CXml))
            then Render HtmlParser else Download
        | _ => Download
        end in
      mk_decided c sniffed declared attachment h.
End decide.

(** router.rs:43-54 [html_escape] *)
Definition escape_char (c : N) : str :=
  if N.eqb c 38 then txt "&amp;" else if N.eqb c 60 then txt "&lt;" else if N.eqb c 62 then txt "&gt;" else [c].
Definition html_escape (s : str) : str := concat (map escape_char s).

(** [txt] writes a double quote as [''] *)
Definition quote : str := [34%N].
Definition attr (name value : str) : str := name ++ txt "=" ++ quote ++ value ++ quote.

(** router.rs:59-65 [text_document_html] *)
Definition head_html : str := txt "<!DOCTYPE html><html><head><meta " ++ attr (txt "charset") (txt "utf-8") ++ txt "></head>".
Definition pre_open : str := txt "<pre " ++ attr (txt "style") (txt "white-space: pre-wrap; word-wrap: break-word;") ++ txt ">".
Definition text_document_html (body : bytes) : str :=
  head_html ++ txt "<body>" ++ pre_open ++ html_escape (lossy body) ++ txt "</pre></body></html>".

(** router.rs:67-71 and the spans of 73-88 *)
Definition span (color s : str) : str :=
  txt "<span " ++ attr (txt "style") (txt "color:" ++ color) ++ txt ">" ++ s ++ txt "</span>".
Definition key_color : str := txt "#6f42c1".
Definition str_color : str := txt "#22863a".
Definition num_color : str := txt "#005cc5".
Definition lit_color : str := txt "#d73a49".

(** router.rs:73-83 [json_scalar_html]; containers never reach it *)
Definition json_scalar_html (v : json) : str :=
  match v with
  | JNull => span lit_color (txt "null")
  | JBool b => span lit_color (if b then txt "true" else txt "false")
  | JNum n => span num_color n
  | JStr s => span str_color (quote ++ html_escape s ++ quote)
  | _ => []
  end.

(** router.rs:86-112 [json_lines]: the lines are returned instead of pushed. *)
Fixpoint json_lines (v : json) (depth : nat) (key : option str) (trail : str) : list (nat * str) :=
  let prefix := match key with Some k => span key_color (quote ++ html_escape k ++ quote) ++ txt ": " | None => [] end in
  match v with
  | JObj [] => [(depth, prefix ++ txt "{}" ++ trail)]
  | JArr [] => [(depth, prefix ++ txt "[]" ++ trail)]
  | JObj l =>
      [(depth, prefix ++ txt "{")]
      ++ (fix entries (l : list (str * json)) : list (nat * str) :=
            match l with
            | [] => []
            | (k, x) :: r => json_lines x (S depth) (Some k) (match r with [] => [] | _ => txt "," end) ++ entries r
            end) l
      ++ [(depth, txt "}" ++ trail)]
  | JArr l =>
      [(depth, prefix ++ txt "[")]
      ++ (fix items (l : list json) : list (nat * str) :=
            match l with
            | [] => []
            | x :: r => json_lines x (S depth) None (match r with [] => [] | _ => txt "," end) ++ items r
            end) l
      ++ [(depth, txt "]" ++ trail)]
  | _ => [(depth, prefix ++ json_scalar_html v ++ trail)]
  end.

(** router.rs:119-136 [json_document_html] *)
Definition line_html (p : nat * str) : str :=
  if bool_decide (0 < p.1)
  then txt "<div " ++ attr (txt "style") (txt "padding-left:" ++ show_N (N.of_nat (p.1 * 2)) ++ txt "em") ++ txt ">" ++ p.2 ++ txt "</div>"
  else txt "<div>" ++ p.2 ++ txt "</div>".
Definition json_body_open : str :=
  txt "<body " ++ attr (txt "style") (txt "font-family:monospace;font-size:13px;color:#24292e;background:#ffffff") ++ txt ">".
Definition json_document_html (v : json) : str :=
  head_html ++ json_body_open ++ concat (map line_html (json_lines v 0 None [])) ++ txt "</body></html>".

(** [str::as_bytes] *)
Definition encode_char (c : N) : bytes :=
  (if c <? 128 then [c]
   else if c <? 2048 then [192 + c / 64; 128 + c mod 64]
   else if c <? 65536 then [224 + c / 4096; 128 + (c / 64) mod 64; 128 + c mod 64]
   else [240 + c / 262144; 128 + (c / 4096) mod 64; 128 + (c / 64) mod 64; 128 + c mod 64])%N.
Definition encode (s : str) : bytes := concat (map encode_char s).

(** What successive reads of a body give: some bytes (at least one), an error, or the news that the
    fetch was cancelled, seen before the next read. The end of the list is the end of the body. *)
Inductive read_result := Data (b : bytes) | Fail | Cancelled.

(** html/parser.rs:95-130: buffering the document. [buf] is what has been kept so far; the first
    branch of the inner match is the draining loop of 121-125. *)
Fixpoint drain (l : list read_result) : bool :=
  match l with [] => true | Data _ :: r => drain r | Fail :: _ => false | Cancelled :: _ => false end.
Fixpoint buffer_loop (max : nat) (buf : bytes) (l : list read_result) : option bytes :=
  match l with
  | [] => Some buf
  | Cancelled :: _ => None
  | Fail :: _ => None
  | Data b :: r =>
      let remaining := Nat.min (max - length buf) (length b) in
      let buf' := buf ++ take remaining b in
      if bool_decide (max <= length buf') then (if drain r then Some buf' else None) else buffer_loop max buf' r
  end.
Definition buffer_document (max : nat) (l : list read_result) : option bytes := buffer_loop max [] l.

(** net/utils.rs:14-21 [stream_to_bytes]; it does not look at the cancellation token. *)
Fixpoint read_to_end (l : list read_result) : option bytes :=
  match l with
  | [] => Some []
  | Data b :: r => match read_to_end r with Some x => Some (b ++ x) | None => None end
  | Fail :: _ => None
  | Cancelled :: r => read_to_end r
  end.

(** gosub-sonar [FetchResult]; router.rs:139-142 [BodyContent] *)
Inductive fetched := FStream (m : meta) (peek : bytes) (rest : list read_result) | FBuffered (m : meta) (body : bytes) | FError.
Inductive content := Stream (peek : bytes) (rest : list read_result) | Buffered (body : bytes).

(** The reads a body gives to the HTML pipeline (resource_pipeline/html.rs:167-198) and the bytes
    the other pipelines and the viewers collect (router.rs:144-155; css.rs, js.rs, font.rs,
    image.rs 24-41) *)
Definition reads (c : content) : list read_result :=
  match c with Stream p r => (if bool_decide (p = []) then r else Data p :: r) | Buffered b => if bool_decide (b = []) then [] else [Data b] end.
Definition to_bytes (c : content) : option bytes :=
  match c with Stream p r => (fun x => p ++ x) <$> read_to_end r | Buffered b => Some b end.

(** router.rs:18-41 [RoutedOutcome], with the [Err] return of routing as [Failed] *)
Inductive routed (D I : Type) :=
| MainDocument (d : D) | ViewerRendered (b : bytes) | CssLoaded (s : str) | ScriptExecuted (s : str)
| ImageDecoded (i : I) | FontLoaded (s : str) | Blocked | DownloadOffer (m : meta) | Failed.
Arguments MainDocument {D I}. Arguments ViewerRendered {D I}. Arguments CssLoaded {D I}.
Arguments ScriptExecuted {D I}. Arguments ImageDecoded {D I}. Arguments FontLoaded {D I}.
Arguments Blocked {D I}. Arguments DownloadOffer {D I}. Arguments Failed {D I}.

(** router.rs:171 *)
Definition peek_limit : nat := N.to_nat 5120.

Section route.
  Context {D I : Type} (ext : externals D I) (max : nat).

  Definition or_failed {A} (f : A -> routed D I) (o : option A) : routed D I :=
    match o with Some a => f a | None => Failed end.
  (** resource_pipeline/html.rs:57-163 [parse_with_reader]: the sub-resource requests it sends are
      not modelled. *)
  Definition parse_html (url : str) (l : list read_result) : routed D I :=
    or_failed (fun b => MainDocument (parse_doc ext url b)) (buffer_document max l).

  (** router.rs:157-263 [route_response_for] *)
  Definition viewer_html (c : class) (body : bytes) : str :=
    if bool_decide (c = CJson)
    then match parse_json ext body with Some v => json_document_html v | None => text_document_html body end
    else text_document_html body.
  Definition route_content (dest : destination) (m : meta) (peek : bytes) (c : content) (p : policy) : routed D I :=
    let o := decide_handling ext m dest peek p in
    match dest, d_decision o with
    | Document, Render HtmlParser => parse_html (m_url m) (reads c)
    | Document, Render _ => or_failed ViewerRendered (to_bytes c)
    | Document, Download =>
        if negb (d_attachment o) && (bool_decide (d_class o = CJson) || bool_decide (d_class o = CText))
        then match to_bytes c with
             | Some body => parse_html (m_url m) (reads (Buffered (encode (viewer_html (d_class o) body))))
             | None => Failed
             end
        else DownloadOffer m
    | Style, Render CssParser => or_failed (fun b => CssLoaded (lossy b)) (to_bytes c)
    | Script, Render JsEngine => or_failed (fun b => ScriptExecuted (lossy b)) (to_bytes c)
    | Image, Render ImageDecoder => or_failed ImageDecoded (to_bytes c ≫= decode_image ext)
    | Font, Render FontLoader => or_failed (fun b => FontLoaded (lossy b)) (to_bytes c)
    | _, _ => Blocked
    end.
  Definition route (dest : destination) (f : fetched) (p : policy) : routed D I :=
    match f with
    | FStream m peek rest => route_content dest m peek (Stream peek rest) p
    | FBuffered m body => route_content dest m (take peek_limit body) (Buffered body) p
    | FError => Failed
    end.
End route.
