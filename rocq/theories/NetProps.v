(** Response handling: property theorems C35, C36, C37, C63 and C65. *)
From Verif Require Import Text SettingsModel CookieModel ByteStreamModel ByteStreamSpec NetModel NetSpec NetProofs NetViewer.
Import NetModel NetSpec.

(** A world for the examples: three MIME types are known, nothing is detected, no image decodes, and
    the document is just what it was made from. *)
Definition example_ext : externals (str * list N) unit := mk_ext _ _
  (fun s => if eqs s (txt "text/html") then Some (mk_mime (txt "text") (txt "html") None)
            else if eqs s (txt "text/css") then Some (mk_mime (txt "text") (txt "css") None)
            else if eqs s (txt "text/plain") then Some (mk_mime (txt "text") (txt "plain") None)
            else if eqs s (txt "text/javascript") then Some (mk_mime (txt "text") (txt "javascript") None)
            else if eqs s (txt "application/javascript") then Some (mk_mime (txt "application") (txt "javascript") None)
            else None)
  (fun _ => txt "application/octet-stream") (fun _ => None) (fun _ => None) (fun u b => (u, b)).
Definition example_meta (l : list (str * str)) : meta := mk_meta (txt "http://a/") l.

(** * C35 *)
(** When sniffing is forbidden or switched off, the first bytes of the body change nothing. *)
Theorem C35_nosniff : forall D I (ext : externals D I) m dest p pk1 pk2,
  nosniff m \/ sniffing p = false ->
  decide_handling ext m dest pk1 p = decide_handling ext m dest pk2 p.
Proof. intros. by apply decide_no_peek. Qed.
Print Assumptions C35_nosniff.
Example C35_nosniff_example :
  let m := example_meta [(txt "content-type", txt "text/plain"); (txt "x-content-type-options", txt "NoSniff")] in
  nosniff m /\
  route example_ext 100 Document (FBuffered m (txt "<html>")) default_policy
  = MainDocument (m_url m, take 100 (encode (text_document_html (txt "<html>")))) /\
  route example_ext 100 Document (FBuffered (example_meta [(txt "content-type", txt "text/plain")]) (txt "<html>")) default_policy
  = MainDocument (txt "http://a/", txt "<html>").
Proof.
  split; [|split; vm_compute; reflexivity]. exists (txt "NoSniff"). split; [|done]. split.
  - exists [(txt "content-type", txt "text/plain")], []. split; [done|]. intros w [H|H]%elem_of_cons; [done|by apply elem_of_nil in H].
  - by apply (bool_decide_unpack _); vm_compute.
Qed.

(** A part of a page whose class is not the one asked for is blocked. *)
Theorem C35_misfit_blocked : forall D I (ext : externals D I) max m f dest p,
  fetched_meta f = Some m -> dest <> Document ->
  ~ fits dest (d_class (decide_handling ext m dest (peek_of f) p)) ->
  route ext max dest f p = Blocked.
Proof. intros. by eapply route_misfit. Qed.
Print Assumptions C35_misfit_blocked.
Example C35_misfit_example :
  let f := FBuffered (example_meta [(txt "content-type", txt "text/html")]) (txt "<html>") in
  ~ fits Script (d_class (decide_handling example_ext (example_meta [(txt "content-type", txt "text/html")]) Script (peek_of f) default_policy)) /\
  route example_ext 100 Script f default_policy = Blocked.
Proof. split; [|by vm_compute]. vm_compute. inversion 1. Qed.

(** A type that is declared and known is believed, unless the body looks like a PDF and there is a
    viewer for those. *)
Theorem C35_declared : forall D I (ext : externals D I) m t c dest peek p,
  declares ext m t -> known t c ->
  nosniff m \/ sniffing p = false \/ sniff_class ext peek <> CPdf \/ pdf_viewer p = false ->
  d_class (decide_handling ext m dest peek p) = c.
Proof. intros. by eapply decide_declared. Qed.
Print Assumptions C35_declared.
Example C35_declared_example :
  declares example_ext (example_meta [(txt "content-type", txt "text/css")]) (mk_mime (txt "text") (txt "css") None) /\
  known (mk_mime (txt "text") (txt "css") None) CCss /\ sniff_class example_ext (txt "<html>") <> CPdf.
Proof.
  split_and!; [|constructor|by vm_compute]. exists (txt "text/css"). split; [|done]. split; [|by apply (bool_decide_unpack _); vm_compute].
  exists [], []. split; [done|]. intros w H. by apply elem_of_nil in H.
Qed.

(** A navigation to declared HTML shows the page. *)
Theorem C35_html_declared : forall D I (ext : externals D I) max m f sf b p,
  fetched_meta f = Some m -> declares ext m (mk_mime (txt "text") (txt "html") sf) -> ~ (attached m /\ auto_download p = true) ->
  nosniff m \/ sniffing p = false \/ sniff_class ext (peek_of f) <> CPdf \/ pdf_viewer p = false ->
  smooth_fetch f -> body_of f = Some b ->
  route ext max Document f p = MainDocument (parse_doc ext (m_url m) (take max b)).
Proof. intros. by eapply route_html_declared. Qed.
Print Assumptions C35_html_declared.

(** A response of undeclared type that may not be sniffed is used for nothing. *)
Theorem C35_undeclared : forall D I (ext : externals D I) max m f dest p,
  fetched_meta f = Some m -> declares_nothing m -> nosniff m \/ sniffing p = false ->
  route ext max dest f p = if decide (dest = Document) then DownloadOffer m else Blocked.
Proof. intros. by apply route_undeclared. Qed.
Print Assumptions C35_undeclared.
Example C35_undeclared_example :
  let m := example_meta [(txt "x-content-type-options", txt "nosniff")] in
  declares_nothing m /\ nosniff m /\
  route example_ext 100 Document (FBuffered m (txt "<html>")) default_policy = DownloadOffer m.
Proof.
  split_and!; [|exists (txt "nosniff"); split; [|done]; split|by vm_compute].
  - intros v [H|H]%elem_of_cons; [done|by apply elem_of_nil in H].
  - exists [], []. split; [done|]. intros w H. by apply elem_of_nil in H.
  - by apply (bool_decide_unpack _); vm_compute.
Qed.

(** A navigation to something undeclared whose text starts like an HTML page shows the page. The
    first 512 bytes have to be text. *)
Theorem C35_html_sniffed_partial : forall D I (ext : externals D I) max m f t b p,
  fetched_meta f = Some m -> declares_nothing m -> ~ nosniff m -> sniffing p = true ->
  ~ (attached m /\ auto_download p = true) ->
  utf8_text (take 512 (peek_of f)) t -> html_start t -> smooth_fetch f -> body_of f = Some b ->
  route ext max Document f p = MainDocument (parse_doc ext (m_url m) (take max b)).
Proof. intros. by eapply route_html_sniffed. Qed.
Print Assumptions C35_html_sniffed_partial.
Example C35_html_sniffed_example :
  let f := FStream (example_meta []) (txt " <!DOC") [Data (txt "TYPE html>")] in
  let g := FBuffered (example_meta []) (txt " <!DOCTYPE Html>hi") in
  (exists t, utf8_text (take 512 (peek_of g)) t /\ html_start t) /\ smooth_fetch f /\
  route example_ext 100 Document g default_policy = MainDocument (txt "http://a/", txt " <!DOCTYPE Html>hi") /\
  route example_ext 100 Document f default_policy = DownloadOffer (example_meta []).
Proof.
  split_and!; [|repeat constructor; by eexists|by vm_compute|by vm_compute].
  exists (txt " <!DOCTYPE Html>hi"). split.
  - replace (take 512 _) with (concat (map (fun c => [c]) (txt " <!DOCTYPE Html>hi"))) by (by vm_compute).
    simpl. repeat (apply (utf8_text_cons _ [_]); [constructor; vm_compute; done|]). constructor.
  - exists (txt " "), (txt "<!DOCTYPE Html"), (txt ">hi"). split_and!; [done|by apply (bool_decide_unpack _); vm_compute|by left].
Qed.

(** Without that, no: when a character of two bytes sits across the 512th, nothing is recognised. *)
Theorem C35_html_cut_refuted :
  exists m b t p, declares_nothing m /\ ~ nosniff m /\ p = default_policy /\ utf8_text b t /\ html_start t /\
    forall D I (ext : externals D I) max, detect ext (take peek_limit b) = txt "application/octet-stream" ->
      parse_mime ext (txt "application/octet-stream") = None ->
      route ext max Document (FBuffered m b) p = DownloadOffer m.
Proof.
  exists (example_meta []), (txt "<!doctype html>" ++ replicate 496 97%N ++ [195; 169]%N), (txt "<!doctype html>" ++ replicate 496 97%N ++ [233]%N), default_policy.
  split_and!; [intros v Hv; by apply elem_of_nil in Hv| |done| | |].
  - intros (v & [(l1 & l2 & H & _) _] & _). by destruct l1.
  - assert (forall s b t, Forall (fun c => c < 128)%N s -> utf8_text b t -> utf8_text (s ++ b) (s ++ t)) as A.
    { intros s b t H Ht. induction H as [|c s Hc _ IH]; [done|]. cbn [app]. by apply (utf8_text_cons c [c]); [constructor|]. }
    apply A. { repeat constructor. }
    apply A. { by apply Forall_replicate. }
    apply (utf8_text_cons 233 [195; 169]%N []); [|constructor]. by apply (U2 233 3 41).
  - exists [], (txt "<!doctype html"), (txt ">" ++ replicate 496 97%N ++ [233]%N). split_and!; [done|constructor|by left].
  - intros D I ext max H1 H2. unfold route, route_content.
    assert (sniff_class ext (take peek_limit (txt "<!doctype html>" ++ replicate 496 97%N ++ [195; 169]%N)) = CBinary) as E.
    { unfold sniff_class. replace (utf8 _) with (@None str) by (by vm_compute). change (None ≫= sniff_text) with (@None class). cbn iota.
      by rewrite H1, H2. }
    unfold decide_handling. rewrite E. done.
Qed.
Print Assumptions C35_html_cut_refuted.

(** An attachment is used for nothing if downloads need no user action, and one that has no
    renderer is not shown as text either. *)
Theorem C35_attachment_partial : forall D I (ext : externals D I) max m f dest p,
  fetched_meta f = Some m -> attached m ->
  auto_download p = true \/ d_decision (decide_handling ext m dest (peek_of f) p) = Download ->
  used (route ext max dest f p) = false.
Proof. intros. by eapply route_attached. Qed.
Print Assumptions C35_attachment_partial.
(** But with the default policy it is rendered. *)
Theorem C35_attachment_refuted :
  exists m b, attached m /\
    route example_ext 100 Document (FBuffered m b) default_policy = MainDocument (m_url m, b).
Proof.
  exists (example_meta [(txt "content-type", txt "text/html"); (txt "content-disposition", txt "attachment; filename=a.html")]), (txt "<html>").
  split; [|by vm_compute]. exists (txt "attachment; filename=a.html"), [], (txt "attachment"), (txt "; filename=a.html").
  split_and!; [|done|constructor|done]. split; [|by apply (bool_decide_unpack _); vm_compute].
  exists [(txt "content-type", txt "text/html")], []. split; [done|]. intros w [H|H]%elem_of_cons; [done|by apply elem_of_nil in H].
Qed.
Print Assumptions C35_attachment_refuted.
Example C35_attachment_example :
  let m := example_meta [(txt "content-type", txt "text/html"); (txt "content-disposition", txt "Attachment")] in
  route example_ext 100 Document (FBuffered m (txt "<html>")) (mk_policy true true true true) = DownloadOffer m /\
  route example_ext 100 Style (FBuffered m (txt "<html>")) (mk_policy true true true true) = Blocked.
Proof. split; by vm_compute. Qed.

(** * C36 *)
(** What a request for a part of a page can come to: never a document, a viewer or a download, and
    when something is loaded it is of the kind asked for and made from all the bytes of the body. *)
Theorem C36_parts : forall D I (ext : externals D I) max f dest p, dest <> Document ->
  route ext max dest f p = Blocked \/ route ext max dest f p = Failed \/
  exists b, body_of f = Some b /\ loads ext b dest (route ext max dest f p).
Proof. intros. by apply route_parts. Qed.
Print Assumptions C36_parts.

(** When it fits, it is loaded. *)
Theorem C36_fits_loads : forall D I (ext : externals D I) max m f b dest p,
  fetched_meta f = Some m -> body_of f = Some b ->
  fits dest (d_class (decide_handling ext m dest (peek_of f) p)) ->
  ~ (attached m /\ auto_download p = true) ->
  loads ext b dest (route ext max dest f p).
Proof. intros. by eapply route_fits. Qed.
Print Assumptions C36_fits_loads.
Example C36_fits_example :
  let m := example_meta [(txt "content-type", txt "text/css")] in
  let f := FStream m (txt "a{") [Data (txt "b:c"); Data (txt "}")] in
  fits Style (d_class (decide_handling example_ext m Style (peek_of f) default_policy)) /\
  route example_ext 100 Style f default_policy = CssLoaded (txt "a{b:c}").
Proof. split; vm_compute; constructor. Qed.

(** A fetch that failed, or whose body cannot be read, is used for nothing. *)
Theorem C36_errors : forall D I (ext : externals D I) max f dest p,
  body_of f = None -> used (route ext max dest f p) = false.
Proof. intros. by apply route_errors. Qed.
Print Assumptions C36_errors.
Example C36_errors_example : body_of (FStream (example_meta []) (txt "<html>") [Data [97%N]; Fail]) = None.
Proof. done. Qed.

(** It makes no difference whether a body comes as a stream or in one piece. *)
Theorem C36_stream_or_not : forall D I (ext : externals D I) max m rest b dest p,
  smooth rest -> take peek_limit b ++ data rest = b ->
  route ext max dest (FStream m (take peek_limit b) rest) p = route ext max dest (FBuffered m b) p.
Proof. intros. by apply route_stream. Qed.
Print Assumptions C36_stream_or_not.
Example C36_stream_example :
  let b := replicate peek_limit 97%N ++ txt "tail" in
  smooth [Data (txt "ta"); Data (txt "il")] /\ take peek_limit b ++ data [Data (txt "ta"); Data (txt "il")] = b.
Proof. cbv zeta. split; [repeat constructor; by eexists|]. rewrite take_app_alt by (by rewrite replicate_length). done. Qed.

(** * C37 *)
(** The text viewer: fixed tags around the escaped text, which is the text of the response. *)
Theorem C37_text : forall b,
  (exists s, pieces (text_document_html b) =
     map Tag [txt "!DOCTYPE html"; txt "html"; txt "head"; txt "meta charset=" ++ quoted (txt "utf-8"); txt "/head"; txt "body";
              txt "pre style=" ++ quoted (txt "white-space: pre-wrap; word-wrap: break-word;")]
     ++ map Char s ++ map Tag [txt "/pre"; txt "/body"; txt "/html"]) /\
  unescape (chars_of (pieces (text_document_html b))) = lossy b /\
  forall t, utf8_text b t -> lossy b = t.
Proof.
  intros b. rewrite text_pieces. split_and!; [by eexists| |by apply lossy_ok].
  rewrite !chars_app, chars_map. change (chars_of (map Tag text_head)) with (@nil N). change (chars_of (map Tag text_tail)) with (@nil N).
  cbn [app]. rewrite unescape_escape. apply app_nil_r.
Qed.
Print Assumptions C37_text.
Example C37_text_example :
  unescape (chars_of (pieces (text_document_html (txt "<b>&lt;</b>")))) = txt "<b>&lt;</b>" /\
  length (tags (pieces (text_document_html (txt "<b>&lt;</b>")))) = 10.
Proof. split; by vm_compute. Qed.
(** A navigation to text shows that document. *)
Theorem C37_text_shown : forall D I (ext : externals D I) max m f s sf b p,
  fetched_meta f = Some m -> declares ext m (mk_mime (txt "text") s sf) -> s <> txt "html" -> s <> txt "css" -> ~ attached m ->
  nosniff m \/ sniffing p = false -> body_of f = Some b ->
  route ext max Document f p = MainDocument (parse_doc ext (m_url m) (take max (encode (text_document_html b)))).
Proof. intros. rewrite (route_viewed ext max m f (mk_mime (txt "text") s sf) CText b p); try done; [by left|by constructor]. Qed.
Print Assumptions C37_text_shown.
(** So does a navigation to JSON, in the other viewer if it is well-formed. *)
Theorem C37_json_shown : forall D I (ext : externals D I) max m f sf b v p,
  fetched_meta f = Some m -> declares ext m (mk_mime (txt "application") (txt "json") sf) -> ~ attached m ->
  nosniff m \/ sniffing p = false -> body_of f = Some b -> parse_json ext b = Some v ->
  route ext max Document f p = MainDocument (parse_doc ext (m_url m) (take max (encode (json_document_html v)))).
Proof.
  intros. rewrite (route_viewed ext max m f (mk_mime (txt "application") (txt "json") sf) CJson b p); try done; [|by right|by constructor].
  unfold viewer_html. simpl. by replace (parse_json ext b) with (Some v).
Qed.
Print Assumptions C37_json_shown.

(** The JSON viewer: one [div] for each line of the value's usual layout, with its text. *)
Theorem C37_json_lines : forall v, plain_numbers v ->
  lines_of None (pieces (json_document_html v)) = map (fun x => (div_tag x.1, x.2)) (pretty v).
Proof. intros v H. apply (json_document v H). Qed.
Print Assumptions C37_json_lines.
(** Its only tags are those of its template. *)
Theorem C37_json_tags : forall v, plain_numbers v ->
  (forall t, t ∈ tags (pieces (json_document_html v)) -> t ∈ template \/ exists d, t = div_tag d) /\
  closed (pieces (json_document_html v)).
Proof. intros v H. apply (json_document v H). Qed.
Print Assumptions C37_json_tags.
Definition example_json : json := JObj [(txt "<a>", JArr [JNum (txt "1"); JStr (txt "</div>&"); JNull]); (txt "b", JObj [])].
Example C37_json_example : plain_numbers example_json /\
  pretty example_json = [(0, txt "{"); (1, quoted (txt "<a>") ++ txt ": ["); (2, txt "1,"); (2, quoted (txt "</div>&") ++ txt ",");
                         (2, txt "null"); (1, txt "],"); (1, quoted (txt "b") ++ txt ": {}"); (0, txt "}")] /\
  lines_of None (pieces (json_document_html example_json)) = map (fun x => (div_tag x.1, x.2)) (pretty example_json).
Proof. split_and!; [|by vm_compute..]. simpl. split_and!; try done. by apply txt_plain. Qed.

(** What is shown does not determine the value: quotes inside strings are not marked. *)
Theorem C37_json_ambiguous_refuted : exists v w, v <> w /\ plain_numbers v /\ plain_numbers w /\
  lines_of None (pieces (json_document_html v)) = lines_of None (pieces (json_document_html w)).
Proof.
  exists (JObj [(txt "a" ++ quote ++ txt ": " ++ quote ++ txt "b", JStr (txt "c"))]), (JObj [(txt "a", JStr (txt "b" ++ quote ++ txt ": " ++ quote ++ txt "c"))]).
  split_and!; [discriminate|done..|by vm_compute].
Qed.
Print Assumptions C37_json_ambiguous_refuted.

(** * C63 *)
(** A part of a page served under a type of its kind is loaded, whatever its bytes are, unless it is
    to be saved or looks like a PDF. *)
Theorem C63_served_is_loaded_partial : forall D I (ext : externals D I) max m t f b dest p,
  fetched_meta f = Some m -> body_of f = Some b -> declares ext m t ->
  (dest = Style /\ t = mk_mime (txt "text") (txt "css") None) \/
  (dest = Script /\ t = mk_mime (txt "application") (txt "javascript") None) \/
  (dest = Image /\ m_type t = txt "image") \/ (dest = Font /\ m_type t = txt "font") ->
  ~ (attached m /\ auto_download p = true) ->
  nosniff m \/ sniffing p = false \/ sniff_class ext (peek_of f) <> CPdf \/ pdf_viewer p = false ->
  loads ext b dest (route ext max dest f p).
Proof. intros. by eapply route_served. Qed.
Print Assumptions C63_served_is_loaded_partial.
(** The registered type of scripts, [text/javascript], is missing: such scripts are blocked. *)
Theorem C63_text_javascript_refuted : forall D I (ext : externals D I) max m f p sf,
  fetched_meta f = Some m -> declares ext m (mk_mime (txt "text") (txt "javascript") sf) ->
  route ext max Script f p = Blocked.
Proof. intros. by eapply route_text_javascript. Qed.
Print Assumptions C63_text_javascript_refuted.
Example C63_example :
  route example_ext 100 Script (FBuffered (example_meta [(txt "content-type", txt "application/javascript")]) (txt "1")) default_policy = ScriptExecuted (txt "1") /\
  route example_ext 100 Script (FBuffered (example_meta [(txt "content-type", txt "text/javascript")]) (txt "1")) default_policy = Blocked.
Proof. split; by vm_compute. Qed.

(** * C65 *)
(** However a document's bytes are cut into reads, what is parsed is its first [max] bytes. *)
Theorem C65_chunks : forall max l, smooth l -> buffer_document max l = Some (take max (data l)).
Proof. exact buffer_smooth. Qed.
Print Assumptions C65_chunks.
(** A read error or a cancellation anywhere, even past the limit, and nothing is parsed. *)
Theorem C65_all_or_nothing : forall max l, ~ smooth l -> buffer_document max l = None.
Proof. exact buffer_rough. Qed.
Print Assumptions C65_all_or_nothing.
Example C65_example :
  smooth [Data (txt "ab"); Data (txt "cd")] /\ buffer_document 3 [Data (txt "ab"); Data (txt "cd")] = Some (txt "abc") /\
  buffer_document 3 [Data (txt "ab"); Data (txt "cd"); Fail] = None.
Proof. split_and!; [repeat constructor; by eexists|by vm_compute..]. Qed.
