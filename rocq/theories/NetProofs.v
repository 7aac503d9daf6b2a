(** Lemmas behind C35-C37, C63 and C65. *)
From Verif Require Import Text SettingsModel CookieModel ByteStreamModel ByteStreamSpec ByteStreamProofs NetModel NetSpec.
Import NetModel.

(** ** Headers *)
Lemma eqs_refl s : eqs s s = true.
Proof. unfold eqs. by apply bool_decide_eq_true. Qed.
Lemma header_first n v l1 l2 : (forall w, (n, w) ∉ l1) -> header n (l1 ++ (n, v) :: l2) = Some v.
Proof.
  intros H. induction l1 as [|[k w] l1 IH]; simpl; [by rewrite eqs_refl|].
  unfold eqs. destruct (bool_decide_reflect (k = n)) as [->|].
  - exfalso. apply (H w). by left.
  - apply IH. intros w' Hw. apply (H w'). by right.
Qed.
Lemma header_none n l : (forall v, (n, v) ∉ l) -> header n l = None.
Proof.
  intros H. induction l as [|[k w] l IH]; simpl; [done|].
  unfold eqs. destruct (bool_decide_reflect (k = n)) as [->|].
  - exfalso. apply (H w). by left.
  - apply IH. intros w' Hw. apply (H w'). by right.
Qed.
Lemma to_str_ok v : Forall (fun b => (32 <= b < 127 \/ b = 9)%N) v -> to_str v = Some v.
Proof.
  intros H. unfold to_str. replace (forallb _ v) with true; [done|]. symmetry. apply forallb_forall.
  rewrite Forall_forall in H. intros b Hb. apply elem_of_list_In in Hb. specialize (H _ Hb).
  apply orb_true_iff. destruct H as [H| ->]; [left|by right].
  apply andb_true_iff. split; [apply N.leb_le; lia|apply N.ltb_lt; lia].
Qed.
Lemma sends_str m n v : sends m n v -> header_str m n = Some v.
Proof.
  intros [(l1 & l2 & E & H) F]. unfold header_str. pose proof (header_first n v l1 l2 H) as Hh.
  rewrite E. transitivity (Some v ≫= to_str); [by f_equal|]. simpl. by apply to_str_ok.
Qed.
Lemma nosniff_eq m : nosniff m -> header_eq m (txt "x-content-type-options") (txt "nosniff") = true.
Proof.
  intros (v & Hs & Hl). unfold header_eq. rewrite (sends_str _ _ _ Hs), Hl. by vm_compute.
Qed.
Lemma trim_start_spaces ws s : Forall (fun c => c = 32 \/ c = 9)%N ws -> trim_start (ws ++ s) = trim_start s.
Proof.
  induction 1 as [|c ws Hc _ IH]; simpl; [done|].
  assert (is_space c = true) as -> by (destruct Hc as [-> | ->]; done). done.
Qed.
Lemma starts_with_app p s : starts_with p (p ++ s) = true.
Proof. induction p as [|x p IH]; simpl; [done|]. by rewrite N.eqb_refl. Qed.
Lemma starts_with_spec p s : starts_with p s = true <-> exists r, s = p ++ r.
Proof.
  split.
  - revert s. induction p as [|x p IH]; intros [|y s]; simpl; intros H; try done; eauto.
    apply andb_true_iff in H as [->%N.eqb_eq H]. apply IH in H as [r ->]. eauto.
  - intros [r ->]. apply starts_with_app.
Qed.
Lemma trim_end_keeps c l : is_space c = false -> forall s, exists k, trim_start (s ++ c :: l) = k ++ c :: l.
Proof.
  intros Hc s. induction s as [|x s IH]; simpl.
  - rewrite Hc. by exists [].
  - destruct (is_space x); [done|]. by exists (x :: s).
Qed.
Lemma lower_char_space c : is_space (lower_char c) = false -> is_space c = false.
Proof.
  unfold lower_char. destruct ((65 <=? c) && (c <=? 90))%N eqn:E; [|done]. intros _.
  apply andb_true_iff in E as [H1%N.leb_le H2%N.leb_le]. unfold is_space.
  repeat match goal with
  | |- context [(?a <=? ?b)%N] => destruct (N.leb_spec a b); try lia
  | |- context [(?a =? ?b)%N] => destruct (N.eqb_spec a b); try lia
  end; done.
Qed.
Lemma trim_starts ws w rest : Forall (fun c => c = 32 \/ c = 9)%N ws -> lower w = txt "attachment" ->
  starts_with (txt "attachment") (lower (trim (ws ++ w ++ rest))) = true.
Proof.
  intros Hws Hw. unfold trim. rewrite (trim_start_spaces _ _ Hws).
  assert (exists w' c, w = w' ++ [c] /\ is_space c = false) as (w' & c & Ew & Hc).
  { destruct (exists_last (l := w)) as (w' & c & ->); [by intros ->|]. exists w', c. split; [done|].
    unfold lower in Hw. rewrite map_app in Hw. apply (f_equal last) in Hw. simpl in Hw. rewrite last_snoc in Hw.
    assert (lower_char c = 116%N) as Ec by (injection Hw as ->; done). apply lower_char_space. by rewrite Ec. }
  assert (trim_start (w ++ rest) = w ++ rest) as ->.
  { destruct w as [|x w2]; [done|]. simpl. assert (is_space x = false) as ->; [|done].
    assert (lower_char x = 97%N) as Ex by (change (lower_char x :: lower w2 = 97%N :: tail (txt "attachment")) in Hw; congruence).
    apply lower_char_space. by rewrite Ex. }
  rewrite Ew. rewrite rev_app_distr, rev_app_distr. cbn [rev app].
  destruct (trim_end_keeps c (rev w') Hc (rev rest)) as [k ->].
  rewrite rev_app_distr. cbn [rev]. rewrite rev_involutive. rewrite <-Ew.
  unfold lower. rewrite map_app. change (map lower_char w) with (lower w). rewrite Hw. apply starts_with_app.
Qed.
Lemma attached_true m : attached m -> content_disposition_is_attachment m = true.
Proof.
  intros (v & ws & w & rest & Hs & -> & Hws & Hw). unfold content_disposition_is_attachment.
  rewrite (sends_str _ _ _ Hs). by apply trim_starts.
Qed.

(** The other way round *)
Lemma header_sends m n v : header_str m n = Some v -> sends m n v.
Proof.
  unfold header_str. destruct (header n (m_headers m)) as [w|] eqn:E; [|done]. simpl. unfold to_str.
  destruct (forallb _ w) eqn:F; [|done]. intros [= <-]. split.
  - revert E. generalize (m_headers m). intros l. induction l as [|[k x] l IH]; [done|]. cbn [header].
    unfold eqs. destruct (bool_decide_reflect (k = n)) as [->|Hk].
    + intros [= ->]. exists [], l. split; [done|]. intros y Hy. by apply elem_of_nil in Hy.
    + intros (l1 & l2 & -> & H)%IH. exists ((k, x) :: l1), l2. split; [done|]. intros y [Hy|Hy]%elem_of_cons; [congruence|by apply (H y)].
  - rewrite forallb_forall in F. apply Forall_forall. intros b Hb. apply elem_of_list_In, F in Hb.
    apply orb_true_iff in Hb as [[H1%N.leb_le H2%N.ltb_lt]%andb_true_iff|H%N.eqb_eq]; [left; lia|by right].
Qed.
Lemma trim_start_split s : exists ws, s = ws ++ trim_start s /\ Forall (fun c => is_space c = true) ws.
Proof.
  induction s as [|c s (ws & E & H)]; [by exists []|]. simpl. destruct (is_space c) eqn:Ec; [|by exists []].
  exists (c :: ws). split; [simpl; by f_equal|by constructor].
Qed.
Lemma trim_split s : exists ws we, s = ws ++ trim s ++ we /\ Forall (fun c => is_space c = true) ws.
Proof.
  destruct (trim_start_split s) as (ws & E & H). destruct (trim_start_split (rev (trim_start s))) as (we & E2 & _).
  exists ws, (rev we). split; [|done]. unfold trim. rewrite <-rev_app_distr, <-E2, rev_involutive. done.
Qed.
Lemma attached_iff m : attached m <-> content_disposition_is_attachment m = true.
Proof.
  split; [apply attached_true|]. unfold content_disposition_is_attachment.
  destruct (header_str m _) as [v|] eqn:E; [|done]. apply header_sends in E. intros [r Hr]%starts_with_spec.
  destruct (trim_split v) as (ws & we & Ev & Hws).
  unfold lower in Hr. apply map_eq_app in Hr as (w & rest & Et & Hw & _).
  exists v, ws, w, (rest ++ we). split_and!; [done| |  |done].
  - rewrite Ev, Et. by rewrite <-app_assoc.
  - destruct E as [_ F]. rewrite Ev in F. apply Forall_app in F as [F _]. revert F Hws. rewrite !Forall_forall. intros F Hws c Hc.
    specialize (F _ Hc). specialize (Hws _ Hc). destruct F as [F| ->]; [left|by right].
    revert Hws. unfold is_space.
    repeat match goal with
    | |- context [(?a <=? ?b)%N] => destruct (N.leb_spec a b); try lia
    | |- context [(?a =? ?b)%N] => destruct (N.eqb_spec a b); try lia
    end; done.
Qed.
Lemma nosniff_iff m : nosniff m <-> header_eq m (txt "x-content-type-options") (txt "nosniff") = true.
Proof.
  split; [apply nosniff_eq|]. unfold header_eq. destruct (header_str m _) as [v|] eqn:E; [|done].
  apply header_sends in E. unfold eqs. intros H%bool_decide_eq_true. exists v. by split.
Qed.

(** ** Texts *)
Lemma from_utf8_text b t fuel off : utf8_text b t -> length b <= fuel ->
  exists l e, from_utf8 fuel off b = (l, e, None) /\ map snd l = t.
Proof.
  intros H. revert fuel off. induction H as [|c seq b t Hc _ IH]; intros fuel off Hf.
  { exists [], off. by destruct fuel. }
  assert (seq <> []) as Hne by (by destruct Hc).
  pose proof (utf8_of_first c seq b Hc) as Hu. rewrite app_length in Hf.
  assert (exists x r, seq ++ b = x :: r) as (x & r & E) by (destruct seq; [done|by eexists _, _]).
  destruct fuel as [|fuel]. { destruct seq; [done|]. simpl in Hf. lia. }
  destruct (IH fuel (off + length seq)) as (l & e & E1 & E2). { destruct seq; [done|]. simpl in Hf. lia. }
  exists ((off, c) :: l), e. split; [|simpl; by f_equal].
  rewrite E. cbn [from_utf8]. rewrite <-E, Hu. rewrite drop_app. by rewrite E1.
Qed.
Lemma utf8_ok b t : utf8_text b t -> utf8 b = Some t.
Proof.
  intros H. unfold utf8. destruct (from_utf8_text b t (length b) 0 H (le_n _)) as (l & e & -> & <-). done.
Qed.
Lemma lossy_text b t fuel : utf8_text b t -> length b <= fuel -> lossy_loop fuel b = t.
Proof.
  intros H. revert fuel. induction H as [|c seq b t Hc _ IH]; intros fuel Hf; [by destruct fuel|].
  assert (seq <> []) as Hne by (by destruct Hc).
  pose proof (utf8_of_first c seq b Hc) as Hu. rewrite app_length in Hf.
  assert (exists x r, seq ++ b = x :: r) as (x & r & E) by (destruct seq; [done|by eexists _, _]).
  destruct fuel as [|fuel]. { destruct seq; [done|]. simpl in Hf. lia. }
  rewrite E. cbn [lossy_loop]. rewrite <-E, Hu. rewrite drop_app. f_equal. apply IH. destruct seq; [done|]. simpl in Hf. lia.
Qed.
Lemma lossy_ok b t : utf8_text b t -> lossy b = t.
Proof. intros H. by apply lossy_text. Qed.

Lemma trim_ws ws s : Forall (fun c => c = 32 \/ c = 9 \/ c = 10 \/ c = 12 \/ c = 13)%N ws -> trim_start (ws ++ s) = trim_start s.
Proof.
  induction 1 as [|c ws Hc _ IH]; simpl; [done|].
  assert (is_space c = true) as -> by (by destruct Hc as [->|[->|[->|[->| ->]]]]). done.
Qed.
Lemma html_start_sniffs t : html_start t -> sniff_text t = Some CHtml.
Proof.
  intros (ws & w & rest & -> & Hws & Hw). unfold sniff_text. rewrite (trim_ws _ _ Hws).
  assert (exists w2, w = w2 /\ trim_start (w ++ rest) = w ++ rest) as (_ & _ & ->).
  { exists w. split; [done|]. destruct w as [|x w2]; [by destruct Hw|]. simpl. assert (is_space x = false) as ->; [|done].
    assert (lower_char x = 60%N) as Ex by (destruct Hw as [Hw|Hw]; [change (lower_char x :: lower w2 = 60%N :: tail (txt "<!doctype html")) in Hw|change (lower_char x :: lower w2 = 60%N :: tail (txt "<html")) in Hw]; congruence).
    apply lower_char_space. by rewrite Ex. }
  unfold lower at 1 2. rewrite map_app. change (map lower_char w) with (lower w).
  destruct Hw as [-> | ->]; rewrite starts_with_app; [done|]. by rewrite orb_true_r.
Qed.

(** ** Bodies *)
Lemma drain_smooth l : drain l = true <-> smooth l.
Proof.
  unfold smooth. induction l as [|[b| |] l IH]; simpl; split; try done.
  - intros H%IH. constructor; [by exists b|done].
  - intros H. apply IH. by inversion H.
  - intros H. inversion H as [|? ? [b Hb] _]. done.
  - intros H. inversion H as [|? ? [b Hb] _]. done.
Qed.
Lemma buffer_loop_spec max buf l : length buf <= max -> (max = 0 -> buf = []) ->
  (smooth l -> buffer_loop max buf l = Some (take max (buf ++ data l))) /\ (~ smooth l -> buffer_loop max buf l = None).
Proof.
  unfold smooth. revert buf. induction l as [|[b| |] l IH]; intros buf Hb H0.
  - split; [|intros H; destruct H; constructor]. intros _. simpl. rewrite app_nil_r. by rewrite take_ge.
  - cbn [buffer_loop data].
    set (buf' := buf ++ take (Nat.min (max - length buf) (length b)) b).
    assert (buf' = take max (buf ++ b)) as E.
    { unfold buf'. rewrite take_app_ge by lia. f_equal. destruct (decide (max - length buf <= length b)).
      - f_equal. lia.
      - rewrite Nat.min_r by lia. by rewrite !take_ge by lia. }
    assert (length buf' <= max) as Hl by (rewrite E, take_length; lia).
    destruct (bool_decide_reflect (max <= length buf')) as [Hm|Hm].
    + assert (length (buf ++ b) >= max) as Hge by (rewrite E, take_length in Hm; lia).
      split.
      * intros H. assert (drain l = true) as ->. { apply drain_smooth. by inversion H. }
        f_equal. rewrite E, app_assoc. by rewrite (take_app_le (buf ++ b)) by lia.
      * intros H. destruct (drain l) eqn:Ed; [|done]. destruct H. constructor; [by exists b|]. by apply drain_smooth.
    + assert (buf' = buf ++ b) as E2. { rewrite E. apply take_ge. rewrite E, take_length in Hm. lia. }
      destruct (IH buf' Hl) as [I1 I2]. { intros ->. lia. }
      split.
      * intros H. rewrite I1 by (by inversion H). by rewrite E2, <-app_assoc.
      * intros H. apply I2. intros Hs. apply H. constructor; [by exists b|done].
  - split; [intros H; inversion H as [|? ? [b Hx] _]; done|done].
  - split; [intros H; inversion H as [|? ? [b Hx] _]; done|done].
Qed.
Lemma buffer_smooth max l : smooth l -> buffer_document max l = Some (take max (data l)).
Proof. intros H. unfold buffer_document. by apply (buffer_loop_spec max [] l); [simpl; lia|..]. Qed.
Lemma buffer_rough max l : ~ smooth l -> buffer_document max l = None.
Proof. intros H. unfold buffer_document. by apply (buffer_loop_spec max [] l); [simpl; lia|..]. Qed.

Definition content_of (f : fetched) : content :=
  match f with FStream _ p r => Stream p r | FBuffered _ b => Buffered b | FError => Buffered [] end.
Lemma read_delivered l : read_to_end l = delivered l.
Proof. induction l as [|[b| |] l IH]; simpl; [done| |done|done]. rewrite IH. by destruct (delivered l). Qed.
Lemma to_bytes_body f : f <> FError -> to_bytes (content_of f) = body_of f.
Proof. destruct f as [m p r|m b|]; simpl; [by rewrite read_delivered|done|done]. Qed.
Lemma smooth_delivered l : smooth l -> delivered l = Some (data l).
Proof. unfold smooth. induction 1 as [|r l [b ->] _ IH]; [done|]. simpl. by rewrite IH. Qed.
Lemma smooth_fetch_reads f : smooth_fetch f -> smooth (reads (content_of f)) /\ body_of f = Some (data (reads (content_of f))).
Proof.
  unfold smooth. destruct f as [m p r|m b|]; simpl; [|intros _|done].
  - intros H. rewrite (smooth_delivered _ H). destruct (bool_decide_reflect (p = [])) as [->|]; [done|].
    split; [constructor; [by exists p|done]|done].
  - destruct (bool_decide_reflect (b = [])) as [->|]; [by split; [constructor|]|].
    split; [constructor; [by exists b|constructor]|]. simpl. by rewrite app_nil_r.
Qed.
Lemma smooth_data l : smooth l -> delivered l = Some (data l).
Proof. apply smooth_delivered. Qed.

Section ext.
  Context {D I : Type} (ext : externals D I).
  Lemma declares_type m t : declares ext m t -> content_type_from_headers ext m = Some t.
  Proof. intros (v & Hs & Hp). unfold content_type_from_headers. by rewrite (sends_str _ _ _ Hs). Qed.
  Lemma declares_nothing_type m : declares_nothing m -> content_type_from_headers ext m = None.
  Proof. intros H. unfold content_type_from_headers, header_str. by rewrite header_none. Qed.
  Lemma eqs_neq a b : a <> b -> eqs a b = false.
  Proof. unfold eqs. intros H. by apply bool_decide_eq_false. Qed.

  Lemma known_class t c : known t c -> class_from_mime t = Some c.
  Proof.
    destruct 1; try (by vm_compute).
    unfold class_from_mime. cbn [m_type m_subtype]. rewrite (eqs_neq s (txt "html")), (eqs_neq s (txt "css")) by done.
    unfold mime_is_pdf. cbn [m_type m_subtype m_suffix essence]. rewrite !eqs_refl. simpl andb.
    change (eqs (txt "text") (txt "application")) with false. change (eqs (txt "text") (txt "image")) with false.
    change (eqs (txt "text") (txt "font")) with false. cbn [andb orb].
    unfold eqs at 1. rewrite bool_decide_eq_false_2; [done|]. unfold essence, lower. cbn [m_type]. rewrite map_app. discriminate.
  Qed.
  Lemma known_not_pdf t c : known t c -> c <> CPdf -> mime_is_pdf t = false.
  Proof.
    destruct 1; intros Hc; try (by vm_compute); try done;
      unfold mime_is_pdf; cbn [m_type m_subtype];
      (rewrite (eqs_neq _ (txt "application")) by discriminate); cbn [andb orb];
      unfold eqs; apply bool_decide_eq_false; unfold essence, lower; cbn [m_type]; rewrite map_app; discriminate.
  Qed.
  Lemma known_pdf_is t : known t CPdf -> mime_is_pdf t = true.
  Proof. inversion 1; subst. unfold mime_is_pdf. cbn [m_type m_subtype]. by rewrite !eqs_refl. Qed.

  (** ** Decisions *)
  Definition sniffed_of (m : meta) (peek : list N) (p : policy) : option class :=
    if sniffing p && negb (header_eq m (txt "x-content-type-options") (txt "nosniff")) then Some (sniff_class ext peek) else None.

  Lemma decide_no_peek m dest p pk1 pk2 : nosniff m \/ sniffing p = false ->
    decide_handling ext m dest pk1 p = decide_handling ext m dest pk2 p.
  Proof.
    intros H. unfold decide_handling.
    assert (sniffing p && negb (header_eq m (txt "x-content-type-options") (txt "nosniff")) = false) as ->; [|done].
    destruct H as [H| ->]; [|done]. rewrite (nosniff_eq _ H). apply andb_false_r.
  Qed.

  Lemma decide_attached m dest peek p : attached m -> auto_download p = true ->
    d_decision (decide_handling ext m dest peek p) = Download /\ d_attachment (decide_handling ext m dest peek p) = true.
  Proof. intros H1 H2. unfold decide_handling. rewrite (attached_true _ H1), H2. done. Qed.

  (** The decision as a function of the class, when it is not a saved attachment *)
  Lemma decide_render m dest peek p o : decide_handling ext m dest peek p = o -> dest <> Document ->
    match d_decision o with
    | Render HtmlParser => d_class o = CHtml \/ d_class o = CXHtml \/ d_class o = CXml
    | Render CssParser => d_class o = CCss
    | Render JsEngine => d_class o = CJs
    | Render ImageDecoder => d_class o = CImage
    | Render FontLoader => d_class o = CFont
    | Render PdfViewer => d_class o = CPdf
    | Download => True
    end.
  Proof.
    intros <- Hd. unfold decide_handling. rewrite (bool_decide_eq_false_2 (dest = Document)) by done. cbn [andb].
    destruct (_ && auto_download p); [done|]. destruct (pdf_viewer p && _); [done|]. rewrite andb_false_r.
    cbn [andb d_decision d_class]. destruct (default _ _); cbn; auto.
  Qed.
  Lemma decide_fit m dest peek p o : decide_handling ext m dest peek p = o -> dest <> Document ->
    content_disposition_is_attachment m && auto_download p = false ->
    d_decision o = match d_class o with
      | CHtml | CXHtml | CXml => Render HtmlParser
      | CImage => Render ImageDecoder
      | CJs => Render JsEngine
      | CCss => Render CssParser
      | CFont => Render FontLoader
      | CPdf => d_decision o
      | _ => Download
      end.
  Proof.
    intros <- Hd Ha. unfold decide_handling. rewrite Ha, (bool_decide_eq_false_2 (dest = Document)) by done. cbn [andb].
    destruct (pdf_viewer p && _); [done|]. rewrite andb_false_r.
    cbn [andb d_decision d_class]. destruct (default _ _); done.
  Qed.
End ext.

(** ** Routing *)
Section route.
  Context {D I : Type} (ext : externals D I) (max : nat).

  Lemma route_meta f m dest p : fetched_meta f = Some m ->
    route ext max dest f p = route_content ext max dest m (peek_of f) (content_of f) p /\ f <> FError.
  Proof. destruct f; intros [= ->]; done. Qed.

  Lemma route_misfit m f dest p : fetched_meta f = Some m -> dest <> Document ->
    ~ fits dest (d_class (decide_handling ext m dest (peek_of f) p)) -> route ext max dest f p = Blocked.
  Proof.
    intros Hm Hd Hf. destruct (route_meta f m dest p Hm) as [-> _]. unfold route_content.
    pose proof (decide_render ext m dest (peek_of f) p _ eq_refl Hd) as H.
    destruct dest; try done; destruct (d_decision _) as [[]|]; try done;
      (rewrite H in Hf; destruct Hf; constructor).
  Qed.
  Lemma route_fits m f b dest p : fetched_meta f = Some m -> body_of f = Some b ->
    fits dest (d_class (decide_handling ext m dest (peek_of f) p)) ->
    ~ (attached m /\ auto_download p = true) -> loads ext b dest (route ext max dest f p).
  Proof.
    intros Hm Hb Hf Ha. destruct (route_meta f m dest p Hm) as [-> He].
    assert (content_disposition_is_attachment m && auto_download p = false) as Ha'.
    { destruct (content_disposition_is_attachment m) eqn:E1; [|done]. destruct (auto_download p) eqn:E2; [|done].
      destruct Ha. split; [by apply attached_iff|done]. }
    pose proof (to_bytes_body f He) as Ht. rewrite Hb in Ht. unfold route_content.
    pose proof (decide_fit ext m dest (peek_of f) p _ eq_refl) as H.
    inversion Hf as [E1 E2|E1 E2|E1 E2|E1 E2]; subst dest; rewrite <-E2 in H; rewrite H by done; rewrite Ht; cbn; try constructor.
    destruct (decode_image ext b) eqn:E; by constructor.
  Qed.
  Lemma route_parts f dest p : dest <> Document ->
    route ext max dest f p = Blocked \/ route ext max dest f p = Failed \/
    exists b, body_of f = Some b /\ loads ext b dest (route ext max dest f p).
  Proof.
    intros Hd. destruct (fetched_meta f) as [m|] eqn:Hm; [|destruct f; try done; by right; left].
    destruct (route_meta f m dest p Hm) as [-> He].
    pose proof (to_bytes_body f He) as Ht. unfold route_content.
    destruct dest; try done; try (by left); destruct (d_decision _) as [[]|]; try (by left);
      rewrite Ht; destruct (body_of f) as [b|]; cbn; try (by right; left); right; right; exists b; (split; [done|]); try constructor.
    destruct (decode_image ext b) eqn:E; by constructor.
  Qed.
  Lemma parse_html_rough u l : ~ smooth l -> parse_html ext max u l = Failed.
  Proof. intros H. unfold parse_html. by rewrite buffer_rough. Qed.
  Lemma parse_html_smooth u l : smooth l -> parse_html ext max u l = MainDocument (parse_doc ext u (take max (data l))).
  Proof. intros H. unfold parse_html. by rewrite buffer_smooth. Qed.
  Lemma route_errors f dest p : body_of f = None -> used (route ext max dest f p) = false.
  Proof.
    intros Hb. destruct (decide (dest = Document)) as [->|Hd].
    - destruct (fetched_meta f) as [m|] eqn:Hm; [|by destruct f].
      destruct (route_meta f m Document p Hm) as [-> He]. pose proof (to_bytes_body f He) as Ht. unfold route_content.
      destruct (d_decision _) as [[]|]; rewrite ?Ht, ?Hb; try done.
      + rewrite parse_html_rough; [done|]. intros Hs. destruct f as [m' q r|m' b|]; try done.
        simpl in Hb, Hs. assert (smooth r) as Hr. { unfold smooth in *. destruct (bool_decide (q = [])); [done|]. by inversion Hs. }
        by rewrite (smooth_delivered r Hr) in Hb.
      + by destruct (negb _ && _).
    - destruct (route_parts f dest p Hd) as [->|[->|(b & Hb' & _)]]; [done..|congruence].
  Qed.
  Lemma route_attached m f dest p : fetched_meta f = Some m -> attached m ->
    auto_download p = true \/ d_decision (decide_handling ext m dest (peek_of f) p) = Download ->
    used (route ext max dest f p) = false.
  Proof.
    intros Hm Ha Hp. destruct (route_meta f m dest p Hm) as [-> He]. unfold route_content.
    assert (d_decision (decide_handling ext m dest (peek_of f) p) = Download /\ d_attachment (decide_handling ext m dest (peek_of f) p) = true) as [-> H].
    { destruct Hp as [Hp|Hp]; [by apply decide_attached|]. split; [done|]. revert Hp.
      unfold decide_handling. rewrite (attached_true _ Ha). cbn [andb]. destruct (auto_download p); [done|].
      by destruct (pdf_viewer p && _). }
    destruct dest; try done. by rewrite H.
  Qed.

  Lemma decide_declared m t c dest peek p : declares ext m t -> known t c ->
    nosniff m \/ sniffing p = false \/ sniff_class ext peek <> CPdf \/ pdf_viewer p = false ->
    d_class (decide_handling ext m dest peek p) = c.
  Proof.
    intros Ht Hk Hs. unfold decide_handling. rewrite (declares_type _ _ _ Ht). simpl mbind. rewrite (known_class _ _ Hk).
    rewrite (bool_decide_eq_false_2 (Some c = None)) by done. rewrite andb_false_r.
    destruct (content_disposition_is_attachment m && auto_download p); [done|].
    destruct (decide (c = CPdf)) as [->|Hc].
    { rewrite (known_pdf_is _ Hk). cbn [orb]. rewrite andb_true_r. by destruct (pdf_viewer p). }
    rewrite (known_not_pdf _ _ Hk Hc). cbn [orb].
    assert (pdf_viewer p && bool_decide ((if sniffing p && negb (header_eq m (txt "x-content-type-options") (txt "nosniff")) then Some (sniff_class ext peek) else None) = Some CPdf) = false) as ->; [|done].
    apply andb_false_iff. destruct Hs as [Hs|[Hs|[Hs|Hs]]]; [right|right|right|by left]; apply bool_decide_eq_false.
    - rewrite (nosniff_eq _ Hs). by rewrite andb_false_r.
    - by rewrite Hs.
    - destruct (sniffing p && _); congruence.
  Qed.
  Lemma route_served m t f b dest p :
    fetched_meta f = Some m -> body_of f = Some b -> declares ext m t ->
    (dest = Style /\ t = mk_mime (txt "text") (txt "css") None) \/
    (dest = Script /\ t = mk_mime (txt "application") (txt "javascript") None) \/
    (dest = Image /\ m_type t = txt "image") \/ (dest = Font /\ m_type t = txt "font") ->
    ~ (attached m /\ auto_download p = true) ->
    nosniff m \/ sniffing p = false \/ sniff_class ext (peek_of f) <> CPdf \/ pdf_viewer p = false ->
    loads ext b dest (route ext max dest f p).
  Proof.
    intros Hm Hb Ht H Ha Hs. apply (route_fits m f b dest p Hm Hb); [|done].
    destruct t as [ty st sf]. cbn [m_type] in H.
    destruct H as [[-> H]|[[-> H]|[[-> ->]|[-> ->]]]]; [injection H as -> -> ->..|idtac|idtac];
      (erewrite decide_declared; [constructor|exact Ht|constructor|exact Hs]).
  Qed.
  Lemma route_text_javascript m f p sf : fetched_meta f = Some m -> declares ext m (mk_mime (txt "text") (txt "javascript") sf) ->
    route ext max Script f p = Blocked.
  Proof.
    intros Hm Ht. apply (route_misfit m f Script p Hm); [done|].
    assert (d_class (decide_handling ext m Script (peek_of f) p) = CText \/ d_class (decide_handling ext m Script (peek_of f) p) = CPdf) as [-> | ->]; [|by inversion 1..].
    unfold decide_handling. rewrite (declares_type _ _ _ Ht). simpl mbind.
    rewrite (known_class _ CText) by (constructor; discriminate).
    rewrite (bool_decide_eq_false_2 (Some CText = None)) by done. rewrite andb_false_r.
    destruct (content_disposition_is_attachment m && auto_download p); [by left|].
    destruct (pdf_viewer p && _); [by right|by left].
  Qed.
  Lemma route_undeclared m f dest p : fetched_meta f = Some m -> declares_nothing m -> nosniff m \/ sniffing p = false ->
    route ext max dest f p = if decide (dest = Document) then DownloadOffer m else Blocked.
  Proof.
    intros Hm Hn Hs. destruct (route_meta f m dest p Hm) as [-> _]. unfold route_content, decide_handling.
    rewrite (declares_nothing_type _ _ Hn). simpl mbind.
    assert (sniffing p && negb (header_eq m (txt "x-content-type-options") (txt "nosniff")) = false) as ->.
    { destruct Hs as [Hs| ->]; [|done]. rewrite (nosniff_eq _ Hs). apply andb_false_r. }
    rewrite (bool_decide_eq_false_2 (@None class = Some CPdf)), (bool_decide_eq_false_2 (@None class = Some CHtml)), (bool_decide_eq_false_2 (@None class = Some CXml)) by done.
    cbn [orb]. rewrite !andb_false_r. destruct (nav_upgrade p && _ && _); cbn [default];
      destruct (content_disposition_is_attachment m && auto_download p); cbn;
      destruct dest; cbn; try done; by rewrite ?andb_false_r.
  Qed.
  Lemma route_html_sniffed m f t b p :
    fetched_meta f = Some m -> declares_nothing m -> ~ nosniff m -> sniffing p = true ->
    ~ (attached m /\ auto_download p = true) ->
    utf8_text (take 512 (peek_of f)) t -> html_start t -> smooth_fetch f -> body_of f = Some b ->
    route ext max Document f p = MainDocument (parse_doc ext (m_url m) (take max b)).
  Proof.
    intros Hm Hn Hs Hp Ha Ht Hh Hf Hb. destruct (route_meta f m Document p Hm) as [-> _].
    assert (content_disposition_is_attachment m && auto_download p = false) as Ha'.
    { destruct (content_disposition_is_attachment m) eqn:E1; [|done]. destruct (auto_download p) eqn:E2; [|done].
      destruct Ha. split; [by apply attached_iff|done]. }
    assert (header_eq m (txt "x-content-type-options") (txt "nosniff") = false) as Hs'.
    { destruct (header_eq _ _ _) eqn:E; [|done]. destruct Hs. by apply nosniff_iff. }
    assert (sniff_class ext (peek_of f) = CHtml) as Hc.
    { unfold sniff_class. rewrite (utf8_ok _ _ Ht). simpl mbind. by rewrite (html_start_sniffs _ Hh). }
    unfold route_content, decide_handling. rewrite (declares_nothing_type _ _ Hn). simpl mbind.
    rewrite Hp, Hs', Hc, Ha'. cbn [andb negb].
    rewrite (bool_decide_eq_false_2 (Some CHtml = None)), (bool_decide_eq_false_2 (Some CHtml = Some CPdf)) by done.
    cbn [orb]. rewrite !andb_false_r. cbn [default d_decision].
    destruct (smooth_fetch_reads f Hf) as [H1 H2]. rewrite parse_html_smooth by done. rewrite Hb in H2. by injection H2 as ->.
  Qed.

  Lemma route_stream m rest b dest p : smooth rest -> take peek_limit b ++ data rest = b ->
    route ext max dest (FStream m (take peek_limit b) rest) p = route ext max dest (FBuffered m b) p.
  Proof.
    intros Hr Hb. unfold route.
    assert (to_bytes (Stream (take peek_limit b) rest) = to_bytes (Buffered b)) as Ht.
    { unfold to_bytes. rewrite read_delivered, (smooth_delivered _ Hr). simpl. by f_equal. }
    assert (forall u, parse_html ext max u (reads (Stream (take peek_limit b) rest)) = parse_html ext max u (reads (Buffered b))) as Hh.
    { intros u.
      destruct (smooth_fetch_reads (FStream m (take peek_limit b) rest) Hr) as [A1 A2].
      destruct (smooth_fetch_reads (FBuffered m b) ltac:(done)) as [B1 B2].
      cbn [content_of] in *. rewrite !parse_html_smooth by done. do 3 f_equal.
      cbn [body_of] in A2, B2. rewrite (smooth_delivered _ Hr) in A2. cbn [option_map fmap option_fmap] in A2.
      rewrite Hb in A2. rewrite A2 in B2. by injection B2. }
    unfold route_content. destruct dest; try done; destruct (d_decision _) as [[]|]; rewrite ?Ht, ?Hh; done.
  Qed.

  (** Navigations to declared documents. *)
  Lemma not_attached m : ~ attached m -> content_disposition_is_attachment m = false.
  Proof. intros H. destruct (content_disposition_is_attachment m) eqn:E; [|done]. destruct H. by apply attached_iff. Qed.
  Lemma no_sniff m p peek : nosniff m \/ sniffing p = false ->
    (if sniffing p && negb (header_eq m (txt "x-content-type-options") (txt "nosniff")) then Some (sniff_class ext peek) else None) = None.
  Proof. intros [H| ->]; [|done]. rewrite (nosniff_eq _ H). by rewrite andb_false_r. Qed.
  Lemma route_html_declared m f sf b p :
    fetched_meta f = Some m -> declares ext m (mk_mime (txt "text") (txt "html") sf) -> ~ (attached m /\ auto_download p = true) ->
    nosniff m \/ sniffing p = false \/ sniff_class ext (peek_of f) <> CPdf \/ pdf_viewer p = false ->
    smooth_fetch f -> body_of f = Some b ->
    route ext max Document f p = MainDocument (parse_doc ext (m_url m) (take max b)).
  Proof.
    intros Hm Ht Ha Hs Hf Hb. destruct (route_meta f m Document p Hm) as [-> _].
    assert (content_disposition_is_attachment m && auto_download p = false) as Ha'.
    { destruct (content_disposition_is_attachment m) eqn:E1; [|done]. destruct (auto_download p) eqn:E2; [|done].
      destruct Ha. split; [by apply attached_iff|done]. }
    assert (pdf_viewer p && bool_decide ((if sniffing p && negb (header_eq m (txt "x-content-type-options") (txt "nosniff")) then Some (sniff_class ext (peek_of f)) else None) = Some CPdf) = false) as Hpdf.
    { apply andb_false_iff. destruct Hs as [Hs|[Hs|[Hs|Hs]]]; [right|right|right|by left]; apply bool_decide_eq_false.
      - rewrite (nosniff_eq _ Hs). by rewrite andb_false_r.
      - by rewrite Hs.
      - destruct (sniffing p && _); congruence. }
    unfold route_content, decide_handling. rewrite (declares_type _ _ _ Ht). simpl mbind.
    rewrite (known_class _ CHtml) by constructor. rewrite (known_not_pdf _ CHtml) by (done || constructor). cbn [orb].
    rewrite (bool_decide_eq_false_2 (Some CHtml = None)) by done. rewrite Hpdf, Ha', !andb_false_r. cbn [default d_decision].
    destruct (smooth_fetch_reads f Hf) as [H1 H2]. rewrite parse_html_smooth by done. rewrite Hb in H2. by injection H2 as ->.
  Qed.
  Lemma route_viewed m f t c b p : c = CText \/ c = CJson ->
    fetched_meta f = Some m -> declares ext m t -> known t c -> ~ attached m ->
    nosniff m \/ sniffing p = false -> body_of f = Some b ->
    route ext max Document f p = MainDocument (parse_doc ext (m_url m) (take max (encode (viewer_html ext c b)))).
  Proof.
    intros Hc Hm Ht Hk Ha Hs Hb. destruct (route_meta f m Document p Hm) as [-> He].
    pose proof (to_bytes_body f He) as Hto. rewrite Hb in Hto.
    unfold route_content, decide_handling. rewrite (declares_type _ _ _ Ht). simpl mbind. rewrite (known_class _ _ Hk), (no_sniff _ _ _ Hs), (not_attached _ Ha).
    assert (mime_is_pdf t = false) as -> by (destruct Hc as [-> | ->]; by eapply known_not_pdf).
    rewrite (bool_decide_eq_false_2 (Some c = None)), (bool_decide_eq_false_2 (@None class = Some CPdf)), (bool_decide_eq_false_2 (@None class = Some CHtml)), (bool_decide_eq_false_2 (@None class = Some CXml)) by done.
    cbn [orb andb]. rewrite !andb_false_r. cbn [default].
    assert (forall x, parse_html ext max (m_url m) (reads (Buffered x)) = MainDocument (parse_doc ext (m_url m) (take max x))) as Hv.
    { intros x. destruct (smooth_fetch_reads (FBuffered m x) ltac:(done)) as [H1 H2]. cbn [content_of] in *. rewrite parse_html_smooth by done.
      assert (data (reads (Buffered x)) = x) as -> by (by injection H2). done. }
    destruct Hc as [-> | ->]; cbn; rewrite Hto; apply Hv.
  Qed.
End route.
