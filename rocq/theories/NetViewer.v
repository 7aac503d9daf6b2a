(** Lemmas behind C37: the text and JSON viewers. *)
From Verif Require Import Text SettingsModel CookieModel ByteStreamModel NetModel NetSpec SettingsProofs.

Lemma scan_text s r : Forall (fun c => c <> 60)%N s -> scan None (s ++ r) = map Char s ++ scan None r.
Proof.
  induction 1 as [|c s Hc _ IH]; [done|]. simpl. rewrite (proj2 (N.eqb_neq _ _) Hc). by f_equal.
Qed.
Lemma scan_in_tag acc t r : Forall (fun c => c <> 62)%N t ->
  scan (Some acc) (t ++ 62%N :: r) = Tag (rev acc ++ t) :: scan None r.
Proof.
  intros H. revert acc. induction H as [|c t Hc _ IH]; intros acc; simpl; [by rewrite app_nil_r|].
  rewrite (proj2 (N.eqb_neq _ _) Hc). rewrite IH. simpl. by rewrite <-app_assoc.
Qed.
(** A tag written out *)
Definition tag (t : str) : str := 60%N :: t ++ [62%N].
Lemma scan_tag t r : Forall (fun c => c <> 62)%N t -> scan None (tag t ++ r) = Tag t :: scan None r.
Proof.
  intros H. unfold tag. cbn [app scan]. rewrite <-app_assoc. cbn [app]. change (60 =? 60)%N with true. cbn iota.
  exact (scan_in_tag [] t r H).
Qed.

Lemma Forall_eq_dec (P : N -> Prop) (f : N -> bool) s : (forall c, f c = true -> P c) -> forallb f s = true -> Forall P s.
Proof.
  intros Hf H. rewrite forallb_forall in H. apply Forall_forall. intros c Hc. apply Hf, H. by apply elem_of_list_In.
Qed.
Lemma forallb_neq k s : forallb (fun c => negb (N.eqb c k)) s = true -> Forall (fun c => c <> k) s.
Proof. apply Forall_eq_dec. intros c H. by apply N.eqb_neq, negb_true_iff. Qed.

(** ** Escaping *)
Lemma escape_app a b : html_escape (a ++ b) = html_escape a ++ html_escape b.
Proof. unfold html_escape. by rewrite map_app, concat_app. Qed.
Lemma escape_char_plain c : Forall (fun x => x <> 60 /\ x <> 62)%N (escape_char c).
Proof.
  unfold escape_char.
  destruct (N.eqb_spec c 38); [by repeat constructor|]. destruct (N.eqb_spec c 60); [by repeat constructor|].
  destruct (N.eqb_spec c 62); [by repeat constructor|]. by repeat constructor.
Qed.
Lemma escape_plain s : Forall (fun x => x <> 60 /\ x <> 62)%N (html_escape s).
Proof.
  induction s as [|c s IH]; [constructor|]. unfold html_escape. simpl. apply Forall_app. split; [apply escape_char_plain|done].
Qed.
Lemma escape_no_lt s : Forall (fun x => x <> 60)%N (html_escape s).
Proof. eapply Forall_impl; [apply escape_plain|]. simpl. tauto. Qed.
Lemma escape_id s : plain s -> html_escape s = s.
Proof.
  induction 1 as [|c s (H1 & H2 & H3) _ IH]; [done|]. unfold html_escape in *. simpl. rewrite IH.
  unfold escape_char. by rewrite (proj2 (N.eqb_neq _ _) H1), (proj2 (N.eqb_neq _ _) H2), (proj2 (N.eqb_neq _ _) H3).
Qed.

Lemma starts_len p s : starts_with p s = true -> length p <= length s.
Proof.
  revert s. induction p as [|x p IH]; intros [|y s]; simpl; intros H; try lia; try done.
  apply andb_true_iff in H as [_ H]. apply IH in H. lia.
Qed.
Lemma unescape_fuel f g s : length s <= f -> length s <= g -> unescape_loop f s = unescape_loop g s.
Proof.
  revert g s. induction f as [|f IH]; intros [|g] [|c s] Hf Hg; simpl in Hf, Hg; try done; try lia.
  cbn [unescape_loop].
  destruct (starts_with (txt "&amp;") (c :: s)); [f_equal; apply IH; rewrite drop_length; simpl; lia|].
  destruct (starts_with (txt "&lt;") (c :: s)); [f_equal; apply IH; rewrite drop_length; simpl; lia|].
  destruct (starts_with (txt "&gt;") (c :: s)); [f_equal; apply IH; rewrite drop_length; simpl; lia|].
  f_equal. apply IH; lia.
Qed.
Lemma unescape_unfold c s : unescape (c :: s) =
  if starts_with (txt "&amp;") (c :: s) then 38%N :: unescape (drop 5 (c :: s))
  else if starts_with (txt "&lt;") (c :: s) then 60%N :: unescape (drop 4 (c :: s))
  else if starts_with (txt "&gt;") (c :: s) then 62%N :: unescape (drop 4 (c :: s))
  else c :: unescape s.
Proof.
  unfold unescape. change (length (c :: s)) with (S (length s)). cbn [unescape_loop].
  destruct (starts_with (txt "&amp;") (c :: s)); [f_equal; apply unescape_fuel; rewrite ?drop_length; simpl; lia|].
  destruct (starts_with (txt "&lt;") (c :: s)); [f_equal; apply unescape_fuel; rewrite ?drop_length; simpl; lia|].
  destruct (starts_with (txt "&gt;") (c :: s)); [f_equal; apply unescape_fuel; rewrite ?drop_length; simpl; lia|].
  done.
Qed.
Lemma unescape_cons c s : c <> 38%N -> unescape (c :: s) = c :: unescape s.
Proof.
  intros H. rewrite unescape_unfold.
  assert (forall p, starts_with (38%N :: p) (c :: s) = false) as E.
  { intros p. cbn [starts_with]. destruct (N.eqb_spec 38 c); [congruence|done]. }
  change (txt "&amp;") with (38%N :: txt "amp;"). change (txt "&lt;") with (38%N :: txt "lt;"). change (txt "&gt;") with (38%N :: txt "gt;").
  by rewrite !E.
Qed.
Lemma unescape_escape_char c s : unescape (escape_char c ++ s) = c :: unescape s.
Proof.
  unfold escape_char.
  destruct (N.eqb_spec c 38) as [->|H1].
  { change (txt "&amp;" ++ s) with (38%N :: (txt "amp;" ++ s)). rewrite unescape_unfold. done. }
  destruct (N.eqb_spec c 60) as [->|H2].
  { change (txt "&lt;" ++ s) with (38%N :: (txt "lt;" ++ s)). rewrite unescape_unfold. done. }
  destruct (N.eqb_spec c 62) as [->|H3].
  { change (txt "&gt;" ++ s) with (38%N :: (txt "gt;" ++ s)). rewrite unescape_unfold. done. }
  cbn [app]. by apply unescape_cons.
Qed.
Lemma unescape_escape s r : unescape (html_escape s ++ r) = s ++ unescape r.
Proof.
  induction s as [|c s IH]; [done|]. unfold html_escape in *. cbn [map concat]. rewrite <-app_assoc, unescape_escape_char, IH. done.
Qed.
Lemma unescape_plain s r : plain s -> unescape (s ++ r) = s ++ unescape r.
Proof. intros H. rewrite <-(escape_id s H) at 1. apply unescape_escape. Qed.

(** ** The text viewer *)
Definition text_head : list str :=
  [txt "!DOCTYPE html"; txt "html"; txt "head"; txt "meta charset=" ++ quoted (txt "utf-8"); txt "/head"; txt "body";
   txt "pre style=" ++ quoted (txt "white-space: pre-wrap; word-wrap: break-word;")].
Definition text_tail : list str := [txt "/pre"; txt "/body"; txt "/html"].

Lemma scan_tags ts r : forallb (forallb (fun c => negb (N.eqb c 62))) ts = true ->
  scan None (concat (map tag ts) ++ r) = map Tag ts ++ scan None r.
Proof.
  induction ts as [|t ts IH]; [done|]. cbn [forallb]. intros [H1 H2]%andb_true_iff. cbn [map concat].
  rewrite <-app_assoc, scan_tag by (by apply forallb_neq). cbn [app]. f_equal. by apply IH.
Qed.
Lemma text_pieces b : pieces (text_document_html b) =
  map Tag text_head ++ map Char (html_escape (lossy b)) ++ map Tag text_tail.
Proof.
  unfold pieces.
  assert (text_document_html b = concat (map tag text_head) ++ html_escape (lossy b) ++ concat (map tag text_tail) ++ []) as ->.
  { unfold text_document_html. rewrite app_nil_r. unfold head_html, pre_open. rewrite !app_assoc. by repeat f_equal. }
  rewrite scan_tags by done. f_equal. rewrite scan_text by apply escape_no_lt. by f_equal.
Qed.

(** ** The JSON viewer *)
(** The pieces of a line: characters, and the span tags *)
Definition inline (p : piece) : Prop :=
  match p with
  | Tag t => t ∈ template /\ starts_with (txt "div") t = false /\ t <> txt "/div"
  | Char _ => True
  | Unclosed _ => False
  end.
Definition renders (h t : str) : Prop :=
  exists P, (forall r, scan None (h ++ r) = P ++ scan None r) /\
            (forall r, unescape (chars_of P ++ r) = t ++ unescape r) /\ Forall inline P.
Lemma chars_app a b : chars_of (a ++ b) = chars_of a ++ chars_of b.
Proof. unfold chars_of. apply omap_app. Qed.
Lemma chars_map s : chars_of (map Char s) = s.
Proof. induction s as [|c s IH]; [done|]. cbn. by f_equal. Qed.
Lemma tags_app a b : tags (a ++ b) = tags a ++ tags b.
Proof. unfold tags. apply omap_app. Qed.
Lemma renders_app a ta b tb : renders a ta -> renders b tb -> renders (a ++ b) (ta ++ tb).
Proof.
  intros (P & H1 & H2 & H3) (Q & K1 & K2 & K3). exists (P ++ Q). split_and!.
  - intros r. by rewrite <-!app_assoc, H1, K1.
  - intros r. by rewrite chars_app, <-!app_assoc, H2, K2.
  - by apply Forall_app.
Qed.
Lemma renders_escape s : renders (html_escape s) s.
Proof.
  exists (map Char (html_escape s)). split_and!.
  - intros r. by rewrite scan_text by apply escape_no_lt.
  - intros r. by rewrite chars_map, unescape_escape.
  - apply Forall_forall. intros p (c & -> & _)%elem_of_list_fmap. done.
Qed.
Lemma renders_plain s : plain s -> renders s s.
Proof. intros H. rewrite <-(escape_id s H) at 1. apply renders_escape. Qed.
Lemma renders_nil : renders [] [].
Proof. apply renders_plain. constructor. Qed.
Lemma renders_tag t : forallb (fun c => negb (N.eqb c 62)) t = true -> inline (Tag t) -> renders (tag t) [].
Proof.
  intros H1 H2. exists [Tag t]. split_and!; [|done|by constructor]. intros r. rewrite scan_tag by (by apply forallb_neq). done.
Qed.
Lemma txt_plain s : forallb (fun c => negb (N.eqb c 60) && negb (N.eqb c 62) && negb (N.eqb c 38)) s = true -> plain s.
Proof.
  apply Forall_eq_dec. intros c H. rewrite !andb_true_iff, !negb_true_iff, !N.eqb_neq in H. tauto.
Qed.
Lemma inline_span c : c ∈ [txt "#6f42c1"; txt "#22863a"; txt "#005cc5"; txt "#d73a49"] ->
  inline (Tag (txt "span style=" ++ quoted (txt "color:" ++ c))).
Proof.
  intros Hc. split_and!; [|done|discriminate]. unfold template. apply elem_of_app. right. apply elem_of_list_fmap. by exists c.
Qed.
Lemma renders_span c h t : c ∈ [txt "#6f42c1"; txt "#22863a"; txt "#005cc5"; txt "#d73a49"] -> renders h t -> renders (span c h) t.
Proof.
  intros Hc Hh. replace (span c h) with (tag (txt "span style=" ++ quoted (txt "color:" ++ c)) ++ h ++ tag (txt "/span")).
  - replace t with ([] ++ t ++ []) by apply app_nil_r.
    apply renders_app; [|apply renders_app; [done|]].
    + apply renders_tag; [|by apply inline_span].
      rewrite !elem_of_cons, elem_of_nil in Hc. by destruct Hc as [->|[->|[->|[->|[]]]]].
    + apply renders_tag; [done|]. split_and!; [|done|discriminate]. unfold template. apply elem_of_app. left.
      do 7 right. left.
  - unfold span, tag, attr, quoted. cbn [app]. change (txt "<span ") with (60%N :: txt "span "). cbn [app]. f_equal.
    rewrite <-!app_assoc. reflexivity.
Qed.
Lemma renders_quoted s : renders (quote ++ html_escape s ++ quote) (quoted s).
Proof.
  unfold quoted. apply renders_app; [by apply renders_plain, txt_plain|]. apply renders_app; [apply renders_escape|by apply renders_plain, txt_plain].
Qed.

Definition label (k : option str) : str := match k with Some k => quoted k ++ txt ": " | None => [] end.
Definition shift (d : nat) (l : list (nat * str)) : list (nat * str) := map (fun x => (d + x.1, x.2)) l.
Definition line_ok (a b : nat * str) : Prop := a.1 = b.1 /\ renders a.2 b.2.

Lemma renders_label k : renders (match k with Some k => span key_color (quote ++ html_escape k ++ quote) ++ txt ": " | None => [] end) (label k).
Proof.
  destruct k as [k|]; [|apply renders_nil]. apply renders_app.
  - apply renders_span; [by left|]. apply renders_quoted.
  - by apply renders_plain, txt_plain.
Qed.

Fixpoint json_all (P : json -> Prop) (H1 : P JNull) (H2 : forall b, P (JBool b)) (H3 : forall n, P (JNum n)) (H4 : forall s, P (JStr s))
    (H5 : forall l, Forall P l -> P (JArr l)) (H6 : forall l, Forall (fun kx => P kx.2) l -> P (JObj l)) (v : json) : P v :=
  let rec := json_all P H1 H2 H3 H4 H5 H6 in
  match v with
  | JNull => H1 | JBool b => H2 b | JNum n => H3 n | JStr s => H4 s
  | JArr l => H5 l ((fix go l : Forall P l := match l with [] => Forall_nil_2 _ | x :: r => Forall_cons_2 _ _ _ (rec x) (go r) end) l)
  | JObj l => H6 l ((fix go l : Forall (fun kx : str * json => P kx.2) l :=
                       match l with [] => Forall_nil_2 _ | kx :: r => Forall_cons_2 _ _ _ (rec kx.2) (go r) end) l)
  end.

Lemma on_last_nil l : on_last [] l = l.
Proof.
  induction l as [|[d s] l IH]; [done|]. destruct l as [|y l]; [simpl; by rewrite app_nil_r|]. change (on_last [] ((d, s) :: y :: l)) with ((d, s) :: on_last [] (y :: l)). by rewrite IH.
Qed.
Lemma on_last_snoc p l d s : on_last p (l ++ [(d, s)]) = l ++ [(d, s ++ p)].
Proof.
  induction l as [|x l IH]; [done|]. destruct l as [|y l]; [by destruct x|].
  change (on_last p (x :: (y :: l) ++ [(d, s)]) = x :: (y :: l) ++ [(d, s ++ p)]).
  rewrite <-IH. by destruct x.
Qed.
Lemma shift_indent d l : shift d (indent l) = shift (S d) l.
Proof. unfold shift, indent. rewrite map_map. apply map_ext. intros [n s]. simpl. f_equal. lia. Qed.
Lemma on_first_nil l : on_first [] l = l.
Proof. by destruct l as [|[]]. Qed.

Definition arr_lines (d : nat) : list json -> list (nat * str) := fix items (l : list json) : list (nat * str) :=
  match l with [] => [] | x :: r => json_lines x (S d) None (match r with [] => [] | _ => txt "," end) ++ items r end.
Definition obj_lines (d : nat) : list (str * json) -> list (nat * str) := fix entries (l : list (str * json)) : list (nat * str) :=
  match l with [] => [] | (k, x) :: r => json_lines x (S d) (Some k) (match r with [] => [] | _ => txt "," end) ++ entries r end.

Definition lines_ok (v : json) : Prop := forall d key trail, plain trail ->
  Forall2 line_ok (json_lines v d key trail) (shift d (on_first (label key) (on_last trail (pretty v)))).

Lemma pretty_first v : exists d s l, pretty v = (d, s) :: l.
Proof. destruct v as [| | | |[]|[]]; simpl; eauto. Qed.
Lemma first_last p q l : on_first p (on_last q l) = on_last q (on_first p l).
Proof. destruct l as [|[d s] [|y l]]; simpl; [done|by rewrite app_assoc|done]. Qed.

Lemma arr_ok d l : Forall lines_ok l -> Forall2 line_ok (arr_lines d l) (shift (S d) (commas (map pretty l))).
Proof.
  induction 1 as [|x r Hx _ IH]; [constructor|]. destruct r as [|y r].
  - simpl. rewrite app_nil_r. specialize (Hx (S d) None [] ltac:(constructor)). by rewrite on_last_nil, on_first_nil in Hx.
  - change (arr_lines d (x :: y :: r)) with (json_lines x (S d) None (txt ",") ++ arr_lines d (y :: r)).
    change (commas (map pretty (x :: y :: r))) with (on_last (txt ",") (pretty x) ++ commas (map pretty (y :: r))).
    unfold shift. rewrite map_app. apply Forall2_app; [|done].
    specialize (Hx (S d) None (txt ",") ltac:(by apply txt_plain)). by rewrite on_first_nil in Hx.
Qed.
Definition entry (kx : str * json) : list (nat * str) := on_first (quoted kx.1 ++ txt ": ") (pretty kx.2).
Lemma obj_ok d l : Forall (fun kx => lines_ok kx.2) l -> Forall2 line_ok (obj_lines d l) (shift (S d) (commas (map entry l))).
Proof.
  induction 1 as [|[k x] r Hx _ IH]; [constructor|]. simpl in Hx. destruct r as [|y r].
  - simpl. rewrite app_nil_r. specialize (Hx (S d) (Some k) [] ltac:(constructor)). by rewrite on_last_nil in Hx.
  - change (obj_lines d ((k, x) :: y :: r)) with (json_lines x (S d) (Some k) (txt ",") ++ obj_lines d (y :: r)).
    change (commas (map entry ((k, x) :: y :: r))) with (on_last (txt ",") (entry (k, x)) ++ commas (map entry (y :: r))).
    unfold shift. rewrite map_app. apply Forall2_app; [|done].
    specialize (Hx (S d) (Some k) (txt ",") ltac:(by apply txt_plain)). unfold entry. cbn [fst snd]. by rewrite <-first_last.
Qed.

Lemma plain_arr l : plain_numbers (JArr l) -> Forall plain_numbers l.
Proof. induction l as [|x l IH]; [constructor|]. intros [H1 H2]. constructor; [done|by apply IH]. Qed.
Lemma plain_obj l : plain_numbers (JObj l) -> Forall (fun kx => plain_numbers kx.2) l.
Proof. induction l as [|[k x] l IH]; [constructor|]. intros [H1 H2]. constructor; [done|by apply IH]. Qed.

(** One-line values *)
Lemma single_ok d key trail h t : plain trail -> renders h t ->
  Forall2 line_ok [(d, (match key with Some k => span key_color (quote ++ html_escape k ++ quote) ++ txt ": " | None => [] end) ++ h ++ trail)]
    (shift d (on_first (label key) (on_last trail [(0, t)]))).
Proof.
  intros Ht Hh. constructor; [|constructor]. split; simpl; [lia|]. apply renders_app; [apply renders_label|].
  apply renders_app; [done|by apply renders_plain].
Qed.
Lemma block_ok d key trail o c l1 l2 : plain trail -> renders o o -> renders c c -> Forall2 line_ok l1 (shift (S d) l2) ->
  Forall2 line_ok ([(d, (match key with Some k => span key_color (quote ++ html_escape k ++ quote) ++ txt ": " | None => [] end) ++ o)] ++ l1 ++ [(d, c ++ trail)])
    (shift d (on_first (label key) (on_last trail ((0, o) :: indent l2 ++ [(0, c)])))).
Proof.
  intros Ht Ho Hc H. rewrite app_comm_cons, on_last_snoc. cbn [app on_first]. unfold shift. cbn [map].
  constructor; [split; simpl; [lia|apply renders_app; [apply renders_label|done]]|].
  rewrite map_app. fold (shift d (indent l2)). rewrite shift_indent. apply Forall2_app; [done|].
  constructor; [|constructor]. split; simpl; [lia|]. apply renders_app; [done|by apply renders_plain].
Qed.

Lemma json_ok v : plain_numbers v -> lines_ok v.
Proof.
  induction v as [|b|n|s|l IH|l IH] using json_all; intros Hp d key trail Ht.
  - apply (single_ok d key trail (span lit_color (txt "null")) (txt "null") Ht).
    apply renders_span; [by do 3 right; left|by apply renders_plain, txt_plain].
  - apply (single_ok d key trail (span lit_color (if b then txt "true" else txt "false")) (if b then txt "true" else txt "false") Ht).
    apply renders_span; [by do 3 right; left|apply renders_plain, txt_plain; by destruct b].
  - apply (single_ok d key trail (span num_color n) n Ht). apply renders_span; [by do 2 right; left|by apply renders_plain].
  - apply (single_ok d key trail (span str_color (quote ++ html_escape s ++ quote)) (quoted s) Ht).
    apply renders_span; [by right; left|]. apply renders_quoted.
  - destruct l as [|x l].
    + apply (single_ok d key trail (txt "[]") (txt "[]") Ht). by apply renders_plain, txt_plain.
    + apply (block_ok d key trail (txt "[") (txt "]") (arr_lines d (x :: l)) (commas (map pretty (x :: l))) Ht);
        [by apply renders_plain, txt_plain..|]. apply arr_ok.
      apply plain_arr in Hp. revert IH Hp. rewrite !Forall_forall. intros IH Hp y Hy. by apply IH, Hp.
  - destruct l as [|[k x] l].
    + apply (single_ok d key trail (txt "{}") (txt "{}") Ht). by apply renders_plain, txt_plain.
    + apply (block_ok d key trail (txt "{") (txt "}") (obj_lines d ((k, x) :: l)) (commas (map entry ((k, x) :: l))) Ht);
        [by apply renders_plain, txt_plain..|]. apply obj_ok.
      apply plain_obj in Hp. revert IH Hp. rewrite !Forall_forall. intros IH Hp y Hy. by apply IH, Hp.
Qed.

Definition json_head : list str :=
  [txt "!DOCTYPE html"; txt "html"; txt "head"; txt "meta charset=" ++ quoted (txt "utf-8"); txt "/head";
   txt "body style=" ++ quoted (txt "font-family:monospace;font-size:13px;color:#24292e;background:#ffffff")].
Definition json_tail : list str := [txt "/body"; txt "/html"].

Lemma digits_no_gt n : forallb (fun c => negb (N.eqb c 62)) (show_N n) = true.
Proof.
  pose proof (show_N_digits n) as H. rewrite Forall_forall in H. apply forallb_forall. intros c Hc.
  apply elem_of_list_In, H in Hc. unfold is_digit in Hc. apply negb_true_iff, N.eqb_neq. lia.
Qed.
Lemma div_tag_no_gt d : forallb (fun c => negb (N.eqb c 62)) (div_tag d) = true.
Proof.
  destruct d as [|d]; [done|]. unfold div_tag, quoted. rewrite !forallb_app, digits_no_gt. done.
Qed.
Lemma line_html_eq d h : line_html (d, h) = tag (div_tag d) ++ h ++ tag (txt "/div").
Proof.
  unfold line_html. cbn [fst snd]. destruct d as [|d]; [done|]. rewrite bool_decide_eq_true_2 by lia.
  unfold tag, attr, quoted, div_tag, quoted. replace (S d * 2) with (2 * S d) by lia.
  change (txt "<div ") with (60%N :: txt "div "). change (txt "</div>") with (60%N :: (txt "/div" ++ [62%N])).
  cbn [app]. f_equal. rewrite <-!app_assoc. reflexivity.
Qed.

Lemma json_html_eq v : json_document_html v =
  concat (map tag json_head) ++ concat (map line_html (json_lines v 0 None [])) ++ concat (map tag json_tail) ++ [].
Proof. unfold json_document_html. rewrite app_nil_r. unfold head_html, json_body_open. rewrite !app_assoc. by repeat f_equal. Qed.

(** The pieces of the lines *)
Lemma lines_inline cur d s P r : Forall inline P -> cur = Some (d, s) ->
  lines_of cur (P ++ r) = lines_of (Some (d, s ++ chars_of P)) r.
Proof.
  intros H. revert cur s. induction H as [|p P Hp _ IH]; intros cur s ->; [by rewrite app_nil_r|].
  destruct p as [t|c|t]; [| |done].
  - destruct Hp as (_ & H1 & H2). cbn [app lines_of]. rewrite H1, bool_decide_eq_false_2 by done.
    rewrite (IH _ s) by done. done.
  - cbn [app lines_of]. rewrite (IH _ (s ++ [c])) by done. cbn. by rewrite <-app_assoc.
Qed.
Lemma div_tag_starts d : starts_with (txt "div") (div_tag d) = true.
Proof. by destruct d. Qed.
Lemma body_ok ls es r : Forall2 line_ok ls es ->
  exists P, scan None (concat (map line_html ls) ++ r) = P ++ scan None r /\
    (forall q, lines_of None (P ++ q) = map (fun x => (div_tag x.1, x.2)) es ++ lines_of None q) /\
    (forall t, t ∈ tags P -> t ∈ template \/ exists d, t = div_tag d) /\ closed P.
Proof.
  induction 1 as [|[d h] [d' t] ls es [Hd Hr] _ IH].
  { exists []. split_and!; try done. intros t Ht. by apply elem_of_nil in Ht. intros t Ht. by apply elem_of_nil in Ht. }
  simpl in Hd, Hr. subst d'. destruct IH as (Q & Q1 & Q2 & Q3 & Q4). destruct Hr as (P & P1 & P2 & P3).
  exists (Tag (div_tag d) :: P ++ Tag (txt "/div") :: Q). split_and!.
  - cbn [map concat]. rewrite line_html_eq, <-!app_assoc.
    rewrite scan_tag by (apply forallb_neq, div_tag_no_gt). rewrite P1.
    rewrite scan_tag by (by apply forallb_neq). rewrite Q1. cbn [app]. f_equal. by rewrite <-app_assoc.
  - intros q. cbn [app lines_of]. rewrite div_tag_starts. rewrite <-app_assoc.
    rewrite (lines_inline (Some (div_tag d, [])) (div_tag d) [] P (_ ++ q) P3 eq_refl). cbn [app lines_of].
    change (starts_with (txt "div") (txt "/div")) with false. cbn iota. rewrite bool_decide_eq_true_2 by done.
    cbn [map app fst snd]. f_equal; [|apply Q2]. f_equal. specialize (P2 []). rewrite !app_nil_r in P2. done.
  - intros u. unfold tags. cbn [omap list_omap]. rewrite elem_of_cons. intros [->|Hu]; [right; by exists d|].
    change (u ∈ tags (P ++ Tag (txt "/div") :: Q)) in Hu. rewrite tags_app in Hu. apply elem_of_app in Hu as [Hu|Hu].
    + left. unfold tags in Hu. apply elem_of_list_omap in Hu as (p & Hp & E). rewrite Forall_forall in P3. apply P3 in Hp.
      destruct p; try done. injection E as <-. by destruct Hp.
    + change (tags (Tag (txt "/div") :: Q)) with (txt "/div" :: tags Q) in Hu. apply elem_of_cons in Hu as [->|Hu]; [|by apply Q3].
      left. unfold template. apply elem_of_app. left. do 6 right. left.
  - intros u Hu. apply elem_of_cons in Hu as [Hu|Hu]; [done|]. apply elem_of_app in Hu as [Hu|Hu].
    + rewrite Forall_forall in P3. by apply P3 in Hu.
    + apply elem_of_cons in Hu as [Hu|Hu]; [done|]. by apply (Q4 u).
Qed.

Lemma shift_0 l : shift 0 l = l.
Proof. induction l as [|[d s] l IH]; [done|]. unfold shift in *. cbn. by f_equal. Qed.
Lemma json_document v : plain_numbers v ->
  lines_of None (pieces (json_document_html v)) = map (fun x => (div_tag x.1, x.2)) (pretty v) /\
  (forall t, t ∈ tags (pieces (json_document_html v)) -> t ∈ template \/ exists d, t = div_tag d) /\
  closed (pieces (json_document_html v)).
Proof.
  intros Hv. pose proof (json_ok v Hv 0 None [] ltac:(constructor)) as H. cbn [label] in H.
  rewrite on_last_nil, on_first_nil in H.
  rewrite shift_0 in H.
  destruct (body_ok _ _ (concat (map tag json_tail) ++ []) H) as (P & P1 & P2 & P3 & P4).
  assert (pieces (json_document_html v) = map Tag json_head ++ P ++ map Tag json_tail) as ->.
  { unfold pieces. rewrite json_html_eq, scan_tags by done. f_equal. etransitivity; [exact P1|]. by f_equal. }
  split_and!.
  - transitivity (lines_of None (P ++ map Tag json_tail)); [done|]. rewrite P2. cbn. by rewrite app_nil_r.
  - intros t. rewrite !tags_app, !elem_of_app. intros [Ht|[Ht|Ht]]; [|by apply P3|].
    + left. unfold template. apply elem_of_app. left. revert t Ht. apply Forall_forall. repeat (apply Forall_cons; split); [..|constructor].
      all: try (do 0 right; left); try (do 1 right; left); try (do 2 right; left); try (do 3 right; left); try (do 4 right; left); try (do 5 right; left).
    + left. unfold template. apply elem_of_app. left. revert t Ht. apply Forall_forall. repeat (apply Forall_cons; split); [..|constructor].
      * do 8 right. left.
      * do 9 right. left.
  - intros t. rewrite !elem_of_app. intros [Ht|[Ht|Ht]]; [|by apply (P4 t)|].
    + by apply elem_of_list_fmap in Ht as (x & ? & _).
    + by apply elem_of_list_fmap in Ht as (x & ? & _).
Qed.
