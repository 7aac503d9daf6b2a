(** Written CSS is read back. *)
From Coq Require Import ZifyBool.
From Verif Require Import Base Text CssTokenModel CssTokenSpec CssTokenProofs.
Local Open Scope N_scope.

(** * Beginnings *)
Lemma begins_cons P c r : begins P (c :: r) <-> P c.
Proof. split; [intros (?&?&[= -> ->]&?); done|intros; by exists c, r]. Qed.
Lemma begins_nil P : ~ begins P [].
Proof. intros (?&?&?&?). done. Qed.
Lemma begins2_cons P Q c d r : begins2 P Q (c :: d :: r) <-> P c /\ Q d.
Proof. split; [intros (?&?&?&[= -> -> ->]&?&?); done|intros []; by exists c, d, r]. Qed.
Lemma begins_app P s r : begins (fun _ => True) s -> begins P (s ++ r) <-> begins P s.
Proof. intros (c & s' & -> & _). cbn. by rewrite !begins_cons. Qed.
Lemma not_begins_app P t rest : ~ begins P t -> (t = [] -> ~ begins P rest) -> ~ begins P (t ++ rest).
Proof.
  intros H1 H2. destruct t as [|c t]; [auto|]. cbn. rewrite begins_cons in *. done.
Qed.

(** * Escapes *)
Lemma hex_code_hex h n : hex_code h n -> Forall hex h.
Proof.
  induction 1; [constructor|..]; rewrite Forall_app; (split; [done|]); repeat constructor;
    unfold hex, digit in *; lia.
Qed.
Lemma hex_code_value h n : hex_code h n -> hex_value h = n.
Proof.
  induction 1; [done|..]; unfold hex_value in *; rewrite fold_left_app, IHhex_code; cbn [fold_left];
    unfold hex_digit, digit in *; f_equal; repeat case_match; lia.
Qed.
Lemma take_hex_all n h r : Forall hex h -> (length h <= n)%nat -> (length h = n \/ ~ begins hex r) ->
  take_hex n (h ++ r) = (h, r).
Proof.
  intros Hh. revert n. induction Hh as [|c h Hc Hh IH]; intros n Hl Hr; cbn [app length] in *.
  - destruct n as [|n]; [done|]. destruct r as [|c r]; [done|]. cbn [take_hex].
    destruct (is_hex c) eqn:E; [|done]. apply is_hex_iff in E. destruct Hr as [Hr|Hr]; [done|].
    by rewrite begins_cons in Hr.
  - destruct n as [|n]; [lia|]. cbn [take_hex]. apply is_hex_iff in Hc. rewrite Hc.
    rewrite IH; [done|lia|]. destruct Hr; [left; lia|by right].
Qed.
Lemma code_head h c : code_text h c -> exists d h', h = d :: h' /\ hex d.
Proof.
  intros (n & Hn & Hl & _). apply hex_code_hex in Hn. destruct h as [|d h]; [cbn in Hl; lia|].
  inversion Hn. eauto.
Qed.
Lemma code_char h c : code_text h c -> escaped_char h = c.
Proof.
  intros (n & Hn & Hl & Hne & Hc). unfold escaped_char. destruct h as [|d h]; [cbn in Hl; lia|].
  rewrite (hex_code_value _ _ Hn). unfold scalar in Hc. case_match; lia.
Qed.
Lemma not_hex_closer w r : closer w -> ~ begins hex (w ++ r).
Proof.
  unfold closer. intros [->|[->|[->|[->| ->]]]]; cbn; rewrite begins_cons; unfold hex, digit; lia.
Qed.
Lemma skip_closer w r : closer w -> at_char is_white (w ++ r) = true /\ skip (w ++ r) = r.
Proof. unfold closer. intros [->|[->|[->|[->| ->]]]]; split; done. Qed.
Lemma escaped_code h w c r : code_text h c -> closer w -> consume_escaped (92 :: h ++ w ++ r) = (c, r).
Proof.
  intros Hc Hw. unfold consume_escaped. rewrite skip_plain by done.
  destruct (code_head h c Hc) as (d & h' & -> & _). cbn [app].
  change (d :: h' ++ w ++ r) with ((d :: h') ++ w ++ r).
  pose proof Hc as (n & Hn & Hl & _).
  rewrite (take_hex_all 6 (d :: h') (w ++ r)); [|by eapply hex_code_hex|lia|right; by apply not_hex_closer].
  rewrite (code_char _ _ Hc). destruct (skip_closer w r Hw) as [-> ->]. done.
Qed.
Lemma escaped_open h c r : code_text h c -> ~ begins any_white r -> (length h = 6%nat \/ ~ begins hex r) ->
  consume_escaped (92 :: h ++ r) = (c, r).
Proof.
  intros Hc Hw Hh. unfold consume_escaped. rewrite skip_plain by done.
  destruct (code_head h c Hc) as (d & h' & -> & _). cbn [app].
  change (d :: h' ++ r) with ((d :: h') ++ r).
  pose proof Hc as (n & Hn & Hl & _).
  rewrite (take_hex_all 6 (d :: h') r); [|by eapply hex_code_hex|lia|done].
  rewrite (code_char _ _ Hc).
  rewrite (at_char_false is_white any_white); [done| |done]. intros. by apply is_white_iff.
Qed.
Lemma plain_escape_code h c r : code_text h c ->
  plain_escape (92 :: h ++ r) = false /\ is_start_of_escape (92 :: h ++ r) = true.
Proof.
  intros Hc. destruct (code_head h c Hc) as (d & h' & -> & Hd). cbn [app].
  split; [cbn; apply is_hex_iff in Hd; by rewrite Hd|].
  unfold is_start_of_escape, is_char. cbn [at_char drop]. unfold hex, digit in Hd. lia.
Qed.
Lemma plain_escape_simple c r : ~ hex c -> plain_escape (92 :: c :: r) = true.
Proof. intros Hc. cbn. destruct (is_hex c) eqn:E; [|done]. by apply is_hex_iff in E. Qed.
Lemma plain_escape_not c r : c <> 92 -> plain_escape (c :: r) = false /\ is_start_of_escape (c :: r) = false.
Proof.
  intros Hc. split.
  - cbn. destruct c as [|p]; [done|]. repeat (destruct p as [p|p|]; try done).
  - unfold is_start_of_escape, is_char. cbn [at_char drop]. lia.
Qed.

Lemma escape_no_line s : is_start_of_escape s = true -> is_char 92 s && is_char 10 (drop 1 s) = false.
Proof. unfold is_start_of_escape. lia. Qed.

(** * White space and comments *)
Lemma css_white_white c : css_white c -> is_white c = true.
Proof. unfold css_white, newline. intros. apply is_white_iff. unfold any_white. lia. Qed.
Lemma whitespace_stop rest : ~ begins any_white rest -> consume_whitespace rest = rest.
Proof.
  intros H. destruct rest as [|c r]; [done|]. cbn [consume_whitespace].
  destruct (is_white c) eqn:E; [|done]. apply is_white_iff in E. by rewrite begins_cons in H.
Qed.
Lemma whitespace_all w rest : Forall css_white w -> ~ begins any_white rest ->
  consume_whitespace (w ++ rest) = rest.
Proof.
  intros Hw Hr. apply whitespace_stop in Hr. induction w as [w IH] using (induction_ltof1 _ (@length N)).
  unfold ltof in IH. destruct w as [|c w]; [done|].
  inversion Hw as [|? ? Hc Hw' Heq]; subst. cbn [app consume_whitespace].
  rewrite (css_white_white c Hc).
  assert (H : consume_whitespace (w ++ rest) = rest) by (apply IH; [cbn; lia|done]).
  clear Hc. destruct c as [|p]; [exact H|]. repeat (destruct p as [p|p|]; try exact H).
  destruct w as [|d w]; cbn [app] in *.
  - destruct rest as [|d rest]; [done|]. cbn [app].
    destruct (decide (d = 10)) as [->|Hd].
    + cbn [consume_whitespace] in Hr. change (is_white 10) with true in Hr. cbn iota in Hr.
      exfalso. pose proof (whitespace_len rest) as HH. rewrite Hr in HH. cbn in HH. lia.
    + destruct d as [|p]; [exact H|]. repeat (destruct p as [p|p|]; try exact H).
  - destruct d as [|p]; [exact H|]. repeat (destruct p as [p|p|]; try exact H).
Qed.

Lemma comment_rest_step c s :
  comment_rest (c :: s) = (if looking_at [42; 47] (c :: s) then drop 1 s else comment_rest s).
Proof.
  unfold looking_at. cbn [length take]. destruct s as [|d s].
  - rewrite bool_decide_eq_false_2 by done. destruct c as [|p]; [done|]. repeat (destruct p as [p|p|]; try done).
  - cbn [take]. rewrite take_0. destruct (decide (c = 42)) as [->|Hc].
    + destruct (decide (d = 47)) as [->|Hd]; [by rewrite bool_decide_eq_true_2|].
      rewrite bool_decide_eq_false_2 by congruence.
      destruct d as [|p]; [done|]. repeat (destruct p as [p|p|]; try done).
    + rewrite bool_decide_eq_false_2 by congruence.
      destruct c as [|p]; [done|]. repeat (destruct p as [p|p|]; try done).
Qed.
Lemma comment_rest_body b rest : (forall x y, b ++ [42] <> x ++ [42; 47] ++ y) ->
  comment_rest (b ++ [42; 47] ++ rest) = rest.
Proof.
  induction b as [|c b IH]; intros Hb; [done|]. cbn [app]. rewrite comment_rest_step.
  assert (E : looking_at [42; 47] (c :: b ++ 42 :: 47 :: rest) = false).
  { unfold looking_at. apply bool_decide_eq_false_2. intros E.
    destruct b as [|d b]; cbn in E; injection E; intros; subst; [done|].
    by apply (Hb [] (b ++ [42])). }
  rewrite E. apply IH. intros x y Hxy. apply (Hb (c :: x) y). cbn. by rewrite Hxy.
Qed.

Section read.
Context (beyond : N -> bool).
Local Notation name_char := (name_char beyond).
Local Notation name_start := (name_start beyond).
Local Notation numeral := (numeral beyond).

Lemma name_char_ok c : name_char c -> is_ident_char beyond c = true /\ c <> 92 /\ c <> 13.
Proof.
  unfold CssTokenSpec.name_char, CssTokenSpec.name_start, foreign, letter, digit.
  intros H. rewrite is_ident_char_iff. unfold css_name, css_start, letter, digit. lia.
Qed.

(** * Names *)
Lemma ident_read fuel t v rest : body_text name_char False True [] t v -> name_ends rest ->
  (length t < fuel)%nat -> consume_ident beyond fuel (t ++ rest) = Ok (v, rest).
Proof.
  intros H Hr. revert fuel.
  induction H as [|c t v Hc H IH|c t v _ Hh Hn H IH|t v []|h w c t v Hc Hw H IH|h c t v Hc Ho Hw Hh H IH];
    intros fuel Hf; (destruct fuel as [|fuel]; [lia|]); cbn [app length consume_ident] in *.
  - destruct rest as [|c rest]; [done|]. unfold name_ends in Hr. rewrite begins_cons in Hr.
    destruct (plain_escape_not c rest) as [-> ->]; [tauto|].
    destruct (is_ident_char beyond c) eqn:E; [|done]. apply is_ident_char_iff in E. tauto.
  - destruct (name_char_ok c Hc) as (E & Hc1 & Hc2).
    destruct (plain_escape_not c (t ++ rest) Hc1) as [-> ->]. rewrite E, skip_plain by done.
    rewrite IH by lia. done.
  - rewrite plain_escape_simple by done. rewrite skip_plain by done.
    rewrite next_plain by (unfold newline in Hn; lia). rewrite IH by lia. done.
  - rewrite <- !app_assoc. destruct (plain_escape_code h c (w ++ t ++ rest) Hc) as [-> ->].
    rewrite (escaped_code h w c _ Hc Hw). rewrite IH; [done|]. rewrite !app_length in Hf. lia.
  - rewrite app_nil_r in *. rewrite <- !app_assoc. destruct (plain_escape_code h c (t ++ rest) Hc) as [-> ->].
    rewrite (escaped_open h c (t ++ rest) Hc); [|by rewrite begins_app|].
    + rewrite IH; [done|]. rewrite !app_length in Hf. lia.
    + destruct Hh; [by left|right; by rewrite begins_app].
Qed.

(** * Strings *)
Lemma string_read fuel q t v stop rest : q <> 92 -> q <> 13 ->
  body_text (string_char q) True True [stop] t v -> (stop = q \/ stop = 10) ->
  (length t < fuel)%nat -> q <> 10 ->
  string_body fuel q (t ++ stop :: rest) = Ok (negb (stop =? q), v, if stop =? q then rest else stop :: rest).
Proof.
  intros Hq Hq' H Hs Hf Hq10. revert fuel Hf.
  induction H as [|c t v Hc H IH|c t v _ Hh Hn H IH|t v _ H IH|h w c t v Hc Hw H IH|h c t v Hc Ho Hw Hh H IH];
    intros fuel Hf; (destruct fuel as [|fuel]; [lia|]); cbn [app length string_body] in *.
  - unfold is_char at 1. cbn [at_char]. rewrite orb_false_r. destruct Hs as [->| ->].
    + rewrite N.eqb_refl. cbn [negb]. by rewrite skip_plain.
    + replace (q =? 10) with false by lia. replace (10 =? q) with false by lia. done.
  - destruct Hc as (Hc1 & Hc2 & Hc3). unfold newline in Hc3. unfold is_char. cbn [at_char drop].
    replace (q =? c) with false by lia. replace (10 =? c) with false by lia. replace (92 =? c) with false by lia.
    cbn [orb andb]. destruct (plain_escape_not c (t ++ stop :: rest) Hc2) as [-> ->].
    rewrite next_plain by lia. rewrite IH by lia. done.
  - unfold newline in Hn. unfold is_char. cbn [at_char drop].
    replace (q =? 92) with false by lia. replace (10 =? c) with false by lia. cbn [orb andb].
    change (10 =? 92) with false. cbn iota. rewrite andb_false_r.
    rewrite plain_escape_simple by done. rewrite skip_plain by done.
    rewrite next_plain by lia. rewrite IH by lia. done.
  - unfold is_char. cbn [at_char drop]. replace (q =? 92) with false by lia. cbn [orb andb].
    change (10 =? 92) with false. change (10 =? 10) with true. change (92 =? 92) with true. cbn [andb].
    rewrite !skip_plain by done. apply IH. lia.
  - rewrite <- !app_assoc. unfold is_char at 1 2. cbn [at_char]. replace (q =? 92) with false by lia.
    change (10 =? 92) with false. cbn [orb].
    destruct (plain_escape_code h c (w ++ t ++ stop :: rest) Hc) as [E1 E2].
    rewrite (escape_no_line _ E2), E1, E2. rewrite (escaped_code h w c _ Hc Hw). rewrite IH; [done|]. rewrite !app_length in Hf. lia.
  - rewrite <- !app_assoc. unfold is_char at 1 2. cbn [at_char]. replace (q =? 92) with false by lia.
    change (10 =? 92) with false. cbn [orb].
    destruct (plain_escape_code h c (t ++ stop :: rest) Hc) as [E1 E2].
    rewrite (escape_no_line _ E2), E1, E2.
    assert (Hb : forall P, begins P (t ++ stop :: rest) <-> begins P (t ++ [stop])).
    { intros P. change (stop :: rest) with ([stop] ++ rest). rewrite app_assoc. by apply begins_app. }
    rewrite (escaped_open h c (t ++ stop :: rest) Hc); [|by rewrite Hb|].
    + rewrite IH; [done|]. rewrite !app_length in Hf. lia.
    + destruct Hh; [by left|right; by rewrite Hb].
Qed.

(** * Urls *)
Lemma url_tail fuel w rest : Forall css_white w -> (length w < fuel)%nat ->
  url_body fuel (w ++ 41 :: rest) = Ok (false, [], rest).
Proof.
  intros Hw Hf. destruct fuel as [|fuel]; [lia|]. destruct w as [|c w]; [done|].
  inversion Hw as [|? ? Hc Hw' Heq]; subst. cbn [app url_body]. unfold is_char at 1. cbn [at_char].
  rewrite (css_white_white c Hc). assert (H41 : 41 =? c = false) by (unfold css_white, newline in Hc; lia).
  rewrite H41. change (c :: w ++ 41 :: rest) with ((c :: w) ++ 41 :: rest).
  rewrite (whitespace_all (c :: w)); [|done|rewrite begins_cons; unfold any_white; lia].
  destruct fuel; [cbn in Hf; lia|]. done.
Qed.
Lemma url_read fuel u v w rest : Forall css_white w -> body_text url_char False False (w ++ [41]) u v ->
  (length u + length w < fuel)%nat -> url_body fuel (u ++ w ++ 41 :: rest) = Ok (false, v, rest).
Proof.
  intros Hws H. revert fuel.
  induction H as [|c t v Hc H IH|c t v []|t v []|h w' c t v Hc Hw H IH|h c t v Hc Ho Hw Hh H IH];
    intros fuel Hf; [cbn [app]; by apply url_tail|..]; (destruct fuel as [|fuel]; [lia|]);
    cbn [app length url_body] in *.
  - unfold url_char in Hc. unfold is_char at 1. unfold at_char at 1 2 3 4. cbv beta iota.
    assert (E1 : is_white c = false).
    { destruct (is_white c) eqn:E; [|done]. apply is_white_iff in E. tauto. }
    rewrite E1. replace (41 =? c) with false by lia.
    replace ((c =? 34) || (c =? 39) || (c =? 40) || is_non_printable c) with false
      by (unfold is_non_printable; lia).
    destruct (plain_escape_not c (t ++ w ++ 41 :: rest)) as [_ ->]; [tauto|].
    rewrite next_plain by lia. rewrite IH by lia. done.
  - rewrite <- !app_assoc. unfold is_char at 1. unfold at_char at 1 2 3 4. cbv beta iota.
    change (is_white 92) with false. change (is_non_printable 92) with false. cbn [N.eqb orb Pos.eqb].
    destruct (plain_escape_code h c (w' ++ t ++ w ++ 41 :: rest) Hc) as [_ ->].
    rewrite (escaped_code h w' c _ Hc Hw). rewrite IH; [done|]. rewrite !app_length in Hf. lia.
  - rewrite <- !app_assoc. unfold is_char at 1. unfold at_char at 1 2 3 4. cbv beta iota.
    change (is_white 92) with false. change (is_non_printable 92) with false. cbn [N.eqb orb Pos.eqb].
    destruct (plain_escape_code h c (t ++ w ++ 41 :: rest) Hc) as [_ ->].
    assert (Hb : forall P, begins P (t ++ w ++ 41 :: rest) <-> begins P (t ++ w ++ [41])).
    { intros P. replace (t ++ w ++ 41 :: rest) with ((t ++ w ++ [41]) ++ rest) by (by rewrite <- !app_assoc).
      by apply begins_app. }
    rewrite (escaped_open h c (t ++ w ++ 41 :: rest) Hc); [|by rewrite Hb|].
    + rewrite IH; [done|]. rewrite !app_length in Hf. lia.
    + destruct Hh; [by left|right; by rewrite Hb].
Qed.

(** * Numbers *)
Lemma digit_numeral c : digit c -> is_numeric beyond c = true.
Proof. intros H. apply is_numeric_iff. by left. Qed.
Lemma digits_read d rest : Forall digit d -> ~ begins numeral rest ->
  consume_digits beyond (d ++ rest) = (d, rest).
Proof.
  intros Hd Hr. induction Hd as [|c d Hc Hd IH]; cbn [app consume_digits].
  - destruct rest as [|c rest]; [done|]. cbn [consume_digits].
    destruct (is_numeric beyond c) eqn:E; [|done]. apply is_numeric_iff in E. by rewrite begins_cons in Hr.
  - rewrite (digit_numeral c Hc), IH. done.
Qed.

Lemma number_read n rest : number_text n -> number_ends beyond rest ->
  consume_number beyond (n ++ rest) = (n, rest).
Proof.
  intros (sg & a & f & e & -> & Hsg & Ha & Hf & Haf & He) (Hr1 & Hr2 & Hr3).
  unfold consume_number.
  set (s1 := a ++ f ++ e ++ rest). set (s2 := f ++ e ++ rest). set (s3 := e ++ rest).
  assert (Hsplit : take_sign ((sg ++ a ++ f ++ e) ++ rest) = (sg, s1)).
  { assert (Hs1 : (sg ++ a ++ f ++ e) ++ rest = sg ++ s1) by (unfold s1; by rewrite <- !app_assoc).
    rewrite Hs1. unfold take_sign. destruct Hsg as [->|[->| ->]]; cbn [app]; [|done..].
    rewrite (at_char_false _ (fun c => c = 43 \/ c = 45)); [done|intros c; lia|].
    unfold s1. destruct a as [|c a].
    - destruct Hf as [->|(d & -> & _)]; [by destruct Haf|]. cbn. rewrite begins_cons. lia.
    - inversion Ha as [|? ? Hc _]; subst. cbn. rewrite begins_cons. unfold digit in Hc. lia. }
  rewrite Hsplit. clear Hsplit.
  assert (H3 : ~ begins numeral s3).
  { unfold s3. destruct He as [->|(x & sg' & d & -> & Hx & _)]; [done|]. cbn. rewrite begins_cons.
    unfold CssTokenSpec.numeral, digit. lia. }
  assert (H2 : ~ begins numeral s2).
  { unfold s2. destruct Hf as [->|(d & -> & _)]; [done|]. cbn. rewrite begins_cons.
    unfold CssTokenSpec.numeral, digit. lia. }
  change s1 with (a ++ s2). rewrite (digits_read a s2 Ha H2).
  assert (Hfrac : take_fraction beyond s2 = (f, s3)).
  { unfold take_fraction, take_two_digits, s2. destruct Hf as [->|(d & -> & Hd1 & Hd)].
    - cbn [app]. assert (E : is_char 46 (e ++ rest) && at_char (is_numeric beyond) (drop 1 (e ++ rest)) = false).
      { destruct He as [->|(x & sg' & d & -> & Hx & _)].
        - cbn [app]. destruct (is_char 46 rest) eqn:E; [|done]. apply at_char_iff in E as (c & r & -> & E).
          cbn [andb drop]. rewrite drop_0. destruct r as [|c' r]; [done|]. cbn [at_char].
          rewrite begins2_cons in Hr2. destruct (is_numeric beyond c') eqn:E'; [|done].
          apply is_numeric_iff in E'. exfalso. apply Hr2. split; [lia|done].
        - cbn [app]. unfold is_char. cbn [at_char]. replace (46 =? x) with false by lia. done. }
      rewrite E. done.
    - destruct d as [|d0 d]; [done|]. inversion Hd as [|? ? Hd0 Hd']; subst. cbn [app].
      unfold is_char. cbn [at_char drop]. rewrite (digit_numeral d0 Hd0). cbn [N.eqb Pos.eqb andb].
      rewrite next_plain by done. rewrite next_plain by (unfold digit in Hd0; lia).
      fold s3. rewrite (digits_read d s3 Hd' H3). done. }
  rewrite Hfrac.
  assert (Hexp : take_exponent beyond s3 = (e, rest)).
  { unfold take_exponent, take_two_digits, s3. destruct He as [->|(x & sg' & d & -> & Hx & Hsg' & Hd1 & Hd)].
    - cbn [app]. match goal with |- (if ?b then _ else _) = _ => assert (E : b = false) end; [|by rewrite E].
      destruct rest as [|x rest]; [done|]. cbn [at_char drop].
      destruct ((x =? 69) || (x =? 101)) eqn:Ex; [|done]. cbn [andb].
      apply orb_false_iff. split.
      + destruct rest as [|s [|d r]]; [done|by rewrite andb_false_r|]. cbn [drop at_char].
        destruct ((s =? 45) || (s =? 43)) eqn:Es; [|done].
        destruct (is_numeric beyond d) eqn:E; [|done]. exfalso. apply Hr3.
        exists x, [s], d, r. split; [done|]. split; [lia|]. split; [|by apply is_numeric_iff].
        unfold sign. destruct (decide (s = 43)) as [->|]; [by right; left|]. right; right. f_equal. lia.
      + rewrite drop_0. destruct rest as [|d r]; [done|]. cbn [at_char].
        destruct (is_numeric beyond d) eqn:E; [|done]. exfalso. apply Hr3.
        exists x, [], d, r. split; [done|]. split; [lia|]. split; [by left|by apply is_numeric_iff].
    - assert (Ex : (x =? 69) || (x =? 101) = true) by lia.
      destruct d as [|d0 d]; [done|]. inversion Hd as [|? ? Hd0 Hd']; subst.
      destruct Hsg' as [->|[->| ->]]; cbn [app at_char drop]; rewrite Ex, (digit_numeral d0 Hd0), ?orb_true_r;
        cbn [andb orb N.eqb Pos.eqb].
      + rewrite next_plain by lia. rewrite next_plain by (unfold digit in Hd0; lia).
        by rewrite (digits_read d rest Hd' Hr1).
      + rewrite next_plain by lia. rewrite next_plain by done.
        change (d0 :: d ++ rest) with ((d0 :: d) ++ rest). by rewrite (digits_read (d0 :: d) rest Hd Hr1).
      + rewrite next_plain by lia. rewrite next_plain by done.
        change (d0 :: d ++ rest) with ((d0 :: d) ++ rest). by rewrite (digits_read (d0 :: d) rest Hd Hr1). }
  rewrite Hexp. done.
Qed.

(** How a number begins. *)
Lemma number_head n : number_text n ->
  (begins digit n)
  \/ (begins2 (fun c => c = 46) digit n)
  \/ (exists c m, n = c :: m /\ (c = 43 \/ c = 45) /\ (begins digit m \/ begins2 (fun c => c = 46) digit m)).
Proof.
  intros (sg & a & f & e & -> & Hsg & Ha & Hf & Haf & He).
  assert (H : begins digit (a ++ f ++ e) \/ begins2 (fun c => c = 46) digit (a ++ f ++ e)).
  { destruct a as [|c a].
    - destruct Hf as [->|(d & -> & Hd1 & Hd)]; [by destruct Haf|]. right.
      destruct d as [|d0 d]; [done|]. inversion Hd; subst. cbn. by rewrite begins2_cons.
    - left. inversion Ha; subst. cbn. by rewrite begins_cons. }
  destruct Hsg as [->|[->| ->]]; cbn [app]; [tauto|right; right..].
  - exists 43, (a ++ f ++ e). auto.
  - exists 45, (a ++ f ++ e). auto.
Qed.

(** * Beginnings of names *)
Lemma name_head t v : name_text beyond t v ->
  (t = [] /\ v = []) \/ (exists c r, t = c :: r /\ name_char c) \/ (exists d r, t = 92 :: d :: r /\ d <> 10).
Proof.
  intros H. inversion H as [|c t' v' Hc H'|c t' v' _ Hh Hn H'|t' v' []|h w c t' v' Hc Hw H'|h c t' v' Hc Ho Hw Hh H']; subst.
  - by left.
  - right. left. eauto.
  - right. right. exists c, t'. split; [done|]. unfold newline in Hn. lia.
  - right. right. destruct (code_head h c Hc) as (d & h' & -> & Hd). exists d, (h' ++ w ++ t').
    split; [done|]. unfold hex, digit in Hd. lia.
  - right. right. destruct (code_head h c Hc) as (d & h' & -> & Hd). exists d, (h' ++ t').
    split; [done|]. unfold hex, digit in Hd. lia.
Qed.
Lemma name_tail c t v : name_text beyond (c :: t) v -> c <> 92 -> exists v', v = c :: v' /\ name_text beyond t v'.
Proof. intros H Hc. inversion H; subst; try done. eauto. Qed.
Lemma name_nil t : name_text beyond t [] -> t = [].
Proof. intros H. by inversion H. Qed.

Lemma starts_escape d r : d <> 10 -> is_start_of_escape (92 :: d :: r) = true.
Proof. intros H. unfold is_start_of_escape, is_char. cbn [at_char drop]. lia. Qed.

Lemma name_start_ok c : name_start c -> is_ident_start c = true /\ is_numeric beyond c = false /\ is_white c = false
  /\ c <> 92 /\ c <> 45 /\ c <> 46 /\ c <> 43 /\ (65 <= c).
Proof.
  unfold CssTokenSpec.name_start, foreign. intros H.
  assert (Hw : is_white c = false).
  { destruct (is_white c) eqn:E; [|done]. apply is_white_iff in E. unfold letter in H.
    unfold any_white in *. lia. }
  assert (Hn : is_numeric beyond c = false).
  { unfold is_numeric, letter in *. destruct (N.ltb_spec c 128); [lia|]. destruct H as [H|[H|H]]; [lia|lia|tauto]. }
  rewrite Hw, Hn. unfold is_ident_start, letter in *. intuition lia.
Qed.

Lemma ident_starts_ok t v rest : ident_text beyond t v -> starts_ident (t ++ rest) = true.
Proof.
  intros [Hn Hs]. unfold starts_ident. destruct Hs as [(c & r & -> & [Hc| ->])|(c & d & r & -> & -> & Hd)].
  - apply name_start_ok in Hc as (H1 & _ & _ & H2 & H3 & _). cbn [app]. unfold is_char. cbn [at_char].
    replace (45 =? c) with false by lia. by replace (92 =? c) with false by lia.
  - destruct (name_head _ _ Hn) as [[? _]|[(c & r' & [= <- <-] & Hc)|(d & r' & [= ->] & Hd)]]; [done| |].
    + by apply name_char_ok in Hc as (_ & ? & _).
    + by apply starts_escape.
  - apply name_tail in Hn as (v' & _ & Hn); [|done]. change (is_char 45 ((45 :: d :: r) ++ rest)) with true.
    cbn [app drop at_char]. destruct Hd as [Hd|[->| ->]]; [| |].
    + apply name_start_ok in Hd as (-> & _). done.
    + done.
    + destruct (name_head _ _ Hn) as [[? _]|[(c & r' & [= <- <-] & Hc)|(d & r' & [= ->] & Hd)]]; [done| |].
      * by apply name_char_ok in Hc as (_ & ? & _).
      * cbn [app]. rewrite (starts_escape d (r' ++ rest) Hd). by rewrite !orb_true_r.
Qed.

(** * Tokens *)
Ltac no_test := lazymatch goal with |- (if ?b then _ else _) = _ => replace b with false by lia end.

Lemma dispatch_ident fuel t v r : ident_text beyond t v ->
  ~ (t = [45; 45] /\ begins (fun c => c = 62) r) ->
  ~ ((t = [117] \/ t = [85]) /\ begins2 (fun c => c = 43) (fun c => hex c \/ c = 63) r) ->
  token_here beyond fuel (t ++ r) = consume_ident_like beyond fuel (t ++ r).
Proof.
  intros Ht Hm Hu. pose proof (ident_starts_ok t v r Ht) as Hst.
  destruct Ht as [Hn [(c & t' & -> & [Hc| ->])|(c & d & t' & -> & -> & Hd)]]; cbn [app] in *.
  - pose proof (name_start_ok c Hc) as (H1 & H2 & H3 & _).
    unfold CssTokenSpec.name_start, letter, foreign in Hc. cbn [token_here]. rewrite H3.
    do 17 no_test. rewrite H2, H1.
    assert (E : ((c =? 117) || (c =? 85)) && starts_range (c :: t' ++ r) = false).
    { destruct ((c =? 117) || (c =? 85)) eqn:Ec; [|done]. cbn [andb].
      destruct (starts_range (c :: t' ++ r)) eqn:E; [|done]. exfalso.
      unfold starts_range in E. cbn [drop] in E. rewrite drop_0 in E.
      apply andb_true_iff in E as [E1 E2]. destruct t' as [|d t'].
      - cbn [app] in *. apply Hu. split; [destruct (decide (c = 117)) as [->|]; [by left|right; f_equal; lia]|].
        apply at_char_iff in E1 as (p & r' & -> & E1). cbn [drop] in E2. rewrite drop_0 in E2.
        apply at_char_iff in E2 as (q & r'' & -> & E2). rewrite begins2_cons. split; [lia|].
        rewrite orb_true_iff, is_hex_iff in E2. destruct E2; [by left|right; lia].
      - apply name_tail in Hn as (v' & _ & Hn); [|lia]. cbn [app] in E1. unfold is_char in E1. cbn [at_char] in E1.
        destruct (name_head _ _ Hn) as [[? _]|[(x & y & [= <- <-] & Hx)|(x & y & [= -> ->] & Hx)]]; [done| |lia].
        unfold CssTokenSpec.name_char, CssTokenSpec.name_start, letter, foreign, digit in Hx. lia. }
    by rewrite E.
  - cbn [token_here]. change (is_white 92) with false. cbn [N.eqb Pos.eqb orb].
    unfold starts_ident in Hst. change (is_char 45 (92 :: t' ++ r)) with false in Hst.
    change (is_char 92 (92 :: t' ++ r)) with true in Hst. cbn iota in Hst. by rewrite Hst.
  - cbn [token_here]. change (is_white 45) with false. cbn [N.eqb Pos.eqb orb].
    assert (Es : is_signed_decimal beyond (45 :: d :: t' ++ r) = false).
    { unfold is_signed_decimal, is_char. cbn [at_char drop]. change ((45 =? 43) || (45 =? 45)) with true. cbn [andb].
      destruct Hd as [Hd|[->| ->]]; [|done..].
      pose proof (name_start_ok d Hd) as (_ & -> & _ & _ & _ & H46 & _). replace (46 =? d) with false by lia. done. }
    rewrite Es.
    assert (El : looking_at (txt "-->") (45 :: d :: t' ++ r) = false).
    { unfold looking_at. apply bool_decide_eq_false_2. change (txt "-->") with [45; 45; 62]. cbn [length take].
      intros E. injection E as E1 E2. subst d. apply name_tail in Hn as (v1 & _ & Hn); [|done].
      apply name_tail in Hn as (v2 & _ & Hn); [|done].
      destruct t' as [|x t']; cbn [app] in E2.
      - apply Hm. split; [done|]. destruct r as [|x r]; [done|]. cbn in E2. injection E2 as ->. by rewrite begins_cons.
      - cbn in E2. injection E2 as ->.
        destruct (name_head _ _ Hn) as [[? _]|[(y & z & [= <- <-] & Hx)|(y & z & [=] & Hx)]]; [done|].
        unfold CssTokenSpec.name_char, CssTokenSpec.name_start, letter, foreign, digit in Hx. lia. }
    rewrite El, Hst. done.
Qed.

Lemma dispatch_number fuel n r : number_text n ->
  token_here beyond fuel (n ++ r) = consume_numeric beyond fuel (n ++ r).
Proof.
  intros Hn. destruct (number_head n Hn) as [(c & m & -> & Hc)|[(c & d & m & -> & -> & Hd)|(c & m & -> & Hc & Hm)]];
    cbn [app token_here].
  - assert (Hw : is_white c = false).
    { destruct (is_white c) eqn:E; [|done]. apply is_white_iff in E. unfold any_white, digit in *. lia. }
    rewrite Hw. pose proof (digit_numeral c Hc) as H. unfold digit in Hc. do 17 no_test. by rewrite H.
  - change (is_white 46) with false. cbn [N.eqb Pos.eqb orb drop at_char]. by rewrite (digit_numeral d Hd).
  - assert (Hs : is_signed_decimal beyond (c :: m ++ r) = true).
    { unfold is_signed_decimal, is_char. cbn [at_char drop]. rewrite drop_0.
      replace ((c =? 43) || (c =? 45)) with true by lia. cbn [andb].
      destruct Hm as [(d & m' & -> & Hd)|(x & d & m' & -> & -> & Hd)]; cbn [app at_char drop];
        rewrite (digit_numeral d Hd); [by rewrite orb_true_r|done]. }
    rewrite Hs. destruct Hc as [-> | ->]; done.
Qed.

Lemma ident_like_read fuel t v r : ident_text beyond t v -> name_ends r -> (length t < fuel)%nat ->
  consume_ident_like beyond fuel (t ++ r) =
    if bool_decide (v = txt "url") && is_char 40 r then
      let s := consume_whitespace (skip r) in
      if at_char (fun c => (c =? 34) || (c =? 39)) s then Ok (TFunction v, s) else consume_url fuel s
    else if is_char 40 r then Ok (TFunction v, skip r) else Ok (TIdent v, r).
Proof.
  intros [Ht _] Hr Hf. unfold consume_ident_like. by rewrite (ident_read fuel t v r Ht Hr Hf).
Qed.

Lemma name_ends_paren r : name_ends (40 :: r).
Proof. unfold name_ends. rewrite begins_cons. unfold css_name, css_start, letter, digit. lia. Qed.

Lemma not_ident_starts s : ~ ident_starts s -> starts_ident s = false.
Proof.
  intros H. destruct (starts_ident s) eqn:E; [|done]. exfalso. apply H. unfold starts_ident in E. unfold ident_starts.
  assert (Hesc : forall s, is_start_of_escape s = true -> escape_starts s).
  { intros s' E'. unfold is_start_of_escape in E'. apply andb_true_iff in E' as [E1 E2].
    apply at_char_iff in E1 as (c & r & -> & E1). split; [rewrite begins_cons; lia|].
    destruct r as [|d r]; [intros (?&?&?&[=]&_)|]. rewrite begins2_cons. intros [_ ->]. done. }
  destruct (is_char 45 s) eqn:E1.
  - apply at_char_iff in E1 as (c & r & -> & E1). assert (c = 45) as -> by lia.
    rewrite !orb_true_iff in E. destruct E as [[E|E]|E].
    + right; left. cbn [drop] in E. rewrite drop_0 in E. apply at_char_iff in E as (d & r' & -> & E).
      apply is_ident_start_iff in E. rewrite begins2_cons. auto.
    + right; left. cbn [drop] in E. rewrite drop_0 in E. apply at_char_iff in E as (d & r' & -> & E).
      rewrite begins2_cons. split; [done|]. right. lia.
    + right; right; right. split; [by rewrite begins_cons|]. auto.
  - destruct (is_char 92 s); [auto|]. left. apply at_char_iff in E as (d & r' & -> & E).
    apply is_ident_start_iff in E. by rewrite begins_cons.
Qed.

Lemma not_signed s rest : (s = 43 \/ s = 45) -> ~ begins numeral rest -> ~ begins2 (fun c => c = 46) numeral rest ->
  is_signed_decimal beyond (s :: rest) = false.
Proof.
  intros Hs H1 H2. unfold is_signed_decimal. cbn [drop]. rewrite drop_0.
  destruct rest as [|c [|d r]]; cbn [drop at_char]; unfold is_char; cbn [at_char]; rewrite ?andb_false_r; [done|..].
  - rewrite begins_cons in H1. destruct (is_numeric beyond c) eqn:E; [by apply is_numeric_iff in E|].
    by rewrite ?andb_false_r.
  - rewrite begins_cons in H1. rewrite begins2_cons in H2.
    destruct (is_numeric beyond c) eqn:E; [by apply is_numeric_iff in E|]. rewrite orb_false_r.
    destruct (46 =? c) eqn:E'; cbn [andb]; [|by rewrite andb_false_r].
    destruct (is_numeric beyond d) eqn:E2; [|by rewrite andb_false_r]. apply is_numeric_iff in E2. exfalso. apply H2.
    split; [lia|done].
Qed.

Lemma range_read t rest : range_text t -> ~ begins (fun c => hex c \/ c = 63 \/ c = 45) rest ->
  consume_range (t ++ rest) = (TRange t, rest).
Proof.
  intros (u & h & q & e & -> & Hu & Hh & Hq & Hl & He) Hr. unfold consume_range.
  cbn [app]. rewrite <- !app_assoc. rewrite next_plain by lia. rewrite next_plain by done.
  assert (Hm : forall n, (length q <= n)%nat -> (length q = n \/ ~ begins (fun c => c = 63) (e ++ rest)) ->
    take_marks n (q ++ e ++ rest) = (q, e ++ rest)).
  { clear Hl. induction Hq as [|c q -> Hq IH]; intros n Hn Hb; cbn [app length] in *.
    - destruct n as [|n]; [done|]. destruct Hb as [Hb|Hb]; [done|].
      destruct (e ++ rest) as [|c s]; [done|]. rewrite begins_cons in Hb. cbn [take_marks].
      destruct c as [|p]; [done|]. repeat (destruct p as [p|p|]; try done).
    - destruct n as [|n]; [lia|]. cbn [take_marks]. rewrite IH; [done|lia|]. destruct Hb; [left; lia|by right]. }
  assert (Hq' : ~ begins hex (q ++ e ++ rest)).
  { destruct q as [|c q]; cbn [app].
    - destruct He as [->|(d & -> & _)]; cbn [app]; [|rewrite begins_cons; unfold hex, digit; lia].
      intros (c & r & -> & Hc). apply Hr. rewrite begins_cons. by left.
    - inversion Hq; subst. rewrite begins_cons. unfold hex, digit. lia. }
  rewrite (take_hex_all 6 h (q ++ e ++ rest) Hh); [|lia|by right].
  assert (He' : ~ begins (fun c => c = 63) (e ++ rest)).
  { destruct He as [->|(d & -> & _)]; cbn [app]; [|rewrite begins_cons; lia].
    intros (c & r & -> & Hc). apply Hr. rewrite begins_cons. by right; left. }
  rewrite Hm; [|lia|by right].
  destruct He as [->|(d & -> & Hd & Hdl)]; cbn [app].
  - assert (E : is_char 45 rest = false).
    { apply is_char_false. intros (c & r & -> & Hc). apply Hr. rewrite begins_cons. by right; right. }
    rewrite E. cbn [andb]. by rewrite app_nil_r.
  - destruct d as [|d0 d]; [cbn in Hdl; lia|]. inversion Hd as [|? ? Hd0 _]; subst.
    change (is_char 45 (45 :: (d0 :: d) ++ rest)) with true. cbn [drop app at_char andb].
    apply is_hex_iff in Hd0. rewrite Hd0. rewrite next_plain by done.
    change (d0 :: d ++ rest) with ((d0 :: d) ++ rest).
    rewrite (take_hex_all 6 (d0 :: d) rest Hd); [done|lia|]. right.
    intros (c & r & -> & Hc). apply Hr. rewrite begins_cons. by left.
Qed.
Lemma dispatch_range fuel t rest : range_text t -> ~ begins (fun c => hex c \/ c = 63 \/ c = 45) rest ->
  token_here beyond fuel (t ++ rest) = Ok (TRange t, rest).
Proof.
  intros Ht Hr. pose proof (range_read t rest Ht Hr) as H.
  destruct Ht as (u & h & q & e & -> & Hu & Hh & Hq & Hl & He). cbn [app] in *.
  assert (E : starts_range (u :: 43 :: (h ++ q ++ e) ++ rest) = true).
  { unfold starts_range. cbn [drop is_char at_char]. rewrite drop_0. change (is_char 43 (43 :: (h ++ q ++ e) ++ rest)) with true.
    cbn [andb]. destruct h as [|c h].
    - destruct q as [|c q]; [cbn in Hl; lia|]. inversion Hq; subst. done.
    - inversion Hh as [|? ? Hc _]; subst. cbn [app at_char]. apply is_hex_iff in Hc. by rewrite Hc. }
  cbn [token_here]. rewrite H, E. destruct Hu as [-> | ->]; done.
Qed.

(** * Pieces *)
Lemma white_head_not c : css_white c -> c <> 40 /\ c <> 47.
Proof. unfold css_white, newline. lia. Qed.

Lemma string_piece fuel q t v stop rest : (q = 34 \/ q = 39) ->
  body_text (string_char q) True True [stop] t v -> (stop = q \/ stop = 10) -> (length t < fuel)%nat ->
  token_here beyond fuel (q :: t ++ stop :: rest)
  = Ok (if stop =? q then (TString v, rest) else (TBadString v, stop :: rest)).
Proof.
  intros Hq H Hs Hf.
  assert (E : consume_string fuel (q :: t ++ stop :: rest)
    = Ok (if stop =? q then (TString v, rest) else (TBadString v, stop :: rest))).
  { unfold consume_string. rewrite next_plain by lia.
    rewrite (string_read fuel q t v stop rest); [|lia|lia|done|done|done|lia]. cbn [rbind].
    destruct (stop =? q); done. }
  cbn [token_here]. rewrite E. destruct Hq as [-> | ->]; done.
Qed.

Lemma piece_token t tok rest fuel : piece beyond t [tok] rest -> (length (t ++ rest) < fuel)%nat ->
  token_here beyond fuel (t ++ rest) = Ok (tok, rest).
Proof.
  intros Hp Hf. rewrite app_length in Hf.
  inversion Hp as [b r Hb|c w r Hc Hw Hr|t' v r Ht Hr H40 Hm Hu|t' v r Ht Hv|t' w r Ht Hw Hr|t' w u v w' r Ht Hw Hw' Hu
    |t' v r Ht Hr|t' v r Ht Hv Hr|n r Hn Hr Hi H37|n r Hn|n t' v r Hn Ht He Hr|t' r Ht Hr|q t' v r Hq Ht|q t' v r Hq Ht Hr
    |c r Hc|r Hr|r Hr|r Hr|r Hr Hr2|r Hr Hr2 Hi|r Hr|r Hr|r Hr| | | | | | | | | | | ]; subst; cbn [length] in *; try done.
  - (* white space *)
    cbn [app token_here]. rewrite (css_white_white c Hc).
    change (c :: w ++ rest) with ((c :: w) ++ rest). rewrite whitespace_all; [done| |done]. by constructor.
  - (* identifier *)
    rewrite (dispatch_ident fuel t v rest Ht Hm Hu). rewrite (ident_like_read fuel t v rest Ht Hr) by lia.
    rewrite (is_char_false 40 rest H40). by rewrite andb_false_r.
  - (* function *)
    rewrite app_length in Hf. rewrite <- app_assoc. cbn [app].
    rewrite (dispatch_ident fuel t' v (40 :: rest) Ht);
      [|intros [_ H]; by rewrite begins_cons in H|intros [_ (?&?&?&[= <- _]&?&_)]; done].
    rewrite (ident_like_read fuel t' v (40 :: rest) Ht (name_ends_paren rest)) by lia.
    rewrite bool_decide_eq_false_2 by done. done.
  - (* url function *)
    rewrite app_length in Hf. rewrite <- app_assoc. cbn [app].
    rewrite (dispatch_ident fuel t' (txt "url") (40 :: w ++ rest) Ht);
      [|intros [_ H]; by rewrite begins_cons in H|intros [_ (?&?&?&[= <- _]&?&_)]; done].
    rewrite (ident_like_read fuel t' (txt "url") (40 :: w ++ rest) Ht (name_ends_paren _)) by lia.
    rewrite bool_decide_eq_true_2 by done. rewrite skip_plain by done.
    change (is_char 40 (40 :: w ++ rest)) with true. cbn [andb].
    rewrite whitespace_all; [|done|].
    + destruct Hr as (c & r & -> & Hc). cbv zeta. cbn [at_char]. replace ((c =? 34) || (c =? 39)) with true by lia. done.
    + destruct Hr as (c & r & -> & Hc). rewrite begins_cons. unfold any_white. lia.
  - (* url *)
    rewrite !app_length in Hf. rewrite <- !app_assoc. cbn [app].
    set (r0 := w ++ u ++ w' ++ 41 :: rest) in *.
    rewrite (dispatch_ident fuel t' (txt "url") (40 :: r0) Ht);
      [|intros [_ H]; by rewrite begins_cons in H|intros [_ (?&?&?&[= <- _]&?&_)]; done].
    rewrite (ident_like_read fuel t' (txt "url") (40 :: r0) Ht (name_ends_paren _)) by lia.
    rewrite bool_decide_eq_true_2 by done. rewrite skip_plain by done.
    change (is_char 40 (40 :: r0)) with true. cbn [andb]. cbv zeta. unfold r0.
    assert (Hww : exists u' w1, w ++ u ++ w' ++ 41 :: rest = w1 ++ u' ++ 41 :: rest /\ Forall css_white w1
       /\ ~ begins any_white (u' ++ 41 :: rest) /\ ~ begins (fun c => c = 34 \/ c = 39) (u' ++ 41 :: rest)
       /\ url_body fuel (u' ++ 41 :: rest) = Ok (false, v, rest)).
    { destruct u as [|c u].
      - exists [], (w ++ w'). split; [cbn; by rewrite app_assoc|]. split; [by apply Forall_app|].
        cbn [app]. rewrite !begins_cons. split; [unfold any_white; lia|]. split; [lia|].
        inversion Hu; subst; try done. destruct fuel; [lia|]. done.
      - exists ((c :: u) ++ w'), w. split; [by rewrite <- !app_assoc|]. split; [done|].
        rewrite <- app_assoc. rewrite (url_read fuel (c :: u) v w' rest Hw' Hu) by (cbn [length] in *; lia).
        cbn [app]. rewrite !begins_cons.
        assert (Hc : c = 92 \/ url_char c) by (inversion Hu; subst; auto).
        unfold url_char in Hc. split; [|split; [lia|done]]. destruct Hc as [->|Hc]; [unfold any_white; lia|tauto]. }
    destruct Hww as (u' & w1 & -> & Hw1 & Hn1 & Hn2 & Hub).
    rewrite (whitespace_all w1 _ Hw1 Hn1).
    rewrite (at_char_false _ (fun c => c = 34 \/ c = 39)); [|intros c; lia|done].
    unfold consume_url. rewrite (whitespace_stop _ Hn1), Hub. done.
  - (* at-keyword *)
    cbn [app token_here]. change (is_white 64) with false. cbn [N.eqb Pos.eqb orb].
    rewrite skip_plain by done. rewrite (ident_starts_ok t' v rest Ht). destruct Ht as [Ht _].
    rewrite (ident_read fuel t' v rest Ht Hr) by lia. done.
  - (* hash *)
    cbn [app token_here]. change (is_white 35) with false. cbn [N.eqb Pos.eqb orb].
    rewrite skip_plain by done.
    assert (E : at_char (is_ident_char beyond) (t' ++ rest) || is_start_of_escape (t' ++ rest) = true).
    { destruct (name_head _ _ Ht) as [[_ ?]|[(c & r & -> & Hc)|(d & r & -> & Hd)]]; [done| |].
      - cbn [app at_char]. by apply name_char_ok in Hc as [-> _].
      - cbn [app]. rewrite (starts_escape d (r ++ rest) Hd). by rewrite orb_true_r. }
    rewrite E. rewrite (ident_read fuel t' v rest Ht Hr) by lia. done.
  - (* number *)
    rewrite (dispatch_number fuel t rest Hn). unfold consume_numeric. rewrite (number_read t rest Hn Hr).
    rewrite (not_ident_starts rest Hi), (is_char_false 37 rest H37). done.
  - (* percentage *)
    rewrite <- app_assoc. rewrite (dispatch_number fuel n _ Hn). unfold consume_numeric.
    rewrite (number_read n ([37] ++ rest) Hn); [done|]. cbn [app]. unfold number_ends.
    rewrite begins_cons. split; [unfold CssTokenSpec.numeral, digit; lia|].
    split; [intros (?&?&?&[= <- _]&?&_); lia|]. intros (x & sg & d & r & [= <- _] & ? & _). lia.
  - (* dimension *)
    rewrite <- app_assoc. rewrite (dispatch_number fuel n _ Hn). unfold consume_numeric.
    rewrite (number_read n (t' ++ rest) Hn).
    + rewrite (ident_starts_ok t' v rest Ht). destruct Ht as [Ht _]. rewrite app_length in Hf.
      rewrite (ident_read fuel t' v rest Ht Hr) by lia. done.
    + assert (Hh : exists c r, t' = c :: r /\ (name_start c \/ c = 92 \/ c = 45)).
      { destruct Ht as [_ [(c & r & -> & Hc)|(c & d & r & -> & -> & Hd)]]; [exists c, r; tauto|exists 45, (d :: r); auto]. }
      destruct Hh as (c & r & -> & Hc). cbn [app] in *. split; [|split; [|done]].
      * rewrite begins_cons. intros H. apply is_numeric_iff in H. destruct Hc as [Hc|[->| ->]]; [|done..].
        apply name_start_ok in Hc as (_ & Hc & _). congruence.
      * intros (?&?&?&[= <- _]&->&_). destruct Hc as [Hc|[Hc|Hc]]; [|done..].
        by apply name_start_ok in Hc as (_ & _ & _ & _ & _ & ? & _).
  - (* range *)
    by apply dispatch_range.
  - (* string *)
    cbn [app]. rewrite <- app_assoc. cbn [app]. rewrite app_length in Hf.
    rewrite (string_piece fuel q t' v q rest Hq Ht); [by rewrite N.eqb_refl|by left|cbn in Hf; lia].
  - (* bad string *)
    cbn [app]. destruct Hr as (c & r & -> & ->).
    rewrite (string_piece fuel q t' v 10 r Hq Ht); [|by right|lia]. by replace (10 =? q) with false by lia.
  - (* free delimiters *)
    destruct Hc as (Hc1 & Hc2 & Hc3 & Hc4). cbn [app token_here].
    assert (Hw : is_white c = false).
    { destruct (is_white c) eqn:E; [|done]. by apply is_white_iff in E. }
    rewrite Hw. repeat (apply not_elem_of_cons in Hc4 as [? Hc4]).
    unfold css_name, css_start, letter, digit in Hc2.
    assert (Hn : is_numeric beyond c = false) by (unfold is_numeric; destruct (N.ltb_spec c 128); lia).
    assert (Hi : is_ident_start c = false) by (unfold is_ident_start; lia).
    do 17 no_test. repeat no_test. rewrite skip_plain; [done|]. intros ->. done.
  - (* '#' *)
    cbn [app token_here]. change (is_white 35) with false. cbn [N.eqb Pos.eqb orb].
    rewrite skip_plain by done. unfold name_ends in Hr.
    rewrite (at_char_false (is_ident_char beyond) (fun c => css_name c \/ c = 92));
      [|intros c; rewrite is_ident_char_iff; auto|done].
    assert (E : is_start_of_escape rest = false).
    { unfold is_start_of_escape. rewrite (is_char_false 92 rest); [done|].
      intros (c & r & -> & ->). apply Hr. rewrite begins_cons. by right. }
    by rewrite E.
  - (* '@' *)
    cbn [app token_here]. change (is_white 64) with false. cbn [N.eqb Pos.eqb orb].
    rewrite skip_plain by done. by rewrite (not_ident_starts rest Hr).
  - (* '+' *)
    cbn [app token_here]. change (is_white 43) with false. cbn [N.eqb Pos.eqb orb].
    rewrite (not_signed 43 rest); [done|by left|done|done].
  - (* '-' *)
    cbn [app token_here]. change (is_white 45) with false. cbn [N.eqb Pos.eqb orb].
    rewrite (not_signed 45 rest); [|by right|done|done].
    rewrite (not_ident_starts _ Hi).
    assert (El : looking_at (txt "-->") (45 :: rest) = false).
    { unfold looking_at. apply bool_decide_eq_false_2. change (txt "-->") with [45; 45; 62]. cbn [length take].
      intros E. destruct rest as [|d r]; [done|]. cbn in E. injection E as -> _. apply Hi.
      right; left. rewrite begins2_cons. auto. }
    by rewrite El.
  - (* '.' *)
    cbn [app token_here]. change (is_white 46) with false. cbn [N.eqb Pos.eqb orb drop]. rewrite drop_0.
    rewrite (at_char_false (is_numeric beyond) numeral); [done|intros c; by rewrite is_numeric_iff|done].
  - (* '<' *)
    cbn [app token_here]. change (is_white 60) with false. cbn [N.eqb Pos.eqb orb].
    assert (El : looking_at (txt "<!--") (60 :: rest) = false).
    { unfold looking_at. apply bool_decide_eq_false_2. change (txt "<!--") with [60; 33; 45; 45]. cbn [length take].
      intros E. injection E as E. apply Hr. exists (drop 3 rest).
      change (txt "!--") with [33; 45; 45]. rewrite <- E. by rewrite take_drop. }
    by rewrite El.
  - (* backslash *)
    destruct Hr as (c & r & -> & ->). done.
Qed.

Lemma piece_start t tok rest : piece beyond t [tok] rest ->
  t <> [] /\ tok <> TEof /\ looking_at (txt "/*") (t ++ rest) = false.
Proof.
  intros Hp.
  assert (Hlook : forall c r, c <> 47 -> looking_at (txt "/*") (c :: r) = false).
  { intros c r Hc. unfold looking_at. apply bool_decide_eq_false_2. change (txt "/*") with [47; 42]. cbn [length take].
    intros [= -> _]. done. }
  assert (Hname : forall t v r, name_text beyond t v -> t <> [] -> looking_at (txt "/*") (t ++ r) = false).
  { intros t' v r Ht Hne. destruct (name_head _ _ Ht) as [[? _]|[(c & x & -> & Hc)|(d & x & -> & Hd)]]; [done| |].
    - cbn [app]. apply Hlook. unfold CssTokenSpec.name_char, CssTokenSpec.name_start, letter, foreign, digit in Hc. lia.
    - by apply Hlook. }
  assert (Hid : forall t v, ident_text beyond t v -> name_text beyond t v /\ t <> []).
  { intros t' v [Ht [(c & r & -> & _)|(c & d & r & -> & _)]]; done. }
  assert (Hnum : forall n r, number_text n -> n <> [] /\ looking_at (txt "/*") (n ++ r) = false).
  { intros n r Hn. destruct (number_head n Hn) as [(c & m & -> & Hc)|[(c & d & m & -> & -> & Hd)|(c & m & -> & Hc & Hm)]];
      (split; [done|]); cbn [app]; apply Hlook; unfold digit in *; lia. }
  inversion Hp as [b r Hb|c w r Hc Hw Hr|t' v r Ht Hr H40 Hm Hu|t' v r Ht Hv|t' w r Ht Hw Hr|t' w u v w' r Ht Hw Hw' Hu
    |t' v r Ht Hr|t' v r Ht Hv Hr|n r Hn Hr Hi H37|n r Hn|n t' v r Hn Ht He Hr|t' r Ht Hr|q t' v r Hq Ht|q t' v r Hq Ht Hr
    |c r Hc|r Hr|r Hr|r Hr|r Hr Hr2|r Hr Hr2 Hi|r Hr|r Hr|r Hr| | | | | | | | | | | ]; subst; try done.
  - split; [done|]. split; [done|]. apply Hlook. by apply white_head_not.
  - destruct (Hid _ _ Ht) as [Ht' Hne]. eauto.
  - destruct (Hid _ _ Ht) as [Ht' Hne]. split; [by destruct t'|]. split; [done|]. rewrite <- app_assoc. eauto.
  - destruct (Hid _ _ Ht) as [Ht' Hne]. split; [by destruct t'|]. split; [done|]. rewrite <- app_assoc. eauto.
  - destruct (Hid _ _ Ht) as [Ht' Hne]. split; [by destruct t'|]. split; [done|]. rewrite <- app_assoc. eauto.
  - destruct (Hnum t rest Hn) as [? ?]. done.
  - destruct (Hnum n ([37] ++ rest) Hn) as [? ?]. rewrite <- app_assoc. split; [by destruct n|done].
  - destruct (Hnum n (t' ++ rest) Hn) as [? ?]. rewrite <- app_assoc. split; [by destruct n|done].
  - destruct Ht as (u & h & q & e & -> & Hu & _). split; [done|]. split; [done|]. apply Hlook. lia.
  - split; [done|]. split; [done|]. apply Hlook. lia.
  - split; [done|]. split; [done|]. apply Hlook. lia.
  - split; [done|]. split; [done|]. apply Hlook. intros ->. destruct Hc as (_ & _ & _ & Hc). apply Hc.
    repeat (apply elem_of_cons; first [by left|right]).
  - split; [done|]. split; [done|]. unfold looking_at. apply bool_decide_eq_false_2. change (txt "/*") with [47; 42].
    cbn [app length take]. intros E. injection E as E. apply Hr. destruct rest as [|c r]; [done|].
    cbn in E. injection E as ->. by rewrite begins_cons.
Qed.

Lemma written_read s ts k : written beyond s ts -> (length s < k)%nat ->
  (ts = [] -> skip_comments k s = Ok [])
  /\ (forall t ts', ts = t :: ts' -> exists s1 r, skip_comments k s = Ok s1
        /\ (forall fuel, (length s1 < fuel)%nat -> token_here beyond fuel s1 = Ok (t, r))
        /\ written beyond r ts' /\ (length r < length s)%nat /\ (length s1 <= length s)%nat /\ t <> TEof).
Proof.
  intros H. revert k. induction H as [|t o rest ts Hp Hw IH]; intros k Hk.
  - destruct k; [lia|]. split; [done|]. intros ? ? [=].
  - destruct k as [|k]; [lia|].
    assert (Ho : o = [] \/ exists tok, o = [tok]) by (inversion Hp; subst; eauto).
    destruct Ho as [->|[tok ->]].
    + inversion Hp as [b r Hb| | | | | | | | | | | | | | | | | | | | | | | | | | | | | | | | | ]; subst.
      cbn [app] in *.
      destruct (comments_step k ((txt "/*" ++ b ++ txt "*/") ++ rest)) as [E _]. rewrite E.
      change (txt "/*") with [47; 42] in *. change (txt "*/") with [42; 47] in *.
      assert (El : looking_at [47; 42] (([47; 42] ++ b ++ [42; 47]) ++ rest) = true).
      { unfold looking_at. apply bool_decide_eq_true_2. cbn. by rewrite take_0. }
      rewrite El. rewrite <- !app_assoc.
      change (drop 2 ([47; 42] ++ b ++ [42; 47] ++ rest)) with (b ++ [42; 47] ++ rest).
      rewrite (comment_rest_body b rest Hb). rewrite !app_length in Hk. cbn [length] in Hk.
      destruct (IH k) as [IH1 IH2]; [lia|]. split; [done|].
      intros t' ts' E'. destruct (IH2 t' ts' E') as (s1 & r1 & H1 & H2 & H3 & H4 & H5 & H6).
      exists s1, r1. rewrite !app_length. repeat split; [done..|cbn; lia|cbn; lia|done].
    + destruct (piece_start t tok rest Hp) as (Hne & Hnt & Hl).
      destruct (comments_step k (t ++ rest)) as [E _]. rewrite E, Hl. split; [done|].
      intros t' ts' [= <- <-]. exists (t ++ rest), rest. split; [done|].
      split; [intros; by apply piece_token|]. split; [done|]. rewrite app_length.
      destruct t; [done|]. cbn [length]. repeat split; [lia|lia|done].
Qed.

Lemma tokens_from_written fuel s ts : written beyond s ts -> (length s < fuel)%nat ->
  tokens_from beyond fuel false s = Ok (ts ++ [TEof]).
Proof.
  revert s ts. induction fuel as [|fuel IH]; intros s ts Hw Hf; [lia|].
  destruct (written_read s ts (S (length s)) Hw) as [H1 H2]; [lia|].
  cbn [tokens_from]. unfold consume_token. cbn [andb]. destruct ts as [|t ts].
  - rewrite (H1 eq_refl). done.
  - destruct (H2 t ts eq_refl) as (s1 & r & -> & H3 & H4 & H5 & H6 & H7). cbn [rbind].
    rewrite H3 by lia. cbn [rbind]. rewrite (IH r ts) by (done || lia). destruct t; done.
Qed.

Lemma tokenize_written s ts : written beyond s ts -> ~ begins (fun c => c = 0xFEFF) s ->
  tokenize beyond s = Ok (ts ++ [TEof]).
Proof.
  intros Hw Hb. unfold tokenize. rewrite <- (tokens_from_written (S (length s)) s ts Hw) by lia.
  cbn [tokens_from]. unfold consume_token. rewrite (is_char_false 0xFEFF s Hb). done.
Qed.
Lemma tokenize_marked s ts : written beyond s ts -> tokenize beyond (0xFEFF :: s) = Ok (ts ++ [TEof]).
Proof.
  intros Hw. unfold tokenize. rewrite <- (tokens_from_written (S (length (0xFEFF :: s))) s ts Hw) by (cbn; lia).
  cbn [tokens_from]. unfold consume_token. change (is_char 0xFEFF (0xFEFF :: s)) with true. cbn [andb].
  rewrite skip_plain by done. done.
Qed.
End read.
