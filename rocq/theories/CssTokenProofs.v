(** Lemmas about the CSS tokenizer. *)
From Coq Require Import ZifyBool.
From Verif Require Import Base Text CssTokenModel CssTokenSpec.
Local Open Scope N_scope.

(** * Characters *)
Lemma is_hex_iff c : is_hex c = true <-> hex c.
Proof. unfold is_hex, hex, digit. lia. Qed.
Lemma is_white_iff c : is_white c = true <-> any_white c.
Proof. unfold is_white, any_white. lia. Qed.
Lemma is_ident_start_iff c : is_ident_start c = true <-> css_start c.
Proof. unfold is_ident_start, css_start, letter. lia. Qed.

Lemma at_char_iff P s : at_char P s = true <-> begins (fun c => P c = true) s.
Proof.
  unfold begins. destruct s as [|c s]; cbn.
  - split; [done|]. intros (?&?&?&?). done.
  - split; [eauto|]. intros (?&?&[= -> ->]&?). done.
Qed.
Lemma at_char_false P (Q : N -> Prop) s :
  (forall c, P c = true -> Q c) -> ~ begins Q s -> at_char P s = false.
Proof.
  intros H Hn. destruct (at_char P s) eqn:E; [|done]. exfalso. apply Hn.
  apply at_char_iff in E as (c & r & -> & E). exists c, r. auto.
Qed.
Lemma is_char_false n s : ~ begins (fun c => c = n) s -> is_char n s = false.
Proof. apply at_char_false. intros c. lia. Qed.

Lemma next_plain c r : c <> 13 -> next (c :: r) = (c, r).
Proof.
  intros H. unfold next. destruct c as [|p]; [done|].
  repeat (destruct p as [p|p|]; try done).
Qed.
Lemma skip_plain c r : c <> 13 -> skip (c :: r) = r.
Proof. intros H. unfold skip. by rewrite next_plain. Qed.
Lemma skip_len s : (length (skip s) <= length s - 1)%nat.
Proof.
  destruct s as [|c s]; [cbn; lia|]. destruct (decide (c = 13)) as [->|Hc].
  - destruct s as [|d s]; [cbn; lia|]. destruct (decide (d = 10)) as [->|Hd]; [cbn; lia|].
    unfold skip, next. destruct d as [|p]; [cbn; lia|].
    repeat (destruct p as [p|p|]; try (cbn; lia)).
  - rewrite skip_plain by done. cbn. lia.
Qed.

Section proofs.
Context (beyond : N -> bool).

Lemma is_numeric_iff c : is_numeric beyond c = true <-> numeral beyond c.
Proof. unfold is_numeric, numeral, digit. destruct (beyond c); destruct (N.ltb_spec c 128); lia. Qed.
Lemma is_ident_char_iff c : is_ident_char beyond c = true <-> css_name c.
Proof.
  unfold is_ident_char, css_name. rewrite !orb_true_iff, is_ident_start_iff, is_numeric_iff, N.eqb_eq.
  unfold numeral, css_start. intuition.
Qed.

(** * Every token ends *)
Lemma whitespace_len s : (length (consume_whitespace s) <= length s)%nat.
Proof.
  induction s as [s IH] using (induction_ltof1 _ (@length N)). unfold ltof in IH.
  destruct s as [|c s]; [done|]. cbn [consume_whitespace].
  destruct (is_white c); [|done].
  assert (H : (length (consume_whitespace s) <= length (c :: s))%nat).
  { etransitivity; [apply IH; cbn; lia|cbn; lia]. }
  assert (H' : forall r, s = 10 :: r -> (length (consume_whitespace r) <= length (c :: s))%nat).
  { intros r ->. etransitivity; [apply IH; cbn; lia|cbn; lia]. }
  destruct c as [|p]; [done|].
  repeat (destruct p as [p|p|]; try exact H).
  destruct s as [|d s]; [exact H|]. destruct d as [|p]; [exact H|].
  repeat (destruct p as [p|p|]; try exact H).
Qed.
Lemma whitespace_head s : at_char is_white s = true -> (length (consume_whitespace s) < length s)%nat.
Proof.
  destruct s as [|c s]; [done|]. intros E. cbn [at_char] in E. cbn [consume_whitespace]. rewrite E.
  assert (H : (length (consume_whitespace s) < length (c :: s))%nat).
  { pose proof (whitespace_len s). cbn. lia. }
  assert (H' : forall r, s = 10 :: r -> (length (consume_whitespace r) < length (c :: s))%nat).
  { intros r ->. pose proof (whitespace_len r). cbn. lia. }
  clear E. destruct c as [|p]; [done|].
  repeat (destruct p as [p|p|]; try exact H).
  destruct s as [|d s]; [exact H|]. destruct d as [|p]; [exact H|].
  repeat (destruct p as [p|p|]; try exact H).
Qed.

Lemma take_hex_len n s : (length (take_hex n s).2 <= length s)%nat.
Proof.
  revert s. induction n as [|n IH]; intros [|c s]; try done. cbn [take_hex].
  destruct (is_hex c); [|done]. pose proof (IH s) as H. destruct (take_hex n s); cbn in *; lia.
Qed.
Lemma take_marks_len n s : (length (take_marks n s).2 <= length s)%nat.
Proof.
  revert s. induction n as [|n IH]; intros [|c s]; try done. cbn [take_marks].
  destruct (decide (c = 63)) as [->|Hc].
  - pose proof (IH s) as H. destruct (take_marks n s); cbn in *; lia.
  - destruct c as [|p]; [done|]. repeat (destruct p as [p|p|]; try done).
Qed.
Lemma digits_len s : (length (consume_digits beyond s).2 <= length s)%nat.
Proof.
  induction s as [|c s IH]; [done|]. cbn [consume_digits].
  destruct (is_numeric beyond c); [|done]. destruct (consume_digits beyond s); cbn in *; lia.
Qed.
Lemma escaped_len s : s <> [] -> (length (consume_escaped s).2 < length s)%nat.
Proof.
  intros Hs. unfold consume_escaped. pose proof (skip_len s) as H.
  destruct s as [|c s]; [done|]. destruct (skip (c :: s)) as [|d r] eqn:E; [cbn; lia|].
  pose proof (take_hex_len 6 (d :: r)) as H'. destruct (take_hex 6 (d :: r)) as [v t].
  cbn [snd] in *. pose proof (skip_len t). cbn [length] in *. destruct (at_char is_white t); lia.
Qed.
Lemma plain_escape_len s : plain_escape s = true -> (length (next (skip s)).2 < length s)%nat.
Proof.
  intros H. pose proof (skip_len s). pose proof (skip_len (skip s)) as H'.
  change (next (skip s)).2 with (skip (skip s)). destruct s; [done|]. cbn [length] in *. lia.
Qed.
Lemma escape_not_nil s : is_start_of_escape s = true -> s <> [].
Proof. by destruct s. Qed.
Lemma at_char_len P s : at_char P s = true -> (0 < length s)%nat.
Proof. destruct s; [done|cbn; lia]. Qed.
Lemma is_char_len n s : is_char n s = true -> (0 < length s)%nat.
Proof. apply at_char_len. Qed.

(** A name: always read, and shorter text is left when there was something to read. *)
Definition name_here (s : str) : bool := at_char (is_ident_char beyond) s || is_start_of_escape s.

Lemma ident_total fuel s : (length s < fuel)%nat ->
  exists v r, consume_ident beyond fuel s = Ok (v, r) /\ (length r <= length s)%nat
    /\ (name_here s = true -> (length r < length s)%nat).
Proof.
  revert s. induction fuel as [|fuel IH]; intros s Hf; [lia|]. cbn [consume_ident].
  destruct (plain_escape s) eqn:Ep.
  { pose proof (plain_escape_len s Ep) as H. destruct (next (skip s)) as [c r]. cbn in H.
    destruct (IH r) as (v & r' & -> & Hr & _); [lia|]. eexists _, _. split; [done|]. split; [lia|]. intros _. lia. }
  destruct (is_start_of_escape s) eqn:Es.
  { pose proof (escaped_len s (escape_not_nil s Es)) as H. destruct (consume_escaped s) as [c r]. cbn in H.
    destruct (IH r) as (v & r' & -> & Hr & _); [lia|]. eexists _, _. split; [done|]. split; [lia|]. intros _. lia. }
  destruct s as [|c s]; [by eexists _, _|].
  destruct (is_ident_char beyond c) eqn:Ec.
  - pose proof (skip_len (c :: s)) as H. cbn [length] in *.
    destruct (IH (skip (c :: s))) as (v & r' & -> & Hr & _); [lia|].
    eexists _, _. split; [done|]. split; [lia|]. intros _. lia.
  - eexists _, _. split; [done|]. split; [done|]. unfold name_here. cbn [at_char]. by rewrite Ec, Es.
Qed.

Lemma starts_ident_here s : starts_ident s = true -> name_here s = true.
Proof.
  unfold starts_ident, name_here. intros H.
  destruct (is_char 45 s) eqn:E1.
  - apply at_char_iff in E1 as (c & r & -> & ?). cbn [at_char]. unfold is_ident_char.
    replace (c =? 45) with true by lia. by rewrite orb_true_r.
  - destruct (is_char 92 s); [by rewrite H, orb_true_r|].
    apply at_char_iff in H as (c & r & -> & H). cbn [at_char]. unfold is_ident_char. by rewrite H.
Qed.

Lemma next_len c r s : next s = (c, r) -> (length r <= length s - 1)%nat.
Proof. intros H. pose proof (skip_len s) as H'. unfold skip in H'. by rewrite H in H'. Qed.

Lemma two_len s : (length (take_two_digits beyond s).2 <= length s - 1)%nat.
Proof.
  unfold take_two_digits. destruct (next s) as [a r] eqn:E1. apply next_len in E1.
  destruct (next r) as [b r'] eqn:E2. apply next_len in E2.
  pose proof (digits_len r') as H. destruct (consume_digits beyond r'). cbn [snd] in *. lia.
Qed.
Lemma number_len s :
  (length (consume_number beyond s).2 <= length s)%nat
  /\ (at_char (is_numeric beyond) s || is_signed_decimal beyond s
       || (is_char 46 s && at_char (is_numeric beyond) (drop 1 s)) = true ->
      (length (consume_number beyond s).2 < length s)%nat).
Proof.
  assert (He : forall s, (length (take_exponent beyond s).2 <= length s)%nat).
  { intros s'. unfold take_exponent. pose proof (two_len s'). destruct (_ && _); [lia|done]. }
  assert (Hf : forall s, (length (take_fraction beyond s).2 <= length s)%nat).
  { intros s'. unfold take_fraction. pose proof (two_len s'). destruct (_ && _); [lia|done]. }
  assert (Hs : (length (take_sign s).2 <= length s)%nat).
  { unfold take_sign. pose proof (skip_len s) as H. unfold skip in H. destruct (at_char _ s); [|done].
    destruct (next s). cbn [snd] in *. lia. }
  unfold consume_number.
  destruct (take_sign s) as [sg s1] eqn:E1. cbn [snd] in Hs.
  pose proof (digits_len s1) as H2. destruct (consume_digits beyond s1) as [w s2] eqn:E2. cbn [snd] in H2.
  pose proof (Hf s2) as H3. destruct (take_fraction beyond s2) as [f s3] eqn:E3. cbn [snd] in H3.
  pose proof (He s3) as H4. destruct (take_exponent beyond s3) as [e s4] eqn:E4. cbn [snd] in H4 |- *.
  split; [lia|]. intros Hc.
  unfold take_sign, is_signed_decimal in *. destruct (at_char (fun c => (c =? 43) || (c =? 45)) s) eqn:Es.
  { apply at_char_len in Es. destruct (next s) as [c r] eqn:En. apply next_len in En. simplify_eq. lia. }
  injection E1 as <- <-. cbn [andb] in Hc. rewrite orb_false_r in Hc.
  destruct (at_char (is_numeric beyond) s) eqn:En.
  - destruct s as [|c s]; [done|]. cbn [at_char] in En. cbn [consume_digits] in E2. rewrite En in E2.
    pose proof (digits_len s) as H. destruct (consume_digits beyond s). simplify_eq. cbn [snd length] in *. lia.
  - assert (s2 = s) as ->.
    { destruct s as [|c s]; [by cbn in E2; simplify_eq|]. cbn [at_char] in En. cbn [consume_digits] in E2.
      rewrite En in E2. by simplify_eq. }
    cbn [orb] in Hc. unfold take_fraction in E3. rewrite Hc in E3. pose proof (two_len s) as H. rewrite E3 in H.
    cbn [snd] in H. apply andb_true_iff in Hc as [Hc _]. apply is_char_len in Hc. lia.
Qed.

Lemma numeric_total fuel s : (length s < fuel)%nat ->
  at_char (is_numeric beyond) s || is_signed_decimal beyond s
    || (is_char 46 s && at_char (is_numeric beyond) (drop 1 s)) = true ->
  exists t r, consume_numeric beyond fuel s = Ok (t, r) /\ t <> TEof /\ (length r < length s)%nat.
Proof.
  intros Hf Hs. unfold consume_numeric. destruct (number_len s) as [_ H]. specialize (H Hs).
  destruct (consume_number beyond s) as [n r]. cbn [snd] in H.
  destruct (starts_ident r) eqn:E.
  - destruct (ident_total fuel r) as (v & r' & -> & Hr & _); [lia|]. eexists _, _. split; [done|]. split; [done|lia].
  - destruct (is_char 37 r); eexists _, _; (split; [done|]); (split; [done|]); [|lia].
    pose proof (skip_len r). lia.
Qed.

Lemma string_body_total fuel q s : (length s < fuel)%nat ->
  exists b v r, string_body fuel q s = Ok (b, v, r) /\ (length r <= length s)%nat.
Proof.
  revert s. induction fuel as [|fuel IH]; intros s Hf; [lia|]. cbn [string_body].
  destruct (_ || _) eqn:E1.
  { eexists _, _, _. split; [done|]. pose proof (skip_len s). lia. }
  destruct s as [|c s]; [by rewrite orb_true_r in E1|]. clear E1.
  destruct (is_char 10 (c :: s)); [by eexists _, _, _|].
  destruct (_ && _) eqn:E2.
  { pose proof (skip_len (c :: s)). pose proof (skip_len (skip (c :: s))). cbn [length] in *.
    destruct (IH (skip (skip (c :: s)))) as (b & v & r & -> & Hr); [lia|]. eexists _, _, _. split; [done|]. lia. }
  clear E2.
  assert (H : (length (if plain_escape (c :: s) then next (skip (c :: s))
      else if is_start_of_escape (c :: s) then consume_escaped (c :: s) else next (c :: s)).2 < length (c :: s))%nat).
  { destruct (plain_escape (c :: s)) eqn:Ep; [by apply plain_escape_len|].
    destruct (is_start_of_escape (c :: s)); [by apply escaped_len|].
    pose proof (skip_len (c :: s)) as H. unfold skip in H. cbn [length] in *. lia. }
  destruct (if plain_escape (c :: s) then _ else _) as [d r0]. cbn [snd] in H.
  destruct (IH r0) as (b & v & r & -> & Hr); [lia|]. eexists _, _, _. split; [done|]. lia.
Qed.

Lemma bad_url_total fuel s : (length s < fuel)%nat ->
  exists r, bad_url_rest fuel s = Ok r /\ (length r <= length s)%nat.
Proof.
  revert s. induction fuel as [|fuel IH]; intros s Hf; [lia|]. cbn [bad_url_rest].
  destruct (_ || _) eqn:E1; [by eexists|].
  destruct s as [|c s]; [by rewrite orb_true_r in E1|]. clear E1.
  set (s' := if is_start_of_escape (c :: s) then (consume_escaped (c :: s)).2 else c :: s).
  assert (H : (length (skip s') < length (c :: s))%nat).
  { subst s'. destruct (is_start_of_escape (c :: s)).
    - pose proof (escaped_len (c :: s)) as H. specialize (H ltac:(done)).
      pose proof (skip_len (consume_escaped (c :: s)).2). lia.
    - pose proof (skip_len (c :: s)). cbn [length] in *. lia. }
  destruct (IH (skip s')) as (r & -> & Hr); [lia|]. eexists. split; [done|]. lia.
Qed.

Lemma url_body_total fuel s : (length s < fuel)%nat ->
  exists b v r, url_body fuel s = Ok (b, v, r) /\ (length r <= length s)%nat.
Proof.
  revert s. induction fuel as [|fuel IH]; intros s Hf; [lia|]. cbn [url_body].
  destruct (is_char 41 s); [eexists _, _, _; split; [done|]; pose proof (skip_len s); lia|].
  destruct s as [|c s]; [by eexists _, _, _|].
  destruct (at_char is_white (c :: s)) eqn:Ew.
  { apply whitespace_head in Ew.
    destruct (IH (consume_whitespace (c :: s))) as (b & v & r & -> & Hr); [lia|].
    eexists _, _, _. split; [done|lia]. }
  destruct (_ || _).
  { destruct (bad_url_total (S (length (c :: s))) (c :: s)) as (r & -> & Hr); [lia|].
    eexists _, _, _. split; [done|lia]. }
  assert (H : (length (if is_start_of_escape (c :: s) then consume_escaped (c :: s) else next (c :: s)).2
      < length (c :: s))%nat).
  { destruct (is_start_of_escape (c :: s)); [by apply escaped_len|].
    pose proof (skip_len (c :: s)) as H. unfold skip in H. cbn [length] in *. lia. }
  destruct (if is_start_of_escape (c :: s) then _ else _) as [d r0]. cbn [snd] in H.
  destruct (IH r0) as (b & v & r & -> & Hr); [lia|]. eexists _, _, _. split; [done|]. lia.
Qed.

Lemma url_total fuel s : (length s < fuel)%nat ->
  exists t r, consume_url fuel s = Ok (t, r) /\ t <> TEof /\ (length r <= length s)%nat.
Proof.
  intros Hf. unfold consume_url. pose proof (whitespace_len s).
  destruct (url_body_total fuel (consume_whitespace s)) as (b & v & r & -> & Hr); [lia|].
  eexists _, _. split; [done|]. split; [by destruct b|lia].
Qed.

Lemma ident_like_total fuel s : (length s < fuel)%nat -> name_here s = true ->
  exists t r, consume_ident_like beyond fuel s = Ok (t, r) /\ t <> TEof /\ (length r < length s)%nat.
Proof.
  intros Hf Hs. unfold consume_ident_like.
  destruct (ident_total fuel s Hf) as (v & r & -> & _ & Hr). specialize (Hr Hs). cbn [rbind].
  pose proof (skip_len r). pose proof (whitespace_len (skip r)).
  destruct (_ && _).
  - destruct (at_char _ _); [eexists _, _; split; [done|]; split; [done|lia]|].
    destruct (url_total fuel (consume_whitespace (skip r))) as (t & r' & -> & Ht & Hr'); [lia|].
    eexists _, _. split; [done|]. split; [done|lia].
  - destruct (is_char 40 r); eexists _, _; (split; [done|]); (split; [done|lia]).
Qed.

Lemma range_len s : s <> [] -> (length (consume_range s).2 < length s)%nat.
Proof.
  intros Hs. unfold consume_range. destruct s as [|c s]; [done|]. clear Hs.
  destruct (next (c :: s)) as [a r1] eqn:E1. apply next_len in E1.
  destruct (next r1) as [b r2] eqn:E2. apply next_len in E2.
  pose proof (take_hex_len 6 r2) as E3. destruct (take_hex 6 r2) as [h r3].
  pose proof (take_marks_len (6 - length h) r3) as E4. destruct (take_marks (6 - length h) r3) as [q r4].
  cbn [snd length] in *. destruct (_ && _).
  - destruct (next r4) as [d r5] eqn:E5. apply next_len in E5.
    pose proof (take_hex_len 6 r5) as E6. destruct (take_hex 6 r5) as [v r6]. cbn [snd] in *. lia.
  - cbn [snd]. lia.
Qed.

Lemma token_total fuel s : (length s < fuel)%nat -> s <> [] ->
  exists t r, token_here beyond fuel s = Ok (t, r) /\ t <> TEof /\ (length r < length s)%nat.
Proof.
  intros Hf Hs. destruct s as [|c s]; [done|]. clear Hs. cbn [token_here].
  pose proof (skip_len (c :: s)) as Hk. cbn [length] in Hk.
  assert (Hone : forall t, t <> TEof -> exists t' r, Ok (t, skip (c :: s)) = Ok (t', r) /\ t' <> TEof
    /\ (length r < length (c :: s))%nat).
  { intros t Ht. eexists _, _. split; [done|]. split; [done|]. cbn [length]. lia. }
  assert (Hname : forall (f : str -> token) r, (forall v, f v <> TEof) -> (length r < length (c :: s))%nat ->
    exists t' r', (let* (v, r) := consume_ident beyond fuel r in Ok (f v, r)) = Ok (t', r') /\ t' <> TEof
      /\ (length r' < length (c :: s))%nat).
  { intros f r Hv Hr. destruct (ident_total fuel r) as (v & r' & -> & Hr' & _); [lia|].
    eexists _, _. split; [done|]. split; [done|lia]. }
  destruct (is_white c) eqn:Ew.
  { eexists _, _. split; [done|]. split; [done|]. by apply whitespace_head. }
  destruct (_ || _).
  { unfold consume_string. destruct (next (c :: s)) as [q r0] eqn:En. apply next_len in En. cbn [length] in *.
    destruct (string_body_total fuel q r0) as (b & v & r & -> & Hr); [lia|].
    eexists _, _. split; [done|]. split; [by destruct b|lia]. }
  destruct (c =? 35) eqn:?.
  { destruct (_ || _); [|by apply Hone]. apply Hname; [done|cbn [length]; lia]. }
  repeat (lazymatch goal with |- exists t r, (if ?c =? ?n then Ok _ else _) = _ /\ _ =>
    destruct (c =? n); [by apply Hone|] end).
  destruct (c =? 43) eqn:?.
  { destruct (is_signed_decimal beyond (c :: s)) eqn:E; [|by apply Hone].
    apply numeric_total; [done|]. rewrite E. by rewrite orb_true_r. }
  destruct (c =? 46) eqn:E46.
  { destruct (at_char _ _) eqn:E; [|by apply Hone].
    apply numeric_total; [done|]. rewrite E. cbn [is_char at_char]. unfold is_char, at_char.
    replace (46 =? c) with true by lia. by rewrite !orb_true_r. }
  destruct (c =? 45) eqn:?.
  { destruct (is_signed_decimal beyond (c :: s)) eqn:E.
    { apply numeric_total; [done|]. rewrite E. by rewrite orb_true_r. }
    destruct (looking_at _ _).
    { eexists _, _. split; [done|]. split; [done|]. pose proof (skip_len (skip (c :: s))).
      pose proof (skip_len (skip (skip (c :: s)))). cbn [length] in *. lia. }
    destruct (starts_ident (c :: s)) eqn:E'; [|by apply Hone].
    apply ident_like_total; [done|]. by apply starts_ident_here. }
  destruct (c =? 60) eqn:?.
  { destruct (looking_at _ _); [|by apply Hone].
    eexists _, _. split; [done|]. split; [done|]. pose proof (skip_len (skip (c :: s))).
    pose proof (skip_len (skip (skip (c :: s)))). pose proof (skip_len (skip (skip (skip (c :: s))))).
    cbn [length] in *. lia. }
  destruct (c =? 64) eqn:?.
  { destruct (starts_ident _); [|by apply Hone]. apply Hname; [done|cbn [length]; lia]. }
  destruct (c =? 92) eqn:?.
  { destruct (is_start_of_escape (c :: s)) eqn:E; [|by apply Hone].
    apply ident_like_total; [done|]. unfold name_here. by rewrite E, orb_true_r. }
  destruct (is_numeric beyond c) eqn:E.
  { apply numeric_total; [done|]. cbn [at_char]. by rewrite E. }
  destruct (_ && _).
  { pose proof (range_len (c :: s)) as H. specialize (H ltac:(done)). unfold consume_range in *.
    repeat (case_match; simplify_eq). all: eexists _, _; split; [done|]; split; done. }
  destruct (is_ident_start c) eqn:Ei; [|by apply Hone].
  apply ident_like_total; [done|]. unfold name_here. cbn [at_char]. unfold is_ident_char. by rewrite Ei.
Qed.

Lemma comment_len s : (length (comment_rest s) <= length s)%nat.
Proof.
  induction s as [|c s IH]; [done|].
  assert (H : (length (comment_rest s) <= length (c :: s))%nat) by (cbn; lia).
  assert (H' : forall r, s = 47 :: r -> (length r <= length (c :: s))%nat) by (intros r ->; cbn; lia).
  cbn [comment_rest]. destruct c as [|p]; [exact H|].
  repeat (destruct p as [p|p|]; try exact H).
  destruct s as [|d s]; [exact H|]. destruct d as [|p]; [exact H|].
  repeat (destruct p as [p|p|]; try exact H).
  by apply H'.
Qed.

Lemma comments_step fuel s :
  skip_comments (S fuel) s
  = (if looking_at (txt "/*") s then skip_comments fuel (comment_rest (drop 2 s)) else Ok s)
  /\ (looking_at (txt "/*") s = true -> exists r, s = 47 :: 42 :: r).
Proof.
  assert (Hl : looking_at (txt "/*") s = true -> exists r, s = 47 :: 42 :: r).
  { unfold looking_at. rewrite bool_decide_eq_true. destruct s as [|a [|b s]]; [done..|].
    change (txt "/*") with [47; 42]. cbn [length take]. rewrite take_0. intros [= -> ->]. eauto. }
  split; [|done]. destruct (looking_at (txt "/*") s) eqn:E.
  - destruct (Hl eq_refl) as [r ->]. done.
  - assert (Hn : forall r, s <> 47 :: 42 :: r).
    { intros r ->. clear Hl. unfold looking_at in E. change (txt "/*") with [47; 42] in E.
      cbn [length take] in E. rewrite take_0 in E.
      apply bool_decide_eq_false in E. by apply E. }
    clear -Hn. cbn [skip_comments]. destruct s as [|c s]; [done|].
    destruct c as [|p]; [done|]. repeat (destruct p as [p|p|]; try done).
    destruct s as [|d s]; [done|]. destruct d as [|p]; [done|]. repeat (destruct p as [p|p|]; try done).
    by destruct (Hn s).
Qed.

Lemma comments_total fuel s : (length s < fuel)%nat ->
  exists r, skip_comments fuel s = Ok r /\ (length r <= length s)%nat.
Proof.
  revert s. induction fuel as [|fuel IH]; intros s Hf; [lia|].
  destruct (comments_step fuel s) as [-> Hl]. destruct (looking_at _ _).
  - destruct Hl as [r ->]; [done|]. cbn [drop]. rewrite drop_0. pose proof (comment_len r). cbn [length] in Hf.
    destruct (IH (comment_rest r)) as (r' & -> & Hr); [lia|]. eexists. split; [done|]. cbn [length]. lia.
  - eexists. split; [done|lia].
Qed.

Lemma consume_token_total first s :
  exists t r, consume_token beyond first s = Ok (t, r)
    /\ ((t = TEof /\ r = []) \/ (t <> TEof /\ (length r < length s)%nat)).
Proof.
  unfold consume_token. set (s0 := if first && _ then skip s else s).
  assert (H0 : (length s0 <= length s)%nat) by (subst s0; pose proof (skip_len s); destruct (_ && _); lia).
  destruct (comments_total (S (length s0)) s0) as (r & -> & Hr); [lia|]. cbn [rbind].
  destruct r as [|c r].
  - eexists _, _. split; [done|]. by left.
  - destruct (token_total (S (length s0)) (c :: r)) as (t & r' & -> & Ht & Hr'); [lia|done|].
    eexists _, _. split; [done|]. right. split; [done|lia].
Qed.

Lemma tokens_from_total fuel first s : (length s < fuel)%nat ->
  exists ts, tokens_from beyond fuel first s = Ok (ts ++ [TEof]) /\ TEof ∉ ts /\ (length ts <= length s)%nat.
Proof.
  revert first s. induction fuel as [|fuel IH]; intros first s Hf; [lia|]. cbn [tokens_from].
  destruct (consume_token_total first s) as (t & r & -> & [[-> ->]|[Ht Hr]]); cbn [rbind].
  - exists []. split; [done|]. split; [apply not_elem_of_nil|cbn; lia].
  - destruct (IH false r) as (ts & E & Hts & Hl); [lia|]. rewrite E. cbn [rbind].
    exists (t :: ts). split; [by destruct t|]. split; [|cbn; lia].
    rewrite not_elem_of_cons. split; [congruence|done].
Qed.
End proofs.
