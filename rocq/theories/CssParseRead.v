(** A written sheet is read as what it says. *)
From Verif Require Import Base Text CssTokenModel SelectorModel CssParseModel CssParseTotal CssParseSpec CssTokenProofs CssParseCursor.
From Coq Require Import Lia ZifyBool.
Local Open Scope N_scope.

Section read.
Context (show lower : str -> str) (ignore : bool) (ts : list token) (drained : nat).
Context (is_zero : str -> bool) (colour : str -> list cval -> option N).
Hypothesis Hts : TEof ∉ ts.
Hypothesis Hdr : (length ts <= drained <= S (length ts))%nat.
Notation n := (length ts).

(** The tokens before [pre] have been read, [l] is left. *)
Definition at_ (pre l : list token) (s : pst) : Prop :=
  ts = pre ++ l /\ ps_pos s = length pre /\ good ts s /\ ps_allow s = 0%nat.
(** What a function makes of the tokens ahead. *)
Definition eats {A} (p : par A) (pre l : list token) (x : A) (pre' l' : list token) : Prop :=
  forall s (P : option A -> pst -> Prop), at_ pre l s -> (forall s', at_ pre' l' s' -> P (Some x) s') -> wp p s P.
Definition fails {A} (p : par A) (pre l pre' l' : list token) : Prop :=
  forall s (P : option A -> pst -> Prop), at_ pre l s -> (forall s', at_ pre' l' s' -> P None s') -> wp p s P.

Lemma at_len pre l s : at_ pre l s -> n = (length pre + length l)%nat.
Proof. intros (E & _). rewrite E. apply app_length. Qed.
Lemma at_tok pre l s k : at_ pre l s -> tok ts (ps_pos s + k) = default TEof (l !! k).
Proof.
  intros (E & Hp & _). unfold tok. rewrite E, Hp, lookup_app_r by lia. f_equal. f_equal. lia.
Qed.
Lemma at_consume pre t l : eats (consume_any ts) pre (t :: l) t (pre ++ [t]) l.
Proof.
  intros s P H HP. pose proof (at_len _ _ _ H) as Hn. pose proof (at_tok _ _ _ 0 H) as Ht.
  destruct H as (E & Hp & Hg & Ha). apply wp_consume. rewrite Nat.add_0_r in Ht. rewrite Ht. apply HP.
  cbn [length] in Hn. unfold at_, good in *. cbn [ps_pos ps_len ps_allow]. rewrite <- app_assoc, app_length. cbn.
  split; [done|]. lia.
Qed.
Lemma at_look pre l k : (k <= 2 \/ k <= length l)%nat -> eats (look ts k) pre l (default TEof (l !! k)) pre l.
Proof.
  intros Hk s P H HP. pose proof (at_len _ _ _ H) as Hn. pose proof (at_tok _ _ _ k H) as Ht.
  destruct H as (E & Hp & Hg & Ha). apply wp_look. rewrite Ht. apply HP.
  unfold at_, good in *. cbn [ps_pos ps_len ps_allow]. split; [done|]. lia.
Qed.
Lemma at_unread pre t l : eats CssParseModel.unread (pre ++ [t]) l tt pre (t :: l).
Proof.
  intros s P H HP. pose proof (at_len _ _ _ H) as Hn. destruct H as (E & Hp & Hg & Ha).
  rewrite app_length in Hn, Hp. cbn [length] in Hn, Hp.
  apply wp_unread, HP. unfold at_, good in *. cbn [ps_pos ps_len ps_allow]. rewrite <- app_assoc in E. split; [done|]. lia.
Qed.
Lemma at_eof pre t l : eats (eof drained) pre (t :: l) false pre (t :: l).
Proof.
  intros s P H HP. pose proof (at_len _ _ _ H) as Hn. pose proof H as (E & Hp & Hg & Ha). cbn [length] in Hn.
  apply wp_eof. replace (_ && _) with false; [by apply HP|]. symmetry. apply andb_false_iff. rewrite !Nat.leb_gt. lia.
Qed.
Lemma at_allowing pre l : eats allowing pre l false pre l.
Proof. intros s P H HP. pose proof H as (_ & _ & _ & Ha). apply wp_allowing. rewrite Ha. by apply HP. Qed.
Lemma at_current pre l : eats (current ts) pre l (default TEof (last pre)) pre l.
Proof.
  intros s P H HP. pose proof H as (E & Hp & Hg & Ha). apply wp_current.
  replace (match ps_pos s with O => _ | S p => _ end) with (default TEof (last pre)); [by apply HP|].
  rewrite Hp. destruct pre as [|x pre _] using rev_ind; [done|]. rewrite last_snoc, app_length. cbn [length].
  rewrite Nat.add_1_r. unfold good in Hg. rewrite app_length in Hp. cbn in Hp.
  replace (ps_len s <? S (length pre))%nat with false by (symmetry; apply Nat.ltb_ge; lia).
  unfold tok. rewrite E, <- app_assoc, lookup_app_r by lia. by rewrite Nat.sub_diag.
Qed.

(** One step of reading. *)
Ltac rd :=
  lazymatch goal with
  | |- wp (pbind _ _) _ _ => apply wp_bind
  | |- wp (ret _) _ _ => apply wp_ret
  | |- wp fail _ _ => apply wp_fail
  | |- wp (attempt _) _ _ => apply wp_attempt
  | H : at_ _ _ ?s |- wp (consume_any _) ?s _ => eapply at_consume; [exact H|clear H; intros ? H]
  | H : at_ _ _ ?s |- wp (look _ _) ?s _ => eapply at_look; [cbn [length]; lia|exact H|clear H; intros ? H]; cbn [lookup list_lookup default from_option id]
  | H : at_ _ _ ?s |- wp CssParseModel.unread ?s _ => eapply at_unread; [exact H|clear H; intros ? H]
  | H : at_ _ _ ?s |- wp (eof _) ?s _ => eapply at_eof; [exact H|clear H; intros ? H]
  | H : at_ _ _ ?s |- wp allowing ?s _ => eapply at_allowing; [exact H|clear H; intros ? H]
  | H : at_ _ _ ?s |- wp (expect _ _) ?s _ => unfold expect
  | |- wp (if bool_decide (?x = ?x) then _ else _) _ _ => rewrite (bool_decide_true (x = x)) by reflexivity
  end; cbn beta iota.
Ltac rds := repeat rd.
(** The call of a function known to eat. *)
Ltac use L := lazymatch goal with H : at_ _ _ ?s |- wp _ ?s _ => eapply L; [..|exact H|clear H; intros ? H]; cbn beta iota end.

Lemma eats_eq {A} (p : par A) pre l x pre1 l1 pre2 l2 : eats p pre l x pre1 l1 -> pre1 = pre2 -> l1 = l2 -> eats p pre l x pre2 l2.
Proof. by intros H -> ->. Qed.

(** * Loops *)
Definition goes {A B} (body : A -> par (A + B)) (a : A) (pre l : list token) (a' : A) (pre' l' : list token) : Prop :=
  forall s, at_ pre l s -> exists k s', at_ pre' l' s' /\ (length pre + k <= length pre')%nat
    /\ forall f, ploop (k + f) body a s = ploop f body a' s'.
Lemma goes_refl {A B} (body : A -> par (A + B)) a pre l : goes body a pre l a pre l.
Proof. intros s H. exists 0%nat, s. split; [done|]. split; [lia|done]. Qed.
Lemma goes_trans {A B} (body : A -> par (A + B)) a pre l a1 pre1 l1 a2 pre2 l2 :
  goes body a pre l a1 pre1 l1 -> goes body a1 pre1 l1 a2 pre2 l2 -> goes body a pre l a2 pre2 l2.
Proof.
  intros H1 H2 s H. destruct (H1 s H) as (k1 & s1 & A1 & L1 & E1). destruct (H2 s1 A1) as (k2 & s2 & A2 & L2 & E2).
  exists (k1 + k2)%nat, s2. split; [done|]. split; [lia|]. intros f. rewrite <- Nat.add_assoc, E1. apply E2.
Qed.
Lemma goes_one {A B} (body : A -> par (A + B)) a pre l a' pre' l' :
  eats (body a) pre l (inl a') pre' l' -> (length pre < length pre')%nat -> goes body a pre l a' pre' l'.
Proof.
  intros H Hl s Hs. destruct (H s (fun r s' => r = Some (inl a') /\ at_ pre' l' s') Hs) as (r & s' & E & -> & Hs'); [by auto|].
  exists 1%nat, s'. split; [done|]. split; [lia|]. intros f. cbn [Nat.add ploop]. unfold pbind. by rewrite E.
Qed.
Lemma goes_eq {A B} (body : A -> par (A + B)) a pre l a1 pre1 l1 a2 pre2 l2 :
  goes body a pre l a1 pre1 l1 -> a1 = a2 -> pre1 = pre2 -> l1 = l2 -> goes body a pre l a2 pre2 l2.
Proof. by intros H -> -> ->. Qed.
Lemma goes_out {A B} (body : A -> par (A + B)) a pre l a1 pre1 l1 b pre2 l2 :
  goes body a pre l a1 pre1 l1 -> eats (body a1) pre1 l1 (inr b) pre2 l2 -> eats (ploop (fuel ts) body a) pre l b pre2 l2.
Proof.
  intros H1 H2 s P Hs HP. destruct (H1 s Hs) as (k & s1 & A1 & L1 & E1).
  destruct (H2 s1 (fun r s' => r = Some (inr b) /\ at_ pre2 l2 s') A1) as (r & s' & E & -> & Hs'); [by auto|].
  exists (Some b), s'. split; [|by apply HP].
  pose proof (at_len _ _ _ A1) as Hn. unfold fuel.
  replace (2 * n + 32)%nat with (k + S (2 * n + 31 - k))%nat by lia. rewrite E1. cbn [ploop]. unfold pbind. by rewrite E.
Qed.

(** Blanks. *)
Lemma eats_ws pre w t l : blanks w -> ~ blank t -> eats (skip_ws ts) pre (w ++ t :: l) tt (pre ++ w) (t :: l).
Proof.
  intros Hw Ht. unfold skip_ws. eapply goes_out.
  - instantiate (1 := (t :: l)). instantiate (1 := pre ++ w). instantiate (1 := tt).
    revert pre. induction Hw as [|x w [c ->] _ IH]; intros pre.
    { rewrite app_nil_r. apply goes_refl. }
    eapply goes_trans; [|eapply goes_eq; [apply (IH (pre ++ [TWhitespace c]))|done|by rewrite <- app_assoc|done]].
    apply goes_one; [|rewrite app_length; cbn; lia]. intros s P H HP. cbn [app] in H. rds. by apply HP.
  - intros s P H HP. rd. rd. destruct t; try (exfalso; apply Ht; by eexists); rds; by apply HP.
Qed.
Lemma eats_expect pre t l : eats (expect ts t) pre (t :: l) t (pre ++ [t]) l.
Proof. intros s P H HP. rds. by apply HP. Qed.
Lemma fails_expect pre t x l : t <> x -> fails (expect ts x) pre (t :: l) (pre ++ [t]) l.
Proof. intros Hx s P H HP. rd. rd. rd. rewrite bool_decide_false by done. rd. by apply HP. Qed.

(** Decides a test of constants. *)
Ltac ev := repeat
  lazymatch goal with
  | |- wp (if ?c then _ else _) _ _ =>
      let b := eval vm_compute in c in
      lazymatch b with true => idtac | false => idtac end;
      replace c with b by (vm_compute; reflexivity); cbn beta iota
  end.
(** * Values *)
Definition stop (t : token) : Prop := t = TSemicolon \/ t = TRCurly \/ t = TRParen \/ t = TDelim 33.
Lemma stop_nonblank t : stop t -> ~ blank t.
Proof. by intros [->|[->|[->| ->]]] [c ?]. Qed.
Lemma gap_blanks sp : gap sp -> blanks sp.
Proof. intros [->|[c ->]]; [apply Forall_nil_2|]. apply Forall_cons. split; [by exists c|apply Forall_nil_2]. Qed.
Lemma value_nonblank d w v : value is_zero colour d w v -> exists t w', w = t :: w' /\ ~ blank t.
Proof. destruct 1; (eexists _, _; split; [reflexivity|by intros [? ?]]). Qed.

Notation seq_body d args := (fun l : list node =>
    do e <- eof drained;
    if e then ret (inr l) else
    do t <- consume_any ts;
    (match t with TWhitespace _ => ret tt | _ => CssParseModel.unread end);;
    do v <- value_with show ts drained d args;
    match v with Some v => ret (inl (l ++ [v])) | None => ret (inr l) end).

(** The end of a sequence. *)
Lemma seq_stop d args pre sp t l a :
  blanks sp -> stop t ->
  eats (seq_body d args a : par (list node + list node)) pre (sp ++ t :: l) (inr a) (pre ++ take 1 sp) (drop 1 sp ++ t :: l).
Proof.
  intros Hsp Ht s P H HP. destruct Hsp as [|x sp [c ->] Hsp]; cbn [app take drop] in *.
  - rewrite app_nil_r in HP. rd. rd. rd. rd. rd.
    replace (match t with TWhitespace _ => ret tt | _ => CssParseModel.unread end) with CssParseModel.unread
      by (destruct t; try done; exfalso; eapply stop_nonblank; [exact Ht|by eexists]).
    rd. rd. unfold value_with. rd. rd.
    destruct Ht as [->|[->|[->| ->]]]; cbn beta iota; rds; try (ev; rds); by apply HP.
  - rewrite take_0, drop_0 in HP. destruct Hsp as [|y sp [c' ->] Hsp]; cbn [app] in *; rds; unfold value_with; rds.
    + destruct Ht as [->|[->|[->| ->]]]; cbn beta iota; rds; try (ev; rds); by apply HP.
    + by apply HP.
Qed.
(** One value of a sequence. *)
Lemma seq_value d args pre sp t w l pre' l' x a :
  gap sp -> ~ blank t -> eats (value_with show ts drained d args) (pre ++ sp) (t :: w ++ l) (Some x) pre' l' ->
  eats (seq_body d args a : par (list node + list node)) pre (sp ++ (t :: w) ++ l) (inl (a ++ [x])) pre' l'.
Proof.
  intros [->|[c ->]] Ht Hv s P H HP; cbn [app] in *.
  - rewrite app_nil_r in Hv. rd. rd. rd. rd. rd.
    replace (match t with TWhitespace _ => ret tt | _ => CssParseModel.unread end) with CssParseModel.unread
      by (destruct t; try done; exfalso; apply Ht; by eexists).
    rd. rd. eapply Hv; [exact H|]. intros s1 H1. rds. by apply HP.
  - rd. rd. rd. rd. rd. rd. rd. eapply Hv; [exact H|]. intros s1 H1. rds. by apply HP.
Qed.

Scheme value_ind2 := Induction for value Sort Prop with values_ind2 := Induction for values Sort Prop.
Combined Scheme value_values_ind from value_ind2, values_ind2.

Lemma function_go nm a acc vs : map (value_of is_zero colour) a = map Some vs ->
  (fix go l acc := match l with
       | [] => Some (match colour nm acc with Some c => VColor c | None => VFunction nm acc end)
       | y :: l => match value_of is_zero colour y with Some v => go l (acc ++ [v]) | None => None end
       end) a acc = Some (match colour nm (acc ++ vs) with Some c => VColor c | None => VFunction nm (acc ++ vs) end).
Proof.
  revert acc vs. induction a as [|y a IH]; intros acc [|v vs]; cbn; try done; intros E.
  - by rewrite app_nil_r.
  - injection E as E1 E2. rewrite E1, (IH _ _ E2), <- app_assoc. done.
Qed.
Definition args_of (d : nat) : par (list node) := match d with O => fail | S d => value_sequence show ts drained d end.
Lemma value_sequence_eq d : value_sequence show ts drained d = sequence_with ts drained (value_with show ts drained d (args_of d)).
Proof. by destruct d. Qed.

Lemma values_read :
  (forall d w v, value is_zero colour d w v -> exists x, value_of is_zero colour x = Some v
     /\ forall pre l, eats (value_with show ts drained d (args_of d)) pre (w ++ l) (Some x) (pre ++ w) l) /\
  (forall d w vs, values is_zero colour d w vs -> exists xs, map (value_of is_zero colour) xs = map Some vs
     /\ forall a pre l, goes (seq_body d (args_of d) : list node -> par (list node + list node)) a pre (w ++ l) (a ++ xs) (pre ++ w) l).
Proof.
  apply (value_values_ind is_zero colour
    (fun d w v _ => exists x, value_of is_zero colour x = Some v
       /\ forall pre l, eats (value_with show ts drained d (args_of d)) pre (w ++ l) (Some x) (pre ++ w) l)
    (fun d w vs _ => exists xs, map (value_of is_zero colour) xs = map Some vs
       /\ forall a pre l, goes (seq_body d (args_of d) : list node -> par (list node + list node)) a pre (w ++ l) (a ++ xs) (pre ++ w) l)).
  - intros d v [H1 H2]. exists (NIdent v). split; [done|]. intros pre l s P H HP. unfold value_with. rd. rd.
    unfold value_name. rewrite H1. rds. rewrite H2. rds. by apply HP.
  - intros d v. exists (NString v). split; [done|]. intros pre l s P H HP. unfold value_with. rds. by apply HP.
  - intros d m Hz. exists (NNumber m). split; [cbn; by rewrite Hz|]. intros pre l s P H HP. unfold value_with. rds. by apply HP.
  - intros d m Hz. exists (NNumber m). split; [cbn; by rewrite Hz|]. intros pre l s P H HP. unfold value_with. rds. by apply HP.
  - intros d m. exists (NPercentage m). split; [done|]. intros pre l s P H HP. unfold value_with. rds. by apply HP.
  - intros d m u. exists (NDimension m u). split; [done|]. intros pre l s P H HP. unfold value_with. rds. by apply HP.
  - intros d v. exists (NHash v). split; [done|]. intros pre l s P H HP. unfold value_with. rds. by apply HP.
  - intros d. exists NComma. split; [done|]. intros pre l s P H HP. unfold value_with. rds. by apply HP.
  - intros d c Hc. exists (NOperator [c]). split; [done|]. intros pre l s P H HP. unfold value_with. cbn [app] in H. rd. rd.
    rewrite bool_decide_true by done. rd. rd. unfold parse_operator. rd. rd. rd. rewrite bool_decide_true.
    + rds. by apply HP.
    + rewrite !elem_of_cons in *. naive_solver.
  - intros d u. exists (NUrl u). split; [done|]. intros pre l s P H HP. unfold value_with. rds. by apply HP.
  - intros d v. exists (NString v). split; [done|]. intros pre l s P H HP. unfold value_with. rds. by apply HP.
  - intros d nm w vs sp (Hc & Hu & Ha) Hvs (xs & Exs & IH) Hsp. exists (NFunction nm xs). split.
    { cbn [value_of]. by rewrite (function_go _ _ [] _ Exs). }
    intros pre l s P H HP. unfold value_with. cbn [app] in H. rd. rd. rewrite Hc, Hu. rd. rd. rd. unfold function_with, consume_function.
    do 4 rd. rewrite (bool_decide_false (nm = txt "alpha")) by done. rd. unfold args_of. rewrite value_sequence_eq. unfold sequence_with.
    rewrite <- !app_assoc in H. cbn [app] in H.
    eapply (goes_out _ _ _ _ _ _ _ xs); [apply (IH [])|apply seq_stop; [by apply gap_blanks|by right; right; left]|exact H|].
    clear H. intros s1 H.
    replace (drop 1 sp ++ TRParen :: l) with (TRParen :: l) in H by by destruct Hsp as [->|[c ->]].
    replace (take 1 sp) with sp in H by by destruct Hsp as [->|[c ->]].
    rds. apply HP. rewrite <- !app_assoc in H. exact H.
  - intros d. exists []. split; [done|]. intros a pre l. rewrite !app_nil_r. apply goes_refl.
  - intros d sp w v l vs Hsp Hv (x & Ex & IHv) _ (xs & Exs & IHs). exists (x :: xs). split; [cbn; by rewrite Ex, Exs|].
    intros a pre r. destruct (value_nonblank _ _ _ Hv) as (t & w' & Ew & Ht).
    eapply goes_trans; [|eapply goes_eq; [apply (IHs (a ++ [x]) (pre ++ sp ++ w) r)|..]].
    + apply goes_one; [|rewrite Ew, !app_length; cbn; lia].
      replace ((sp ++ w ++ l) ++ r) with (sp ++ (t :: w') ++ l ++ r) by by rewrite Ew, <- !app_assoc.
      apply seq_value; [done|done|]. rewrite app_comm_cons, <- Ew. rewrite (app_assoc pre sp w). apply IHv.
    + by rewrite <- app_assoc.
    + by rewrite <- !app_assoc.
    + done.
Qed.

Ltac flat := repeat first [progress rewrite <- ?app_assoc | progress cbn [app]].
Ltac flat_in H := repeat first [progress rewrite <- ?app_assoc in H | progress cbn [app] in H].
Ltac here H := flat_in H; flat; exact H.
(** * Selectors *)
(** The token before is not the bar of a namespace. *)
Definition okpre (pre : list token) : Prop := last pre <> Some (TDelim 124).
Lemma okpre_app pre w : w <> [] -> okpre w -> okpre (pre ++ w).
Proof.
  destruct w as [|x w _] using rev_ind; [done|]. unfold okpre. intros _. by rewrite app_assoc, !last_snoc.
Qed.
Lemma okpre_blanks pre sp : okpre pre -> blanks sp -> okpre (pre ++ sp).
Proof.
  intros Hp Hs. destruct sp as [|x w _] using rev_ind; [by rewrite app_nil_r|]. apply okpre_app; [by destruct w|].
  apply Forall_app in Hs as [_ Hs]. apply Forall_cons in Hs as [[c ->] _]. unfold okpre. by rewrite last_snoc.
Qed.
Lemma simple_ok b w p : simple b w p -> w <> [] /\ okpre w.
Proof.
  destruct 1; (split; [done|]); try (unfold okpre; cbn; congruence).
  - rewrite !app_assoc. apply okpre_app; [done|]. unfold okpre. cbn. congruence.
  - rewrite !app_assoc. apply okpre_app; [done|]. unfold okpre. cbn. congruence.
Qed.
Lemma simple_head b w p : simple b w p -> exists t w', w = t :: w' /\ ~ blank t.
Proof. destruct 1; (eexists _, _; split; [reflexivity|by intros [? ?]]). Qed.
Lemma compound_ok b w ps : compound b w ps -> w <> [] /\ okpre w.
Proof.
  induction 1 as [b w p H|b b' w p w' ps H _ [IH1 IH2]]; [by eapply simple_ok|]. destruct (simple_ok _ _ _ H) as [H1 _].
  split; [by destruct w|]. by apply okpre_app.
Qed.
Lemma compound_head b w ps : compound b w ps -> exists t w', w = t :: w' /\ ~ blank t.
Proof. destruct 1 as [b w p H|b b' w p w' ps H _]; destruct (simple_head _ _ _ H) as (t & w1 & -> & Ht); by eexists _, _. Qed.
Lemma complex_head w ps : complex w ps -> exists t w', w = t :: w' /\ ~ blank t.
Proof.
  destruct 1 as [b w ps H|w ps sp w' ps' H|b w ps s1 c k s2 w' ps' H];
    destruct (compound_head _ _ _ H) as (t & w1 & -> & Ht); by eexists _, _.
Qed.
Lemma selectors_head w g : selectors w g -> exists t w', w = t :: w' /\ ~ blank t.
Proof. destruct 1 as [w ps H|w ps sp w' g H]; destruct (complex_head _ _ H) as (t & w1 & -> & Ht); by eexists _, _. Qed.

Section sel.
Context (f : str -> par node).
Definition sel_body : (list node * bool * bool) -> par (list node * bool * bool + list node) := fun '(l, space, skip) =>
    do e <- eof drained;
    if e then ret (inr l) else
    do t <- consume_any ts;
    match t with
    | TWhitespace _ => ret (inl (l, if skip : bool then space else true, skip))
    | _ =>
        do x <- simple_selector lower ts f t;
        match x with
        | None => ret (inr l)
        | Some x =>
            let space := space && negb (is_combinator t) in
            ret (inl (l ++ (if space : bool then [NCombinator [32]] else []) ++ [x], false,
                      match t with TComma => true | _ => false end))
        end
    end.
Definition spaced (space : bool) : list node := if space then [NCombinator [32]] else [].

Lemma blanks_goes pre sp l a space skip : blanks sp ->
  goes sel_body (a, space, skip) pre (sp ++ l) (a, match sp with [] => space | _ => if skip then space else true end, skip) (pre ++ sp) l.
Proof.
  intros H. revert pre space. induction H as [|x sp [c ->] _ IH]; intros pre space.
  { rewrite app_nil_r. apply goes_refl. }
  eapply goes_trans; [|eapply goes_eq; [apply (IH (pre ++ [TWhitespace c]))|..]].
  - apply goes_one; [|rewrite app_length; cbn; lia]. intros s P H HP. unfold sel_body. cbn [app] in H. rds. by apply HP.
  - by destruct sp, skip.
  - by rewrite <- app_assoc.
  - done.
Qed.
(** A token that begins a simple selector. *)
Lemma simple_step pre t l a space skip x pre' l' :
  ~ blank t -> is_combinator t = false -> t <> TComma ->
  eats (simple_selector lower ts f t) (pre ++ [t]) l (Some x) pre' l' ->
  eats (sel_body (a, space, skip)) pre (t :: l) (inl (a ++ spaced space ++ [x], false, false)) pre' l'.
Proof.
  intros Hb Hc Hk Hx s P H HP. unfold sel_body. rd. rd. rd. rd.
  destruct t; try done; try (exfalso; apply Hb; by eexists); rd; (eapply Hx; [exact H|]; intros s1 H1; rewrite ?Hc; cbn beta iota; rewrite andb_true_r; rds; by apply HP).
Qed.
Lemma attr_operator_head o m : attr_operator o m -> exists c o', o = TDelim c :: o' /\ c ∈ [61; 126; 124; 94; 36; 42] /\ ((c = 61 /\ o' = []) \/ (c <> 61 /\ o' = [TDelim 61])).
Proof.
  destruct 1; (eexists _, _; split; [reflexivity|]; split; [rewrite !elem_of_cons; tauto|]; (by left) || (by right)).
Qed.
Definition op_text (o : list token) : str := map (fun t => match t with TDelim c => c | _ => 0 end) o.
Lemma op_text_of o m : attr_operator o m -> matcher_of (Some (op_text o)) = m.
Proof. by destruct 1. Qed.
Lemma operator_read o m pre l : attr_operator o m -> eats (attribute_operator ts) pre (o ++ l) (op_text o) (pre ++ o) l.
Proof.
  intros Ho s P H HP. unfold attribute_operator, consume_any_delim, consume_delim.
  destruct Ho; cbn [app op_text map] in *; rds; ev; rds; (rewrite <- ?app_assoc in H; by apply HP) || idtac.
Qed.
End sel.

Section sel.
Context (f : str -> par node).
Notation sel_body := (sel_body f).
Notation simple_selector := (simple_selector lower ts f).

Lemma attr_text_nonblank v t : attr_text v t -> ~ blank t.
Proof. by destruct 1; intros [? ?]. Qed.
Lemma attr_value_read v t pre l : attr_text v t -> eats (attribute_value ts) pre (t :: l) v (pre ++ [t]) l.
Proof. intros Ht s P H HP. unfold attribute_value, consume_any_string, consume_any_ident. destruct Ht; rds; by apply HP. Qed.
Definition flag_text (fl : list token) : str := match fl with TIdent v :: _ => v | _ => [] end.
Lemma has_attr_read nm w1 w2 pre sp t r :
  blanks w1 -> blanks w2 -> blanks sp -> ~ blank t ->
  eats (attribute_selector ts) pre (([TLBracket] ++ w1 ++ [TIdent nm] ++ w2 ++ [TRBracket]) ++ sp ++ t :: r)
    (NAttr nm None [] []) (pre ++ ([TLBracket] ++ w1 ++ [TIdent nm] ++ w2 ++ [TRBracket]) ++ sp) (t :: r).
Proof.
  intros H1 H2 Hs Ht s P H HP. unfold attribute_selector, consume_any_ident. rewrite <- !app_assoc in H. cbn [app] in H.
  rds. use eats_ws; [done|by intros [? ?]|]. rds. use eats_ws; [done|by intros [? ?]|]. rds.
  use eats_ws; [done|done|]. rds. apply HP. here H.
Qed.
Lemma flag_text_of fl ci : attr_flag fl ci -> same_ignoring_case (flag_text fl) (txt "i") = ci.
Proof. by destruct 1. Qed.
Lemma attr_read nm w1 w2 o m w3 v tv w4 fl ci pre sp t r :
  blanks w1 -> blanks w2 -> attr_operator o m -> blanks w3 -> attr_text v tv -> blanks w4 -> attr_flag fl ci ->
  blanks sp -> ~ blank t ->
  eats (attribute_selector ts) pre (([TLBracket] ++ w1 ++ [TIdent nm] ++ w2 ++ o ++ w3 ++ [tv] ++ w4 ++ fl ++ [TRBracket]) ++ sp ++ t :: r)
    (NAttr nm (Some (op_text o)) v (flag_text fl))
    (pre ++ ([TLBracket] ++ w1 ++ [TIdent nm] ++ w2 ++ o ++ w3 ++ [tv] ++ w4 ++ fl ++ [TRBracket]) ++ sp) (t :: r).
Proof.
  intros H1 H2 Ho H3 Hv H4 Hf Hs Ht s P H HP. unfold attribute_selector. unfold consume_any_ident at 1.
  rewrite <- !app_assoc in H. cbn [app] in H.
  rds. use eats_ws; [done|by intros [? ?]|]. rds.
  destruct (attr_operator_head _ _ Ho) as (c & o' & Eo & _).
  assert (Ea : w2 ++ o ++ w3 ++ tv :: w4 ++ fl ++ TRBracket :: sp ++ t :: r = w2 ++ TDelim c :: (o' ++ w3 ++ tv :: w4 ++ fl ++ TRBracket :: sp ++ t :: r))
    by by rewrite Eo. rewrite Ea in H. clear Ea.
  use eats_ws; [done|by intros [? ?]|].
  rds. rewrite (bool_decide_false (TDelim c = TRBracket)) by done. rds.
  replace (TDelim c :: o' ++ w3 ++ tv :: w4 ++ fl ++ TRBracket :: sp ++ t :: r) with (o ++ w3 ++ tv :: w4 ++ fl ++ TRBracket :: sp ++ t :: r) in H by by rewrite Eo.
  use operator_read; [exact Ho|]. rds. use eats_ws; [done|by eapply attr_text_nonblank|]. rds.
  use attr_value_read; [exact Hv|]. rds.
  destruct Hf as [|w Hw|w Hw]; cbn [app flag_text] in *.
  - use eats_ws; [done|by intros [? ?]|]. rds. use eats_ws; [done|done|]. rds. apply HP. here H.
  - use eats_ws; [done|by intros [? ?]|]. unfold consume_any_ident. rds. use eats_ws; [done|by intros [? ?]|]. rds.
    use eats_ws; [done|done|]. rds. apply HP. here H.
  - use eats_ws; [done|by intros [? ?]|]. unfold consume_any_ident. rds. use eats_ws; [done|by intros [? ?]|]. rds.
    use eats_ws; [done|done|]. rds. apply HP. here H.
Qed.

Lemma simple_read b w p : simple b w p ->
  exists x, part_of show x = Some p /\ x <> NComma /\
  forall pre sp t r a space skip, okpre pre -> blanks sp -> ~ blank t ->
    goes sel_body (a, space, skip) pre (w ++ sp ++ t :: r)
      (a ++ spaced space ++ [x], false, false) (pre ++ w ++ (if b then sp else [])) ((if b then [] else sp) ++ t :: r).
Proof.
  destruct 1 as [v| |v|v|v|v|nm w1 w2 H1 H2|nm w1 w2 o m w3 v tv w4 fl ci H1 H2 Ho H3 Hv H4 Hf].
  - exists (NIdent v). split; [done|]. split; [done|]. intros pre sp t r a space skip Hpre Hsp Ht.
    apply goes_one; [|rewrite app_length; cbn; lia]. cbn [app]. apply simple_step; [by intros [? ?]|done|done|].
    intros s P H HP. cbn [CssParseModel.simple_selector]. rds. by apply HP.
  - exists (NType None [42]). split; [done|]. split; [done|]. intros pre sp t r a space skip Hpre Hsp Ht.
    apply goes_one; [|rewrite app_length; cbn; lia]. cbn [app]. apply simple_step; [by intros [? ?]|done|done|].
    intros s P H HP. cbn [CssParseModel.simple_selector]. ev. rds. unfold type_selector. rd. use at_current.
    rewrite bool_decide_false by (unfold okpre in Hpre; destruct (last pre); cbn; congruence).
    rd. unfold ident_or_asterisk. rds. use at_current. rewrite last_snoc. cbn [default from_option id]. ev. rds. by apply HP.
  - exists (NClass v). split; [done|]. split; [done|]. intros pre sp t r a space skip Hpre Hsp Ht.
    apply goes_one; [|rewrite app_length; cbn; lia]. cbn [app]. apply simple_step; [by intros [? ?]|done|done|].
    intros s P H HP. cbn [CssParseModel.simple_selector]. ev. rds. unfold class_selector, consume_any_ident. rds. rewrite <- app_assoc in H. by apply HP.
  - exists (NId v). split; [done|]. split; [done|]. intros pre sp t r a space skip Hpre Hsp Ht.
    apply goes_one; [|rewrite app_length; cbn; lia]. cbn [app]. apply simple_step; [by intros [? ?]|done|done|].
    intros s P H HP. cbn [CssParseModel.simple_selector]. rds. by apply HP.
  - exists (NPseudoClass (NIdent v)). split; [done|]. split; [done|]. intros pre sp t r a space skip Hpre Hsp Ht.
    apply goes_one; [|rewrite app_length; cbn; lia]. cbn [app]. apply simple_step; [by intros [? ?]|done|done|].
    intros s P H HP. cbn [CssParseModel.simple_selector]. rds. rewrite bool_decide_false by done. unfold pseudo_selector. rds. rewrite <- app_assoc in H. by apply HP.
  - exists (NPseudoElement v). split; [done|]. split; [done|]. intros pre sp t r a space skip Hpre Hsp Ht.
    apply goes_one; [|rewrite app_length; cbn; lia]. cbn [app]. apply simple_step; [by intros [? ?]|done|done|].
    intros s P H HP. cbn [CssParseModel.simple_selector]. rds. unfold pseudo_element. rds. rewrite <- !app_assoc in H. by apply HP.
  - exists (NAttr nm None [] []). split; [done|]. split; [done|]. intros pre sp t r a space skip Hpre Hsp Ht.
    apply goes_one; [|rewrite app_length; cbn; lia]. rewrite <- !app_assoc. cbn [app]. apply simple_step; [by intros [? ?]|done|done|].
    intros s P H HP. cbn [CssParseModel.simple_selector]. rds. flat_in H; eapply (has_attr_read nm w1 w2 pre sp t r); [done..|by flat|clear H; intros ? H]; cbn beta iota. rds. apply HP. here H.
  - exists (NAttr nm (Some (op_text o)) v (flag_text fl)). split; [cbn [part_of]; by rewrite (op_text_of _ _ Ho), (flag_text_of _ _ Hf)|]. split; [done|]. intros pre sp t r a space skip Hpre Hsp Ht.
    apply goes_one; [|rewrite app_length; cbn; lia]. rewrite <- !app_assoc. cbn [app]. apply simple_step; [by intros [? ?]|done|done|].
    intros s P H HP. cbn [CssParseModel.simple_selector]. rds. flat_in H; eapply (attr_read nm w1 w2 o m w3 v tv w4 fl ci pre sp t r); [done..|by flat|clear H; intros ? H]; cbn beta iota. rds. apply HP. here H.
Qed.
End sel.

Section sel.
Context (f : str -> par node).
Notation sel_body := (sel_body f).

(** What a run of selector nodes says. *)
Definition says (xs : list node) (ps : list part) : Prop :=
  map (part_of show) xs = map Some ps /\ Forall (fun x => x <> NComma) xs.
Lemma says_app xs ps ys qs : says xs ps -> says ys qs -> says (xs ++ ys) (ps ++ qs).
Proof. intros [H1 H2] [H3 H4]. split; [rewrite !map_app; congruence|by apply Forall_app]. Qed.
Lemma says_one x p : part_of show x = Some p -> x <> NComma -> says [x] [p].
Proof. intros H1 H2. split; [cbn; by rewrite H1|by apply Forall_singleton]. Qed.
Lemma says_groups xs ps dn cur ys : says xs ps -> groups_of show (xs ++ ys) dn cur = groups_of show ys dn (cur ++ ps).
Proof.
  intros [H1 H2]. revert ps cur H1. induction H2 as [|x xs Hx H2 IH]; intros [|p ps] cur H1; try done.
  - by rewrite app_nil_r.
  - cbn [map] in H1. injection H1 as E1 E2. cbn [app]. transitivity (groups_of show (xs ++ ys) dn (cur ++ [p])).
    + destruct x; try done; cbn [groups_of]; by rewrite E1.
    + rewrite (IH _ _ E2), <- app_assoc. done.
Qed.

Lemma compound_read b w ps : compound b w ps ->
  exists xs, says xs ps /\
  forall pre sp t r a space skip, okpre pre -> blanks sp -> ~ blank t ->
    goes sel_body (a, space, skip) pre (w ++ sp ++ t :: r)
      (a ++ spaced space ++ xs, false, false) (pre ++ w ++ (if b then sp else [])) ((if b then [] else sp) ++ t :: r).
Proof.
  induction 1 as [b w p H|b b' w p w' ps H Hc (ys & Sy & IH)]; destruct (simple_read f _ _ _ H) as (x & Ex & Cx & Rx).
  - exists [x]. split; [by apply says_one|]. exact Rx.
  - exists (x :: ys). split; [apply (says_app [x] [p]); [by apply says_one|done]|]. intros pre sp t r a space skip Hpre Hsp Ht.
    destruct (compound_head _ _ _ Hc) as (t' & w1 & Ew & Ht').
    eapply goes_trans.
    + replace ((w ++ w') ++ sp ++ t :: r) with (w ++ [] ++ t' :: (w1 ++ sp ++ t :: r)) by (rewrite Ew; by flat).
      apply (Rx pre [] t' (w1 ++ sp ++ t :: r)); [done|apply Forall_nil_2|done].
    + eapply goes_eq; [|reflexivity|reflexivity|reflexivity].
      replace ((if b then [] else []) ++ t' :: w1 ++ sp ++ t :: r) with (w' ++ sp ++ t :: r) by (rewrite Ew; by destruct b).
      replace (if b then [] else [] : list token) with ([] : list token) by by destruct b. rewrite app_nil_r.
      eapply goes_eq; [apply IH; [|done|done]|..].
      * destruct (simple_ok _ _ _ H). by apply okpre_app.
      * cbn [spaced]. f_equal. f_equal. by flat.
      * by flat.
      * done.
Qed.
Lemma symbol_of c k : symbol c k -> part_of show (NCombinator [c]) = Some (PCombinator k) /\ c ∈ [43; 62; 126; 47]
  /\ c <> 124 /\ (c = 43 \/ c = 62 \/ c = 126).
Proof. destruct 1; (split; [done|]); (split; [rewrite !elem_of_cons; tauto|]); by auto. Qed.
Lemma symbol_step c k pre s2 t r a space skip : symbol c k -> blanks s2 -> ~ blank t ->
  goes sel_body (a, space, skip) pre (TDelim c :: s2 ++ t :: r) (a ++ [NCombinator [c]], false, false) (pre ++ TDelim c :: s2) (t :: r).
Proof.
  intros Hc Hs Ht. destruct (symbol_of _ _ Hc) as (_ & Hin & _ & Hc').
  apply goes_one; [|rewrite app_length; cbn; lia]. intros s P H HP. unfold sel_body.
  rd. rd. rd. rd. rd. cbn [CssParseModel.simple_selector is_combinator]. rewrite (bool_decide_true (c ∈ _)) by done.
  cbn beta iota zeta. rd. rd. rd. unfold parse_combinator. rd. rd. rd.
  destruct Hc' as [->|[->| ->]]; rds; (use eats_ws; [done|done|]); rds; cbn [negb]; rewrite andb_false_r; rds; apply HP; here H.
Qed.

Lemma complex_read w ps : complex w ps ->
  exists xs b, says xs ps /\ w <> [] /\ okpre w /\
  forall pre sp t r a space skip, okpre pre -> blanks sp -> ~ blank t ->
    goes sel_body (a, space, skip) pre (w ++ sp ++ t :: r)
      (a ++ spaced space ++ xs, false, false) (pre ++ w ++ (if b : bool then sp else [])) ((if b then [] else sp) ++ t :: r).
Proof.
  induction 1 as [b w ps H|w ps sp1 w' ps' H Hs1 Hne Hc (ys & b' & Sy & Ny & Oy & IH)
                 |b w ps s1 c k s2 w' ps' H Hs1 Hk Hs2 Hc (ys & b' & Sy & Ny & Oy & IH)];
    destruct (compound_read _ _ _ H) as (xs & Sx & Rx); destruct (compound_ok _ _ _ H) as [Nw Ow].
  - exists xs, b. done.
  - exists (xs ++ NCombinator [32] :: ys), b'. split; [|split; [by destruct w|split; [by rewrite app_assoc; apply okpre_app|]]].
    { apply says_app; [done|]. apply (says_app [_] [_]); [by apply says_one|done]. }
    intros pre sp t r a space skip Hpre Hsp Ht. destruct (complex_head _ _ Hc) as (t' & w1 & Ew & Ht').
    eapply goes_trans; [|eapply goes_trans].
    + replace ((w ++ sp1 ++ w') ++ sp ++ t :: r) with (w ++ sp1 ++ t' :: (w1 ++ sp ++ t :: r)) by (rewrite Ew; by flat).
      apply (Rx pre sp1 t' (w1 ++ sp ++ t :: r)); done.
    + cbn beta iota. apply blanks_goes. done.
    + replace (t' :: w1 ++ sp ++ t :: r) with (w' ++ sp ++ t :: r) by by rewrite Ew.
      replace (match sp1 with [] => false | _ => true end) with true by by destruct sp1.
      eapply goes_eq; [apply IH; [|done|done]|..].
      * apply okpre_blanks; [|done]. rewrite app_nil_r. by apply okpre_app.
      * cbn [spaced]. f_equal. f_equal. by flat.
      * by flat.
      * done.
  - destruct (symbol_of _ _ Hk) as (Ek & _ & Hb & _).
    exists (xs ++ NCombinator [c] :: ys), b'. split; [|split; [by destruct w|split; [by rewrite !app_assoc; apply okpre_app|]]].
    { apply says_app; [done|]. apply (says_app [_] [_]); [by apply says_one|done]. }
    intros pre sp t r a space skip Hpre Hsp Ht. destruct (complex_head _ _ Hc) as (t' & w1 & Ew & Ht').
    eapply goes_trans; [|eapply goes_trans; [|eapply goes_trans]].
    + replace ((w ++ s1 ++ [TDelim c] ++ s2 ++ w') ++ sp ++ t :: r) with (w ++ s1 ++ TDelim c :: (s2 ++ t' :: w1 ++ sp ++ t :: r)) by (rewrite Ew; by flat).
      apply Rx; [done|done|by intros [? ?]].
    + apply (blanks_goes f _ (if b then [] else s1)). by destruct b; [apply Forall_nil_2|].
    + apply (symbol_step c k); done.
    + replace (t' :: w1 ++ sp ++ t :: r) with (w' ++ sp ++ t :: r) by by rewrite Ew.
      eapply goes_eq; [apply IH; [|done|done]|..].
      * change (TDelim c :: s2) with ([TDelim c] ++ s2). rewrite app_assoc. apply okpre_blanks; [|done]. apply okpre_app; [done|]. unfold okpre. cbn. congruence.
      * cbn [spaced]. f_equal. f_equal. by flat.
      * destruct b; by flat.
      * done.
Qed.

Lemma comma_step pre l a skip : goes sel_body (a, false, skip) pre (TComma :: l) (a ++ [NComma], false, true) (pre ++ [TComma]) l.
Proof.
  apply goes_one; [|rewrite app_length; cbn; lia]. intros s P H HP. unfold sel_body. rds. cbn [CssParseModel.simple_selector]. rds. cbn [andb negb]. rds. by apply HP.
Qed.
(** A token that ends the selectors. *)
Definition ends (t : token) : Prop := t = TLCurly \/ no_selector t.
Lemma ends_nonblank t : ends t -> ~ blank t.
Proof. by intros [->|H] [c E]; [|subst t]. Qed.
Lemma ends_step pre t r a space skip : ends t -> eats (sel_body (a, space, skip)) pre (t :: r) (inr a) pre (t :: r).
Proof.
  intros He s P H HP. unfold sel_body. rd. rd. rd. rd.
  destruct He as [->|He]; [cbn [CssParseModel.simple_selector]; rds; by apply HP|].
  destruct t; try done; cbn [CssParseModel.simple_selector]; rds; try by apply HP.
  cbn [no_selector] in He. rewrite !bool_decide_false by (rewrite !elem_of_cons in *; tauto).
  replace (_ =? 46) with false by (symmetry; apply N.eqb_neq; intros ->; apply He; rewrite !elem_of_cons; tauto).
  replace (_ =? 35) with false by (symmetry; apply N.eqb_neq; intros ->; apply He; rewrite !elem_of_cons; tauto).
  replace (_ =? 38) with false by (symmetry; apply N.eqb_neq; intros ->; apply He; rewrite !elem_of_cons; tauto).
  cbn beta iota. rds. by apply HP.
Qed.
Lemma selectors_read w g : selectors w g ->
  exists xs b, (forall dn, groups_of show xs dn [] = Some (dn ++ g)) /\
  forall pre sp t r a skip, okpre pre -> blanks sp -> ~ blank t ->
    goes sel_body (a, false, skip) pre (w ++ sp ++ t :: r)
      (a ++ xs, false, false) (pre ++ w ++ (if b : bool then sp else [])) ((if b then [] else sp) ++ t :: r).
Proof.
  induction 1 as [w ps H|w ps sp1 w' g H Hs1 Hg (ys & b' & Gy & IH)]; destruct (complex_read _ _ H) as (xs & b & Sx & Nw & Ow & Rx).
  - exists xs, b. split.
    + intros dn. rewrite <- (app_nil_r xs), (says_groups _ _ _ _ _ Sx). done.
    + intros pre sp t r a skip Hpre Hsp Ht. exact (Rx pre sp t r a false skip Hpre Hsp Ht).
  - exists (xs ++ NComma :: ys), b'. split.
    + intros dn. rewrite (says_groups _ _ _ _ _ Sx). cbn [groups_of app]. by rewrite Gy, <- app_assoc.
    + intros pre sp t r a skip Hpre Hsp Ht. destruct (selectors_head _ _ Hg) as (t' & w1 & Ew & Ht').
      eapply goes_trans; [|eapply goes_trans; [|eapply goes_trans]].
      * replace ((w ++ [TComma] ++ sp1 ++ w') ++ sp ++ t :: r) with (w ++ [] ++ TComma :: (sp1 ++ w' ++ sp ++ t :: r)) by by flat.
        apply (Rx pre [] TComma (sp1 ++ w' ++ sp ++ t :: r)); [done|apply Forall_nil_2|by intros [? ?]].
      * replace ((if b then [] else []) ++ TComma :: sp1 ++ w' ++ sp ++ t :: r) with (TComma :: sp1 ++ w' ++ sp ++ t :: r) by by destruct b.
        apply comma_step.
      * eapply (goes_eq _ _ _ _ _ _ _ (_, false, true)); [apply (blanks_goes f _ sp1); done|by destruct sp1|reflexivity|reflexivity].
      * eapply goes_eq; [apply IH; [|done|done]|..].
        -- apply okpre_blanks; [|done]. apply okpre_app; [done|]. unfold okpre. cbn. congruence.
        -- cbn [spaced]. f_equal. f_equal. by flat.
        -- destruct b; by flat.
        -- done.
Qed.
End sel.

Lemma selector_list_read d w g : selectors w g ->
  exists xs, groups_of show xs [] [] = Some g /\
  forall pre sp t r, okpre pre -> blanks sp -> ends t ->
    eats (selector_list show lower ts drained d) pre (w ++ sp ++ t :: r) (NSelectorList [NSelector xs]) (pre ++ w ++ sp) (t :: r).
Proof.
  intros H.
  assert (Hs : exists f, selector show lower ts drained d = selector_with lower ts drained f) by (destruct d; by eexists).
  destruct Hs as [f Ef]. destruct (selectors_read f _ _ H) as (xs & b & G & R). exists xs. split; [exact (G [])|].
  intros pre sp t r Hpre Hsp Ht s P A HP. unfold selector_list, selector_list_with. rewrite Ef. rd.
  assert (Hh : exists t1 r1, w ++ sp ++ t :: r = t1 :: r1).
  { destruct (selectors_head _ _ H) as (t1 & w1 & -> & _). by eexists _, _. }
  destruct Hh as (t1 & r1 & E1).
  eapply (goes_out _ [] _ _ [] pre (w ++ sp ++ t :: r) [NSelector xs] (pre ++ w ++ sp) (t :: r)); [apply goes_refl| |exact A|].
  - clear s P A HP. intros s P A HP. rewrite E1 in A. rd. rd. rd. rewrite <- E1 in A. unfold selector_with. rd.
    eapply (goes_out (sel_body f) ([], false, false) pre _ (xs, match (if b then [] else sp) with [] => false | _ => true end, false) (pre ++ w ++ sp) (t :: r) xs (pre ++ w ++ sp) (t :: r)); [|by apply ends_step|exact A|].
    + eapply goes_trans; [apply (R pre sp t r [] false); [done|done|by apply ends_nonblank]|].
      eapply goes_eq; [apply (blanks_goes f _ (if b then [] else sp)); by destruct b; [apply Forall_nil_2|]|done| |done].
      destruct b; flat; by rewrite ?app_nil_r.
    + clear A. intros s1 A. rds. destruct Ht as [->|Ht]; [rds; by apply HP|]. destruct t; try done; rds; by apply HP.
  - clear A. intros s1 A. rds. by apply HP.
Qed.

(** * Declarations *)
(** What [starts_nested_rule] sees. *)
Fixpoint scan (depth : nat) (l : list token) : bool :=
  match l with
  | [] => false
  | t :: l =>
      if opens t then scan (S depth) l
      else if closes t then scan (pred depth) l
      else match t with
      | TLCurly => if (depth =? 0)%nat then true else scan depth l
      | TSemicolon | TRCurly => if (depth =? 0)%nat then false else scan depth l
      | TEof => false
      | _ => scan depth l
      end
  end.
Ltac again IH := rds; eapply IH; [lia|lia|lia|eassumption|done].
Lemma nested_read pre l : eats (starts_nested_rule ts) pre l (scan 0 l) pre l.
Proof.
  assert (Gen : forall k depth i f s (P : option bool -> pst -> Prop), (length l - i = k)%nat -> (i <= length l)%nat -> (k < f)%nat ->
    at_ pre l s -> (forall s', at_ pre l s' -> P (Some (scan depth (drop i l))) s') ->
    wp (ploop f (fun '(depth, i) =>
    do t <- look ts i;
    if opens t then ret (inl (S depth, S i))
    else if closes t then ret (inl (pred depth, S i))
    else match t with
    | TLCurly => if (depth =? 0)%nat then ret (inr true) else ret (inl (depth, S i))
    | TSemicolon | TRCurly => if (depth =? 0)%nat then ret (inr false) else ret (inl (depth, S i))
    | TEof => ret (inr false)
    | _ => ret (inl (depth, S i))
    end) (depth, i)) s P).
  { induction k as [|k IH]; intros depth i [|f] s P Hk Hi Hf H HP; try lia; cbn [ploop]; rd; rd;
      (eapply at_look; [by right|exact H|clear H; intros s1 H]).
    - rewrite lookup_ge_None_2 by lia. cbn [default from_option id opens closes]. rds. rewrite drop_ge in HP by lia. by apply HP.
    - destruct (lookup_lt_is_Some_2 l i ltac:(lia)) as [t Et]. rewrite Et. cbn [default from_option id].
      rewrite (drop_S _ _ _ Et) in HP. cbn [scan] in HP.
      destruct (opens t); [again IH|]. destruct (closes t); [again IH|].
      destruct t; try (again IH); try (destruct (depth =? 0)%nat; rds; [by apply HP|again IH]).
      rds. by apply HP. }
  intros s P H HP. unfold starts_nested_rule. eapply (Gen (length l)); [lia|lia| |exact H|exact HP].
  pose proof (at_len _ _ _ H). unfold fuel. lia.
Qed.
Lemma scan_dull d l r : Forall dull l -> scan d (l ++ r) = scan d r.
Proof. induction 1 as [|t l Ht _ IH]; [done|]. destruct t; try done; cbn; apply IH. Qed.
Lemma blanks_dull w : blanks w -> Forall dull w.
Proof. intros H. eapply Forall_impl; [exact H|]. by intros ? [c ->]. Qed.
Lemma scan_values :
  (forall d w v, value is_zero colour d w v -> forall k r, scan k (w ++ r) = scan k r) /\
  (forall d w vs, values is_zero colour d w vs -> forall k r, scan k (w ++ r) = scan k r).
Proof.
  apply (value_values_ind is_zero colour (fun d w v _ => forall k r, scan k (w ++ r) = scan k r) (fun d w vs _ => forall k r, scan k (w ++ r) = scan k r)); try done.
  - intros d nm w vs sp _ _ IH Hsp k r. flat. cbn [scan opens]. rewrite IH, scan_dull by (by apply blanks_dull, gap_blanks). done.
  - intros d sp w v l vs Hsp _ IHv _ IHl k r. flat. by rewrite scan_dull, IHv, IHl by (by apply blanks_dull, gap_blanks).
Qed.
Lemma scan_declaration d w x r : declaration is_zero colour d w x -> scan 0 (w ++ r) = scan 0 r.
Proof.
  destruct 1 as [p w1 w2 w v l vs sp im i Hp H1 H2 Hv Hl Hsp Him]. flat. cbn [scan opens closes].
  rewrite scan_dull by by apply blanks_dull. cbn [scan opens closes]. rewrite scan_dull by by apply blanks_dull.
  rewrite (proj1 scan_values _ _ _ Hv), (proj2 scan_values _ _ _ Hl).
  destruct Him; cbn [app scan opens closes]; [done|]. rewrite scan_dull by by apply blanks_dull, gap_blanks. done.
Qed.

(** The end of a declaration. *)
Definition over (t : token) : Prop := t = TSemicolon \/ t = TRCurly.
Lemma over_stop t : over t -> stop t.
Proof. intros [->| ->]; [by left|by right; left]. Qed.
Lemma eats_ws0 pre t l : ~ blank t -> eats (skip_ws ts) pre (t :: l) tt pre (t :: l).
Proof. intros Ht. eapply eats_eq; [apply (eats_ws pre [] t l); [apply Forall_nil_2|done]|apply app_nil_r|done]. Qed.
Lemma declaration_read d w x : declaration is_zero colour d w x ->
  exists nd, (forall l, declarations_of is_zero colour (nd :: l) = x :: declarations_of is_zero colour l) /\
  forall pre sp t r, blanks sp -> over t -> exists sp1 sp2, sp = sp1 ++ sp2 /\
    eats (parse_declaration show ignore ts drained d) pre (w ++ sp ++ t :: r) (Some nd) (pre ++ w ++ sp1) (sp2 ++ t :: r).
Proof.
  destruct 1 as [p w1 w2 w v l vs sp im i Hp H1 H2 Hv Hl Hsp Him].
  assert (Hvs : values is_zero colour d (w ++ l) (v :: vs)).
  { apply (vs_more _ _ d []); [by left|done|done]. }
  destruct (proj2 values_read _ _ _ Hvs) as (xs & Exs & Rxs). exists (NDecl p xs i). split.
  { intros r. cbn [declarations_of]. replace (omap (value_of is_zero colour) xs) with (v :: vs); [done|].
    revert Exs. clear Rxs. generalize (v :: vs). induction xs as [|y ys IH]; intros [|u us] E; try done. cbn in E |- *. injection E as E1 E2. rewrite E1. f_equal. by apply IH. }
  assert (Nxs : xs <> []) by by destruct xs.
  destruct (value_nonblank _ _ _ Hv) as (t0 & w0 & Ew & Ht0).
  intros pre sp' t r Hsp' Ht. destruct Him.
  - exists (take 1 sp'), (drop 1 sp'). split; [by rewrite take_drop|]. intros s P H HP. flat_in H.
    unfold parse_declaration, declaration_internal, consume_any_ident. rds. rewrite Hp. use eats_ws; [done|by intros [? ?]|]. rds.
    rewrite Ew in H. flat_in H. use eats_ws; [done|done|]. rds. use eats_ws0; [done|].
    rd. rewrite value_sequence_eq. unfold sequence_with.
    eapply (goes_out _ [] _ _ xs _ _ xs); [|apply (seq_stop d (args_of d) _ sp' t r); [done|by apply over_stop]| |].
    { eapply goes_eq; [apply (Rxs [])|reflexivity|reflexivity|reflexivity]. }
    { rewrite Ew. flat. exact H. }
    clear H. intros s1 H. rd. destruct xs as [|y ys]; [done|]. rds.
    destruct (drop 1 sp' ++ t :: r) as [|t2 r2] eqn:E2; [by destruct (drop 1 sp')|]. rds.
    rewrite bool_decide_false. 2: { intros ->. destruct (drop 1 sp') as [|u us] eqn:Ed; cbn [app] in E2; injection E2 as E2 _.
      - destruct Ht; congruence. - assert (B : blanks (u :: us)) by (rewrite <- Ed; by apply Forall_drop). apply Forall_cons in B as [[c ->] _]. done. }
    rds. apply HP. here H.
  - exists sp', []. split; [by rewrite app_nil_r|]. intros s P H HP. flat_in H.
    unfold parse_declaration, declaration_internal, consume_any_ident. rds. rewrite Hp. use eats_ws; [done|by intros [? ?]|]. rds.
    rewrite Ew in H. flat_in H. use eats_ws; [done|done|]. rds. use eats_ws0; [done|].
    rd. rewrite value_sequence_eq. unfold sequence_with.
    eapply (goes_out _ [] _ _ xs _ _ xs); [|apply (seq_stop d (args_of d) _ sp (TDelim 33) (TIdent (txt "important") :: sp' ++ t :: r)); [by apply gap_blanks|by right; right; right]| |].
    { eapply goes_eq; [apply (Rxs [])|reflexivity|reflexivity|reflexivity]. }
    { rewrite Ew. flat. exact H. }
    clear H. intros s1 H. rd. destruct xs as [|y ys]; [done|]. rds.
    replace (drop 1 sp ++ TDelim 33 :: TIdent (txt "important") :: sp' ++ t :: r) with (TDelim 33 :: TIdent (txt "important") :: sp' ++ t :: r) in H by by destruct Hsp as [->|[c ->]].
    replace (take 1 sp) with sp in H by by destruct Hsp as [->|[c ->]].
    unfold consume_ident. rds. use eats_ws; [done|by apply stop_nonblank, over_stop|]. rds. apply HP. here H.
Qed.

(** * Invalid declarations *)
Lemma until_read pre l t r : Forall dull l -> over t -> eats (until_declaration_end ts) pre (l ++ t :: r) tt (pre ++ l) (t :: r).
Proof.
  intros Hl Ht. unfold until_declaration_end.
  eapply (goes_out _ _ _ _ tt (pre ++ l) (t :: r)).
  - revert pre. induction Hl as [|x l Hx _ IH]; intros pre; [rewrite app_nil_r; apply goes_refl|].
    eapply goes_trans; [|eapply goes_eq; [apply (IH (pre ++ [x]))|done|by flat|done]].
    apply goes_one; [|rewrite app_length; cbn; lia]. intros s P H HP. cbn [app] in H. rd. rd. destruct x; try done; rds; by apply HP.
  - intros s P H HP. rd. rd. destruct Ht as [->| ->]; rds; by apply HP.
Qed.
Lemma fails_ident pre t l : (forall v, t <> TIdent v) -> t <> TDelim 46 -> fails (consume_any_ident ts) pre (t :: l) (pre ++ [t]) l.
Proof.
  intros H1 H2 s P H HP. unfold consume_any_ident. rd. rd. destruct t; try (by destruct (H1 v)); try (rds; by apply HP).
  destruct c as [|p]; [rds; by apply HP|].
  do 6 (destruct p as [p|p|]; try (rds; by apply HP)); done.
Qed.
Lemma bad_declaration_read d w t pre r : ignore = true -> bad_declaration w -> over t ->
  eats (parse_declaration show ignore ts drained d) pre (w ++ t :: r) None (pre ++ w) (t :: r).
Proof.
  intros Hi Hw Ht s P H HP. unfold parse_declaration, declaration_internal.
  destruct Hw as [t1 l Hd Hb Hv H46 Hl|p w t1 l Hw Hd Hb Hc Hl|p w1 w2 Hp H1 H2].
  - rds. cbn [app] in H. eapply fails_ident; [done|done|exact H|]. clear H. intros s1 H. cbn beta iota. rewrite Hi. rds.
    use until_read; [done|done|]. rds. apply HP. here H.
  - flat_in H. unfold consume_any_ident. rds. use eats_ws; [done|done|]. rd. rd. rd. rd. rewrite bool_decide_false by done. rds.
    rewrite Hi. rds. use until_read; [done|done|]. rds. apply HP. here H.
  - flat_in H. unfold consume_any_ident. rds. rewrite Hp. use eats_ws; [done|by intros [? ?]|]. rds.
    use eats_ws; [done|by apply stop_nonblank, over_stop|]. rds. use eats_ws0; [by apply stop_nonblank, over_stop|].
    rd. rewrite value_sequence_eq. unfold sequence_with.
    eapply (goes_out _ [] _ _ [] _ _ []); [apply goes_refl|apply (seq_stop d (args_of d) _ [] t r); [apply Forall_nil_2|by apply over_stop]|exact H|].
    clear H. intros s1 H. cbn [take drop app] in H. rds. rewrite Hi. rds. eapply (until_read _ [] t r); [apply Forall_nil_2|done|exact H|clear H; intros ? H]. cbn beta iota. rds. apply HP.
    rewrite !app_nil_r in H. here H.
Qed.
Lemma scan_over t r : over t -> scan 0 (t :: r) = false.
Proof. by intros [->| ->]. Qed.
Lemma bad_scan w r : bad_declaration w -> scan 0 (w ++ r) = scan 0 r.
Proof.
  intros H. apply scan_dull. destruct H as [t1 l Hd Hb Hv H46 Hl|p w t1 l Hw Hd Hb Hc Hl|p w1 w2 Hp H1 H2].
  - by apply Forall_cons.
  - apply Forall_cons. split; [done|]. apply Forall_app. split; [by apply blanks_dull|]. by apply Forall_cons.
  - apply Forall_cons. split; [done|]. apply Forall_app. split; [by apply blanks_dull|]. apply Forall_cons. split; [done|by apply blanks_dull].
Qed.
(** The first token of a declaration, valid or not. *)
Definition first_of (t : token) : Prop := match t with TRCurly | TWhitespace _ | TAt _ | TSemicolon => False | _ => True end.
Lemma bad_first w : bad_declaration w -> exists t w', w = t :: w' /\ first_of t.
Proof.
  destruct 1 as [t1 l Hd Hb Hv H46 Hl|p w t1 l Hw Hd Hb Hc Hl|p w1 w2 Hp H1 H2]; (eexists _, _; split; [reflexivity|]); try done.
  destruct t1; try done. apply Hb. by eexists.
Qed.
Lemma declaration_first d w x : declaration is_zero colour d w x -> exists t w', w = t :: w' /\ first_of t.
Proof. destruct 1. by eexists _, _. Qed.
Lemma first_nonblank t : first_of t -> ~ blank t.
Proof. by intros H [c ->]. Qed.

(** * Blocks *)
Section block.
Context (at_rule : bool -> par (option node)) (rule : par (option node)) (d : nat).
Definition add (l : list node) (x : option node) : list node := match x with Some x => l ++ [x] | None => l end.
Definition blk_body : (list node * bool) -> par (list node * bool + node) := fun '(l, sep) =>
    do e <- eof drained;
    if e then ret (inr (NBlock l)) else
    do t <- consume_any ts;
    match t with
    | TRCurly => CssParseModel.unread;; ret (inr (NBlock l))
    | TWhitespace _ => ret (inl (l, sep))
    | TAt _ =>
        CssParseModel.unread;;
        do x <- at_rule true;
        ret (inl (add l x, false))
    | TSemicolon => ret (inl (l, true))
    | _ =>
        if sep : bool then
          CssParseModel.unread;;
          do n <- starts_nested_rule ts;
          if n : bool then do x <- rule; ret (inl (add l x, true))
          else do x <- parse_declaration show ignore ts drained d; ret (inl (add l x, false))
        else if ignore then CssParseModel.unread;; skip_to_declaration_end ts;; ret (inl (l, true))
        else fail
    end.
Lemma blk_eq : block_with ignore ts drained at_rule rule (parse_declaration show ignore ts drained d) StyleBlock = ploop (fuel ts) blk_body ([], true).
Proof. done. Qed.
Lemma blk_blanks pre sp l a : blanks sp -> goes blk_body a pre (sp ++ l) a (pre ++ sp) l.
Proof.
  intros H. revert pre. destruct a as [a sep]. induction H as [|x sp [c ->] _ IH]; intros pre; [rewrite app_nil_r; apply goes_refl|].
  eapply goes_trans; [|eapply goes_eq; [apply (IH (pre ++ [TWhitespace c]))|done|by flat|done]].
  apply goes_one; [|rewrite app_length; cbn; lia]. intros s P H HP. unfold blk_body. cbn [app] in H. rds. by apply HP.
Qed.
Lemma blk_semicolon pre l a sep : goes blk_body (a, sep) pre (TSemicolon :: l) (a, true) (pre ++ [TSemicolon]) l.
Proof. apply goes_one; [|rewrite app_length; cbn; lia]. intros s P H HP. unfold blk_body. rds. by apply HP. Qed.
Lemma blk_declaration pre t l x pre' l' a :
  first_of t -> scan 0 (t :: l) = false -> eats (parse_declaration show ignore ts drained d) pre (t :: l) x pre' l' ->
  (length pre < length pre')%nat -> goes blk_body (a, true) pre (t :: l) (add a x, false) pre' l'.
Proof.
  intros Hf Hs Hd Hl. apply goes_one; [|done]. intros s P H HP. unfold blk_body. rd. rd. rd. rd.
  destruct t; try done; rd; rd; rd; (eapply nested_read; [exact H|clear H; intros s1 H]); rewrite Hs; cbn beta iota; rd; (eapply Hd; [exact H|]); intros s2 H2; rds; by apply HP.
Qed.
Lemma body_read lax b ds : (lax = true -> ignore = true) -> body is_zero colour lax d b ds ->
  exists xs, (forall ys, declarations_of is_zero colour (xs ++ ys) = ds ++ declarations_of is_zero colour ys) /\
  forall pre r a, exists sep, goes blk_body (a, true) pre (b ++ TRCurly :: r) (a ++ xs, sep) (pre ++ b) (TRCurly :: r).
Proof.
  intros Hlax. induction 1 as [|t l ds [c ->] H (xs & E & R)|l ds H (xs & E & R)|w x sp H Hsp|w x sp l ds H Hsp Hb (xs & E & R)|w Hl H|w l ds Hl H Hb (xs & E & R)].
  - exists []. split; [done|]. intros pre r a. exists true. rewrite !app_nil_r. apply goes_refl.
  - exists xs. split; [done|]. intros pre r a. destruct (R (pre ++ [TWhitespace c]) r a) as [sep R1]. exists sep.
    eapply goes_trans; [apply (blk_blanks pre [TWhitespace c]); apply Forall_singleton; by eexists|].
    eapply goes_eq; [exact R1|done|by flat|done].
  - exists xs. split; [done|]. intros pre r a. destruct (R (pre ++ [TSemicolon]) r a) as [sep R1]. exists sep.
    eapply goes_trans; [apply blk_semicolon|]. eapply goes_eq; [exact R1|done|by flat|done].
  - destruct (declaration_read _ _ _ H) as (nd & En & Rn). exists [nd]. split; [apply En|]. intros pre r a. exists false.
    destruct (Rn pre sp TRCurly r Hsp ltac:(by right)) as (sp1 & sp2 & -> & Re).
    destruct (declaration_first _ _ _ H) as (t & w' & Ew & Hf).
    replace ((w ++ sp1 ++ sp2) ++ TRCurly :: r) with (t :: w' ++ (sp1 ++ sp2) ++ TRCurly :: r) by (rewrite Ew; by flat).
    eapply goes_trans; [eapply (blk_declaration pre t (w' ++ (sp1 ++ sp2) ++ TRCurly :: r) (Some nd)); [done| | |]|].
    + change (t :: w' ++ (sp1 ++ sp2) ++ TRCurly :: r) with ((t :: w') ++ (sp1 ++ sp2) ++ TRCurly :: r). rewrite <- Ew.
      rewrite (scan_declaration _ _ _ _ H), scan_dull by by apply blanks_dull. done.
    + rewrite app_comm_cons, <- Ew. exact Re.
    + rewrite Ew, app_length. cbn. lia.
    + eapply goes_eq; [apply (blk_blanks _ sp2); by apply Forall_app in Hsp as [_ ?]|done|by flat|done].
  - destruct (declaration_read _ _ _ H) as (nd & En & Rn). exists (nd :: xs). split; [intros ys; cbn [app]; rewrite En, E; done|]. intros pre r a.
    destruct (R (pre ++ w ++ sp ++ [TSemicolon]) r (a ++ [nd])) as [sep R1]. exists sep.
    destruct (Rn pre sp TSemicolon (l ++ TRCurly :: r) Hsp ltac:(by left)) as (sp1 & sp2 & -> & Re).
    destruct (declaration_first _ _ _ H) as (t & w' & Ew & Hf).
    eapply goes_trans; [|eapply goes_trans; [|eapply goes_trans]].
    + replace ((w ++ (sp1 ++ sp2) ++ TSemicolon :: l) ++ TRCurly :: r) with (t :: w' ++ (sp1 ++ sp2) ++ TSemicolon :: l ++ TRCurly :: r) by (rewrite Ew; by flat).
      eapply (blk_declaration pre t _ (Some nd)); [done| | |].
      * rewrite app_comm_cons, <- Ew. rewrite (scan_declaration _ _ _ _ H), scan_dull by by apply blanks_dull. done.
      * rewrite app_comm_cons, <- Ew. exact Re.
      * rewrite Ew, app_length. cbn. lia.
    + apply (blk_blanks _ sp2). by apply Forall_app in Hsp as [_ ?].
    + apply blk_semicolon.
    + eapply goes_eq; [|reflexivity|reflexivity|reflexivity].
      replace (((pre ++ w ++ sp1) ++ sp2) ++ [TSemicolon]) with (pre ++ w ++ (sp1 ++ sp2) ++ [TSemicolon]) by by flat.
      eapply goes_eq; [exact R1|by flat|by flat|done].
  - exists []. split; [done|]. intros pre r a. exists false. destruct (bad_first _ H) as (t & w' & Ew & Hf).
    rewrite app_nil_r. replace (w ++ TRCurly :: r) with (t :: w' ++ TRCurly :: r) by by rewrite Ew.
    eapply (blk_declaration pre t _ None); [done| | |].
    + rewrite app_comm_cons, <- Ew, (bad_scan _ _ H). done.
    + rewrite app_comm_cons, <- Ew. apply bad_declaration_read; [auto|done|by right].
    + rewrite Ew, app_length. cbn. lia.
  - exists xs. split; [done|]. intros pre r a. destruct (R (pre ++ w ++ [TSemicolon]) r a) as [sep R1]. exists sep.
    destruct (bad_first _ H) as (t & w' & Ew & Hf). eapply goes_trans; [|eapply goes_trans].
    + replace ((w ++ TSemicolon :: l) ++ TRCurly :: r) with (t :: w' ++ TSemicolon :: l ++ TRCurly :: r) by (rewrite Ew; by flat).
      eapply (blk_declaration pre t _ None).
      * done.
      * rewrite app_comm_cons, <- Ew, (bad_scan _ _ H). done.
      * rewrite app_comm_cons, <- Ew. apply bad_declaration_read; [auto|done|by left].
      * rewrite Ew, app_length. cbn. lia.
    + apply blk_semicolon.
    + replace ((pre ++ w) ++ [TSemicolon]) with (pre ++ w ++ [TSemicolon]) by by flat. eapply goes_eq; [exact R1|done|by flat|done].
Qed.
Lemma block_read lax b ds : (lax = true -> ignore = true) -> body is_zero colour lax d b ds ->
  exists xs, declarations_of is_zero colour xs = ds /\
  forall pre r, eats (block_with ignore ts drained at_rule rule (parse_declaration show ignore ts drained d) StyleBlock)
    pre (b ++ TRCurly :: r) (NBlock xs) (pre ++ b) (TRCurly :: r).
Proof.
  intros Hl Hb. destruct (body_read _ _ _ Hl Hb) as (xs & E & R). exists xs. split; [rewrite <- (app_nil_r xs), E; by rewrite app_nil_r|].
  intros pre r. rewrite blk_eq. destruct (R pre r []) as [sep Rg]. eapply goes_out; [exact Rg|].
  intros s P H HP. unfold blk_body. rds. by apply HP.
Qed.
Lemma body_strip lax b ds r : body is_zero colour lax d b ds ->
  exists sp b' t l, b = sp ++ b' /\ blanks sp /\ body is_zero colour lax d b' ds /\ b' ++ TRCurly :: r = t :: l /\ ~ blank t.
Proof.
  intros H. pose proof H as H0. induction H as [|t l ds Ht H IH|l ds H IH|w x sp H Hsp|w x sp l ds H Hsp Hb _|w Hl H|w l ds Hl H Hb _].
  - exists [], [], TRCurly, r. repeat split; [apply Forall_nil_2|done|by intros [? ?]].
  - destruct (IH H) as (sp & b' & t1 & l1 & -> & Hs & Hb & E & Ht1). exists (t :: sp), b', t1, l1. repeat split; [by apply Forall_cons|done..].
  - exists [], (TSemicolon :: l), TSemicolon, (l ++ TRCurly :: r). repeat split; [apply Forall_nil_2|done|by intros [? ?]].
  - destruct (declaration_first _ _ _ H) as (t & w' & -> & Hf). eexists [], _, t, _. repeat split; [apply Forall_nil_2|exact H0|by apply first_nonblank].
  - destruct (declaration_first _ _ _ H) as (t & w' & -> & Hf). eexists [], _, t, _. repeat split; [apply Forall_nil_2|exact H0|by apply first_nonblank].
  - destruct (bad_first _ H) as (t & w' & -> & Hf). eexists [], _, t, _. repeat split; [apply Forall_nil_2|exact H0|by apply first_nonblank].
  - destruct (bad_first _ H) as (t & w' & -> & Hf). eexists [], _, t, _. repeat split; [apply Forall_nil_2|exact H0|by apply first_nonblank].
Qed.
End block.

(** * Rules *)
Lemma rule_read lax e d w g sp b ds : (lax = true -> ignore = true) ->
  selectors w g -> blanks sp -> body is_zero colour lax d b ds ->
  exists nd, collect_node show is_zero colour nd = Some [mk_rule g ds] /\
  forall pre r, okpre pre ->
    eats (rule_with show lower ignore ts drained e (block show lower ignore ts drained (S d))) pre
      (w ++ sp ++ TLCurly :: b ++ TRCurly :: r) (Some nd) (pre ++ w ++ sp ++ TLCurly :: b ++ [TRCurly]) r.
Proof.
  intros Hlax Hw Hsp Hb. destruct (selector_list_read e _ _ Hw) as (xs & G & R).
  destruct (body_strip d _ _ _ [] Hb) as (sp1 & b' & t0 & l0 & -> & Hs1 & Hb' & E0 & Ht0).
  destruct (block_read (at_rule_with show lower ignore ts drained d (block show lower ignore ts drained d))
    (rule_with show lower ignore ts drained d (block show lower ignore ts drained d)) d _ _ _ Hlax Hb') as (ys & E & Rb).
  exists (NRule (NSelectorList [NSelector xs]) (NBlock ys)). split.
  { cbn [collect_node collect_rule map selector_nodes concat]. rewrite app_nil_r, G, E. done. }
  intros pre r Hpre s P H HP. unfold rule_with, recover. rds.
  eapply R; [done|exact Hsp|by left|exact H|]. clear H. intros s1 H. cbn beta iota. rds. flat_in H.
  assert (E1 : exists l1, b' ++ TRCurly :: r = t0 :: l1).
  { destruct b' as [|x b']; cbn [app] in *; injection E0 as <- _; by eexists. }
  destruct E1 as [l1 E1]. rewrite E1 in H. use eats_ws; [done|done|]. rewrite <- E1 in H. rd.
  cbn [block]. eapply Rb; [exact H|]. clear H. intros s2 H. rds. apply HP. here H.
Qed.

(** What is dropped of an invalid rule. *)
Definition skip_body : nat -> par (nat + unit) := fun depth =>
    do t <- consume_any ts;
    if opens t then ret (inl (S depth))
    else if closes t then ret (inl (pred depth))
    else match t with
    | TLCurly => ret (inl (S depth))
    | TRCurly =>
        if (depth =? 0)%nat then CssParseModel.unread;; ret (inr tt)
        else if (pred depth =? 0)%nat then ret (inr tt) else ret (inl (pred depth))
    | TSemicolon => if (depth =? 0)%nat then ret (inr tt) else ret (inl depth)
    | TEof => ret (inr tt)
    | _ => ret (inl depth)
    end.
Lemma skip_step pre t l d d' : (forall s (P : option (nat + unit) -> pst -> Prop), P (Some (inl d')) s ->
   wp (if opens t then ret (inl (S d))
    else if closes t then ret (inl (pred d))
    else match t with
    | TLCurly => ret (inl (S d))
    | TRCurly =>
        if (d =? 0)%nat then CssParseModel.unread;; ret (inr tt)
        else if (pred d =? 0)%nat then ret (inr tt) else ret (inl (pred d))
    | TSemicolon => if (d =? 0)%nat then ret (inr tt) else ret (inl d)
    | TEof => ret (inr tt)
    | _ => ret (inl d)
    end) s P) -> goes skip_body d pre (t :: l) d' (pre ++ [t]) l.
Proof.
  intros Hs. apply goes_one; [|rewrite app_length; cbn; lia]. intros s P H HP. unfold skip_body. rd. rd. apply Hs. by apply HP.
Qed.
Lemma skip_dull pre l r d : Forall dull l -> goes skip_body d pre (l ++ r) d (pre ++ l) r.
Proof.
  intros H. revert pre. induction H as [|t l Ht _ IH]; intros pre; [rewrite app_nil_r; apply goes_refl|].
  eapply goes_trans; [|eapply goes_eq; [apply (IH (pre ++ [t]))|done|by flat|done]].
  apply skip_step. intros s P HP. destruct t; try done; cbn [opens closes]; by apply wp_ret.
Qed.
Lemma skip_balanced b : balanced b -> forall d pre r, goes skip_body (S d) pre (b ++ r) (S d) (pre ++ b) r.
Proof.
  induction 1 as [|t l Ht Hl IH|t a c l Ht Ha IHa Hc Hl IHl|a l Ha IHa Hl IHl]; intros d pre r.
  - rewrite app_nil_r. apply goes_refl.
  - eapply goes_trans; [|eapply goes_eq; [apply (IH d (pre ++ [t]))|done|by flat|done]].
    apply skip_step. intros s P HP. destruct Ht as [Ht|[->|[v ->]]]; [destruct t; try done|..]; cbn [opens closes Nat.eqb]; by apply wp_ret.
  - eapply goes_trans; [|eapply goes_trans; [|eapply goes_trans]].
    + cbn [app]. apply (skip_step _ _ _ _ (S (S d))). intros s P HP. replace (opens t) with true by by destruct Ht as [->|[->|[v ->]]]. by apply wp_ret.
    + rewrite <- app_assoc. apply IHa.
    + cbn [app]. apply (skip_step _ _ _ _ (S d)). intros s P HP. destruct Hc as [->| ->]; cbn [opens closes pred]; by apply wp_ret.
    + eapply goes_eq; [apply IHl|done|by flat|done].
  - eapply goes_trans; [|eapply goes_trans; [|eapply goes_trans]].
    + cbn [app]. apply (skip_step _ _ _ _ (S (S d))). intros s P HP. cbn [opens closes]. by apply wp_ret.
    + rewrite <- app_assoc. apply IHa.
    + cbn [app]. apply (skip_step _ _ _ _ (S d)). intros s P HP. cbn [opens closes pred Nat.eqb]. by apply wp_ret.
    + eapply goes_eq; [apply IHl|done|by flat|done].
Qed.
Lemma skip_read pre l b r : Forall dull l -> balanced b ->
  eats (until_rule_end ts) pre (l ++ TLCurly :: b ++ TRCurly :: r) tt (pre ++ l ++ TLCurly :: b ++ [TRCurly]) r.
Proof.
  intros Hl Hb. unfold until_rule_end.
  eapply (goes_out skip_body 0%nat _ _ 1%nat (pre ++ l ++ TLCurly :: b) (TRCurly :: r)).
  - eapply goes_trans; [apply skip_dull; done|]. eapply goes_trans.
    + apply (skip_step _ _ _ _ 1%nat). intros s P HP. cbn [opens closes]. by apply wp_ret.
    + eapply goes_eq; [apply (skip_balanced _ Hb)|done|by flat|done].
  - intros s P H HP. unfold skip_body. rd. rd. cbn [opens closes Nat.eqb pred]. rds. apply HP. here H.
Qed.
Lemma foreign_nonblank t : no_selector t -> ~ blank t.
Proof. intros H [c ->]. done. Qed.
Lemma foreign_not_curly t : no_selector t -> t <> TLCurly /\ t <> TComma.
Proof. by destruct t. Qed.
Lemma selector_list_none e pre t r : no_selector t ->
  eats (selector_list show lower ts drained e) pre (t :: r) (NSelectorList [NSelector []]) pre (t :: r).
Proof.
  intros Ht s P H HP. unfold selector_list, selector_list_with.
  assert (Hs : exists f, selector show lower ts drained e = selector_with lower ts drained f) by (destruct e; by eexists).
  destruct Hs as [f ->]. rd.
  eapply (goes_out _ [] _ _ [] pre (t :: r) [NSelector []] pre (t :: r)); [apply goes_refl| |exact H|].
  - clear s P H HP. intros s P A HP. rd. rd. rd. unfold selector_with. rd.
    eapply (goes_out (sel_body f) ([], false, false) pre _ ([], false, false) pre (t :: r) [] pre (t :: r)); [apply goes_refl|apply ends_step; by right|exact A|].
    clear A. intros s1 A. rds. destruct t; try done; rds; by apply HP.
  - clear H. intros s1 H. rds. by apply HP.
Qed.
Lemma bad_rule_read e d w b : ignore = true -> bad_prelude w -> balanced b ->
  forall pre r, okpre pre ->
    eats (rule_with show lower ignore ts drained e (block show lower ignore ts drained d)) pre
      (w ++ TLCurly :: b ++ TRCurly :: r) None (pre ++ w ++ TLCurly :: b ++ [TRCurly]) r.
Proof.
  intros Hi Hw Hb pre r Hpre s P H HP. unfold rule_with, recover. rds. destruct Hw as [t l Ht Hl|w g sp t l Hw Hsp Ht Hl].
  - cbn [app] in H. use selector_list_none; [done|]. rd. rd. rd. rd. rewrite bool_decide_false by by apply foreign_not_curly. rds.
    rewrite Hi. rd. use skip_read; [done|done|]. rds. apply HP. here H.
  - destruct (selector_list_read e _ _ Hw) as (xs & _ & R). flat_in H. eapply R; [done|exact Hsp|by right|exact H|]. clear H. intros s1 H. cbn beta iota.
    rd. rd. rd. rd. rewrite bool_decide_false by by apply foreign_not_curly. rds.
    rewrite Hi. rd. use skip_read; [done|done|]. rds. apply HP. here H.
Qed.

(** * Sheets *)
(** The first token of a rule, valid or not. *)
Definition rule_first (t : token) : Prop := match t with TEof | TWhitespace _ | TCdo | TCdc | TAt _ => False | _ => True end.
Lemma selectors_first w g : selectors w g -> exists t w', w = t :: w' /\ rule_first t.
Proof.
  intros H. assert (C : exists w1 ps, complex w1 ps /\ exists w2, w = w1 ++ w2).
  { destruct H as [w ps H|w ps sp w' g H]; exists w, ps; (split; [done|]); [exists []; by rewrite app_nil_r|by eexists]. }
  destruct C as (w1 & ps & C & w2 & ->). assert (D : exists b w3 ps, compound b w3 ps /\ exists w4, w1 = w3 ++ w4).
  { destruct C as [b w ps' H1|w ps' sp w' ps'' H1|b w ps' s1 c k s2 w' ps'' H1]; eexists _, w, ps'; (split; [exact H1|]); [exists []; by rewrite app_nil_r|by eexists|by eexists]. }
  destruct D as (b & w3 & ps3 & D & w4 & ->). assert (S : exists b w5 p, simple b w5 p /\ exists w6, w3 = w5 ++ w6).
  { destruct D as [b w p H1|b b' w p w' ps' H1]; eexists _, w, p; (split; [exact H1|]); [exists []; by rewrite app_nil_r|by eexists]. }
  destruct S as (b5 & w5 & p & S & w6 & ->). destruct S; (eexists _, _; split; [reflexivity|done]).
Qed.
Lemma bad_prelude_first w : bad_prelude w -> exists t w', w = t :: w' /\ rule_first t.
Proof.
  destruct 1 as [t l Ht Hl|w g sp t l Hw Hsp Ht Hl]; [exists t, l; split; [done|by destruct t]|].
  destruct (selectors_first _ _ Hw) as (t1 & w' & -> & Hf). by eexists _, _.
Qed.
Definition sheet_body : list node -> par (list node + list node) := fun l =>
    do e <- eof drained;
    if e then ret (inr l) else
    do t <- consume_any ts;
    match t with
    | TEof | TWhitespace _ => ret (inl l)
    | TCdo => ret (inl (l ++ [NCdo]))
    | TCdc => ret (inl (l ++ [NCdc]))
    | TAt _ => CssParseModel.unread;;
        do x <- at_rule_with show lower ignore ts drained max_depth (block show lower ignore ts drained max_depth) false; ret (inl (add l x))
    | _ => CssParseModel.unread;; do x <- rule_with show lower ignore ts drained max_depth (block show lower ignore ts drained max_depth); ret (inl (add l x))
    end.
Lemma sheet_rule pre t l x pre' l' a : rule_first t ->
  eats (rule_with show lower ignore ts drained max_depth (block show lower ignore ts drained max_depth)) pre (t :: l) x pre' l' ->
  (length pre < length pre')%nat -> goes sheet_body a pre (t :: l) (add a x) pre' l'.
Proof.
  intros Ht Hx Hl. apply goes_one; [|done]. intros s P H HP. unfold sheet_body. rd. rd. rd. rd.
  destruct t; try done; rd; rd; rd; (eapply Hx; [exact H|]); intros s1 H1; rds; by apply HP.
Qed.
Lemma collect_app xs ys rs qs : collect_rules show is_zero colour xs = Some rs -> collect_rules show is_zero colour ys = Some qs ->
  collect_rules show is_zero colour (xs ++ ys) = Some (rs ++ qs).
Proof.
  intros H1 H2. revert rs H1. induction xs as [|x xs IH]; intros rs H1; cbn [app collect_rules] in *; [by injection H1 as <-|].
  destruct (collect_node show is_zero colour x); [|done]. destruct (collect_rules show is_zero colour xs); [|done]. injection H1 as <-.
  rewrite (IH _ eq_refl), <- app_assoc. done.
Qed.
Lemma okpre_curly pre l : okpre (pre ++ l ++ [TRCurly]).
Proof. unfold okpre. by rewrite app_assoc, last_snoc. Qed.
Lemma sheet_read lax l rs : (lax = true -> ignore = true) -> sheet_of is_zero colour lax 63 l rs ->
  exists xs, collect_rules show is_zero colour xs = Some rs /\
  forall pre a, okpre pre -> goes sheet_body a pre l (a ++ xs) (pre ++ l) [].
Proof.
  intros Hlax. induction 1 as [|t l rs [c ->] H (xs & E & R)|w g sp b ds l rs Hw Hsp Hb H (xs & E & R)|w b l rs Hl Hw Hb H (xs & E & R)].
  - exists []. split; [done|]. intros pre a _. rewrite !app_nil_r. apply goes_refl.
  - exists xs. split; [done|]. intros pre a Hpre. eapply goes_trans; [|eapply goes_eq; [apply (R (pre ++ [TWhitespace c]))|done|by flat|done]].
    + apply goes_one; [|rewrite app_length; cbn; lia]. intros s P A HP. unfold sheet_body. rds. by apply HP.
    + apply okpre_blanks; [done|]. apply Forall_singleton. by eexists.
  - destruct (rule_read _ max_depth 63 _ _ _ _ _ Hlax Hw Hsp Hb) as (nd & En & Rn). exists (nd :: xs).
    split; [apply (collect_app [nd] xs [_]); [cbn [collect_rules]; by rewrite En|done]|]. intros pre a Hpre.
    destruct (selectors_first _ _ Hw) as (t & w' & Ew & Hf). eapply goes_trans; [|eapply goes_eq].
    + specialize (Rn pre l Hpre). replace (w ++ sp ++ [TLCurly] ++ b ++ [TRCurly] ++ l) with (t :: w' ++ sp ++ TLCurly :: b ++ TRCurly :: l) by by rewrite Ew.
      eapply (sheet_rule pre t _ (Some nd)); [done| |].
      * rewrite app_comm_cons, <- Ew. exact Rn.
      * rewrite Ew, app_length. cbn. lia.
    + apply R. replace (w ++ sp ++ TLCurly :: b ++ [TRCurly]) with ((w ++ sp ++ TLCurly :: b) ++ [TRCurly]) by by flat. apply okpre_curly.
    + cbn [add]. by flat.
    + by flat.
    + done.
  - exists xs. split; [done|]. intros pre a Hpre. destruct (bad_prelude_first _ Hw) as (t & w' & Ew & Hf). eapply goes_trans; [|eapply goes_eq].
    + pose proof (bad_rule_read max_depth max_depth _ _ (Hlax Hl) Hw Hb pre l Hpre) as Rn.
      replace (w ++ [TLCurly] ++ b ++ [TRCurly] ++ l) with (t :: w' ++ TLCurly :: b ++ TRCurly :: l) by by rewrite Ew.
      eapply (sheet_rule pre t _ None); [done| |].
      * rewrite app_comm_cons, <- Ew. exact Rn.
      * rewrite Ew, app_length. cbn. lia.
    + apply R. replace (w ++ TLCurly :: b ++ [TRCurly]) with ((w ++ TLCurly :: b) ++ [TRCurly]) by by flat. apply okpre_curly.
    + done.
    + by flat.
    + done.
Qed.
(** At the end of the tokens the loop ends. *)
Lemma sheet_end m : forall f l s, (n <= ps_pos s <= ps_len s)%nat -> (Nat.max (ps_len s) drained - ps_pos s <= m)%nat -> (m < f)%nat ->
  exists s', ploop f sheet_body l s = Ok (Some l, s').
Proof.
  induction m as [|m IH]; intros [|f] l s Hp Hm Hf; try lia; cbn [ploop]; unfold sheet_body at 1, pbind, eof.
  all: destruct ((drained <=? ps_len s)%nat && (ps_len s <=? ps_pos s)%nat) eqn:E; [by eexists|].
  - exfalso. apply andb_false_iff in E as [E|E]; apply Nat.leb_gt in E; lia.
  - unfold consume_any, tok. rewrite lookup_ge_None_2 by lia. cbn. apply IH; cbn [ps_pos ps_len]; lia.
Qed.
Lemma sheet_reads lax rs : (lax = true -> ignore = true) -> sheet_of is_zero colour lax 63 ts rs -> rs <> [] ->
  parse_sheet show lower is_zero colour ignore ts drained = Ok (Some rs).
Proof.
  intros Hlax H Hne. destruct (sheet_read _ _ _ Hlax H) as (xs & E & R).
  destruct (R [] [] ltac:(done) start) as (k & s' & A & Hk & Ek).
  { unfold at_, good. cbn. split; [done|]. split; [done|]. lia. }
  pose proof (at_len _ _ _ A) as Hn. destruct A as (_ & Hp & Hg & _). cbn [app length] in *.
  assert (X : exists s2, ploop (fuel ts) sheet_body [] start = Ok (Some xs, s2)).
  { unfold fuel. replace (2 * n + 32)%nat with (k + (2 * n + 32 - k))%nat by lia. rewrite Ek.
    apply (sheet_end (Nat.max (ps_len s') drained - ps_pos s')); unfold good in Hg; lia. }
  destruct X as [s2 X]. unfold parse_sheet, stylesheet, pbind, rbind. fold sheet_body.
  change (ploop (fuel ts) _ [] start) with (ploop (fuel ts) sheet_body [] start). rewrite X. cbn.
  destruct xs as [|x xs]; [by injection E as <-|]. by rewrite E.
Qed.
End read.

(** * From the text *)
Lemma text_reads beyond show lower is_zero colour ignore lax s ts rs :
  tokenize beyond s = Ok (ts ++ [TEof]) -> sheet_of is_zero colour lax 63 ts rs -> (lax = true -> ignore = true) -> rs <> [] ->
  parse_text beyond show lower is_zero colour ignore s = Ok (Some rs).
Proof.
  intros Ht Hs Hl Hne. destruct (tokens_from_total beyond (S (length s)) true s) as (ts' & E & Hts & _); [lia|].
  assert (ts' = ts) as ->. { unfold tokenize in Ht. rewrite Ht in E. injection E as E. by apply app_inj_tail in E as [-> _]. }
  unfold parse_text. rewrite Ht. cbn [rbind]. rewrite removelast_last.
  apply (sheet_reads show lower ignore ts (fetches beyond (S (length s)) true s) is_zero colour) with lax; try done.
  eapply fetches_bounds; eauto.
Qed.

(** * Putting pieces together *)
Lemma body_app is_zero colour lax d b1 ds1 b2 ds2 : body is_zero colour lax d b1 ds1 -> body is_zero colour lax d b2 ds2 ->
  body is_zero colour lax d (b1 ++ TSemicolon :: b2) (ds1 ++ ds2).
Proof.
  intros H1 H2. induction H1 as [|t l ds Ht H IH|l ds H IH|w x sp H Hsp|w x sp l ds H Hsp Hb IH|w Hl H|w l ds Hl H Hb IH]; rewrite <- ?app_assoc; cbn [app].
  - by apply b_semicolon.
  - by apply b_blank.
  - by apply b_semicolon.
  - by apply b_declaration.
  - apply b_declaration; [done|done|exact IH].
  - by apply b_bad.
  - by apply b_bad.
Qed.
Lemma sheet_app is_zero colour lax d l1 r1 l2 r2 : sheet_of is_zero colour lax d l1 r1 -> sheet_of is_zero colour lax d l2 r2 ->
  sheet_of is_zero colour lax d (l1 ++ l2) (r1 ++ r2).
Proof.
  intros H1 H2. induction H1 as [|t l rs Ht H IH|w g sp b ds l rs Hw Hsp Hb H IH|w b l rs Hl Hw Hb H IH]; rewrite <- ?app_assoc; [done| | |].
  - cbn [app]. by apply sh_blank.
  - by apply sh_rule.
  - by apply sh_bad.
Qed.
