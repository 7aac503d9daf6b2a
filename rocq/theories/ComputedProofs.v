(** Computed styles, generated boxes and the caches of styles. *)
From Coq Require Import QArith.
From stdpp Require Import numbers option list.
From Verif Require Import Base ComputedModel ComputedSpec.
Local Open Scope nat_scope.

(** ** Computed styles *)
Section styles.
Context (d : doc).

Lemma own_plain style n p : takes_current p && current d n p = false ->
  own_with style d n p = Ok (match said_of d n p with Says v => Some v | _ => None end).
Proof.
  intros H. unfold own_with, said_of. rewrite H. destruct (inline d n p); [done|].
  destruct (sheet d n p); [done|]. by destruct (attrs d n p).
Qed.
Lemma said_not_current n p : takes_current p = false -> said_of d n p <> SaysCurrentColor.
Proof.
  intros H. unfold said_of. rewrite H. cbn. destruct (inline d n p); [done|]. destruct (sheet d n p); [done|]. by destruct (attrs d n p).
Qed.
Lemma path_cons n l : path d n l -> exists above, l = n :: above.
Proof. destruct 1; eauto. Qed.

Lemma font_size_ok n l : path d n l -> forall fuel, length l <= fuel -> get_style fuel d n FontSize = Ok (font_size d l).
Proof.
  induction 1 as [n Hp|n q l Hp Hl IH]; intros [|fuel] Hf; cbn [length] in Hf; try lia; cbn [get_style border_peer rbind].
  - rewrite own_plain by done. cbn [rbind font_size]. pose proof (said_not_current n FontSize eq_refl) as Hn.
    destruct (said_of d n FontSize) as [|v|]; [| |done].
    + cbn. by rewrite Hp.
    + unfold absolute_with. rewrite decide_True by done. rewrite Hp. cbn. by destruct v as [x []| | |].
  - rewrite own_plain by done. cbn [rbind font_size]. pose proof (said_not_current n FontSize eq_refl) as Hn.
    destruct (said_of d n FontSize) as [|v|]; [| |done].
    + cbn [inherited]. rewrite Hp. apply IH. lia.
    + unfold absolute_with. rewrite decide_True by done. rewrite Hp. destruct v as [x []| | |]; try done.
      rewrite IH by lia. done.
Qed.

Lemma absolute_ok fuel n l p raw : path d n l -> p <> FontSize -> length l <= fuel ->
  absolute_with (get_style fuel d) d n p raw = Ok (in_px (em d l) raw).
Proof.
  intros Hl Hp Hf. unfold absolute_with. destruct raw as [x []| | |]; try done.
  rewrite decide_False by done. rewrite (font_size_ok _ _ Hl) by lia. done.
Qed.

Lemma inherited_ok p n l : path d n l -> inherited d p = true -> p <> FontSize ->
  forall fuel, S (length l) <= fuel -> get_style fuel d n p = Ok (inherited_value d p l).
Proof.
  intros Hl Hi Hp. assert (takes_current p = false /\ border_peer p = None) as [Ht Hb] by by destruct p.
  induction Hl as [n Hq|n q l Hq Hl IH]; intros [|fuel] Hf; cbn [length] in Hf; try lia; cbn [get_style]; rewrite Hb; cbn [rbind].
  - assert (path d n [n]) as Hl by by constructor.
    rewrite own_plain by by rewrite Ht. cbn [rbind inherited_value]. pose proof (said_not_current n p Ht) as Hn.
    destruct (said_of d n p) as [|v|]; [| |done].
    + rewrite Hi, Hq. apply absolute_ok; [done|done|cbn; lia].
    + apply absolute_ok; [done|done|cbn; lia].
  - assert (path d n (n :: l)) as Hl' by by eapply path_up.
    rewrite own_plain by by rewrite Ht. cbn [rbind inherited_value]. pose proof (said_not_current n p Ht) as Hn.
    destruct (said_of d n p) as [|v|]; [| |done].
    + rewrite Hi, Hq. destruct (path_cons _ _ Hl) as [above ->]. apply IH. lia.
    + apply absolute_ok; [done|done|cbn; lia].
Qed.

Lemma plain_ok_without p n l fuel hidden : path d n l -> inherited d p = false -> p <> FontSize -> S (length l) <= fuel ->
  hidden = Ok false ->
  (let* h := hidden in
   if (h : bool) then Ok (VUnit 0 Px)
   else let* own := own_with (get_style fuel d) d n p in
        match own with
        | Some raw => absolute_with (get_style fuel d) d n p raw
        | None => match inherited d p, parent d n with
                  | true, Some q => get_style fuel d q p
                  | _, _ => absolute_with (get_style fuel d) d n p (initial d p)
                  end
        end) = Ok (plain_value d p l).
Proof.
  intros Hl Hi Hp Hf ->. cbn [rbind]. rewrite Hi. destruct (path_cons _ _ Hl) as [above ->]. cbn [plain_value].
  destruct (takes_current p && current d n p) eqn:Hc.
  - unfold own_with, said_of. rewrite Hc. destruct (inline d n p) as [v|].
    + cbn [rbind]. apply absolute_ok; [done|done|lia].
    + rewrite (inherited_ok Color n (n :: above) Hl eq_refl) by (done || lia). cbn [rbind]. apply absolute_ok; [done|done|lia].
  - rewrite own_plain by done. cbn [rbind]. assert (said_of d n p <> SaysCurrentColor) as Hn.
    { unfold said_of. rewrite Hc. destruct (inline d n p); [done|]. destruct (sheet d n p); [done|]. by destruct (attrs d n p). }
    destruct (said_of d n p) as [|v|]; [| |done]; (apply absolute_ok; [done|done|lia]).
Qed.
Lemma plain_ok p n l : path d n l -> inherited d p = false -> p <> FontSize -> border_peer p = None ->
  forall fuel, 2 + length l <= fuel -> get_style fuel d n p = Ok (plain_value d p l).
Proof.
  intros Hl Hi Hp Hb [|fuel] Hf; [lia|]. cbn [get_style]. rewrite Hb. apply plain_ok_without; [done|done|done|lia|done].
Qed.

Lemma computed_ok p n l : path d n l -> forall fuel, 3 + length l <= fuel -> get_style fuel d n p = Ok (computed d p l).
Proof.
  intros Hl fuel Hf. destruct (decide (p = FontSize)) as [->|Hp]; [apply font_size_ok; [done|lia]|].
  destruct p as [| | |s|s|s|k]; try done; cbn [computed];
    try (destruct (inherited d _) eqn:Hi; [apply inherited_ok; [done|done|done|lia]|apply plain_ok; [done|done|done|done|lia]]).
  destruct fuel as [|fuel]; [lia|]. cbn [get_style border_peer].
  rewrite (plain_ok (BorderStyle s) n l) by (done || lia). cbn [rbind].
  destruct (plain_value d (BorderStyle s) l) as [x u| |[]|k] eqn:E; cbn [visible]; try done;
    (apply (plain_ok_without (BorderWidth s) n l fuel (Ok false)); [done|done|done|lia|done]).
Qed.

Lemma path_exists : acyclic d -> forall n, exists l, path d n l.
Proof.
  intros [rank Hr] n. remember (rank n) as k eqn:Ek. assert (rank n <= k) as Hk by lia. clear Ek. revert n Hk.
  induction k as [|k IH]; intros n Hk; (destruct (parent d n) as [q|] eqn:E; [|exists [n]; by constructor]).
  - specialize (Hr _ _ E). lia.
  - destruct (IH q) as [l Hl]; [specialize (Hr _ _ E); lia|]. exists (n :: l). by eapply path_up.
Qed.
End styles.

Definition is_absolute (v : value) : Prop := match v with VUnit _ Em | VUnit _ Rem => False | _ => True end.
Lemma in_px_absolute s v : is_absolute (in_px s v).
Proof. by destruct v as [x []| | |]. Qed.
Lemma computed_absolute d p n l : path d n l -> is_absolute (computed d p l).
Proof.
  intros Hl. assert (forall l, is_absolute (font_size d l)) as Hfs.
  { induction l0 as [|m l0 IH]; [done|]. cbn. destruct (said_of d m FontSize); [done|apply in_px_absolute|done]. }
  assert (forall p, is_absolute (inherited_value d p l)) as Hi.
  { intros p'. induction Hl as [m Hm|m q l Hm Hl IH]; cbn [inherited_value].
    - destruct (said_of d m p'); apply in_px_absolute.
    - destruct (path_cons _ _ _ Hl) as [above ->]. destruct (said_of d m p'); [exact IH|apply in_px_absolute|exact IH]. }
  assert (forall p, is_absolute (plain_value d p l)) as Hq.
  { intros p'. destruct (path_cons _ _ _ Hl) as [above ->]. cbn. destruct (said_of d n p'); apply in_px_absolute. }
  destruct p; cbn [computed]; try apply Hfs; try (destruct (inherited d _); [apply Hi|apply Hq]).
  destruct (visible _); [apply Hq|done].
Qed.

(** ** Generated boxes *)
Lemma encode_eq owner role : (owner < 2 ^ 60)%N -> (role < 4)%N -> encode owner role = (2 ^ 62 + owner * 4 + role)%N.
Proof.
  intros Ho Hr. unfold encode, pseudo_flag. rewrite N.shiftl_mul_pow2. change (2 ^ 2)%N with 4%N.
  rewrite N.mod_small by lia.
  assert (N.lor (2 ^ 62) (owner * 4) = 2 ^ 62 + owner * 4)%N as ->.
  { symmetry. rewrite N.add_nocarry_lxor, N.lxor_lor; [done| |].
    all: apply N.bits_inj_0; intros i; rewrite N.land_spec, N.pow2_bits_eqb;
      destruct (N.eqb_spec 62 i) as [<-|]; [|done]; cbn [andb];
      rewrite N.bits_above_log2; [done|];
      (destruct (N.eq_dec (owner * 4) 0) as [->|]; [done|]; apply N.log2_lt_pow2; lia). }
  symmetry. rewrite N.add_nocarry_lxor, N.lxor_lor; [done| |].
  all: replace (2 ^ 62 + owner * 4)%N with ((2 ^ 60 + owner) * 2 ^ 2)%N by (cbn; lia);
    apply N.bits_inj_0; intros i; rewrite N.land_spec;
    destruct (N.lt_ge_cases i 2) as [Hi|Hi];
    [rewrite N.mul_pow2_bits_low by done; done|];
    rewrite (N.bits_above_log2 role); [by rewrite andb_false_r|];
    (destruct (N.eq_dec role 0) as [->|]; [change (0 < i)%N; lia|]; assert (N.log2 role < 2)%N by (apply N.log2_lt_pow2; lia); lia).
Qed.

Lemma decode_encode owner role : (owner < 2 ^ 60)%N -> (role < 4)%N -> decode (encode owner role) = (owner, role).
Proof.
  intros Ho Hr. unfold decode.
  assert (N.ldiff (encode owner role) pseudo_flag = owner * 4 + role)%N as ->.
  { rewrite encode_eq by done. unfold pseudo_flag.
    assert (N.land (2 ^ 62) (owner * 4 + role) = 0)%N as Hn.
    { apply N.bits_inj_0. intros i. rewrite N.land_spec, N.pow2_bits_eqb. destruct (N.eqb_spec 62 i) as [<-|]; [|done]. cbn [andb].
      rewrite N.bits_above_log2; [done|]. destruct (N.eq_dec (owner * 4 + role) 0) as [->|]; [done|]. apply N.log2_lt_pow2; lia. }
    rewrite <- N.add_assoc, N.add_nocarry_lxor, N.lxor_lor by done. apply N.bits_inj. intros i.
    rewrite N.ldiff_spec, N.lor_spec. assert (N.testbit (N.land (2 ^ 62) (owner * 4 + role)) i = false) as Hi by (by rewrite Hn, N.bits_0).
    rewrite N.land_spec in Hi. destruct (N.testbit (2 ^ 62) i), (N.testbit (owner * 4 + role) i); done. }
  rewrite N.shiftr_div_pow2. change 3%N with (N.ones 2). rewrite N.land_ones. change (2 ^ 2)%N with 4%N.
  rewrite N.div_add_l, N.div_small by lia. rewrite (N.add_comm (owner * 4)), N.mod_add, N.mod_small by lia. f_equal. lia.
Qed.
Lemma encode_pseudo owner role : (owner < 2 ^ 60)%N -> (role < 4)%N -> is_pseudo (encode owner role) = true.
Proof.
  intros Ho Hr. unfold is_pseudo. apply negb_true_iff, N.eqb_neq. intros H.
  assert (N.testbit (N.land (encode owner role) pseudo_flag) 62 = true) as K.
  { unfold encode, pseudo_flag. rewrite N.land_spec, !N.lor_spec, N.pow2_bits_true. done. }
  by rewrite H in K.
Qed.
Lemma real_not_pseudo n : (n < 2 ^ 62)%N -> is_pseudo n = false.
Proof.
  intros Hn. unfold is_pseudo. apply negb_false_iff, N.eqb_eq, N.bits_inj_0. intros i. unfold pseudo_flag.
  rewrite N.land_spec, N.pow2_bits_eqb. destruct (N.eqb_spec 62 i) as [<-|]; [|by rewrite andb_false_r].
  rewrite N.bits_above_log2; [done|]. destruct (N.eq_dec n 0) as [->|]; [done|]. apply N.log2_lt_pow2; lia.
Qed.

Lemma encode_inj o r o' r' : (o < 2 ^ 60)%N -> (r < 4)%N -> (o' < 2 ^ 60)%N -> (r' < 4)%N ->
  encode o r = encode o' r' -> o = o' /\ r = r'.
Proof.
  intros H1 H2 H3 H4 E. pose proof (decode_encode o r H1 H2) as K. rewrite E, decode_encode in K by done. by simplify_eq.
Qed.
Lemma encode_real o r n : (o < 2 ^ 60)%N -> (r < 4)%N -> (n < 2 ^ 60)%N -> encode o r <> n.
Proof. intros H1 H2 H3 <-. pose proof (encode_pseudo o r H1 H2) as K. rewrite real_not_pseudo in K; [done|]. lia. Qed.

Lemma children_real b n : (n < 2 ^ 60)%N -> children b n =
  (if b_box b n false then [encode n before_elem] else []) ++ b_children b n ++ (if b_box b n true then [encode n after_elem] else []).
Proof. intros H. unfold children. rewrite real_not_pseudo; [done|lia]. Qed.
Lemma children_box b n (after : bool) : (n < 2 ^ 60)%N -> children b (encode n (if after then after_elem else before_elem)) =
  match b_box b n after with Some true => [encode n (if after then after_text else before_text)] | _ => [] end.
Proof. intros H. unfold children. destruct after; rewrite encode_pseudo, decode_encode by done; done. Qed.
Lemma children_text b n (after : bool) : (n < 2 ^ 60)%N -> children b (encode n (if after then after_text else before_text)) = [].
Proof. intros H. unfold children. destruct after; rewrite encode_pseudo, decode_encode by done; done. Qed.
Lemma up_real b n : (n < 2 ^ 60)%N -> up b n = b_parent b n.
Proof. intros H. unfold up. rewrite real_not_pseudo; [done|lia]. Qed.
Lemma up_box b n (after : bool) : (n < 2 ^ 60)%N -> up b (encode n (if after then after_elem else before_elem)) = Some n.
Proof. intros H. unfold up. destruct after; rewrite encode_pseudo, decode_encode by done; done. Qed.
Lemma up_text b n (after : bool) : (n < 2 ^ 60)%N ->
  up b (encode n (if after then after_text else before_text)) = Some (encode n (if after then after_elem else before_elem)).
Proof. intros H. unfold up. destruct after; rewrite encode_pseudo, decode_encode by done; done. Qed.

Lemma in_children_real b n c : (n < 2 ^ 60)%N ->
  c ∈ children b n <-> c ∈ b_children b n \/ exists after t, b_box b n after = Some t /\ c = encode n (if after then after_elem else before_elem).
Proof.
  intros H. rewrite children_real, !elem_of_app by done. split.
  - intros [K|[K|K]]; [|by left|]; right.
    + destruct (b_box b n false) as [t|] eqn:E; [|by apply elem_of_nil in K]. apply elem_of_list_singleton in K. by exists false, t.
    + destruct (b_box b n true) as [t|] eqn:E; [|by apply elem_of_nil in K]. apply elem_of_list_singleton in K. by exists true, t.
  - intros [K|([] & t & E & ->)]; [by right; left| |]; rewrite E; [right; right|left]; by apply elem_of_list_singleton.
Qed.

Lemma tree_ok b n c : consistent b -> shown b n -> shown b c -> c ∈ children b n <-> up b c = Some n.
Proof.
  intros (C1 & C2 & C3 & _) Hn Hc. assert (forall a : bool, (if a then after_elem else before_elem) < 4)%N as R1 by by intros [].
  assert (forall a : bool, (if a then after_text else before_text) < 4)%N as R2 by by intros [].
  destruct Hn as [n Hn|n a t Hn Hb|n a Hn Hb].
  - rewrite in_children_real by done. destruct Hc as [c Hc|c a' t' Hc Hb'|c a' Hc Hb'].
    + rewrite up_real by done. rewrite C3. split; [|by left]. intros [K|(a & t & _ & K)]; [done|]. by destruct (encode_real n _ c Hn (R1 a) Hc).
    + rewrite up_box by done. split.
      * intros [K|(a & t & _ & K)].
        -- destruct (C1 _ _ K) as [_ K']. by destruct (encode_real c _ _ Hc (R1 a') K').
        -- apply encode_inj in K as [-> _]; auto.
      * intros [= ->]. right. eauto.
    + rewrite up_text by done. split.
      * intros [K|(a & t & _ & K)].
        -- destruct (C1 _ _ K) as [_ K']. by destruct (encode_real c _ _ Hc (R2 a') K').
        -- apply encode_inj in K as [_ K]; auto. by destruct a, a'.
      * intros [= K]. by destruct (encode_real c _ n Hc (R1 a') Hn).
  - rewrite children_box, Hb by done. destruct Hc as [c Hc|c a' t' Hc Hb'|c a' Hc Hb'].
    + rewrite up_real by done. split.
      * destruct t; [|intros K; by apply elem_of_nil in K]. intros K%elem_of_list_singleton. by destruct (encode_real n _ c Hn (R2 a) Hc).
      * intros K. destruct (C2 _ _ K) as [K' _]. by destruct (encode_real n _ _ Hn (R1 a) K').
    + rewrite up_box by done. split.
      * destruct t; [|intros K; by apply elem_of_nil in K]. intros K%elem_of_list_singleton. apply encode_inj in K as [_ K]; auto. by destruct a, a'.
      * intros [= K]. by destruct (encode_real n _ c Hn (R1 a) Hc).
    + rewrite up_text by done. split.
      * destruct t; [|intros K; by apply elem_of_nil in K]. intros K%elem_of_list_singleton. apply encode_inj in K as [-> K]; auto. by destruct a, a'.
      * intros [= K]. apply encode_inj in K as [-> K]; auto. assert (a' = a) as -> by by destruct a, a'. simplify_eq. by apply elem_of_list_singleton.
  - rewrite children_text by done. split; [intros K; by apply elem_of_nil in K|]. intros K. exfalso.
    destruct Hc as [c Hc|c a' t' Hc Hb'|c a' Hc Hb'].
    + rewrite up_real in K by done. destruct (C2 _ _ K) as [K' _]. by destruct (encode_real n _ _ Hn (R2 a) K').
    + rewrite up_box in K by done. simplify_eq. by destruct (encode_real n _ _ Hn (R2 a) Hc).
    + rewrite up_text in K by done. injection K as K. apply encode_inj in K as [_ K]; auto. by destruct a, a'.
Qed.

Lemma children_shown b n c : consistent b -> shown b n -> c ∈ children b n -> shown b c.
Proof.
  intros (C1 & _) Hn. destruct Hn as [n Hn|n a t Hn Hb|n a Hn Hb].
  - rewrite in_children_real by done. intros [K|(a & t & E & ->)]; [constructor; by apply C1 in K as [_ K]|by eapply shown_box].
  - rewrite children_box, Hb by done. destruct t; [|intros K; by apply elem_of_nil in K]. intros ->%elem_of_list_singleton. by apply shown_text.
  - rewrite children_text by done. intros K. by apply elem_of_nil in K.
Qed.
Lemma children_once b n : consistent b -> shown b n -> NoDup (children b n).
Proof.
  intros (C1 & _ & _ & C4) Hn. destruct Hn as [n Hn|n a t Hn Hb|n a Hn Hb].
  - rewrite children_real by done. apply NoDup_app. split_and!; [destruct (b_box b n false); [apply NoDup_singleton|apply NoDup_nil_2]| |].
    + intros x Hx. destruct (b_box b n false); [|by apply elem_of_nil in Hx]. apply elem_of_list_singleton in Hx as ->.
      rewrite elem_of_app. intros [K|K].
      * apply C1 in K as [_ K]. by destruct (encode_real n before_elem _ Hn eq_refl K).
      * destruct (b_box b n true); [|by apply elem_of_nil in K]. apply elem_of_list_singleton in K. by apply encode_inj in K as [_ K].
    + apply NoDup_app. split_and!; [done| |destruct (b_box b n true); [apply NoDup_singleton|apply NoDup_nil_2]].
      intros x Hx K. destruct (b_box b n true); [|by apply elem_of_nil in K]. apply elem_of_list_singleton in K as ->.
      apply C1 in Hx as [_ Hx]. by destruct (encode_real n after_elem _ Hn eq_refl Hx).
  - rewrite children_box by done. destruct (b_box b n a) as [[]|]; try apply NoDup_nil_2. apply NoDup_singleton.
  - rewrite children_text by done. apply NoDup_nil_2.
Qed.

(** ** More about computed styles *)
Lemma rbind_ok {A B} (r : res A) (f : A -> res B) b : rbind r f = Ok b -> exists a, r = Ok a /\ f a = Ok b.
Proof. destruct r; cbn; intros; simplify_eq; eauto. Qed.
Lemma rbind_mono {A B} (r r' : res A) (f f' : A -> res B) b :
  rbind r f = Ok b -> (forall a, r = Ok a -> r' = Ok a) -> (forall a, f a = Ok b -> f' a = Ok b) -> rbind r' f' = Ok b.
Proof. intros (a & E & K)%rbind_ok H1 H2. rewrite (H1 a E). cbn. auto. Qed.
Lemma own_mono (s s' : node -> prop -> res value) d n p o : (forall n p v, s n p = Ok v -> s' n p = Ok v) ->
  own_with s d n p = Ok o -> own_with s' d n p = Ok o.
Proof. intros H. unfold own_with. repeat case_match; try done. intros K. eapply rbind_mono; [done|auto|auto]. Qed.
Lemma absolute_mono (s s' : node -> prop -> res value) d n p raw o : (forall n p v, s n p = Ok v -> s' n p = Ok v) ->
  absolute_with s d n p raw = Ok o -> absolute_with s' d n p raw = Ok o.
Proof.
  intros H. unfold absolute_with. destruct raw as [x []| | |]; try done. intros K. eapply rbind_mono; [done| |auto].
  intros a. repeat case_match; try done; intros K'; (eapply rbind_mono; [done|auto|auto]).
Qed.
Lemma more_fuel d fuel : forall fuel' n p v, get_style fuel d n p = Ok v -> fuel <= fuel' -> get_style fuel' d n p = Ok v.
Proof.
  induction fuel as [|fuel IH]; intros fuel' n p v Hv Hf; [done|]. destruct fuel' as [|fuel']; [lia|].
  cbn [get_style] in *. assert (forall n p v, get_style fuel d n p = Ok v -> get_style fuel' d n p = Ok v) as M by (intros; apply IH; [done|lia]).
  eapply rbind_mono; [done|..].
  - intros a. case_match; [|done]. intros K. eapply rbind_mono; [done|auto|auto].
  - intros h. destruct h; [done|]. intros K. eapply rbind_mono; [done|intros a; by apply own_mono|].
    intros [raw|]; [by apply absolute_mono|]. destruct (inherited d p); [destruct (parent d n); [apply M|]|]; by apply absolute_mono.
Qed.

Lemma inherits_ok d p n q v fuel :
  parent d n = Some q -> inherited d p = true ->
  inline d n p = None -> sheet d n p = None -> attrs d n p = None ->
  get_style fuel d q p = Ok v -> get_style (S fuel) d n p = Ok v.
Proof.
  intros Hq Hi H1 H2 H3 Hv. cbn [get_style]. assert (border_peer p = None) as -> by by destruct p.
  assert (takes_current p = false) as Ht by by destruct p. cbn [rbind]. unfold own_with. rewrite H1, Ht, H2, H3, Hi, Hq. done.
Qed.
Lemma own_says s d n p v : said_of d n p = Says v -> own_with s d n p = Ok (Some v).
Proof. unfold said_of, own_with. repeat case_match; intros; simplify_eq; done. Qed.
Lemma px_of_eq v : px_of v = size_or_medium v.
Proof. done. Qed.
Lemma says_ok d p n fuel v w :
  said_of d n p = Says v -> border_peer p = None -> get_style fuel d n p = Ok w ->
  match v with
  | VUnit x Em => p <> FontSize -> exists s, get_style (fuel - 1) d n FontSize = Ok s /\ w = VUnit (x * size_or_medium s)%Q Px
  | VUnit x Rem => w = VUnit (x * 16)%Q Px
  | _ => w = v
  end.
Proof.
  intros Hs Hp Hw. destruct fuel as [|fuel]; [done|]. cbn [get_style] in Hw. rewrite Hp in Hw. cbn [rbind] in Hw.
  rewrite (own_says _ _ _ _ _ Hs) in Hw. cbn [rbind] in Hw. unfold absolute_with in Hw.
  destruct v as [x []| | |]; try (by simplify_eq). intros Hf. rewrite decide_False in Hw by done.
  apply rbind_ok in Hw as (b & (s & E & K)%rbind_ok & Hw). simplify_eq. exists s. rewrite Nat.sub_succ, Nat.sub_0_r. done.
Qed.

Lemma path_nonempty d n l : path d n l -> l <> [].
Proof. by destruct 1. Qed.
Lemma local_sizes d d' l : (forall k q, k ∈ l -> parent d' k = parent d k /\ said_of d' k q = said_of d k q) -> font_size d' l = font_size d l.
Proof.
  induction l as [|k l IH]; intros H; [done|]. cbn [font_size]. destruct (H k FontSize) as [_ ->]; [by left|].
  rewrite IH; [done|]. intros j q Hj. apply H. by right.
Qed.
Lemma local_ok d d' n l p fuel :
  path d n l -> (forall k q, k ∈ l -> parent d' k = parent d k /\ said_of d' k q = said_of d k q) ->
  (forall k, other_inherited d' k = other_inherited d k /\ other_initial d' k = other_initial d k) ->
  3 + length l <= fuel -> get_style fuel d' n p = get_style fuel d n p.
Proof.
  intros Hl H Ho Hf. assert (path d' n l) as Hl'.
  { clear Hf. induction Hl as [n Hn|n q l Hn Hl IH].
    - apply path_root. destruct (H n FontSize) as [-> _]; [by left|done].
    - apply (path_up _ _ q); [destruct (H n FontSize) as [-> _]; [by left|done]|]. apply IH. intros k p' Hk. apply H. by right. }
  rewrite (computed_ok d p n l), (computed_ok d' p n l) by done. f_equal.
  assert (forall p, initial d' p = initial d p) as Hi by (intros []; try done; apply Ho).
  assert (forall p, inherited d' p = inherited d p) as Hh by (intros []; try done; apply Ho).
  assert (forall p m, (forall k q, k ∈ m -> parent d' k = parent d k /\ said_of d' k q = said_of d k q) -> inherited_value d' p m = inherited_value d p m) as Hv.
  { intros p' m. induction m as [|k m IH]; intros Hm; [apply Hi|]. cbn [inherited_value]. unfold em. rewrite (local_sizes d d') by done.
    destruct (Hm k p') as [_ ->]; [by left|]. rewrite Hi. rewrite IH; [done|]. intros j q Hj. apply Hm. by right. }
  assert (forall p, plain_value d' p l = plain_value d p l) as Hp.
  { intros p'. destruct l as [|k l]; [apply Hi|]. cbn [plain_value]. unfold em. rewrite (local_sizes d d'), Hv, Hi by done.
    destruct (H k p') as [_ ->]; [by left|done]. }
  destruct p; cbn [computed]; rewrite ?Hh, ?Hv, ?Hp by done; try done. by apply local_sizes.
Qed.

Lemma em_chain_ok d n l (sizes : list Q) fuel :
  path d n l -> Forall2 (fun k x => said_of d k FontSize = Says (VUnit x Em)) l sizes -> 3 + length l <= fuel ->
  exists x, get_style fuel d n FontSize = Ok (VUnit x Px) /\ (x == fold_right Qmult 16 sizes)%Q.
Proof.
  intros Hl Hs Hf. rewrite (computed_ok d FontSize n l) by done. cbn [computed]. clear Hl Hf.
  assert (exists x, font_size d l = VUnit x Px /\ (x == fold_right Qmult 16 sizes)%Q) as (x & -> & E); [|by exists x].
  induction Hs as [|k x l sizes Hk Hs (y & Ey & IH)]; [by exists 16%Q|]. cbn [font_size]. rewrite Hk, Ey. cbn. eexists. split; [done|]. by rewrite IH.
Qed.
Lemma no_border_ok d n l s fuel v :
  path d n l -> said_of d n (BorderStyle s) = v -> (v = Nothing \/ v = Says (VBorder BNone) \/ v = Says (VBorder BHidden)) ->
  3 + length l <= fuel -> get_style fuel d n (BorderWidth s) = Ok (VUnit 0 Px).
Proof.
  intros Hl Hs Hv Hf. rewrite (computed_ok d _ n l) by done. destruct (path_cons d n l Hl) as [above ->]. cbn [computed plain_value]. rewrite Hs.
  by destruct Hv as [->|[->| ->]].
Qed.
Lemma current_ok d n l p fuel :
  path d n l -> said_of d n p = SaysCurrentColor -> 3 + length l <= fuel ->
  exists v, get_style fuel d n Color = Ok v /\ get_style fuel d n p = Ok (in_px (em d l) v).
Proof.
  intros Hl Hs Hf. exists (inherited_value d Color l). rewrite !(computed_ok d _ n l) by done. split; [done|].
  destruct (path_cons d n l Hl) as [above ->].
  assert (takes_current p = true) as Ht by (destruct (takes_current p) eqn:E; [done|]; by apply (said_not_current d n) in E).
  destruct p; try done; cbn [computed inherited plain_value]; by rewrite Hs.
Qed.

(** ** The caches *)
Section caches.
Context {M I V : Type} (in_sheet : M -> option V) (in_inline : I -> option V).
Notation fresh := (fresh in_sheet in_inline).
Notation step := (step in_sheet in_inline).
Notation ask := (ask in_sheet in_inline).
Implicit Types w : world M I.

(** Between questions: what is in the cache of sheets is right, and the attribute is there too. *)
Definition coherent w : Prop :=
  forall n m, c_sheet (w_caches w) n = Some m -> m = fst (w_styles w n) /\ c_inline (w_caches w) n = Some (snd (w_styles w n)).

Lemma set_eq {A} n m (a : option A) f : set n a f m = if decide (m = n) then a else f m.
Proof. unfold set. destruct (N.eqb_spec m n); destruct (decide _); done. Qed.

Lemma ask_ok n w : coherent w ->
  fst (ask n w) = fresh (w_styles w n) /\ coherent (snd (ask n w)) /\ w_styles (snd (ask n w)) = w_styles w.
Proof.
  intros Hw. unfold ComputedModel.ask. cbn [ComputedModel.step]. destruct (c_sheet (w_caches w) n) as [m|] eqn:E.
  - destruct (Hw _ _ E) as [-> Hi]. cbn. rewrite Hi. done.
  - cbn. destruct (w_styles w n) as [m i] eqn:Es. cbn. rewrite set_eq, decide_True by done. split_and!; [done| |done].
    intros k m'. cbn. rewrite !set_eq. destruct (decide (k = n)) as [->|]; [|apply Hw]. intros [= <-]. by rewrite Es.
Qed.
Lemma invalidate_caches ids w n :
  w_styles (invalidate ids w) = w_styles w
  /\ c_sheet (w_caches (invalidate ids w)) n = (if decide (n ∈ ids) then None else c_sheet (w_caches w) n)
  /\ c_inline (w_caches (invalidate ids w)) n = (if decide (n ∈ ids) then None else c_inline (w_caches w) n).
Proof.
  unfold invalidate. revert w. induction ids as [|x ids IH]; intros w; cbn [fold_left].
  { rewrite decide_False by apply not_elem_of_nil. done. }
  destruct (IH (mk_world (w_styles w) (mk_caches (set x None (c_sheet (w_caches w))) (set x None (c_inline (w_caches w)))))) as (-> & -> & ->).
  cbn. rewrite !set_eq. split; [done|].
  destruct (decide (n ∈ x :: ids)) as [K|K]; destruct (decide (n ∈ ids)) as [H|H]; try done.
  - apply elem_of_cons in K as [->|K]; [|done]. destruct (decide (x = x)); done.
  - destruct K. by right.
  - destruct (decide (n = x)) as [->|]; [|done]. destruct K. by left.
Qed.
Lemma invalidate_ok ids w styles : coherent w -> (forall n, n ∉ ids -> styles n = w_styles w n) ->
  coherent (invalidate ids (change styles w)).
Proof.
  intros Hw Ht n m. destruct (invalidate_caches ids (change styles w) n) as (-> & -> & ->). cbn.
  destruct (decide _) as [|H]; [done|]. rewrite Ht by done. apply Hw.
Qed.

(** What a thread knows, while nothing changes. *)
Definition knows (styles : node -> M * I) (t : doing M I V) : Prop :=
  match t with
  | Asks _ | Computes _ => True
  | StoresSheet n m i | StoresInline n m i => styles n = (m, i)
  | Looks n m => m = fst (styles n)
  | Done n v => v = fresh (styles n) \/ v = in_sheet (fst (styles n))
  end.
Definition sound w : Prop := forall n,
  (forall m, c_sheet (w_caches w) n = Some m -> m = fst (w_styles w n))
  /\ forall i, c_inline (w_caches w) n = Some i -> i = snd (w_styles w n).
Lemma step_ok t w : sound w -> knows (w_styles w) t ->
  let '(t', w') := step t w in sound w' /\ knows (w_styles w) t' /\ w_styles w' = w_styles w.
Proof.
  intros Hw Ht. destruct t as [n|n|n m i|n m i|n m|n v]; cbn in *.
  - destruct (c_sheet (w_caches w) n) as [m|] eqn:E; cbn; split_and!; try done. by apply Hw.
  - destruct (w_styles w n) as [m i] eqn:E. cbn. split_and!; done.
  - split_and!; try done. intros k. cbn. split; [|apply Hw]. intros m'. rewrite set_eq. destruct (decide _) as [->|]; [|apply Hw]. intros [= <-]. by rewrite Ht.
  - split_and!; [|by rewrite Ht|done]. intros k. cbn. split; [apply Hw|]. intros i'. rewrite set_eq. destruct (decide _) as [->|]; [|apply Hw]. intros [= <-]. by rewrite Ht.
  - split_and!; try done. subst m. unfold ComputedSpec.fresh. destruct (c_inline (w_caches w) n) as [i|] eqn:E; [|by right].
    left. destruct (Hw n) as [_ H]. by rewrite (H _ E).
  - done.
Qed.

Lemma happen_ok es : forall w, coherent w -> all_told (w_styles w) es ->
  happen in_sheet in_inline es w = expected in_sheet in_inline es (w_styles w).
Proof.
  induction es as [|[n|ids| |styles ids] es IH]; intros w Hw Ht; [done|..]; cbn [happen expected].
  - destruct (ask_ok n w Hw) as (E1 & E2 & E3). destruct (ask n w) as [v w']. cbn in *. subst v.
    f_equal. rewrite <- E3. apply IH; [done|]. by rewrite E3.
  - destruct (invalidate_caches ids w 0%N) as (E & _). rewrite <- E. apply IH; [|by rewrite E].
    destruct w as [st ca]. by apply (invalidate_ok ids (mk_world st ca) st).
  - apply (IH (clear w)); [|done]. by intros n m.
  - destruct Ht as [T Ht]. cbn in T. destruct (invalidate_caches ids (change styles w) 0%N) as (E & _).
    change styles with (w_styles (change styles w)) at 2. rewrite <- E. apply IH; [by apply invalidate_ok|]. by rewrite E.
Qed.

Lemma schedule_ok s : forall ts w, sound w -> Forall (knows (w_styles w)) ts ->
  let '(ts', w') := together in_sheet in_inline s ts w in sound w' /\ Forall (knows (w_styles w)) ts' /\ w_styles w' = w_styles w.
Proof.
  induction s as [|k s IH]; intros ts w Hw Ht; cbn [together]; [done|].
  destruct (ts !! k) as [t|] eqn:Ek; [|by apply IH]. pose proof (step_ok t w Hw) as K.
  destruct (step t w) as [t' w'] eqn:Es. destruct K as (K1 & K2 & K3); [by eapply Forall_lookup_1 in Ht|].
  specialize (IH (<[k:=t']> ts) w' K1). rewrite K3 in IH. apply IH. apply Forall_insert; done.
Qed.
Lemma threads_ok styles (asks : list node) schedule k n v :
  fst (together in_sheet in_inline schedule (Asks <$> asks) (nothing_cached styles)) !! k = Some (Done n v) ->
  v = fresh (styles n) \/ v = in_sheet (fst (styles n)).
Proof.
  pose proof (schedule_ok schedule (Asks <$> asks) (nothing_cached styles)) as K.
  destruct (together _ _ _ _ _) as [ts w]. intros E. destruct K as (_ & K & _).
  - intros m. done.
  - apply Forall_fmap, Forall_true. done.
  - eapply Forall_lookup_1 in K; [|exact E]. done.
Qed.
End caches.
