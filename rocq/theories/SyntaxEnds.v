(** Matching ends, and it is exact for choices between single values. *)
From stdpp Require Import gmap relations.
From Verif Require Import Base Text SelectorModel SyntaxModel SyntaxSpec SyntaxProofs.

(** ** What can match without taking a value *)
Definition once_empty (c : component) : bool :=
  match c with
  | CGroup Juxtaposition cs _ => forallb (fun c => is_comma c || may_be_empty c) cs
  | CGroup AllAnyOrder cs _ => forallb may_be_empty cs
  | CGroup _ cs _ => existsb may_be_empty cs
  | _ => false
  end.
Definition zero_list (ms : list multiplier) : bool := match comma_bounds ms with Some (0, _) => true | _ => false end.
Lemma may_be_empty_eq c : may_be_empty c = omissible c || zero_list (multipliers c) || once_empty c.
Proof. by destruct c. Qed.
Lemma may_be_empty_once c : may_be_empty (set_multipliers [] c) = once_empty c.
Proof. destruct c; try done. Qed.
Definition takes (empty : bool) : words := fun w => empty = false -> w <> [].

Lemma in_order_takes A (l : list (bool * bool)) :
  in_order A (map (fun x => (x.1, takes x.2)) l) [] -> forallb (fun x => x.1 || x.2) l = true.
Proof.
  revert A. induction l as [|[c e] l IH]; intros A H; [done|]. simpl in *.
  destruct H as [(u & v & Huv & Hu & Hv)|[(-> & _ & H)|(-> & _ & _ & H)]].
  - symmetry in Huv. apply app_nil in Huv as [-> ->]. apply andb_true_iff. split; [|by eapply IH].
    destruct e; [by rewrite orb_true_r|]. by specialize (Hu eq_refl).
  - simpl. by eapply IH.
  - simpl. rewrite forallb_forall. intros [c' e'] Hin%elem_of_list_In. rewrite Forall_map, Forall_forall in H.
    specialize (H _ Hin). simpl in *. destruct e'; [by rewrite orb_true_r|]. by specialize (H eq_refl).
Qed.
Lemma one_each_takes (l : list words) : one_each l [] -> Forall (fun P : words => P []) l.
Proof.
  induction l as [|P l IH]; [constructor|]. intros (u & v & Huv & Hu & Hv). symmetry in Huv. apply app_nil in Huv as [-> ->].
  constructor; [done|]. by apply IH.
Qed.
Lemma combined_takes k cs :
  combined k (map (fun c => (is_comma c, takes (may_be_empty c))) cs) [] -> once_empty (CGroup k cs []) = true.
Proof.
  assert (forall c, takes (may_be_empty c) [] -> may_be_empty c = true) as Ht.
  { intros c H. destruct (may_be_empty c); [done|]. by specialize (H eq_refl). }
  assert ((map (fun c => (is_comma c, takes (may_be_empty c))) cs).*2 = map (fun c => takes (may_be_empty c)) cs) as Hsnd.
  { induction cs as [|c cs IH]; [done|]. simpl. f_equal. exact IH. }
  destruct k; simpl; rewrite ?Hsnd.
  - intros H. assert (map (fun c => (is_comma c, takes (may_be_empty c))) cs = map (fun x => (x.1, takes x.2)) (map (fun c => (is_comma c, may_be_empty c)) cs)) as Hm.
    { by rewrite map_map. }
    rewrite Hm in H. apply in_order_takes in H. rewrite forallb_forall in H |- *. intros c Hc.
    specialize (H (is_comma c, may_be_empty c) (in_map (fun c => (is_comma c, may_be_empty c)) _ _ Hc)). done.
  - intros (o & Ho & H%one_each_takes). rewrite Ho, Forall_map in H. apply forallb_forall. intros c Hc%elem_of_list_In.
    rewrite Forall_forall in H. apply Ht. by apply H.
  - intros (o & Ho & Hne & H%one_each_takes). destruct o as [|P o]; [done|]. inversion H; subst.
    assert (P ∈ map (fun c => takes (may_be_empty c)) cs) as HP.
    { eapply elem_of_submseteq; [|exact Ho]. by left. }
    apply elem_of_list_fmap in HP as (c & -> & Hc). apply existsb_exists. exists c. split; [by apply elem_of_list_In|]. by apply Ht.
  - rewrite Exists_exists. intros (P & (c & -> & Hc)%elem_of_list_fmap & HP). apply existsb_exists. exists c. split; [by apply elem_of_list_In|]. by apply Ht.
Qed.

Lemma times_nonempty (P : words) k w : (forall u, P u -> u <> []) -> k <> 0 -> times P k w -> w <> [].
Proof. intros HP Hk Ht. destruct k; [done|]. destruct Ht as (u & v & -> & Hu & _). specialize (HP _ Hu). by destruct u. Qed.
(** a comma-separated list that may have left something *)
Lemma commas_took fuel item (P : words) lo hi raw input cnt vals r s m s' :
  sound item P -> commas fuel item lo hi raw input cnt vals r s = Ok (m, s') -> m_ok m = true ->
  exists w, input = w ++ m_rest m /\ (w = [] -> P [] \/ lo <= cnt).
Proof.
  intros Hs. revert input cnt vals s. induction fuel as [|fuel IH]; intros input cnt vals s E Hm; cbn [commas] in E; [discriminate E|].
  destruct (item input r s) as [[y s1]| |] eqn:E0; cbn [rbind] in E; [|discriminate E|discriminate E].
  assert (forall c inp vs, comma_end lo hi raw c inp vs = m -> (lo <= c /\ (N.of_nat c <= hi)%N) /\ inp = m_rest m) as Hend.
  { intros c inp vs <-. unfold comma_end in *. destruct ((lo <=? c) && (N.of_nat c <=? hi)%N) eqn:Hb; [|discriminate Hm]. apply andb_true_iff in Hb as [Hb1 Hb2].
    apply Nat.leb_le in Hb1. apply N.leb_le in Hb2. done. }
  destruct (m_ok y) eqn:Hy; cbn [negb] in E.
  2:{ apply Ok_pair in E as [E _]. apply Hend in E as [Hb ->]. exists []. split; [done|]. intros _. right. lia. }
  destruct (Hs _ _ _ _ _ E0 Hy) as (w & Hw & HP).
  destruct (after_comma (m_rest y)) as [[|v rest]|] eqn:Ha.
  - apply Ok_pair in E as [E _]. rewrite <-E in Hm. discriminate Hm.
  - assert (m_rest y = VComma :: v :: rest) as Hrest.
    { destruct (m_rest y) as [|z l]; [discriminate Ha|]. destruct z; try discriminate Ha. simpl in Ha. by injection Ha as ->. }
    destruct (IH _ _ _ _ E Hm) as (w' & Hw' & _). exists (w ++ VComma :: w').
    split; [rewrite Hw, Hrest, Hw'; by rewrite <-app_assoc|]. by destruct w.
  - apply Ok_pair in E as [E _]. apply Hend in E as [Hb He]. exists w. split; [by rewrite <-He|]. intros ->. by left.
Qed.
Lemma with_multipliers_takes ms once e :
  sound once (takes e) -> sound (with_multipliers ms once) (takes (enough (fulfilled (primary ms) 0) || zero_list ms || e)).
Proof.
  intros Hs.
  assert (sound (item_of ms once) (takes (enough (fulfilled (primary ms) 0) || e))) as Hitem.
  { intros input r s m s' E Hm. unfold item_of in E.
    destruct (repeated_sound _ _ (takes e) _ _ _ 0 _ _ _ _ _ [] Hs eq_refl (or_introl eq_refl) E Hm) as (w & k & Hw & He & Hk & _).
    exists w. split; [done|]. intros [Hf ->]%orb_false_iff. eapply (times_nonempty (takes false)); [|..|exact Hk].
    - intros u Hu. by apply Hu.
    - intros ->. congruence. }
  intros input r s m s' E Hm. unfold with_multipliers in E. unfold zero_list. destruct (comma_bounds ms) as [[lo hi]|].
  - change (commas (S (length input)) (item_of ms once) lo hi input input 0 [] r s = Ok (m, s')) in E.
    destruct (commas_took _ _ _ _ _ _ _ _ _ _ _ _ _ Hitem E Hm) as (w & Hw & Ht). exists w. split; [done|].
    intros [[Hf Hlo]%orb_false_iff ->]%orb_false_iff ->. rewrite Hf in Ht. destruct Ht as [Ht|Ht]; [done|by specialize (Ht eq_refl)|].
    destruct lo; [done|lia].
  - destruct (Hitem _ _ _ _ _ E Hm) as (w & Hw & Ht). exists w. split; [done|]. by rewrite orb_false_r.
Qed.

Section fits.
Context (fits : str -> str -> value -> bool).
Notation match_component := (match_component fits).
Notation language := (language fits).

Lemma both_take c : sound (once_run fits c) (takes (once_empty c)) /\ sound (match_component c) (takes (may_be_empty c)).
Proof.
  assert (forall c, sound (once_run fits c) (takes (once_empty c)) ->
    sound (once_run fits c) (takes (once_empty c)) /\ sound (match_component c) (takes (may_be_empty c))) as Hdo.
  { intros c' Hc. split; [done|]. rewrite match_component_eq, may_be_empty_eq. unfold omissible. by apply with_multipliers_takes. }
  assert (forall ok, sound (single ok) (takes false)) as Hsingle.
  { intros ok. eapply sound_mono; [|apply single_sound]. intros w (v & -> & _) _. done. }
  induction c as [s ms|s ms|n ms|n a ms IH|s q0 rg0 ms|ms|ms|ms|s ms|t rg ms|k cs ms IH] using component_ind'; apply Hdo; simpl; try done.
  - intros input r s' m s'' E Hm. destruct input as [|v input]; [injection E as <- _; discriminate Hm|].
    destruct v; try (injection E as <- _; discriminate Hm). destruct (same_ignoring_case n name); simpl in E; injection E as <- _; [|discriminate Hm].
    by exists [VFunction name args].
  - intros input r s' m s'' E Hm. destruct input as [|v input]; [injection E as <- _; discriminate Hm|].
    destruct v; try (injection E as <- _; discriminate Hm). destruct (same_ignoring_case n name); simpl in E; [|injection E as <- _; discriminate Hm].
    rb E. destruct x as [m' s1]. destruct (m_ok m' && _); injection E as <- _; [|discriminate Hm]. by exists [VFunction name args].
  - intros input r s' m s'' E Hm. injection E as <- _. discriminate Hm.
  - eapply sound_mono; [|apply (group_sound k _ (map (fun c => (is_comma c, takes (may_be_empty c))) cs))].
    + intros w Hw He ->. apply combined_takes in Hw. simpl in Hw. destruct k; simpl in *; congruence.
    + apply Forall2_fmap. induction IH as [|c cs Hc HF IHcs]; [constructor|]. constructor; [|done]. simpl.
      split; [|done]. split; [exact (proj2 Hc)|]. simpl. intros Ho He. rewrite may_be_empty_eq, Ho in He. discriminate He.
Qed.

(** ** Matching ends *)
Definition total (f : run) : Prop := forall input r s, exists m s', f input r s = Ok (m, s').
Lemma stepped_total f cl i : total f -> total (stepped f cl i).
Proof.
  intros Hf input r s. unfold stepped. destruct r as [r|]; [|apply Hf]. destruct (step r i s) as [|r'|names s1]; [apply Hf|apply Hf|].
  destruct (Hf input None s1) as (m & s2 & ->). simpl. destruct (cl m); eauto.
Qed.
Lemma exactly_one_total xs : Forall (fun x => total (ru_run x)) xs -> total (exactly_one xs).
Proof.
  intros HF input r s. unfold exactly_one. destruct input as [|v input]; [eauto|].
  assert (forall i s, exists ms s', try_all xs i (v :: input) r s = Ok (ms, s')) as Hall.
  { induction HF as [|x xs Hx HF IH]; intros i s0; simpl; [eauto|].
    destruct (stepped_total _ m_ok i Hx (v :: input) r s0) as (m & s1 & ->). simpl.
    destruct (IH (S i) s1) as (ms & s2 & ->). simpl. eauto. }
  destruct (Hall 0 s) as (ms & s' & ->). simpl. eauto.
Qed.
Lemma scan_total all l used input r s : Forall (fun x => total (ru_run x.2)) l -> exists o s', scan all l used input r s = Ok (o, s').
Proof.
  intros HF. revert s. induction HF as [|[i x] l Hx HF IH]; intros s; simpl; [eauto|]. simpl in Hx. case_bool_decide; [apply IH|].
  destruct (stepped_total _ (claim all (ru_omits x) input) i Hx input r s) as (m & s1 & ->). simpl. destruct (claim _ _ _ m); eauto.
Qed.
Lemma scan_new all l used input r s i m s' : scan all l used input r s = Ok (Some (i, m), s') -> i ∉ used /\ i ∈ l.*1.
Proof.
  revert s. induction l as [|[j x] l IH]; intros s E; simpl in E; [discriminate E|]. case_bool_decide as Hj.
  { destruct (IH _ E). split; [done|by right]. }
  rb E. destruct x0 as [m0 s0]. simpl in E. destruct (claim _ _ _ _).
  - injection E as -> -> ->. split; [done|by left].
  - destruct (IH _ E). split; [done|by right].
Qed.
Lemma claims_total fuel all l used input vals r s :
  Forall (fun x => total (ru_run x.2)) l -> NoDup used -> used ⊆ l.*1 -> length l < fuel + length used ->
  exists u rest vs s', claims fuel all l used input vals r s = Ok (u, rest, vs, s').
Proof.
  intros HF. revert used input vals s. induction fuel as [|fuel IH]; intros used input vals s Hnd Hsub Hlen.
  { pose proof (submseteq_length _ _ (NoDup_submseteq _ _ Hnd Hsub)) as Hl. rewrite fmap_length in Hl. simpl in Hlen. lia. }
  simpl. destruct input as [|v input]; [eauto 10|].
  destruct (scan_total all l used (v :: input) r s HF) as (o & s1 & Es). rewrite Es. simpl. destruct o as [[i m]|]; [|eauto 10].
  destruct (scan_new _ _ _ _ _ _ _ _ _ Es) as [Hi Hil]. apply IH.
  - apply NoDup_app. split_and!; [done| |apply NoDup_singleton]. intros j Hj Hj'. apply elem_of_list_singleton in Hj' as ->. done.
  - intros j Hj. rewrite elem_of_app, elem_of_list_singleton in Hj. destruct Hj as [Hj| ->]; [by apply Hsub|done].
  - rewrite app_length. simpl. lia.
Qed.
Lemma pass_total all l : Forall (fun x => total (ru_run x.2)) l -> total (any_order_pass all l).
Proof.
  intros HF input r s. unfold any_order_pass.
  destruct (claims_total (S (length l)) all l [] input [] r s HF NoDup_nil_2 ltac:(set_solver) ltac:(simpl; lia)) as (u & rest & vs & s' & ->).
  cbn [rbind]. eauto.
Qed.
Lemma best_total os all input b s : (forall o, o ∈ os -> total (any_order_pass all o)) -> exists m s', best os all input b s = Ok (m, s').
Proof.
  revert b s. induction os as [|o os IH]; intros b s Hos; simpl; [eauto|].
  destruct (Hos o ltac:(by left) input None s) as (m & s1 & ->). simpl. specialize (IH).
  assert (forall b s, exists m s', best os all input b s = Ok (m, s')) as IH' by (intros; apply IH; intros; apply Hos; by right).
  destruct (negb (m_ok m)); [apply IH'|]. destruct (m_rest m); [eauto|apply IH'].
Qed.
Lemma any_order_total all xs : Forall (fun x => total (ru_run x)) xs -> total (any_order all xs).
Proof.
  intros HF. assert (Forall (fun x => total (ru_run x.2)) (imap pair xs)) as HFi.
  { apply Forall_forall. intros [i x] Hi%imap_pair_lookup. rewrite Forall_forall in HF. apply HF. by eapply elem_of_list_lookup_2. }
  intros input r s. unfold any_order. destruct r as [r|]; [by apply pass_total|]. apply best_total.
  intros o Ho%rotated. apply pass_total. by rewrite Ho.
Qed.
Lemma in_turn_total xs i input vals prev r s : Forall (fun x => total (ru_run x)) xs -> exists m s', in_turn xs i input vals prev r s = Ok (m, s').
Proof.
  intros HF. revert i input vals prev s. induction HF as [|x xs Hx HF IH]; intros i input vals prev s; simpl; [eauto|].
  destruct (stepped_total _ m_ok i Hx input r s) as (m & s1 & ->). simpl. destruct (m_ok m); [apply IH|].
  destruct (ru_comma x); [|eauto]. destruct prev; simpl; [|apply IH]. destruct (_ && _); eauto.
Qed.
Lemma group_total k xs : Forall (fun x => total (ru_run x)) xs -> total (run_group k xs).
Proof.
  intros HF input r s. destruct k; simpl.
  - by apply in_turn_total.
  - by apply any_order_total.
  - by apply any_order_total.
  - by apply exactly_one_total.
Qed.
Lemma more_below m n : is_primary m = true -> endless m = false -> n <> 0 -> fulfilled m n = NotYet \/ fulfilled m n = MoreAllowed -> n < bound m.
Proof.
  destruct m; try done; intros _ _ Hn; unfold fulfilled, bound; repeat case_match; intros [|]; try done.
  - match goal with H : (_ <? _) = true |- _ => apply Nat.ltb_lt in H end. lia.
  - match goal with H : _ && _ = true |- _ => apply andb_true_iff in H as [_ H]; apply Nat.ltb_lt in H end. lia.
Qed.
Lemma repeated_total fuel once m raw input cnt vals r s e :
  total once -> sound once (takes e) -> is_primary m = true -> (endless m = true -> e = false) ->
  (if endless m then length input < fuel else bound m < fuel + cnt /\ 0 < fuel) ->
  exists x s', repeated fuel once (fulfilled m) raw input cnt vals r s = Ok (x, s').
Proof.
  intros Ht Hs Hp He. revert input cnt vals s. induction fuel as [|fuel IH]; intros input cnt vals s Hf.
  { exfalso. destruct (endless m); lia. }
  simpl. destruct input as [|v input]; [eauto|]. destruct (Ht (v :: input) r s) as (y & s1 & Ey). rewrite Ey. simpl.
  destruct (m_ok y) eqn:Hy.
  2:{ destruct (fulfilled m cnt); eauto. }
  destruct (Hs _ _ _ _ _ Ey Hy) as (w & Hw & Hne).
  assert ((fulfilled m (S cnt) = NotYet \/ fulfilled m (S cnt) = MoreAllowed) ->
    exists x s', repeated fuel once (fulfilled m) raw (m_rest y) (S cnt) (vals ++ m_vals y) r s1 = Ok (x, s')) as Hgo.
  { intros Hmore. apply IH. destruct (endless m) eqn:Hend.
    - specialize (Hne (He eq_refl)). apply (f_equal length) in Hw. rewrite app_length in Hw. destruct w; [done|]. simpl in *. lia.
    - apply more_below in Hmore; [|done..]. lia. }
  destruct (fulfilled m (S cnt)); [by apply Hgo; left|eauto| |eauto]. destruct (m_rest y); [eauto|]. by apply Hgo; right.
Qed.
Lemma with_multipliers_total ms once e :
  total once -> sound once (takes e) -> (endless (primary ms) = true -> e = false) -> total (with_multipliers ms once).
Proof.
  intros Ht Hs He. assert (total (item_of ms once)) as Hitem.
  { intros input r s. unfold item_of. eapply repeated_total; [done|exact Hs|apply primary_primary|done|].
    destruct (endless (primary ms)); lia. }
  assert (sound (item_of ms once) (fun _ => True)) as Hany.
  { eapply sound_mono; [|by apply (item_sound ms once _ Hs)]. done. }
  intros input r s. unfold with_multipliers. destruct (comma_bounds ms) as [[lo hi]|]; [|apply Hitem].
  change (exists m s', commas (S (length input)) (item_of ms once) lo hi input input 0 [] r s = Ok (m, s')).
  assert (forall fuel raw inp cnt vals s, length inp < fuel -> exists m s', commas fuel (item_of ms once) lo hi raw inp cnt vals r s = Ok (m, s')) as Hc.
  { induction fuel as [|fuel IH]; intros raw inp cnt vals s0 Hlt; [lia|]. cbn [commas].
    destruct (Hitem inp r s0) as (m & s1 & Em). rewrite Em. cbn [rbind]. destruct (m_ok m) eqn:Hm; cbn [negb]; [|eauto].
    destruct (after_comma (m_rest m)) as [[|v rest]|] eqn:Ha; [eauto| |eauto]. apply IH.
    destruct (Hany _ _ _ _ _ Em Hm) as (w & Hw & _). apply (f_equal length) in Hw. rewrite app_length in Hw.
    destruct (m_rest m) as [|z l]; [discriminate Ha|]. destruct z; try discriminate Ha. simpl in Ha. injection Ha as ->. simpl in *. lia. }
  apply Hc. lia.
Qed.
Lemma both_total c : productive c -> total (once_run fits c) /\ total (match_component c).
Proof.
  assert (forall c, productive c -> total (once_run fits c) -> total (once_run fits c) /\ total (match_component c)) as Hdo.
  { intros c' Hc Ht. split; [done|]. rewrite match_component_eq. eapply with_multipliers_total; [done|apply both_take|]. intros He.
    rewrite <-may_be_empty_once. destruct c'; by apply Hc. }
  assert (forall ok, total (single ok)) as Hsingle.
  { intros ok input r s. destruct input as [|v input]; simpl; [eauto|]. destruct (ok v); eauto. }
  induction c as [s ms|s ms|n ms|n a ms IH|s q0 rg0 ms|ms|ms|ms|s ms|t rg ms|k cs ms IH] using component_ind'; intros Hp; apply Hdo; try done; simpl; try done.
  - by destruct Hp.
  - intros input r s. destruct input as [|v input]; [eauto|]. destruct v; eauto. destruct (same_ignoring_case n name); simpl; eauto.
  - intros input r s. destruct input as [|v input]; [eauto|]. destruct v; eauto. destruct (same_ignoring_case n name); simpl; eauto.
    destruct (proj2 (IH (proj2 Hp)) args None s) as (m & s1 & ->). simpl. eauto.
  - intros input r s'. eauto.
  - apply group_total. destruct Hp as [_ Hp]. apply Forall_fmap. induction IH as [|c cs Hc HF IHcs]; [constructor|]. destruct Hp as [Hp Hps].
    constructor; [by apply Hc|by apply IHcs].
Qed.
Lemma component_total c : productive c -> total (match_component c).
Proof. apply both_total. Qed.

(** ** Choices between single values are matched exactly *)
(** whatever the bookkeeping, [f] takes the value [v] *)
Definition accepts (f : run) (v : value) : Prop := forall rest r s m s', f (v :: rest) r s = Ok (m, s') -> m_ok m = true.
Lemma stepped_accepts f cl i v : accepts f v -> accepts (stepped f cl i) v.
Proof.
  intros Hf rest r s m s' E. unfold stepped in E. destruct r as [r|]; [|by eapply Hf]. destruct (step r i s) as [|r'|names s1]; [by eapply Hf|by eapply Hf|].
  rb E. destruct x as [m0 s0]. simpl in E. destruct (cl m0); injection E as <- _; by eapply Hf.
Qed.
Lemma exactly_one_accepts xs v : Exists (fun x => accepts (ru_run x) v) xs -> accepts (exactly_one xs) v.
Proof.
  intros HE rest r s m s' E. unfold exactly_one in E. rb E. destruct x as [ms s1]. injection E as <- _.
  assert (forall xs i s ms s', try_all xs i (v :: rest) r s = Ok (ms, s') ->
    Forall (fun m => m_ok m = true) ms /\ (Exists (fun x => accepts (ru_run x) v) xs -> ms <> [])) as Hall.
  { clear. induction xs as [|x xs IH]; intros i s ms s' E; simpl in E.
    - injection E as <- _. split; [constructor|]. by inversion 1.
    - rb E. destruct x0 as [m s1]. simpl in E. rb E. destruct x0 as [ms0 s2]. injection E as <- _.
      destruct (IH _ _ _ _ E1) as [HF Hn]. destruct (m_ok m) eqn:Hm; (split; [by try constructor|]); [done|].
      inversion 1 as [y l Hy|y l Hy]; subst; [|by apply Hn]. apply (stepped_accepts _ m_ok i) in Hy. specialize (Hy _ _ _ _ _ E0). congruence. }
  destruct (Hall _ _ _ _ _ E0) as [HF Hn]. destruct ms as [|m ms]; [by specialize (Hn HE)|].
  rewrite Forall_forall in HF. apply HF. apply shortest_in.
Qed.
Lemma in_turn_accepts x i vals prev r s rest v m s' : accepts (ru_run x) v -> in_turn [x] i (v :: rest) vals prev r s = Ok (m, s') -> m_ok m = true.
Proof.
  intros Hx E. simpl in E. rb E. destruct x0 as [m0 s0]. simpl in E. rewrite (stepped_accepts _ m_ok i _ Hx _ _ _ _ _ E0) in E. by injection E as <- _.
Qed.
Lemma choice_ms c : choice fits c -> primary (multipliers c) = Once /\ comma_bounds (multipliers c) = None /\ plain_ms (multipliers c).
Proof. intros H. assert (single_ms (multipliers c)) as [-> | ->] by (destruct c; apply H); done. Qed.
Lemma choice_language c : choice fits c -> language c = once_language fits c.
Proof. intros Hc. destruct (choice_ms c Hc) as (Hp & _ & Hpl). rewrite language_eq. destruct (plain_bounds _ Hpl) as [_ ->]. by rewrite Hp. Qed.
Lemma single_ms_list (b : bool) ms : single_ms ms -> if b then list_ms ms else plain_ms ms.
Proof. intros [-> | ->]; destruct b; try done; by left. Qed.
Lemma choice_tidy c b : choice fits c -> tidy b c.
Proof.
  revert b. induction c as [s ms|s ms|n ms|n a ms IH|s q0 rg0 ms|ms|ms|ms|s ms|t rg ms|k cs ms IH] using component_ind'; intros b [Hms Hc];
    simpl in *; (split; [by apply single_ms_list|]); try done.
  - apply Hc.
  - destruct Hc as [_ Hcs]. induction IH as [|c cs Hc' HF IHcs]; [done|]. destruct Hcs as [H1 H2]. split; [by apply Hc'|by apply IHcs].
Qed.
Lemma single_productive ms c : single_ms ms -> multipliers c = ms -> endless (primary (multipliers c)) = true -> may_be_empty (set_multipliers [] c) = false.
Proof. intros [-> | ->] ->; done. Qed.
Lemma choice_productive c : choice fits c -> productive c.
Proof.
  induction c as [s ms|s ms|n ms|n a ms IH|s q0 rg0 ms|ms|ms|ms|s ms|t rg ms|k cs ms IH] using component_ind'; intros [Hms Hc];
    (split; [by eapply single_productive|]); try done.
  - apply Hc.
  - destruct Hc as [_ Hcs]. induction IH as [|c cs Hc' HF IHcs]; [done|]. destruct Hcs as [H1 H2]. split; [by apply Hc'|by apply IHcs].
Qed.
Lemma text_no_comma s v : text_is s v -> v <> VComma.
Proof. intros (t & -> & _). done. Qed.
Lemma group_choice k cs w : k = ExactlyOne \/ (k = Juxtaposition /\ length cs = 1) -> foldr (fun c P => choice fits c /\ P) True cs ->
  combined k (map (fun c => (is_comma c, language c)) cs) w -> exists c, c ∈ cs /\ choice fits c /\ language c w.
Proof.
  intros Hk Hcs H.
  assert (forall c, c ∈ cs -> choice fits c) as Hch by (intros c Hc; clear -Hcs Hc; induction Hc; destruct Hcs; auto).
  destruct Hk as [-> |[-> Hl]]; simpl in H.
  - rewrite Exists_exists in H. destruct H as (P & HP & Hw). apply elem_of_list_fmap in HP as ([b P'] & -> & HP).
    apply elem_of_list_fmap in HP as (c & [= -> ->] & Hc). simpl in Hw. exists c. auto.
  - destruct cs as [|c [|]]; try done. simpl in H. exists c. split; [by left|]. split; [by apply Hch; left|].
    destruct H as [(u & v & -> & Hu & ->)|[(_ & [] & _)|(_ & _ & ? & _)]]; [|done]. by rewrite app_nil_r.
Qed.
(** a choice's words are single values, and no commas *)
Lemma choice_words c w : choice fits c -> language c w -> exists v, w = [v] /\ v <> VComma.
Proof.
  revert w. induction c as [s ms|s ms|n ms|n a ms IH|s q0 rg0 ms|ms|ms|ms|s ms|t rg ms|k cs ms IH] using component_ind'; intros w Hc;
    rewrite (choice_language _ Hc); destruct Hc as [_ Hc]; simpl in *; try done.
  - intros (v & -> & [Hv|[-> _]]); eexists; split; try done. by eapply text_no_comma.
  - intros (n' & vs & -> & _). eauto.
  - intros (n' & vs & -> & _). eauto.
  - intros (v & -> & [-> |Hv]); eexists; split; try done. by eapply text_no_comma.
  - intros (v & -> & [-> |Hv]); eexists; split; try done. by eapply text_no_comma.
  - intros (v & -> & Hv); eexists; split; try done. by eapply text_no_comma.
  - intros (v & -> & [Hv|[-> ?]]); [|done]. eexists; split; try done. by eapply text_no_comma.
  - intros (v & -> & Hv). eexists; split; try done. intros ->. congruence.
  - destruct Hc as [Hk Hcs]. intros Hw. destruct (group_choice _ _ _ Hk Hcs Hw) as (c & Hc & Hch & Hl).
    rewrite Forall_forall in IH. by apply (IH c Hc).
Qed.
Lemma text_says s v : text_is s v -> says s v = true.
Proof. intros (t & -> & Ht). simpl. unfold same_ignoring_case. by rewrite bool_decide_eq_true. Qed.
Lemma single_accepts ok v : ok v = true -> accepts (single ok) v.
Proof. intros H rest r s m s' E. simpl in E. rewrite H in E. by injection E as <- _. Qed.
Lemma plain_same c v rest r s m s' : primary (multipliers c) = Once -> comma_bounds (multipliers c) = None ->
  once_run fits c (v :: rest) r s = Ok (m, s') ->
  exists m', match_component c (v :: rest) r s = Ok (m', s') /\ m_ok m' = m_ok m /\ m_rest m' = m_rest m.
Proof.
  intros Hp Hb E. rewrite match_component_eq. unfold with_multipliers. rewrite Hp, Hb. simpl. rewrite E. simpl. destruct (m_ok m) eqn:Hm; eauto.
Qed.
Lemma plain_accepts c v : productive c -> primary (multipliers c) = Once -> comma_bounds (multipliers c) = None -> accepts (once_run fits c) v -> accepts (match_component c) v.
Proof.
  intros Hprod Hp Hb Hc rest r s m s' E. destruct (proj1 (both_total _ Hprod) (v :: rest) r s) as (m0 & s0 & E0).
  destruct (plain_same _ _ _ _ _ _ _ Hp Hb E0) as (m' & E' & Hm & _). rewrite E in E'. injection E' as <- <-. rewrite Hm. by eapply Hc.
Qed.
Lemma choice_accepts c v : choice fits c -> argless c \/ no_function v -> language c [v] -> accepts (once_run fits c) v.
Proof.
  induction c as [s ms|s ms|n ms|n a ms IH|s q0 rg0 ms|ms|ms|ms|s ms|t rg ms|k cs ms IH] using component_ind'; intros Hc Hfn;
    rewrite (choice_language _ Hc); destruct Hc as [_ Hc]; simpl in *; try done.
  - intros (v' & [= <-] & Hv). apply single_accepts. unfold keyword_ok. destruct Hv as [Hv|[-> Hv]].
    + pose proof (text_says _ _ Hv). by destruct v.
    + unfold same_ignoring_case. rewrite bool_decide_eq_true, low_none. done.
  - intros (n' & vs & [= ->] & Hn & _) rest r s m s' E. simpl in E. unfold same_ignoring_case in E. rewrite bool_decide_true in E by done.
    by injection E as <- _.
  - intros (n' & vs & [= ->] & _). by destruct Hfn.
  - intros (v' & [= <-] & Hv). apply single_accepts. destruct Hv as [-> |Hv]; [done|]. pose proof (text_says _ _ Hv). by destruct v.
  - intros (v' & [= <-] & Hv). apply single_accepts. destruct Hv as [-> |Hv]; [done|]. pose proof (text_says _ _ Hv). by destruct v.
  - intros (v' & [= <-] & Hv). apply single_accepts. by apply text_says.
  - intros (v' & [= <-] & Hv). apply single_accepts. destruct Hv as [Hv|[_ ?]]; [|done]. pose proof (text_says _ _ Hv). by destruct v.
  - intros (v' & [= <-] & Hv). by apply single_accepts.
  - destruct Hc as [Hk Hcs]. intros Hw. destruct (group_choice _ _ _ Hk Hcs Hw) as (c & Hc & Hch & Hl).
    assert (argless c \/ no_function v) as Hfn'.
    { destruct Hfn as [Hfn|Hfn]; [left|by right]. clear -Hfn Hc. induction Hc; destruct Hfn; auto. }
    assert (accepts (match_component c) v) as Ha.
    { destruct (choice_ms c Hch) as (Hp & Hb & _). rewrite Forall_forall in IH. apply plain_accepts; [by apply choice_productive|done|done|]. by apply (IH c Hc). }
    set (f := fun c => mk_runner (omissible c) (is_comma c) (match_component c)).
    destruct Hk as [-> |[-> Hlen]]; simpl.
    + apply exactly_one_accepts. apply Exists_exists. exists (f c). split; [|done]. apply (elem_of_list_fmap_1 f _ _ Hc).
    + destruct cs as [|c0 [|]]; try done. apply elem_of_list_singleton in Hc as ->. intros rest r s m s' E.
      change (in_turn [f c0] 0 (v :: rest) [] true r s = Ok (m, s')) in E. eapply (in_turn_accepts (f c0)); [exact Ha|exact E].
Qed.
Lemma set_once ms c : once_run fits (set_multipliers ms c) = once_run fits c /\ multipliers (set_multipliers ms c) = ms /\
  once_language fits (set_multipliers ms c) = once_language fits c.
Proof. by destruct c. Qed.
(** one step of a choice *)
Lemma choice_step c v rest r s : choice fits c -> argless c \/ no_function v -> exists m s', once_run fits c (v :: rest) r s = Ok (m, s') /\
  (m_ok m = true <-> language c [v]) /\ (m_ok m = true -> m_rest m = rest).
Proof.
  intros Hc Hfn. destruct (proj1 (both_total _ (choice_productive _ Hc)) (v :: rest) r s) as (m & s' & E). exists m, s'. split; [done|].
  destruct (choice_ms _ Hc) as (Hp & Hb & _).
  assert (m_ok m = true -> language c [v] /\ m_rest m = rest) as Hok.
  { intros Hm. destruct (plain_same _ _ _ _ _ _ _ Hp Hb E) as (m' & E' & Hm' & Hr).
    destruct (proj1 (tidy_sound fits c) (choice_tidy _ _ Hc) _ _ _ _ _ E' ltac:(congruence)) as (w & Hw & Hl).
    destruct (choice_words _ _ Hc Hl) as (v' & -> & _). injection Hw as -> Hw. split; [done|congruence]. }
  split; [split|]; [by apply Hok| |by apply Hok]. intros Hl. by eapply (choice_accepts _ _ Hc Hfn Hl).
Qed.
Lemma full_max m a b : is_primary m = true -> fulfilled m a = Full \/ fulfilled m a = NotFulfilled -> enough (fulfilled m (a + b)) = true ->
  fulfilled m a = Full /\ b = 0.
Proof.
  destruct m as [| | | |lo hi| |]; try done; intros _; unfold fulfilled.
  - destruct a as [|[|a]]; intros [|]; try done. destruct b; done.
  - intros [|]; done.
  - destruct a; intros [|]; done.
  - destruct a as [|[|a]]; intros [|]; try done. destruct b; done.
  - destruct (Nat.ltb_spec a lo); [intros [|]; done|]. destruct (Nat.ltb_spec (a + b) lo); [lia|].
    destruct (Nat.leb_spec lo a); [|lia]. destruct (Nat.leb_spec lo (a + b)); [|lia].
    destruct (Nat.eqb_spec a hi), (Nat.eqb_spec (a + b) hi), (Nat.ltb_spec a hi), (Nat.ltb_spec (a + b) hi);
      intros [|] ?; try done; try lia; (split; [done|lia]).
Qed.
Lemma full_zero m : sensible m -> fulfilled m 0 <> Full.
Proof. destruct m as [| | | |lo [|hi]| |]; try done; simpl; [lia|]. intros _. destruct (0 <? lo); [done|]. destruct (_ && _); done. Qed.
(** one list of values, as many as the multiplier allows *)
Lemma repeated_exact c m fuel raw u rest cnt vals r s x s' :
  choice fits c -> is_primary m = true -> sensible m -> argless c \/ Forall no_function (u ++ rest) ->
  Forall (fun v => language c [v]) u -> (forall v rest', rest = v :: rest' -> ~ language c [v]) ->
  enough (fulfilled m (cnt + length u)) = true -> (cnt = 0 \/ fulfilled m cnt = NotYet \/ (fulfilled m cnt = MoreAllowed /\ u ++ rest <> [])) ->
  repeated fuel (once_run fits c) (fulfilled m) raw (u ++ rest) cnt vals r s = Ok (x, s') -> m_ok x = true /\ m_rest x = rest.
Proof.
  intros Hc Hp Hsens. revert u cnt vals s. induction fuel as [|fuel IH]; intros u cnt vals s Hfn Hu Hrest He Hcnt E; cbn [repeated] in E; [discriminate E|].
  assert (forall v l, u ++ rest = v :: l -> (argless c \/ no_function v) /\ (argless c \/ Forall no_function l)) as Hfn'.
  { intros v l El. rewrite El in Hfn. destruct Hfn as [?|Hfn]; [auto|]. inversion Hfn; auto. }
  clear Hfn.
  destruct u as [|v u]; [destruct rest as [|v rest]|]; cbn [app length] in *.
  - rewrite Nat.add_0_r in He. destruct Hcnt as [-> |[Hcnt|[_ ?]]]; [|by rewrite Hcnt in He|done]. rewrite He in E. by injection E as <- _.
  - destruct (choice_step c v rest r s Hc (proj1 (Hfn' _ _ eq_refl))) as (m0 & s0 & E0 & Hok & _). rewrite E0 in E. cbn [rbind] in E.
    destruct (m_ok m0) eqn:Hm0; [by destruct (Hrest v rest eq_refl (proj1 Hok eq_refl))|]. rewrite Nat.add_0_r in He.
    destruct (fulfilled m cnt) eqn:Hf; try done.
    + destruct Hcnt as [-> |[?|[? _]]]; try done. by destruct (full_zero m).
    + by injection E as <- _.
  - inversion Hu as [|? ? Hv Hu']; subst. destruct (choice_step c v (u ++ rest) r s Hc (proj1 (Hfn' _ _ eq_refl))) as (m0 & s0 & E0 & Hok & Hr). rewrite E0 in E. cbn [rbind] in E.
    rewrite (proj2 Hok Hv) in *. specialize (Hr eq_refl). rewrite Hr in E. rewrite <-Nat.add_succ_comm in He.
    destruct (fulfilled m (S cnt)) eqn:Hf.
    + eapply IH; [..|exact E]; try done; [by apply (Hfn' v)|]. by right; left.
    + destruct (full_max m (S cnt) (length u) Hp (or_introl Hf) He) as [_ Hl]. apply nil_length_inv in Hl as ->. injection E as <- _.
      split; [by apply Hok|done].
    + destruct (u ++ rest) as [|v' l] eqn:Hul.
      * injection E as <- _. apply app_nil in Hul as [-> ->]. split; [by apply Hok|done].
      * rewrite <-Hul in E. eapply IH; [..|exact E]; try done; [by rewrite Hul; apply (Hfn' v)|]. right; right. by rewrite Hul.
    + destruct (full_max m (S cnt) (length u) Hp (or_intror Hf) He) as [Hx _]. congruence.
Qed.
Lemma times_choice (P : words) k w : (forall u, P u -> exists v, u = [v]) -> times P k w -> length w = k /\ Forall (fun v => P [v]) w.
Proof.
  intros HP. revert w. induction k as [|k IH]; intros w; simpl; [intros ->; by split|]. intros (u & v & -> & Hu & Hv).
  destruct (HP _ Hu) as [x ->]. destruct (IH _ Hv) as [<- Hf]. split; [done|]. by constructor.
Qed.
Lemma multiplied_choice c m u : choice fits c -> is_primary m = true ->
  multiplied m (language c) u <-> Forall (fun v => language c [v]) u /\ enough (fulfilled m (length u)) = true.
Proof.
  intros Hc Hp.
  assert (forall k, times (language c) k u <-> length u = k /\ Forall (fun v => language c [v]) u) as Ht.
  { intros k. split.
    - apply times_choice. intros w Hw. destruct (choice_words _ _ Hc Hw) as (v & -> & _). eauto.
    - intros [<- HF]. induction HF as [|v u Hv HF IH]; [done|]. exists [v], u. done. }
  assert (language c u <-> length u = 1 /\ Forall (fun v => language c [v]) u) as H1.
  { rewrite <-Ht. simpl. split.
    - intros Hl. exists u, []. by rewrite app_nil_r.
    - intros (w & v & -> & Hw & ->). by rewrite app_nil_r. }
  destruct m as [| | | |lo hi| |]; try done; unfold multiplied.
  - rewrite H1. split; [intros [-> HF]; done|]. intros [HF Hl]. split; [|done]. by destruct (length u) as [|[|n]].
  - setoid_rewrite Ht. split; [intros (k & _ & HF); done|]. intros [HF _]. eauto.
  - setoid_rewrite Ht. split; [intros (k & Hk & <- & HF); split; [done|]; by destruct (length u); [lia|]|]. intros [HF Hl]. exists (length u).
    split_and!; try done. destruct (length u); [done|lia].
  - rewrite H1. split; [intros [-> |[Ha Hb]]; [by split|by rewrite Ha]|]. intros [HF Hl]. destruct u as [|v [|v' u]]; [by left|by right|done].
  - setoid_rewrite Ht. unfold fulfilled. split.
    + intros (k & Hk & <- & HF). split; [done|]. destruct (Nat.ltb_spec (length u) lo); [lia|]. destruct (Nat.eqb_spec (length u) hi); [done|].
      destruct (Nat.leb_spec lo (length u)); [|lia]. by destruct (Nat.ltb_spec (length u) hi); [|lia].
    + intros [HF Hl]. exists (length u). split_and!; try done; destruct (Nat.ltb_spec (length u) lo); try done.
      destruct (Nat.eqb_spec (length u) hi); [lia|]. destruct (Nat.ltb_spec (length u) hi); [lia|]. by rewrite andb_false_r in Hl.
Qed.
Lemma item_exact c ms u rest r s x s' :
  choice fits c -> sensible (primary ms) -> argless c \/ Forall no_function (u ++ rest) -> Forall (fun v => language c [v]) u -> enough (fulfilled (primary ms) (length u)) = true ->
  (forall v rest', rest = v :: rest' -> ~ language c [v]) ->
  item_of ms (once_run fits c) (u ++ rest) r s = Ok (x, s') -> m_ok x = true /\ m_rest x = rest.
Proof.
  intros Hc Hs Hfn Hu He Hr E. unfold item_of in E. eapply repeated_exact; [..|exact E]; try done; [apply primary_primary|by left].
Qed.
Lemma commas_exact c ms fuel lo hi raw input k cnt vals r s x s' :
  choice fits c -> sensible (primary ms) -> enough (fulfilled (primary ms) 0) = false -> argless c \/ Forall no_function input ->
  comma_separated (fun u => Forall (fun v => language c [v]) u /\ enough (fulfilled (primary ms) (length u)) = true) k input ->
  lo <= cnt + S k /\ (N.of_nat (cnt + S k) <= hi)%N ->
  commas fuel (item_of ms (once_run fits c)) lo hi raw input cnt vals r s = Ok (x, s') -> m_ok x = true /\ m_rest x = [].
Proof.
  intros Hc Hs Hne. revert input k cnt vals s. induction fuel as [|fuel IH]; intros input k cnt vals s Hfn Hcs Hk E; cbn [commas] in E; [discriminate E|].
  rb E. destruct x0 as [m0 s0]. cbn [rbind] in E. destruct k as [|k]; simpl in Hcs.
  - destruct Hcs as [Hu He]. rewrite <-(app_nil_r input) in E0, Hfn.
    assert (forall v0 rest', ([] : list value) = v0 :: rest' -> ~ language c [v0]) as Hnil by done.
    destruct (item_exact _ _ _ _ _ _ _ _ Hc Hs Hfn Hu He Hnil E0) as [Hm Hr]. rewrite Hm, Hr in E. simpl in E. injection E as <- _.
    unfold comma_end. destruct (Nat.leb_spec lo (S cnt)); [|lia]. destruct (N.leb_spec (N.of_nat (S cnt)) hi); [done|lia].
  - destruct Hcs as (u & v & -> & [Hu He] & Hv).
    assert (forall v0 rest', VComma :: v = v0 :: rest' -> ~ language c [v0]) as Hcomma.
    { intros v0 rest' [= <- _] Hl. destruct (choice_words _ _ Hc Hl) as (? & [= <-] & ?). done. }
    destruct (item_exact _ _ _ _ _ _ _ _ Hc Hs Hfn Hu He Hcomma E0) as [Hm Hr]. rewrite Hm, Hr in E. cbn [negb after_comma] in E.
    destruct v as [|v0 v].
    + destruct k as [|k]; simpl in Hv; [destruct Hv as [_ Hv]; simpl in Hv; congruence|]. destruct Hv as (u' & v' & Huv & _). by destruct u'.
    + eapply IH; [|exact Hv| |exact E]; [|lia]. destruct Hfn as [?|Hfn]; [by left|right]. apply Forall_app in Hfn as [_ Hfn]. by inversion Hfn.
Qed.
Lemma comma_separated_mono (P Q : words) k w : (forall u, P u -> Q u) -> comma_separated P k w -> comma_separated Q k w.
Proof.
  intros HPQ. revert w. induction k as [|k IH]; intros w; simpl; [apply HPQ|]. intros (u & v & -> & Hu & Hv). exists u, v. auto.
Qed.
Lemma choice_set_tidy c ms : choice fits c -> list_ms ms -> tidy true (set_multipliers ms c).
Proof. intros Hc Hms. pose proof (choice_tidy c true Hc) as H. destruct c; simpl in *; (split; [done|]); apply H. Qed.
Lemma choice_exact c ms input r s m s' :
  choice fits c -> list_ms ms -> sensible (primary ms) -> (comma_bounds ms <> None -> enough (fulfilled (primary ms) 0) = false) ->
  argless c \/ Forall no_function input ->
  match_component (set_multipliers ms c) input r s = Ok (m, s') ->
  m_ok m && bool_decide (length (m_rest m) = 0) = true <-> language (set_multipliers ms c) input.
Proof.
  intros Hc Hms Hs Hb Hfn E. destruct (set_once ms c) as (Ho & Hm & Hl). split.
  - intros [Hok Hr]%andb_true_iff. apply bool_decide_eq_true, nil_length_inv in Hr.
    by eapply (proj2 (tidy_sound fits _) (choice_set_tidy c ms Hc Hms)).
  - intros HL. rewrite language_eq, Hm, Hl, <-(choice_language c Hc) in HL. rewrite match_component_eq, Hm, Ho in E.
    assert (m_ok m = true /\ m_rest m = []) as [-> ->]; [|done].
    destruct Hms as [Hp|(ms' & lo & hi & -> & Hp)].
    + destruct (plain_bounds ms Hp) as [Hn Hf]. rewrite Hf in HL. apply multiplied_choice in HL as [HF He]; [|done|apply primary_primary].
      unfold with_multipliers in E. rewrite Hn in E. rewrite <-(app_nil_r input) in E, Hfn. by eapply item_exact in E.
    + rewrite foldl_app in HL. simpl in HL. destruct (plain_bounds ms' Hp) as [_ Hf]. rewrite Hf in HL.
      unfold with_multipliers in E. rewrite app_bounds in * by done. specialize (Hb ltac:(done)).
      change (commas (S (length input)) (item_of (ms' ++ [CommaRepeat lo hi]) (once_run fits c)) lo hi input input 0 [] r s = Ok (m, s')) in E.
      destruct HL as [[-> ->]|(k & Hk & Hk2 & HL)].
      * cbn [commas] in E. unfold item_of in E. cbn [repeated length] in E. rewrite Hb in E. injection E as <- _. unfold comma_end. by destruct hi.
      * eapply commas_exact; [done|done|done|exact Hfn| | |exact E]; [|by split]. eapply comma_separated_mono; [|exact HL].
        intros u Hu. rewrite app_primary by done. apply multiplied_choice; [done|apply primary_primary|done].
Qed.
End fits.
