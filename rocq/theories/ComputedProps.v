(** Computed styles, generated boxes and the caches of styles. *)
From Coq Require Import QArith.
From stdpp Require Import numbers option list.
From Verif Require Import Base ComputedModel ComputedSpec ComputedProofs.

(** ** C106: asking for a style always ends, with the value that the way from the node to the root gives it *)
Theorem C106_computed d p n :
  acyclic d -> exists l, path d n l /\ forall fuel, 3 + length l <= fuel -> get_style fuel d n p = Ok (computed d p l).
Proof. intros H. destruct (path_exists d H n) as [l Hl]. exists l. split; [done|]. by apply computed_ok. Qed.
Print Assumptions C106_computed.

(** Lengths that depend on a font size are gone. *)
Theorem C106_absolute d p n fuel v :
  acyclic d -> get_style fuel d n p = Ok v -> match v with VUnit _ Em | VUnit _ Rem => False | _ => True end.
Proof.
  intros H Hv. destruct (path_exists d H n) as [l Hl]. pose proof (more_fuel d fuel (fuel + (3 + length l)) n p v Hv ltac:(lia)) as K.
  rewrite (computed_ok d p n l Hl) in K by lia. simplify_eq. by apply (computed_absolute d p n l).
Qed.
Print Assumptions C106_absolute.

(** A value that a node has not is that of its parent, if the property is inherited; and what a node says is not asked
    of others, but for [em]. *)
Theorem C106_inherits d p n q v fuel :
  parent d n = Some q -> inherited d p = true ->
  inline d n p = None -> sheet d n p = None -> attrs d n p = None ->
  get_style fuel d q p = Ok v -> get_style (S fuel) d n p = Ok v.
Proof. apply inherits_ok. Qed.
Print Assumptions C106_inherits.
Theorem C106_says d p n fuel v w :
  said_of d n p = Says v -> border_peer p = None -> get_style fuel d n p = Ok w ->
  match v with
  | VUnit x Em => p <> FontSize -> exists s, get_style (fuel - 1) d n FontSize = Ok s /\ w = VUnit (x * size_or_medium s)%Q Px
  | VUnit x Rem => w = VUnit (x * 16)%Q Px
  | _ => w = v
  end.
Proof. apply says_ok. Qed.
Print Assumptions C106_says.

(** Only the node and the nodes above it count. *)
Theorem C106_local d d' n l p fuel :
  path d n l -> (forall k q, k ∈ l -> parent d' k = parent d k /\ said_of d' k q = said_of d k q) ->
  (forall k, other_inherited d' k = other_inherited d k /\ other_initial d' k = other_initial d k) ->
  3 + length l <= fuel -> get_style fuel d' n p = get_style fuel d n p.
Proof. apply local_ok. Qed.
Print Assumptions C106_local.

(** Font sizes in [em] multiply on the way down. *)
Theorem C106_em_chain d n l (sizes : list Q) fuel :
  path d n l -> Forall2 (fun k x => said_of d k FontSize = Says (VUnit x Em)) l sizes -> 3 + length l <= fuel ->
  exists x, get_style fuel d n FontSize = Ok (VUnit x Px) /\ (x == fold_right Qmult 16 sizes)%Q.
Proof. apply em_chain_ok. Qed.
Print Assumptions C106_em_chain.

(** A side without a border has no width. *)
Theorem C106_no_border d n l s fuel v :
  path d n l -> said_of d n (BorderStyle s) = v -> (v = Nothing \/ v = Says (VBorder BNone) \/ v = Says (VBorder BHidden)) ->
  3 + length l <= fuel -> get_style fuel d n (BorderWidth s) = Ok (VUnit 0 Px).
Proof. apply no_border_ok. Qed.
Print Assumptions C106_no_border.

(** [currentColor] is the computed [color]. *)
Theorem C106_current_color d n l p fuel :
  path d n l -> said_of d n p = SaysCurrentColor -> 3 + length l <= fuel ->
  exists v, get_style fuel d n Color = Ok v /\ get_style fuel d n p = Ok (in_px (em d l) v).
Proof. apply current_ok. Qed.
Print Assumptions C106_current_color.

(** A document of a root, a paragraph in it and a word in that. *)
Definition some_doc (root_size word_size : option value) : doc :=
  mk_doc (fun n => match n with 2%N => Some 1%N | 1%N => Some 0%N | _ => None end)
    (fun n p => match n, p with 1%N, FontSize => Some (VUnit 2 Em) | 2%N, FontSize => word_size | _, _ => None end)
    (fun n p => match n, p with 2%N, BackgroundColor => true | _, _ => false end)
    (fun n p => match n, p with
                | 0%N, FontSize => root_size
                | 0%N, Color => Some (VColor 9 8 7 255)
                | 2%N, BorderStyle Top => Some (VBorder BVisible)
                | 2%N, BorderWidth Top => Some (VUnit 3 Em)
                | 2%N, BorderWidth Left => Some (VUnit 3 Em)
                | _, _ => None
                end)
    (fun _ _ => None) (fun _ => false) (fun k => VOther k).
Example some_doc_acyclic r w : acyclic (some_doc r w).
Proof. exists N.to_nat. intros n q. cbn. destruct n as [|[n|[n|n|]|]]; intros E; simplify_eq; cbn; lia. Qed.
Definition asked (d : doc) (n : node) (p : prop) : res value := get_style 20 d n p.
Example C106_example :
  let d := some_doc (Some (VUnit 3 Em)) (Some (VUnit 1 Em)) in
  (exists x, asked d 2 FontSize = Ok (VUnit x Px) /\ (x == 96)%Q)
  /\ asked d 2 Color = Ok (VColor 9 8 7 255)
  /\ asked d 2 BackgroundColor = Ok (VColor 9 8 7 255)
  /\ asked d 1 BackgroundColor = Ok (VColor 0 0 0 0)
  /\ (exists x, asked d 2 (BorderWidth Top) = Ok (VUnit x Px) /\ (x == 288)%Q)
  /\ asked d 2 (BorderWidth Left) = Ok (VUnit 0 Px)
  /\ path d 2 [2; 1; 0]%N.
Proof.
  split_and!; try (eexists; split; [vm_compute; reflexivity|reflexivity]); try reflexivity.
  eapply path_up; [reflexivity|]. eapply path_up; [reflexivity|]. by apply path_root.
Qed.

(** What CSS says about [rem], percentages of font sizes and the colour of borders is not so here. *)
Theorem C106_rem_refuted :
  ~ forall d n l root x fuel v,
      acyclic d -> path d n l -> last l = Some root -> root <> n -> said_of d n FontSize = Says (VUnit x Rem) ->
      get_style fuel d root FontSize = Ok v -> 3 + length l <= fuel ->
      exists y, get_style fuel d n FontSize = Ok (VUnit y Px) /\ (y == x * size_or_medium v)%Q.
Proof.
  intros K. specialize (K (some_doc (Some (VUnit 10 Px)) (Some (VUnit 2 Rem))) 2%N [2; 1; 0]%N 0%N 2%Q 20 (VUnit 10 Px)).
  destruct K as (y & E & Ey); try done; [apply some_doc_acyclic| |vm_compute; lia|].
  - eapply path_up; [reflexivity|]. eapply path_up; [reflexivity|]. by apply path_root.
  - vm_compute in E. injection E as <-. vm_compute in Ey. done.
Qed.
Print Assumptions C106_rem_refuted.
Theorem C106_percent_refuted :
  ~ forall d n q l x fuel v,
      acyclic d -> path d n l -> parent d n = Some q -> said_of d n FontSize = Says (VUnit x Percent) ->
      get_style fuel d q FontSize = Ok (VUnit v Px) -> 3 + length l <= fuel -> (em d l == v * x / 100)%Q.
Proof.
  intros K. specialize (K (some_doc (Some (VUnit 10 Px)) (Some (VUnit 150 Percent))) 2%N 1%N [2; 1; 0]%N 150%Q 20 (2 * 10)%Q).
  assert (em (some_doc (Some (VUnit 10 Px)) (Some (VUnit 150 Percent))) [2; 1; 0]%N == 2 * 10 * 150 / 100)%Q as E.
  { apply K; try done; [apply some_doc_acyclic| |vm_compute; lia].
    eapply path_up; [reflexivity|]. eapply path_up; [reflexivity|]. by apply path_root. }
  vm_compute in E. done.
Qed.
Print Assumptions C106_percent_refuted.
Theorem C106_border_color_refuted :
  ~ forall d n l s fuel, acyclic d -> path d n l -> said_of d n (BorderColor s) = Nothing -> 3 + length l <= fuel ->
      get_style fuel d n (BorderColor s) = get_style fuel d n Color.
Proof.
  intros K. specialize (K (some_doc None None) 2%N [2; 1; 0]%N Top 20).
  assert (asked (some_doc None None) 2 (BorderColor Top) = asked (some_doc None None) 2 Color) as E.
  { apply K; try done; [apply some_doc_acyclic| |vm_compute; lia].
    eapply path_up; [reflexivity|]. eapply path_up; [reflexivity|]. by apply path_root. }
  vm_compute in E. done.
Qed.
Print Assumptions C106_border_color_refuted.

(** ** C107: the boxes before and after the content of elements make one tree with the document *)
Theorem C107_tree b :
  consistent b ->
  (forall n c, shown b n -> shown b c -> c ∈ children b n <-> up b c = Some n)
  /\ (forall n c, shown b n -> c ∈ children b n -> shown b c)
  /\ forall n, shown b n -> NoDup (children b n).
Proof. intros H. split_and!; intros; [by apply tree_ok|by eapply children_shown|by apply children_once]. Qed.
Print Assumptions C107_tree.

(** Generated nodes are different from one another and from those of the document, and owners and roles are found again. *)
Theorem C107_ids o r :
  (o < 2 ^ 60)%N -> (r < 4)%N ->
  is_pseudo (encode o r) = true /\ decode (encode o r) = (o, r) /\ (encode o r < 2 ^ 63)%N
  /\ (forall n, (n < 2 ^ 60)%N -> is_pseudo n = false /\ encode o r <> n)
  /\ forall o' r', (o' < 2 ^ 60)%N -> (r' < 4)%N -> encode o r = encode o' r' -> o = o' /\ r = r'.
Proof.
  intros H1 H2. split_and!; [by apply encode_pseudo|by apply decode_encode|rewrite encode_eq by done; lia| |].
  - intros n Hn. split; [apply real_not_pseudo; lia|by apply encode_real].
  - intros o' r' H3 H4. by apply encode_inj.
Qed.
Print Assumptions C107_ids.

(** The box before comes first and the one after last; in between are the children, in their order. *)
Theorem C107_order b n :
  (n < 2 ^ 60)%N ->
  exists before after, children b n = before ++ b_children b n ++ after
    /\ (before = [] /\ b_box b n false = None \/ exists x, before = [x] /\ b_box b n false <> None /\ decode x = (n, before_elem))
    /\ (after = [] /\ b_box b n true = None \/ exists x, after = [x] /\ b_box b n true <> None /\ decode x = (n, after_elem)).
Proof.
  intros H. rewrite children_real by done. eexists _, _. split; [done|]. split.
  - destruct (b_box b n false); [right|by left]. eexists. split_and!; [done|done|]. by apply decode_encode.
  - destruct (b_box b n true); [right|by left]. eexists. split_and!; [done|done|]. by apply decode_encode.
Qed.
Print Assumptions C107_order.

Definition some_base : base :=
  mk_base (fun n => match n with 2%N | 3%N => Some 1%N | _ => None end)
    (fun n => match n with 1%N => [2; 3]%N | _ => [] end)
    (fun n after => match n, after with 1%N, false => Some true | 1%N, true => Some false | _, _ => None end).
Example some_base_consistent : consistent some_base.
Proof.
  split_and!.
  - intros [|[n|n|]] c; cbn; intros K; try by apply elem_of_nil in K. repeat (apply elem_of_cons in K as [->|K]; [done|]). by apply elem_of_nil in K.
  - intros n [|[[c|c|]|[c|c|]|]]; cbn; intros [= <-]; done.
  - intros n c. split.
    + destruct n as [|[n|n|]]; cbn; intros K; try by apply elem_of_nil in K. repeat (apply elem_of_cons in K as [->|K]; [done|]). by apply elem_of_nil in K.
    + destruct c as [|[[c|c|]|[c|c|]|]]; cbn; intros [= <-]; cbn; [by right; left|by left].
  - intros [|[n|n|]]; cbn; try apply NoDup_nil_2. apply NoDup_cons. split; [|apply NoDup_singleton]. by intros K%elem_of_list_singleton.
Qed.
Example C107_example :
  children some_base 1 = [encode 1 before_elem; 2; 3; encode 1 after_elem]%N
  /\ children some_base (encode 1 before_elem) = [encode 1 before_text]
  /\ children some_base (encode 1 after_elem) = []
  /\ up some_base (encode 1 before_text) = Some (encode 1 before_elem)
  /\ up some_base (encode 1 before_elem) = Some 1%N.
Proof. repeat split. Qed.

(** ** C108: the caches do not show *)
(** One question after another, with changes in between: if all nodes whose styles changed are named, every answer is
    as if there were no caches. *)
Theorem C108_questions {M I V} (in_sheet : M -> option V) (in_inline : I -> option V) styles es :
  all_told styles es ->
  happen in_sheet in_inline es (nothing_cached styles) = expected in_sheet in_inline es styles.
Proof. intros H. by apply (happen_ok in_sheet in_inline es (nothing_cached styles)). Qed.
Print Assumptions C108_questions.
Example C108_questions_example :
  let before := fun n : node => if (n =? 1)%N then (Some 5, Some 6) else (Some 7, None) in
  let after := fun n : node => if (n =? 1)%N then (Some 8, None) else (Some 7, None) in
  let es := [Question 1; Question 2; Changed after [1]; Question 1; Question 2; Forget [2]; Question 2; ForgetAll; Question 1]%N in
  all_told before es
  /\ happen id id es (nothing_cached before) = [Some 6; Some 7; Some 8; Some 7; Some 7; Some 8].
Proof. split; [|done]. split; [|done]. intros n Hn. cbn. destruct (N.eqb_spec n 1) as [->|]; [|done]. destruct Hn. by left. Qed.

(** A node that is not named keeps its old style: a change of what is hovered only names the nodes on the way to the
    root, while a sheet can make the styles of others depend on it. *)
Theorem C108_untold_refuted :
  ~ forall (M I V : Type) (in_sheet : M -> option V) (in_inline : I -> option V) styles es,
      happen in_sheet in_inline es (nothing_cached styles) = expected in_sheet in_inline es styles.
Proof.
  intros K. specialize (K _ _ _ (@id (option nat)) (@id (option nat)) (fun _ => (Some 1, None))
    [Question 2%N; Changed (fun _ => (Some 2, None)) [1%N]; Question 2%N]). vm_compute in K. done.
Qed.
Print Assumptions C108_untold_refuted.

(** Threads that ask together, in any order of their steps, while nothing changes: an answer is right, or it is what the
    sheets say without the attribute. So it is right for nodes whose attribute is silent. *)
Theorem C108_threads_partial {M I V} (in_sheet : M -> option V) (in_inline : I -> option V) styles (asks : list node) schedule k n v :
  fst (together in_sheet in_inline schedule (Asks <$> asks) (nothing_cached styles)) !! k = Some (Done n v) ->
  v = fresh in_sheet in_inline (styles n) \/ v = in_sheet (fst (styles n)).
Proof. apply threads_ok. Qed.
Print Assumptions C108_threads_partial.
Theorem C108_threads_silent {M I V} (in_sheet : M -> option V) (in_inline : I -> option V) styles (asks : list node) schedule k n v :
  in_inline (snd (styles n)) = None ->
  fst (together in_sheet in_inline schedule (Asks <$> asks) (nothing_cached styles)) !! k = Some (Done n v) ->
  v = fresh in_sheet in_inline (styles n).
Proof. intros H K. apply C108_threads_partial in K as [K|K]; [done|]. unfold fresh. by rewrite H. Qed.
Print Assumptions C108_threads_silent.
Example C108_threads_example :
  fst (together id id [0; 0; 1; 0; 1; 0; 1; 0; 1; 1]%nat (Asks <$> [1; 1]%N) (nothing_cached (fun _ => (Some 5, @None nat))))
  = [Done 1%N (Some 5); Done 1%N (Some 5)].
Proof. done. Qed.

(** One thread fills the cache of sheets before that of attributes. Another that comes in between misses the attribute. *)
Theorem C108_threads_refuted :
  ~ forall (M I V : Type) (in_sheet : M -> option V) (in_inline : I -> option V) styles (asks : list node) schedule k n v,
      fst (together in_sheet in_inline schedule (Asks <$> asks) (nothing_cached styles)) !! k = Some (Done n v) ->
      v = fresh in_sheet in_inline (styles n).
Proof.
  intros K. specialize (K _ _ _ (@id (option nat)) (@id (option nat)) (fun _ => (Some 5, Some 6)) [1; 1]%N [0; 0; 0; 1; 1] 1 1%N (Some 5) eq_refl).
  vm_compute in K. done.
Qed.
Print Assumptions C108_threads_refuted.

(** A thread that is between computing and storing when a change is told stores the old style for good. *)
Theorem C108_late_refuted :
  ~ forall (M I V : Type) (in_sheet : M -> option V) (in_inline : I -> option V) styles styles' ids n before after v,
      told styles (Changed styles' ids) ->
      let '(ts, w) := together in_sheet in_inline before [Asks n] (nothing_cached styles) in
      let '(ts, w) := together in_sheet in_inline after ts (invalidate ids (change styles' w)) in
      ts = [Done n v] -> fst (ask in_sheet in_inline n w) = fresh in_sheet in_inline (styles' n).
Proof.
  intros K. specialize (K _ _ _ (@id (option nat)) (@id (option nat)) (fun _ => (Some 1, None))
    (fun n => if (n =? 1)%N then (Some 2, None) else (Some 1, None)) [1]%N 1%N [0; 0] [0; 0; 0] (Some 1)).
  vm_compute in K. refine (_ (K _ eq_refl)); [done|]. intros n Hn. destruct n as [|[n|n|]]; try done. destruct Hn. by left.
Qed.
Print Assumptions C108_late_refuted.
