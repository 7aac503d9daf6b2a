(** Model of crates/gosub_render_pipeline/src/common/document/pipeline_doc.rs lines 708-803 and 899-1241, 1378-1395,
    1491-1501 (the styles the layout and the painter ask for, generated boxes, and the caches of styles) and of the
    part of style.rs these need. Numbers are exact in place of [f32]. How a sheet, a [style] attribute and
    presentation attributes give a node a value of its own is an argument. *)
From Coq Require Import QArith.
From stdpp Require Import numbers option list.
From Verif Require Import Base.
Local Open Scope N_scope.

(** shared/node.rs: a [usize] *)
Notation node := N.

(** ** Values and properties *)
(** style.rs:30-35 *)
Inductive unit_kind := Px | Em | Rem | Percent.
(** style.rs:38-49; all the visible styles are one *)
Inductive border := BNone | BHidden | BVisible.
(** style.rs:111-125; the kinds of values that are never looked into are one *)
Inductive value := VUnit (v : Q) (u : unit_kind) | VColor (r g b a : N) | VBorder (b : border) | VOther (k : N).
Inductive side := Top | Right | Bottom | Left.
(** style.rs:220-310; the properties without a rule of their own are numbered *)
Inductive prop :=
| FontSize | Color | BackgroundColor
| BorderColor (s : side) | BorderStyle (s : side) | BorderWidth (s : side)
| Other (k : N).
#[global] Instance prop_eq : EqDecision prop.
Proof. repeat intro. unfold Decision. repeat decide equality. Defined.

(** A document with what its nodes have of their own. *)
Record doc := mk_doc {
  parent : node -> option node;
  inline : node -> prop -> option value;   (* the [style] attribute *)
  current : node -> prop -> bool;          (* the sheets say [currentColor] *)
  sheet : node -> prop -> option value;    (* what else the sheets say *)
  attrs : node -> prop -> option value;    (* presentation attributes *)
  other_inherited : N -> bool;
  other_initial : N -> value }.

(** style.rs:449-615, the entries of the properties above *)
Definition inherited (d : doc) (p : prop) : bool :=
  match p with FontSize | Color => true | Other k => other_inherited d k | _ => false end.
Definition initial (d : doc) (p : prop) : value :=
  match p with
  | FontSize => VUnit 16 Px
  | Color => VColor 0 0 0 255
  | BackgroundColor => VColor 0 0 0 0
  | BorderColor _ => VColor 0 0 0 255
  | BorderStyle _ => VBorder BNone
  | BorderWidth _ => VUnit 3 Px
  | Other k => other_initial d k
  end.
(** pipeline_doc.rs:1061-1068 *)
Definition takes_current (p : prop) : bool := match p with BackgroundColor | BorderColor _ => true | _ => false end.
(** pipeline_doc.rs:1493-1501 *)
Definition border_peer (p : prop) : option prop := match p with BorderWidth s => Some (BorderStyle s) | _ => None end.

(** ** Computed styles *)
(** pipeline_doc.rs:1216-1241 [get_own_style] without the caches and 1014-1111 [style_from_map]; the shorthands that
    [style_from_map] looks into are part of [sheet] *)
Definition own_with (style : node -> prop -> res value) (d : doc) (n : node) (p : prop) : res (option value) :=
  match inline d n p with
  | Some v => Ok (Some v)
  | None =>
      if takes_current p && current d n p then let* v := style n Color in Ok (Some v)
      else Ok (match sheet d n p with Some v => Some v | None => attrs d n p end)
  end.
(** pipeline_doc.rs:755-760 *)
Definition px_of (v : value) : Q := match v with VUnit px Px => px | _ => 16 end.
(** pipeline_doc.rs:732-748 *)
Definition absolute_with (style : node -> prop -> res value) (d : doc) (n : node) (p : prop) (raw : value) : res value :=
  match raw with
  | VUnit v Rem => Ok (VUnit (v * 16) Px)
  | VUnit v Em =>
      let* basis :=
        if decide (p = FontSize) then
          match parent d n with
          | Some q => let* f := style q FontSize in Ok (px_of f)
          | None => Ok 16%Q
          end
        else let* f := style n FontSize in Ok (px_of f) in
      Ok (VUnit (v * basis) Px)
  | _ => Ok raw
  end.
(** pipeline_doc.rs:708-749 [get_style]; the fuel stands for the stack *)
Fixpoint get_style (fuel : nat) (d : doc) (n : node) (p : prop) : res value :=
  match fuel with
  | O => Diverge
  | S fuel =>
      let style := get_style fuel d in
      let* hidden :=
        match border_peer p with
        | Some s => let* v := style n s in
                    Ok match v with VBorder BNone | VBorder BHidden => true | _ => false end
        | None => Ok false
        end in
      if (hidden : bool) then Ok (VUnit 0 Px)
      else
        let* own := own_with style d n p in
        match own with
        | Some raw => absolute_with style d n p raw
        | None =>
            match inherited d p, parent d n with
            | true, Some q => style q p
            | _, _ => absolute_with style d n p (initial d p)
            end
        end
  end.

(** ** Generated boxes *)
(** pipeline_doc.rs:778-803 *)
Definition pseudo_flag : N := 2 ^ 62.
Definition is_pseudo (n : node) : bool := negb (N.land n pseudo_flag =? 0).
Definition encode (owner : node) (role : N) : node := N.lor (N.lor pseudo_flag (N.shiftl owner 2 mod 2 ^ 64)) role.
Definition decode (n : node) : node * N :=
  let v := N.ldiff n pseudo_flag in (N.shiftr v 2, N.land v 3).
Definition before_elem : N := 0.
Definition after_elem : N := 1.
Definition before_text : N := 2.
Definition after_text : N := 3.
Definition role_is_after (r : N) : bool := (r =? after_elem) || (r =? after_text).
Definition role_is_text (r : N) : bool := (r =? before_text) || (r =? after_text).

(** The document below the adapter, with the boxes the sheets generate (933-960): no box, or one with or without text. *)
Record base := mk_base {
  b_parent : node -> option node;
  b_children : node -> list node;
  b_box : node -> bool -> option bool }.
(** pipeline_doc.rs:1132-1162 *)
Definition children (b : base) (n : node) : list node :=
  if is_pseudo n then
    let (owner, role) := decode n in
    if role_is_text role then []
    else match b_box b owner (role_is_after role) with
         | Some true => [encode owner (if role_is_after role then after_text else before_text)]
         | _ => []
         end
  else
    (if b_box b n false then [encode n before_elem] else [])
    ++ b_children b n
    ++ (if b_box b n true then [encode n after_elem] else []).
(** pipeline_doc.rs:1196-1214 *)
Definition up (b : base) (n : node) : option node :=
  if is_pseudo n then
    let (owner, role) := decode n in
    Some (if role_is_text role then encode owner (if role_is_after role then after_elem else before_elem) else owner)
  else b_parent b n.

(** ** The caches *)
Section caches.
(** what the sheets say about a node, what its [style] attribute says, and how a value is looked up in each *)
Context {M I V : Type} (in_sheet : M -> option V) (in_inline : I -> option V).

(** the two caches (pipeline_doc.rs:893-898) and the document, which the caches are behind when it changes *)
Record caches := mk_caches { c_sheet : node -> option M; c_inline : node -> option I }.
Definition set {A} (n : node) (a : option A) (f : node -> option A) : node -> option A :=
  fun m => if m =? n then a else f m.
Record world := mk_world { w_styles : node -> M * I; w_caches : caches }.

(** What a thread in [get_own_style] (1216-1236, 962-973) is about to do. Each step takes a lock once, or looks at the
    document. *)
Inductive doing :=
| Asks (n : node)                   (* 964: looks in the cache of sheets *)
| Computes (n : node)               (* 968: evaluates the selectors and the attribute *)
| StoresSheet (n : node) (m : M) (i : I)   (* 970 *)
| StoresInline (n : node) (m : M) (i : I)  (* 971 *)
| Looks (n : node) (m : M)          (* 1225: looks in the cache of attributes *)
| Done (n : node) (v : option V).
Definition step (t : doing) (w : world) : doing * world :=
  let c := w_caches w in
  match t with
  | Asks n => (match c_sheet c n with Some m => Looks n m | None => Computes n end, w)
  | Computes n => let (m, i) := w_styles w n in (StoresSheet n m i, w)
  | StoresSheet n m i => (StoresInline n m i, mk_world (w_styles w) (mk_caches (set n (Some m) (c_sheet c)) (c_inline c)))
  | StoresInline n m i => (Looks n m, mk_world (w_styles w) (mk_caches (c_sheet c) (set n (Some i) (c_inline c))))
  | Looks n m =>
      (Done n (match (match c_inline c n with Some i => in_inline i | None => None end) with
               | Some v => Some v
               | None => in_sheet m
               end), w)
  | Done n v => (Done n v, w)
  end.
(** A question without others in between. *)
Definition ask (n : node) (w : world) : option V * world :=
  let '(t1, w1) := step (Asks n) w in let '(t2, w2) := step t1 w1 in let '(t3, w3) := step t2 w2 in
  let '(t4, w4) := step t3 w3 in let '(t5, w5) := step t4 w4 in
  (match t5 with Done _ v => v | _ => None end, w5).
(** pipeline_doc.rs:1378-1395 *)
Definition clear (w : world) : world := mk_world (w_styles w) (mk_caches (fun _ => None) (fun _ => None)).
Definition invalidate (ids : list node) (w : world) : world :=
  fold_left (fun w n => mk_world (w_styles w) (mk_caches (set n None (c_sheet (w_caches w))) (set n None (c_inline (w_caches w))))) ids w.
(** The document changes: another element is hovered or focused. *)
Definition change (styles : node -> M * I) (w : world) : world := mk_world styles (w_caches w).
End caches.
Arguments doing : clear implicits.
Arguments world : clear implicits.
