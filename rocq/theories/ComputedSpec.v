(** What styles should be, by recursion on the way from a node up to the root. *)
From Coq Require Import QArith.
From stdpp Require Import numbers option list.
From Verif Require Import Base ComputedModel.

(** A node, its parent and so on, up to the root. *)
Inductive path (d : doc) : node -> list node -> Prop :=
| path_root n : parent d n = None -> path d n [n]
| path_up n q l : parent d n = Some q -> path d q l -> path d n (n :: l).

(** What is said about a node itself: its attribute goes first, presentation attributes last. *)
Inductive said := Nothing | Says (v : value) | SaysCurrentColor.
Definition said_of (d : doc) (n : node) (p : prop) : said :=
  match inline d n p, takes_current p && current d n p, sheet d n p, attrs d n p with
  | Some v, _, _, _ => Says v
  | None, true, _, _ => SaysCurrentColor
  | None, false, Some v, _ => Says v
  | None, false, None, Some v => Says v
  | None, false, None, None => Nothing
  end.

(** A length in terms of a font size. *)
Definition in_px (font_size : Q) (v : value) : value :=
  match v with VUnit x Em => VUnit (x * font_size) Px | VUnit x Rem => VUnit (x * 16) Px | _ => v end.
Definition size_or_medium (v : value) : Q := match v with VUnit x Px => x | _ => 16 end.

(** The font size along a path: a size in [em] is one of the parent's. *)
Fixpoint font_size (d : doc) (l : list node) : value :=
  match l with
  | [] => VUnit 16 Px
  | n :: above =>
      match said_of d n FontSize with
      | Says v => in_px (size_or_medium (font_size d above)) v
      | _ => font_size d above
      end
  end.
Definition em (d : doc) (l : list node) : Q := size_or_medium (font_size d l).

(** A property that is inherited and not the font size. *)
Fixpoint inherited_value (d : doc) (p : prop) (l : list node) : value :=
  match l with
  | [] => initial d p
  | n :: above =>
      match said_of d n p with
      | Says v => in_px (em d l) v
      | _ => match above with [] => in_px (em d l) (initial d p) | _ => inherited_value d p above end
      end
  end.

Definition visible (v : value) : bool := match v with VBorder BNone | VBorder BHidden => false | _ => true end.
Definition plain_value (d : doc) (p : prop) (l : list node) : value :=
  match l with
  | [] => initial d p
  | n :: _ =>
      match said_of d n p with
      | Says v => in_px (em d l) v
      | SaysCurrentColor => in_px (em d l) (inherited_value d Color l)
      | Nothing => in_px (em d l) (initial d p)
      end
  end.
(** The computed value of a property at the start of a path. *)
Definition computed (d : doc) (p : prop) (l : list node) : value :=
  match p with
  | FontSize => font_size d l
  | BorderWidth s => if visible (plain_value d (BorderStyle s) l) then plain_value d p l else VUnit 0 Px
  | _ => if inherited d p then inherited_value d p l else plain_value d p l
  end.

(** A tree of nodes, as seen from its root. *)
Definition acyclic (d : doc) : Prop :=
  exists rank : node -> nat, forall n q, parent d n = Some q -> rank q < rank n.

(** ** Generated boxes *)
(** A document whose nodes know their parents and children; a node is there once. *)
Definition consistent (b : base) : Prop :=
  (forall n c, (c ∈ b_children b n)%list -> (n < 2 ^ 60 /\ c < 2 ^ 60)%N)
  /\ (forall n c, b_parent b c = Some n -> (n < 2 ^ 60 /\ c < 2 ^ 60)%N)
  /\ (forall n c, (c ∈ b_children b n)%list <-> b_parent b c = Some n)
  /\ forall n, NoDup (b_children b n).
(** The nodes that are laid out: those of the document, a box before or after the content of one, and its text. *)
Inductive shown (b : base) : node -> Prop :=
| shown_real n : (n < 2 ^ 60)%N -> shown b n
| shown_box n (after : bool) t : (n < 2 ^ 60)%N -> b_box b n after = Some t ->
    shown b (encode n (if after then after_elem else before_elem))
| shown_text n (after : bool) : (n < 2 ^ 60)%N -> b_box b n after = Some true ->
    shown b (encode n (if after then after_text else before_text)).

(** ** Caches *)
(** What is right to answer: the attribute before the sheets. *)
Definition fresh {M I V} (in_sheet : M -> option V) (in_inline : I -> option V) (s : M * I) : option V :=
  match in_inline (snd s) with Some v => Some v | None => in_sheet (fst s) end.

(** What happens to a document whose caches are told which nodes changed. *)
Inductive event (M I : Type) :=
| Question (n : node)
| Forget (ids : list node)
| ForgetAll
| Changed (styles : node -> M * I) (ids : list node).   (* then [ids] are invalidated *)
Arguments Question {M I}. Arguments Forget {M I}. Arguments ForgetAll {M I}. Arguments Changed {M I}.

(** What must be told: all the nodes whose styles changed. *)
Definition told {M I} (styles : node -> M * I) (e : event M I) : Prop :=
  match e with Changed styles' ids => forall n, n ∉ ids -> styles' n = styles n | _ => True end.

(** The answers to the questions among the events, and what they should be. *)
Fixpoint happen {M I V} (in_sheet : M -> option V) (in_inline : I -> option V) (es : list (event M I)) (w : world M I) : list (option V) :=
  match es with
  | [] => []
  | Question n :: es => let (v, w) := ask in_sheet in_inline n w in v :: happen in_sheet in_inline es w
  | Forget ids :: es => happen in_sheet in_inline es (invalidate ids w)
  | ForgetAll :: es => happen in_sheet in_inline es (clear w)
  | Changed styles ids :: es => happen in_sheet in_inline es (invalidate ids (change styles w))
  end.
Fixpoint expected {M I V} (in_sheet : M -> option V) (in_inline : I -> option V) (es : list (event M I)) (styles : node -> M * I) : list (option V) :=
  match es with
  | [] => []
  | Question n :: es => fresh in_sheet in_inline (styles n) :: expected in_sheet in_inline es styles
  | Changed styles _ :: es => expected in_sheet in_inline es styles
  | _ :: es => expected in_sheet in_inline es styles
  end.
Fixpoint all_told {M I} (styles : node -> M * I) (es : list (event M I)) : Prop :=
  match es with
  | [] => True
  | Changed styles' ids :: es => told styles (Changed styles' ids) /\ all_told styles' es
  | _ :: es => all_told styles es
  end.
Definition nothing_cached {M I} (styles : node -> M * I) : world M I :=
  mk_world styles (mk_caches (fun _ => None) (fun _ => None)).

(** Threads that ask together: a schedule says which takes the next step. *)
Fixpoint together {M I V} (in_sheet : M -> option V) (in_inline : I -> option V) (schedule : list nat)
    (ts : list (doing M I V)) (w : world M I) : list (doing M I V) * world M I :=
  match schedule with
  | [] => (ts, w)
  | k :: schedule =>
      match ts !! k with
      | Some t => let (t, w) := step in_sheet in_inline t w in together in_sheet in_inline schedule (<[k := t]> ts) w
      | None => together in_sheet in_inline schedule ts w
      end
  end.
