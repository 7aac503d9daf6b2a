(** What it means to load value definitions and to follow the references between them. *)
From stdpp Require Import numbers option list relations.
From Verif Require Import Base Text SyntaxModel GrammarModel.

(** ** Which text defines a name *)
(** An entry of the file of types is called [<name>] or [name]. *)
Definition plain_name (n : str) : Prop := head n <> Some 60%N /\ last n <> Some 62%N.
Definition named (e : string * string) (bracketed : bool) (n : str) : Prop :=
  plain_name n /\ txt (fst e) = if bracketed then [60%N] ++ n ++ [62%N] else n.
Definition says (e : string * string) (bracketed : bool) (n : str) (cs : list component) : Prop :=
  named e bracketed n /\ txt (snd e) <> [] /\ compile (txt (snd e)) = Some cs.
(** The last entry with this name that can be read. *)
Definition last_says (values : list (string * string)) (bracketed : bool) (n : str) (cs : list component) : Prop :=
  exists i e, values !! i = Some e /\ says e bracketed n cs
    /\ forall j e' cs', i < j -> values !! j = Some e' -> ~ says e' bracketed n cs'.
(** A name in brackets goes before one without. *)
Definition defines (values : list (string * string)) (n : str) (cs : list component) : Prop :=
  last_says values true n cs
  \/ (forall e cs', e ∈ values -> ~ says e true n cs') /\ last_says values false n cs.

(** ** References *)
(** A range written on a reference counts for the data types below it that have none of their own. *)
Inductive ranged (rg : str) : component -> component -> Prop :=
| rg_leaf t ms : ranged rg (CBuiltin t [] ms) (CBuiltin t rg ms)
| rg_own t r ms : r <> [] -> ranged rg (CBuiltin t r ms) (CBuiltin t r ms)
| rg_group k cs cs' ms : Forall2 (ranged rg) cs cs' -> ranged rg (CGroup k cs ms) (CGroup k cs' ms)
| rg_other c : (forall t r ms, c <> CBuiltin t r ms) -> (forall k cs ms, c <> CGroup k cs ms) -> ranged rg c c.

Inductive mentions : component -> str -> Prop :=
| m_here n q rg ms : mentions (CDefinition n q rg ms) n
| m_group k cs ms c n : c ∈ cs -> mentions c n -> mentions (CGroup k cs ms) n
| m_argument f a ms n : mentions a n -> mentions (CFunction f (Some a) ms) n.

Section expands.
(** the grammars of the types and of the properties, as written *)
Context (types props : str -> option (list component)).

Definition refers (a b : str) : Prop :=
  exists cs c, (types a = Some cs \/ props a = Some cs) /\ c ∈ cs /\ mentions c b.

(** [expands prop c c']: in the grammar of the property [prop], [c'] is [c] with what is referred to in the place of the
    references. Only a reference to a type that refers to itself may be left. A quoted name is the property, unless there is
    none or it is the property being read. *)
Inductive expands : str -> component -> component -> Prop :=
| ex_group prop k cs cs' ms : Forall2 (expands prop) cs cs' -> expands prop (CGroup k cs ms) (CGroup k cs' ms)
| ex_function prop f a a' ms : expands prop a a' -> expands prop (CFunction f (Some a) ms) (CFunction f (Some a') ms)
| ex_type prop n q rg ms cs cs' cs'' prop' :
    types n = Some cs -> (q = true -> props n = None \/ n = prop) ->
    Forall2 (expands prop') cs cs' -> Forall2 (ranged rg) cs' cs'' ->
    expands prop (CDefinition n q rg ms) (CGroup Juxtaposition cs'' ms)
| ex_self prop n q rg ms :
    types n <> None -> tc refers n n -> expands prop (CDefinition n q rg ms) (CDefinition n q rg ms)
| ex_builtin prop n q rg ms :
    types n = None -> is_builtin n = true -> (q = true -> props n = None \/ n = prop) ->
    expands prop (CDefinition n q rg ms) (CBuiltin n rg ms)
| ex_property prop n q rg ms cs cs' prop' :
    props n = Some cs -> n <> prop -> (q = false -> types n = None /\ is_builtin n = false) ->
    Forall2 (expands prop') cs cs' ->
    expands prop (CDefinition n q rg ms)
      (match cs' with [c] => set_multipliers ms c | _ => CGroup Juxtaposition cs' ms end)
| ex_other prop c :
    (forall n q rg ms, c <> CDefinition n q rg ms) -> (forall k cs ms, c <> CGroup k cs ms) ->
    (forall f a ms, c <> CFunction f (Some a) ms) -> expands prop c c.
End expands.
