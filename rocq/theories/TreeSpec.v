(** What X.680 and C++ ask of resolving and ordering definitions.  Uses the tree type of CompilerTree.v, not its passes. *)
From Verif Require Import CompilerTree.
Local Open Scope list_scope.

(** * Modules *)
Definition module_names (l : list module) : list string := map m_name l.
(** Every imported module is in the list; no module imports itself through others: modules can be numbered so that
    what a module imports has a smaller number. *)
Definition imports_defined (l : list module) : Prop := forall m x, In m l -> In x (m_imports m) -> In x (module_names l).
Definition imports_acyclic (l : list module) : Prop :=
  exists number : string -> nat, forall m x, In m l -> In x (m_imports m) -> (number x < number (m_name m))%nat.
(** Every module comes after the ones it imports. *)
Definition imports_first (l : list module) : Prop :=
  forall before m after, l = before ++ m :: after -> forall x, In x (m_imports m) -> In x (module_names before).

(** * References *)
(** Module [m] assigns [s] to the name [r]. *)
Definition defines (tr : tree) (m r : string) (s : specific) : Prop :=
  exists md, In md tr /\ m_name md = m /\ In (Assign r s) (m_assigns md).
(** Modules have different names, and so have the assignments of a module. *)
Definition distinct_names (tr : tree) : Prop :=
  NoDup (module_names tr) /\ forall md, In md tr -> NoDup (map a_name (m_assigns md)).
(** A reference is looked up in the module it names, otherwise in the module it is written in. *)
Definition in_module (current : string) (m : option string) : string := match m with Some m => m | None => current end.
(** [type_is tr m t t' m']: following references and tags from the type [t] written in module [m] ends at the type
    [t'], neither a reference nor tagged, written in module [m'].  No derivation: the type is undefined or refers to itself. *)
Definition final (t : typ) : Prop := match t with Ref _ _ | Tagged _ => False | _ => True end.
Inductive type_is (tr : tree) : string -> typ -> typ -> string -> Prop :=
| ti_final m t : final t -> type_is tr m t t m
| ti_tagged m t t' m' : type_is tr m t t' m' -> type_is tr m (Tagged t) t' m'
| ti_ref m mo r t t' m' : defines tr (in_module m mo) r (TypeA t) -> type_is tr (in_module m mo) t t' m' ->
    type_is tr m (Ref mo r) t' m'.
(** The reference at the end of a chain of tags. *)
Fixpoint refers_to (t : typ) : option (option string * string) :=
  match t with Ref m r => Some (m, r) | Tagged t => refers_to t | _ => None end.
(** No type is defined as (a tagged version of) itself, through other types: type names can be numbered so that a
    definition that is just a reference refers to a smaller number. *)
Definition acyclic (tr : tree) : Prop :=
  exists number : string -> string -> nat, forall m r t mo r', defines tr m r (TypeA t) -> refers_to t = Some (mo, r') ->
    (number (in_module m mo) r' < number m r)%nat.
Fixpoint untag (t : typ) : typ := match t with Tagged t => untag t | t => t end.

(** * COMPONENTS OF (X.680 25.4, 27.2) *)
(** [expands tr m cs l]: the component list [cs], written in module [m], with every COMPONENTS OF replaced by the
    components of the type it names, those expanded in the same way.  Every component in [l] comes with the
    module it is written in, where the references in it are to be looked up. *)
Inductive expands (tr : tree) : string -> list comp -> list (string * comp) -> Prop :=
| ex_nil m : expands tr m [] []
| ex_comp m n t o d s cs l : expands tr m cs l -> expands tr m (Comp n t o d s :: cs) ((m, Comp n t o d s) :: l)
| ex_of m t set cs0 m' cs l0 l : type_is tr m t (Record set cs0) m' -> expands tr m' cs0 l0 -> expands tr m cs l ->
    expands tr m (CompOf t :: cs) (l0 ++ l).
(** No COMPONENTS OF in a list; all components in the same module. *)
Definition no_of (cs : list comp) : Prop := Forall (fun c => is_comp_of c = false) cs.
Definition here (m : string) (cs : list comp) : list (string * comp) := map (pair m) cs.

(** The assignment [a] of module [m] with its COMPONENTS OF expanded, if it is a SEQUENCE, is [a']; other assignments are
    unchanged. *)
Definition done_as (tr : tree) (m : string) (a a' : assignment) : Prop :=
  a_name a' = a_name a /\
  match a_spec a with
  | TypeA (Record false cs) => exists l, a_spec a' = TypeA (Record false l) /\ no_of l /\ expands tr m cs (here m l)
  | s => a_spec a' = s
  end.
(** COMPONENTS OF, in assignment [a] of module [md] with the assignments [before] it, names directly another SEQUENCE or
    SET of the module: one with no COMPONENTS OF in it, or a SEQUENCE that comes before. *)
Definition includes_ok (md : module) (before : list assignment) (a : assignment) (c : comp) : Prop :=
  match c with
  | Comp _ _ _ _ _ => True
  | CompOf (Ref mo r) =>
      in_module (m_name md) mo = m_name md /\ r <> a_name a /\
      exists set cs, In (Assign r (TypeA (Record set cs))) (m_assigns md) /\
        (no_of cs \/ set = false /\ In (Assign r (TypeA (Record set cs))) before)
  | CompOf _ => False
  end.

(** The same for a module. *)
Definition module_done (tr : tree) (md md' : module) : Prop :=
  m_name md' = m_name md /\ m_imports md' = m_imports md /\ Forall2 (done_as tr (m_name md)) (m_assigns md) (m_assigns md').

(** * Order of definitions *)
(** [uses t m r]: the type [t] mentions the name [r] (of module [m], if given), as a type or as the default value of a
    component inside it; the defaults of components declared ENUMERATED in place are names of items, not of values. *)
Inductive uses : typ -> option string -> string -> Prop :=
| u_ref m r : uses (Ref m r) m r
| u_tag t m r : uses t m r -> uses (Tagged t) m r
| u_list s st t m r : uses t m r -> uses (ListOf s st t) m r
| u_choice st alts n t m r : In (n, t) alts -> uses t m r -> uses (Choice st alts) m r
| u_comp s cs n t o d st m r : In (Comp n t o d st) cs -> uses t m r -> uses (Record s cs) m r
| u_default s cs n t o v st : In (Comp n t o (Some (Some v)) st) cs -> t <> Builtin true -> uses (Record s cs) None v.
Definition this_module (md : string) (m : option string) : Prop := m = None \/ m = Some md.
Definition enumerated_type (tr : tree) (md : string) (t : typ) : Prop := exists m', type_is tr md t (Builtin true) m'.
(** Some SET inside [t] has a component with a name for default value. *)
Inductive set_default : typ -> Prop :=
| sd_here cs n t o v st : In (Comp n t o (Some (Some v)) st) cs -> t <> Builtin true -> set_default (Record true cs)
| sd_tag t : set_default t -> set_default (Tagged t)
| sd_list s st t : set_default t -> set_default (ListOf s st t)
| sd_choice st alts n t : In (n, t) alts -> set_default t -> set_default (Choice st alts)
| sd_comp s cs n t o d st : In (Comp n t o d st) cs -> set_default t -> set_default (Record s cs).
(** No such SET inside the types of [a], unless it is the type assigned itself. *)
Definition no_nested_set_default (a : assignment) : Prop :=
  match a_spec a with
  | TypeA (Record s cs) => forall n t o d st, In (Comp n t o d st) cs -> ~ set_default t
  | TypeA t | ValueA t _ => ~ set_default t
  | OtherA => True
  end.
(** What must be defined before the C++ code for the assignment [a] of module [md].  Nothing of a CHOICE, SEQUENCE OF or SET OF
    with dynamic storage, or of an OPTIONAL component with dynamic storage, whose type may be incomplete. *)
Inductive needs (tr : tree) (md : string) : assignment -> string -> Prop :=
| n_value_type n t v m x : uses t m x -> this_module md m -> needs tr md (Assign n (ValueA t v)) x
| n_value n t x : needs tr md (Assign n (ValueA t (Some x))) x
| n_type n t m x :
    match t with Choice Dynamic _ | ListOf _ Dynamic _ | Record _ _ => False | _ => True end ->
    uses t m x -> this_module md m -> needs tr md (Assign n (TypeA t)) x
| n_component n s cs cn t o d st m x :
    In (Comp cn t o d st) cs -> ~ (o = true /\ d = None /\ st = Dynamic) ->
    uses t m x -> this_module md m -> needs tr md (Assign n (TypeA (Record s cs))) x
| n_default n s cs cn t o st x :
    In (Comp cn t o (Some (Some x)) st) cs -> ~ enumerated_type tr md t -> needs tr md (Assign n (TypeA (Record s cs))) x.
(** All names an assignment refers to, the same without regard to storage. *)
Inductive refers (tr : tree) (md : string) : assignment -> string -> Prop :=
| r_value_type n t v m x : uses t m x -> this_module md m -> refers tr md (Assign n (ValueA t v)) x
| r_value n t x : refers tr md (Assign n (ValueA t (Some x))) x
| r_type n t m x :
    match t with Record _ _ => False | _ => True end -> uses t m x -> this_module md m -> refers tr md (Assign n (TypeA t)) x
| r_component n s cs cn t o d st m x :
    In (Comp cn t o d st) cs -> uses t m x -> this_module md m -> refers tr md (Assign n (TypeA (Record s cs))) x
| r_default n s cs cn t o st x :
    In (Comp cn t o (Some (Some x)) st) cs -> ~ enumerated_type tr md t -> refers tr md (Assign n (TypeA (Record s cs))) x.
(** A value of [a] cannot do without [x] of its module, whatever the storage: the component, or the type, is not OPTIONAL, CHOICE,
    SEQUENCE OF or SET OF; or [x] is a value. *)
Inductive always_needs (md : string) : assignment -> string -> Prop :=
| an_value_type n t v m x : uses t m x -> this_module md m -> always_needs md (Assign n (ValueA t v)) x
| an_value n t x : always_needs md (Assign n (ValueA t (Some x))) x
| an_type n t m x :
    match t with Choice _ _ | ListOf _ _ _ | Record _ _ => False | _ => True end -> uses t m x -> this_module md m -> always_needs md (Assign n (TypeA t)) x
| an_component n s cs cn t o d st m x :
    In (Comp cn t o d st) cs -> ~ (o = true /\ d = None) -> uses t m x -> this_module md m -> always_needs md (Assign n (TypeA (Record s cs))) x
| an_default n s cs cn t o st x :
    In (Comp cn t o (Some (Some x)) st) cs -> t <> Builtin true -> always_needs md (Assign n (TypeA (Record s cs))) x.
Definition definitions_first (tr : tree) (md : string) (l : list assignment) : Prop :=
  forall before a after, l = before ++ a :: after -> forall x, needs tr md a x -> In x (map a_name before).
(** [a] mentions the name [x] of its module. *)
Definition mentions (md : string) (a : assignment) (x : string) : Prop :=
  match a_spec a with
  | TypeA t => exists m, uses t m x /\ this_module md m
  | ValueA t v => (exists m, uses t m x /\ this_module md m) \/ v = Some x
  | OtherA => False
  end.
(** [x] leads to [y]: it mentions [y], or mentions something that leads to [y]. *)
Inductive leads_to (md : string) (l : list assignment) : string -> string -> Prop :=
| lt_one a y : In a l -> mentions md a y -> leads_to md l (a_name a) y
| lt_more a y z : In a l -> mentions md a y -> leads_to md l y z -> leads_to md l (a_name a) z.
(** Equal but for the storage of choices and lists. *)
Inductive same_type : typ -> typ -> Prop :=
| s_refl t : same_type t t
| s_list s st st' t t' : same_type t t' -> same_type (ListOf s st t) (ListOf s st' t')
| s_choice st st' alts alts' : Forall2 (fun a a' => fst a = fst a' /\ same_type (snd a) (snd a')) alts alts' ->
    same_type (Choice st alts) (Choice st' alts')
| s_tag t t' : same_type t t' -> same_type (Tagged t) (Tagged t').
(** [a'] is [a], except that the storage of a CHOICE or list that leads to itself may be dynamic, and so may that of an OPTIONAL
    component whose type mentions something that leads to [a]. *)
Definition stored_component (md : string) (l : list assignment) (name : string) (c c' : comp) : Prop :=
  c' = c \/
  exists n t st m y, c = Comp n t true None st /\ c' = Comp n t true None Dynamic /\ uses t m y /\ leads_to md l y name.
Definition stored (md : string) (l : list assignment) (a a' : assignment) : Prop :=
  a_name a' = a_name a /\
  match a_spec a with
  | TypeA (Record s cs) => exists cs', a_spec a' = TypeA (Record s cs') /\ Forall2 (stored_component md l (a_name a)) cs cs'
  | TypeA t => a_spec a' = TypeA t \/ exists t', a_spec a' = TypeA t' /\ same_type t t' /\ leads_to md l (a_name a) (a_name a)
  | s => a_spec a' = s
  end.
(** Every name of the module that the assignments mention is defined; types that are a SEQUENCE or SET mention no names of other
    modules. *)
Definition all_defined (md : string) (l : list assignment) : Prop :=
  forall a, In a l ->
    (forall t m x, (a_spec a = TypeA t \/ exists v, a_spec a = ValueA t v) -> uses t m x -> this_module md m -> In x (map a_name l)) /\
    (forall t x, a_spec a = ValueA t (Some x) -> In x (map a_name l)) /\
    (forall s cs m x, a_spec a = TypeA (Record s cs) -> uses (Record s cs) m x -> this_module md m).
(** The types of components with a name for default value are defined. *)
Definition default_types_defined (tr : tree) (md : string) (l : list assignment) : Prop :=
  forall a s cs n t o v st, In a l -> a_spec a = TypeA (Record s cs) -> In (Comp n t o (Some (Some v)) st) cs -> exists t' m', type_is tr md t t' m'.
(** Names can be numbered so that what an assignment always needs has a smaller number. *)
Definition finite_values (md : string) (l : list assignment) : Prop :=
  exists rank : string -> nat, forall a x, In a l -> always_needs md a x -> (rank x < rank (a_name a))%nat.
