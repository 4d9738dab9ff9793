(** When names cannot get in each other's way in the headers: conditions on the modules (after the compiler's passes), in terms of ASN.1.
    A header uses the names of types and, with a capital letter, of components; "...Contained", "...Values" and "..._" are names it makes
    up. *)
From Coq Require Import List String Ascii ZArith Bool.
From Verif Require Import Base ParserTree.
Import ListNotations.
Local Open Scope string_scope.

(** [inside u t]: the type u is written in the type t. *)
Inductive inside : type -> type -> Prop :=
| in_self t : inside t t
| in_component set cs ext x u o d co t : In (Comp x u o d co) cs -> inside t u -> inside t (TRecord set cs ext)
| in_alternative alts x u t : In (x, u) alts -> inside t u -> inside t (TChoice alts)
| in_element set x u t : inside t u -> inside t (TListOf set x u)
| in_tagged g kw u t : inside t u -> inside t (TTagged g kw u).
(** The assignment "x ::= t" in a module. *)
Definition assigned (tr : list module) (m : module) (x : string) (t : type) : Prop := In m tr /\ exists ps, In (Assign x (AType t) ps) (m_assigns m).
Definition type_name (tr : list module) (x : string) : Prop := exists m t, assigned tr m x t.
Definition occurs (tr : list module) (u : type) : Prop := exists m x t, assigned tr m x t /\ inside u t.
(** A component of a SEQUENCE or SET, or an alternative of a CHOICE, of type u. *)
Definition member_named (tr : list module) (x : string) (u : type) : Prop :=
  (exists set cs ext o d co, occurs tr (TRecord set cs ext) /\ In (Comp x u o d co) cs) \/ (exists alts, occurs tr (TChoice alts) /\ In (x, u) alts).
(** With a capital letter in front (for the letters a to z). *)
Definition capitalised (s : string) : string :=
  match s with
  | String c s => String (if (("a" <=? c) && (c <=? "z"))%char then ascii_of_nat (nat_of_ascii c - 32) else c) s
  | "" => ""
  end.
Definition made_up (n : string) : Prop := n = "" \/ exists p, n = p ++ "Contained" \/ n = p ++ "Values" \/ n = p ++ "_".
(** A SEQUENCE OF or SET OF, also behind tags. *)
Fixpoint is_list (t : type) : bool := match t with TListOf _ _ _ => true | TTagged _ _ u => is_list u | _ => false end.
(** Behind one or more tags, a name without a module. *)
Fixpoint tagged_name (t : type) : bool := match t with TTagged _ _ (TRef (Defined None _ _)) => true | TTagged _ _ u => tagged_name u | _ => false end.
(** Types for which the compiler knows no tag number. *)
Definition untagged_time (k : simple) : bool := match k with Date | DateTime | Duration | Time | TimeOfDay | IRI | RelativeIRI => true | _ => false end.

Record separate (tr : list module) : Prop := Separate {
  (* the compiler's own passes see to this one *)
  sp_assignments : forall m, In m tr -> NoDup (map a_name (m_assigns m)) /\ forall a, In a (m_assigns m) -> a_parameters a = [];
  sp_types : forall x, type_name tr x -> ~ made_up x;
  sp_members : forall x u, member_named tr x u -> ~ made_up (capitalised x);
  sp_elements : forall set x u, occurs tr (TListOf set (Some x) u) -> ~ made_up (capitalised x);
  (* no component that is a list has the name of a type *)
  sp_lists : forall x u, member_named tr x u -> is_list u = true -> ~ type_name tr (capitalised x);
  (* no module has a list of the same name as a type that is taken from another module by "N.x" *)
  sp_modules : forall m N x ps u, occurs tr (TRef (Defined (Some N) x ps)) -> assigned tr m x u -> m_name m <> N -> is_list u = false;
  (* there is only one module, or none has "X ::= [n] Y" *)
  sp_tags : length tr = 1%nat \/ forall m x u, assigned tr m x u -> tagged_name u = false;
  sp_times : forall k, occurs tr (TSimple k) -> untagged_time k = false;
  sp_choices : ~ occurs tr (TChoice [])
}.
