(** What modules (after the compiler's passes) have to keep to so that the headers written for them are C++: conditions in terms of ASN.1
    and of the names that C++ and the library use (CppSpec.v).  C123 shows that such headers compile, and what happens otherwise. *)
From Coq Require Import List String Ascii ZArith Bool.
From Verif Require Import Base ParserTree HeaderSpec CppSpec.
Import ListNotations.
Local Open Scope string_scope.
Local Open Scope list_scope.

Fixpoint behind_tags (t : type) : type := match t with TTagged _ _ u => behind_tags u | _ => t end.
Definition structure (t : type) : bool := match t with TRecord _ _ _ | TChoice _ => true | _ => false end.
Definition enumeration (t : type) : bool := match t with TEnumerated _ _ => true | _ => false end.
Definition list_or_enumeration (t : type) : bool := match t with TListOf _ _ _ | TEnumerated _ _ => true | _ => false end.
Definition reference (t : type) : bool := match t with TRef _ => true | _ => false end.
(** [leads tr m t r]: following tags and references from t, written in the module m, one comes to the type r. *)
Inductive leads (tr : list module) : module -> type -> type -> Prop :=
| le_end m r : reference r = false -> (forall g kw u, r <> TTagged g kw u) -> leads tr m r r
| le_tag m g kw u r : leads tr m u r -> leads tr m (TTagged g kw u) r
| le_ref m mo x ps m' u r : assigned tr m' x u -> m_name m' = match mo with Some N => N | None => m_name m end -> leads tr m' u r ->
    leads tr m (TRef (Defined mo x ps)) r.
(** The type t, in one of the modules, has a class of this name: the name of an assignment, or of a component or alternative, with a
    capital letter. *)
Inductive owner (tr : list module) : string -> type -> Prop :=
| ow_assigned m x t : assigned tr m x t -> owner tr x t
| ow_component n set cs ext x u o d co : owner tr n (TRecord set cs ext) -> In (Comp x u o d co) cs -> owner tr (capitalised x) u
| ow_alternative n alts x u : owner tr n (TChoice alts) -> In (x, u) alts -> owner tr (capitalised x) u
| ow_tagged n g kw u : owner tr n (TTagged g kw u) -> owner tr n u.
Definition comp_name (c : component) : string := match c with Comp x _ _ _ _ => x end.
Definition free (used : list string) (n : string) : Prop := ~ In n used /\ forall r, n <> ("DefaultValue" ++ r)%string.
(** The library has a class for it. *)
Definition has_class (k : simple) : bool :=
  match k with
  | Any | EmbeddedPDV | External | InstanceOf | IRI | ObjectDescriptor | RelativeIRI | RelativeOID | CharString (t61_string | unknown_string) => false
  | _ => true
  end.

Record expressible (tr : list module) : Prop := Expressible {
  (* names *)
  ex_modules : NoDup (map m_name tr) /\ forall m, In m tr -> ~ In (m_name m) library_names;
  ex_names : forall m a, In m tr -> In a (m_assigns m) -> free library_names (a_name a) /\ ~ made_up (a_name a);
  ex_records : forall n set cs ext, owner tr n (TRecord set cs ext) ->
    let names := map comp_name cs in let capitals := map capitalised names in
    NoDup (names ++ capitals) /\ ~ In n (names ++ capitals ++ struct_names) /\
    (forall x, In x names -> ~ made_up x) /\ forall x, In x (names ++ capitals) -> free (library_names ++ struct_names) x;
  ex_choices : forall n alts, owner tr n (TChoice alts) ->
    let capitals := map (fun a => capitalised (fst a)) alts in
    NoDup capitals /\ ~ In n (capitals ++ choice_names) /\ forall x, In x capitals -> free (library_names ++ choice_names) x;
  (* no SEQUENCE OF SEQUENCE {...} *)
  ex_elements : forall set x u v, occurs tr (TListOf set x u) -> inside v u -> structure v = false;
  (* no ENUMERATED {...} DEFAULT; no constants of an ENUMERATED type *)
  ex_defaults : forall set cs ext x u o v co, occurs tr (TRecord set cs ext) -> In (Comp x u o (Some v) co) cs -> enumeration (behind_tags u) = false;
  ex_values : forall m x t v ps r, In m tr -> In (Assign x (AValue t v) ps) (m_assigns m) -> leads tr m t r -> enumeration r = false;
  ex_simple : forall k, occurs tr (TSimple k) -> has_class k = true;
  (* lists and ENUMERATEDs are used by the name they are given in the same module *)
  ex_references : forall m n t mo x ps r, assigned tr m n t -> inside (TRef (Defined mo x ps)) t -> leads tr m (TRef (Defined mo x ps)) r ->
    list_or_enumeration r = true -> assigned tr m x r /\ (mo = None \/ mo = Some (m_name m));
  ex_tags : forall m x g kw g' kw' u, assigned tr m x (TTagged g kw (TTagged g' kw' u)) -> reference (behind_tags u) = false;
  (* the compiler's own passes see to this one, but for types that contain themselves *)
  ex_order : forall pre m post before a after t mo x ps, tr = pre ++ m :: post -> m_assigns m = before ++ a :: after -> a_specific a = AType t ->
    inside (TRef (Defined mo x ps)) t ->
    (mo = None \/ mo = Some (m_name m)) /\ In x (map a_name before) \/ exists N, mo = Some N /\ In N (map m_name pre)
}.
(** Imported values, of the modules with their imports. *)
Definition imported_values (m : module) : list string := flat_map i_values (m_imports m).
Record imports_expressible (tr : list module) : Prop := ImportsExpressible {
  im_names : forall m, In m tr -> NoDup (imported_values m ++ map a_name (m_assigns m)) /\
    forall x, In x (imported_values m) -> free library_names x /\ ~ made_up x /\ ~ In x (map m_name tr);
  (* they are values of modules that come before: the compiler's own passes see to the order *)
  im_values : forall pre m post i x, tr = pre ++ m :: post -> In i (m_imports m) -> In x (i_values i) ->
    exists m' t v ps, In m' pre /\ m_name m' = i_module i /\ In (Assign x (AValue t v) ps) (m_assigns m')
}.
