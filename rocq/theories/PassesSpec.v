(** What a type in a set of ASN.1 modules means: its (possibly infinite) expansion, X.680 and X.683.  The compiler passes are
    not used here, only the syntax trees. *)
From Verif Require Export Base CompilerPasses.
Local Open Scope string_scope.
Local Open Scope list_scope.

(** ** Expanded types.  [DBot]: not expanded (yet); [DErr]: no meaning (a reference to nothing, ...). *)
Inductive dt : Type :=
| DBot | DErr
| DLeaf (enumerated : bool) (k : Z)
| DRecord (set : bool) (cs : list dcomp)
| DListOf (set : bool) (t : dt)
| DChoice (alts : list (string * dt))
| DTagged (tag : Z) (t : dt)
| DOpen (* a type field of an object class *)
with dcomp : Type :=
| DComp (name : string) (t : dt) (optional : bool) (default : option Z)
| DCompOf (t : dt).
(** [a] is [b] expanded less far. *)
Inductive dle : dt -> dt -> Prop :=
| dle_bot b : dle DBot b
| dle_err : dle DErr DErr
| dle_open : dle DOpen DOpen
| dle_leaf e k : dle (DLeaf e k) (DLeaf e k)
| dle_record s cs cs' : Forall2 dcle cs cs' -> dle (DRecord s cs) (DRecord s cs')
| dle_list s t t' : dle t t' -> dle (DListOf s t) (DListOf s t')
| dle_choice l l' : Forall2 (fun a b => fst a = fst b /\ dle (snd a) (snd b)) l l' -> dle (DChoice l) (DChoice l')
| dle_tagged g t t' : dle t t' -> dle (DTagged g t) (DTagged g t')
with dcle : dcomp -> dcomp -> Prop :=
| dcle_comp n t t' o d : dle t t' -> dcle (DComp n t o d) (DComp n t' o d)
| dcle_compof t t' : dle t t' -> dcle (DCompOf t) (DCompOf t').

(** ** Where a name leads: the first assignment of that name in the module, or else an import of it. *)
Inductive target : Type := Found (md : string) (a : passign) | Imported (md : string) | Nowhere.
Definition find_import (imports : list (string * list string)) (r : string) : option string :=
  match find (fun i => existsb (String.eqb r) (snd i)) imports with Some i => Some (fst i) | None => None end.
Definition target_of (tr : ptree) (current : string) (m : option string) (r : string) : target :=
  match pfind_module tr (match m with Some x => x | None => current end) with
  | None => Nowhere
  | Some md => match pfind (pm_assigns md) r with
               | Some a => Found (pm_name md) a
               | None => match find_import (pm_imports md) r with Some x => Imported x | None => Nowhere end
               end
  end.

(** ** Expansion.  A dummy reference (X.683 8.3) stands for the actual parameter, read in the context of the reference that
    supplied it.  [n] bounds the number of steps on every path. *)
Inductive closure : Type := Clo (md : string) (env : list (string * closure)) (t : ptyp).
Definition env_find (env : list (string * closure)) (r : string) : option closure :=
  match find (fun p => String.eqb (fst p) r) env with Some p => Some (snd p) | None => None end.
Fixpoint den (n : nat) (tr : ptree) (md : string) (env : list (string * closure)) (t : ptyp) : dt :=
  match n with
  | O => DBot
  | S n =>
      match t with
      | PLeaf e k => DLeaf e k
      | PRecord s cs => DRecord s (map (fun c => match c with
                                                 | PComp x t o d => DComp x (den n tr md env t) o d
                                                 | PCompOf t => DCompOf (den n tr md env t)
                                                 end) cs)
      | PListOf s t => DListOf s (den n tr md env t)
      | PChoice alts => DChoice (map (fun a => (fst a, den n tr md env (snd a))) alts)
      | PTagged g t => DTagged g (den n tr md env t)
      | PRef m r ps =>
          match (match m, ps with None, [] => env_find env r | _, _ => None end) with
          | Some (Clo md' env' t') => den n tr md' env' t'
          | None =>
              match target_of tr md m r with
              | Found md' a =>
                  match p_spec a with
                  | PTypeA body => if Nat.eqb (length (p_params a)) (length ps)
                                   then den n tr md' (combine (map snd (p_params a)) (map (Clo md env) ps)) body
                                   else DErr
                  | _ => DErr
                  end
              | Imported md' => den n tr md env (PRef (Some md') r ps)
              | Nowhere => DErr
              end
          end
      | PField m c fs =>
          match (match m with None => env_find env c | Some _ => None end) with
          | Some (Clo md' env' (PRef m' c' [])) => den n tr md' env' (PField m' c' fs)
          | Some _ => DErr
          | None =>
          match target_of tr md m c with
          | Found md' a =>
              match p_params a, p_spec a, fs with
              | [], PClassA fields, [f] =>
                  match find (fun x => String.eqb (f_name x) f) fields with
                  | Some x => match f_type x with Some t' => den n tr md' [] t' | None => DOpen end
                  | None => DErr
                  end
              | [], PTypeA (PRef m' c' []), _ => den n tr md' [] (PField m' c' fs)
              | _, _, _ => DErr
              end
          | Imported md' => den n tr md env (PField (Some md') c fs)
          | Nowhere => DErr
          end
          end
      end
  end.
(** The type [t] in module [md] means the same in two sets of modules: each finite expansion of one is part of a finite
    expansion of the other. *)
Definition same_meaning (tr : ptree) (md : string) (t : ptyp) (tr' : ptree) (md' : string) (t' : ptyp) : Prop :=
  (forall n, exists k, dle (den n tr md [] t) (den k tr' md' [] t')) /\
  (forall n, exists k, dle (den n tr' md' [] t') (den k tr md [] t)).

(** ** Conditions on modules with parameterized types *)
(** No reference in the type has actual parameters. *)
Fixpoint param_free (t : ptyp) : Prop :=
  match t with
  | PLeaf _ _ | PField _ _ _ => True
  | PRef _ _ ps => ps = []
  | PRecord _ cs => fold_right and True (map (fun c => match c with PComp _ t _ _ => param_free t | PCompOf t => param_free t end) cs)
  | PListOf _ t => param_free t
  | PChoice alts => fold_right and True (map (fun a => param_free (snd a)) alts)
  | PTagged _ t => param_free t
  end.
(** The type uses no name of [ds] (without a module in front of it). *)
Fixpoint avoids (ds : list string) (t : ptyp) : Prop :=
  match t with
  | PLeaf _ _ => True
  | PField m c _ => m = None -> ~ In c ds
  | PRef m r ps => (m = None -> ~ In r ds) /\ fold_right and True (map (avoids ds) ps)
  | PRecord _ cs => fold_right and True (map (fun c => match c with PComp _ t _ _ => avoids ds t | PCompOf t => avoids ds t end) cs)
  | PListOf _ t => avoids ds t
  | PChoice alts => fold_right and True (map (fun a => avoids ds (snd a)) alts)
  | PTagged _ t => avoids ds t
  end.
(** In a type of module [md]: templates are of the module itself, actual parameters have no parameters of their own, and
    none are used under COMPONENTS OF. *)
Fixpoint actuals_ok (md : string) (t : ptyp) : Prop :=
  match t with
  | PLeaf _ _ | PField _ _ _ => True
  | PRef m r ps => ps = [] \/ ((m = None \/ m = Some md) /\ fold_right and True (map param_free ps))
  | PRecord _ cs => fold_right and True (map (fun c => match c with PComp _ t _ _ => actuals_ok md t | PCompOf t => param_free t end) cs)
  | PListOf _ t => actuals_ok md t
  | PChoice alts => fold_right and True (map (fun a => actuals_ok md (snd a)) alts)
  | PTagged _ t => actuals_ok md t
  end.
(** In a template with the dummy references [ds]: no dummy is used under COMPONENTS OF or as a class. *)
Fixpoint dummies_ok (ds : list string) (t : ptyp) : Prop :=
  match t with
  | PLeaf _ _ | PRef _ _ _ => True
  | PField m c _ => m = None -> ~ In c ds
  | PRecord _ cs => fold_right and True (map (fun c => match c with PComp _ t _ _ => dummies_ok ds t | PCompOf t => param_free t /\ avoids ds t end) cs)
  | PListOf _ t => dummies_ok ds t
  | PChoice alts => fold_right and True (map (fun a => dummies_ok ds (snd a)) alts)
  | PTagged _ t => dummies_ok ds t
  end.
Definition dummies (a : passign) : list string := map snd (p_params a).
Definition bare_ref (t : ptyp) : Prop := match t with PRef _ _ _ => True | _ => False end.
Record parameters_ok (tr : ptree) : Prop := {
  po_names : forall m, In m tr -> NoDup (map p_name (pm_assigns m));
  po_types : forall m a t, In m tr -> In a (pm_assigns m) -> p_params a = [] -> p_spec a = PTypeA t -> actuals_ok (pm_name m) t;
  po_templates : forall m a t, In m tr -> In a (pm_assigns m) -> p_params a <> [] -> p_spec a = PTypeA t ->
    NoDup (dummies a) /\ dummies_ok (dummies a) t /\ ~ bare_ref t;
  po_imports : forall m a, In m tr -> In a (pm_assigns m) -> p_params a <> [] -> find_import (pm_imports m) (p_name a) = None;
  po_classes : forall m a fs f t, In m tr -> In a (pm_assigns m) -> p_spec a = PClassA fs -> In f fs -> f_type f = Some t -> param_free t }.

(** ** A complete expansion without errors *)
Fixpoint meaningful (a : dt) : bool :=
  match a with
  | DBot | DErr => false
  | DOpen | DLeaf _ _ => true
  | DRecord _ cs => forallb (fun c => match c with DComp _ t _ _ => meaningful t | DCompOf t => meaningful t end) cs
  | DListOf _ t => meaningful t
  | DChoice l => forallb (fun a => meaningful (snd a)) l
  | DTagged _ t => meaningful t
  end.
(** ** Which parameterized references can be expanded in one step *)
(** No reference has actual parameters, other than under COMPONENTS OF. *)
Fixpoint nested_free (t : ptyp) : Prop :=
  match t with
  | PLeaf _ _ | PField _ _ _ => True
  | PRef _ _ ps => ps = []
  | PRecord _ cs => fold_right and True (map (fun c => match c with PComp _ t _ _ => nested_free t | PCompOf _ => True end) cs)
  | PListOf _ t => nested_free t
  | PChoice alts => fold_right and True (map (fun a => nested_free (snd a)) alts)
  | PTagged _ t => nested_free t
  end.
(** Every reference with actual parameters, other than under COMPONENTS OF, is to a template (not an import of one) of as
    many parameters, whose type is [nested_free]. *)
Fixpoint instantiable (tr : ptree) (md : string) (t : ptyp) : Prop :=
  match t with
  | PLeaf _ _ | PField _ _ _ => True
  | PRef m r ps => ps = [] \/ exists q a body, target_of tr md m r = Found q a /\ p_spec a = PTypeA body /\ length (p_params a) = length ps /\ nested_free body
  | PRecord _ cs => fold_right and True (map (fun c => match c with PComp _ t _ _ => instantiable tr md t | PCompOf _ => True end) cs)
  | PListOf _ t => instantiable tr md t
  | PChoice alts => fold_right and True (map (fun a => instantiable tr md (snd a)) alts)
  | PTagged _ t => instantiable tr md t
  end.

(** ** Imports and other conditions *)
(** Every type of the modules (and their classes) is [param_free]. *)
Definition tree_param_free (tr : ptree) : Prop := forall m a, In m tr -> In a (pm_assigns m) ->
  match p_spec a with
  | PTypeA t => param_free t
  | PClassA fs => forall f t, In f fs -> f_type f = Some t -> param_free t
  | _ => True
  end.
(** The modules as a reader sees them who does not look at the imports. *)
Definition forget_imports (tr : ptree) : ptree := map (fun m => PModule (pm_name m) [] (pm_assigns m)) tr.

(** ** Nested structures *)
(** The names the compiler makes up. *)
Definition made_up (r : string) : Prop := exists p n, In p ["UnnamedSet"; "UnnamedSequence"; "UnnamedEnum"; "UnnamedChoice"] /\ r = (p ++ to_string n)%string.
(** The type refers to nothing by such a name. *)
Fixpoint no_made_up (t : ptyp) : Prop :=
  match t with
  | PLeaf _ _ => True
  | PField _ c _ => ~ made_up c
  | PRef _ r ps => ~ made_up r
  | PRecord _ cs => fold_right and True (map (fun c => match c with PComp _ t _ _ => no_made_up t | PCompOf t => no_made_up t end) cs)
  | PListOf _ t => no_made_up t
  | PChoice alts => fold_right and True (map (fun a => no_made_up (snd a)) alts)
  | PTagged _ t => no_made_up t
  end.
(** No structure, CHOICE or ENUMERATED is written inside a list type or behind a tag. *)
Definition structure (t : ptyp) : Prop := match t with PRecord _ _ | PChoice _ | PLeaf true _ => True | _ => False end.
Fixpoint flat (t : ptyp) : Prop :=
  match t with
  | PLeaf _ _ | PField _ _ _ | PRef _ _ _ => True
  | PRecord _ cs => fold_right and True (map (fun c => match c with PComp _ t _ _ => flat t | PCompOf t => True end) cs)
  | PListOf _ t => ~ structure t /\ flat t
  | PChoice alts => fold_right and True (map (fun a => flat (snd a)) alts)
  | PTagged _ t => ~ structure t /\ flat t
  end.
(** Nothing in the modules has parameters, and no name is one the compiler makes up. *)
Definition nesting_ok (tr : ptree) : Prop := NoDup (map pm_name tr) /\ tree_param_free tr /\ forall m a, In m tr -> In a (pm_assigns m) ->
  p_params a = [] /\ ~ made_up (p_name a) /\
  match p_spec a with
  | PTypeA t => no_made_up t
  | PClassA fs => forall f t, In f fs -> f_type f = Some t -> no_made_up t
  | _ => True
  end.

(** ** Object classes *)
(** The type mentions no field of a class. *)
Fixpoint field_free (t : ptyp) : Prop :=
  match t with
  | PLeaf _ _ | PRef _ _ _ => True
  | PField _ _ _ => False
  | PRecord _ cs => fold_right and True (map (fun c => match c with PComp _ t _ _ => field_free t | PCompOf t => field_free t end) cs)
  | PListOf _ t => field_free t
  | PChoice alts => fold_right and True (map (fun a => field_free (snd a)) alts)
  | PTagged _ t => field_free t
  end.
(** The classes whose fields a type of module [md] mentions are written as the module's own, and COMPONENTS OF mentions none. *)
Fixpoint fields_local (md : string) (t : ptyp) : Prop :=
  match t with
  | PLeaf _ _ | PRef _ _ _ => True
  | PField m _ _ => m = None \/ m = Some md
  | PRecord _ cs => fold_right and True (map (fun c => match c with PComp _ t _ _ => fields_local md t | PCompOf t => field_free t end) cs)
  | PListOf _ t => fields_local md t
  | PChoice alts => fold_right and True (map (fun a => fields_local md (snd a)) alts)
  | PTagged _ t => fields_local md t
  end.
Definition dot : Ascii.ascii := Ascii.ascii_of_nat 46.
Fixpoint no_dot (s : string) : Prop := match s with EmptyString => True | String c s => c <> dot /\ no_dot s end.
Record classes_ok (tr : ptree) : Prop := {
  co_modules : NoDup (map pm_name tr) /\ Forall (fun m => no_dot (pm_name m)) tr;
  co_names : forall m, In m tr -> NoDup (map p_name (pm_assigns m)) /\ Forall (fun a => no_dot (p_name a)) (pm_assigns m);
  co_free : tree_param_free tr /\ forall m a, In m tr -> In a (pm_assigns m) -> p_params a = [];
  co_local : forall m a t, In m tr -> In a (pm_assigns m) -> p_spec a = PTypeA t -> fields_local (pm_name m) t;
  co_fields : forall m a fs f t, In m tr -> In a (pm_assigns m) -> p_spec a = PClassA fs -> In f fs -> f_type f = Some t -> field_free t;
  (** a name of another module is only given another time by the import of it *)
  co_alias : forall m a q r ps, In m tr -> In a (pm_assigns m) -> p_spec a = PTypeA (PRef (Some q) r ps) -> q = pm_name m \/ r = p_name a;
  (** split_imports has run *)
  co_imports : forall m i r, In m tr -> In i (pm_imports m) -> In r (snd i) -> pfind (pm_assigns m) r = Some (PAssign r (PTypeA (PRef (Some (fst i)) r [])) []) }.
(** [names_class tr md r]: [r] in module [md] is a class, or (through type assignments without parameters) another name of one. *)
Inductive names_class (tr : ptree) : string -> string -> Prop :=
| nc_class md r a fs : target_of (forget_imports tr) md None r = Found md a -> p_spec a = PClassA fs -> names_class tr md r
| nc_alias md r a q r' : target_of (forget_imports tr) md None r = Found md a -> p_spec a = PTypeA (PRef q r' []) -> names_class tr (match q with Some x => x | None => md end) r' -> names_class tr md r.
(** [names_object tr md r]: [r] is a value of such a class, that is, an object. *)
Definition names_object (tr : ptree) (md r : string) : Prop := exists a q r' ps v, target_of (forget_imports tr) md None r = Found md a /\ p_spec a = PValueA (PRef q r' ps) v /\
  names_class tr (match q with Some x => x | None => md end) r'.
(** A name of another module is only given another time by the import of it, objects are only of classes written without a module. *)
Definition aliases_ok (tr : ptree) : Prop := forall m a, In m tr -> In a (pm_assigns m) ->
  match p_spec a with
  | PTypeA (PRef (Some q) r ps) => q = pm_name m \/ (p_name a = r /\ exists i, In i (pm_imports m) /\ fst i = q /\ In r (snd i))
  | PValueA (PRef (Some q) r ps) v => q = pm_name m
  | _ => True
  end.
(** What a type is or a value is of is not itself a value (in the notation the former begin with upper case letters, the latter
    with lower case ones). *)
Definition governors_ok (tr : ptree) : Prop := forall m a q r ps b u v, In m tr -> In a (pm_assigns m) ->
  (p_spec a = PTypeA (PRef q r ps) \/ exists w, p_spec a = PValueA (PRef q r ps) w) -> forall md, target_of (forget_imports tr) (pm_name m) q r = Found md b -> p_spec b <> PValueA u v.
(** Every class field the type mentions (other than under COMPONENTS OF) is the one field of that name, of a class written
    directly, and has a type. *)
Fixpoint fields_known (tr : ptree) (md : string) (t : ptyp) : Prop :=
  match t with
  | PLeaf _ _ | PRef _ _ _ => True
  | PField m c fs => exists q a fields f x u, target_of (forget_imports tr) md m c = Found q a /\ p_spec a = PClassA fields /\ fs = [f] /\
      find (fun x => String.eqb (f_name x) f) fields = Some x /\ f_type x = Some u
  | PRecord _ cs => fold_right and True (map (fun c => match c with PComp _ t _ _ => fields_known tr md t | PCompOf _ => True end) cs)
  | PListOf _ t => fields_known tr md t
  | PChoice alts => fold_right and True (map (fun a => fields_known tr md (snd a)) alts)
  | PTagged _ t => fields_known tr md t
  end.
