(** Model of the compiler passes that resolve references and order definitions:
    /repo/src/compiler/Dependencies.cpp, /repo/src/compiler/ResolveType.cpp 75-237 and
    /repo/src/compiler/ReorderAssignments.cpp (check_duplicated_names, resolve_components_of, resolve_dependencies,
    reorder_assignments, resolve_module_dependencies, reorder_modules).
    Names are strings; hash sets and maps are lists. *)
From Coq Require Export String.
From Verif Require Export Base.
Local Open Scope list_scope.

(** Outcome of a pass: a result; an exception (std::runtime_error, bad variant access); undefined behaviour; or the fuel
    given to the model ran out.  A pass that is [Loop] for every amount of fuel does not terminate. *)
Inductive out (A : Type) : Type := Done (a : A) | Throw | Undef | Loop.
Arguments Done {A} a. Arguments Throw {A}. Arguments Undef {A}. Arguments Loop {A}.
Definition obind {A B} (m : out A) (k : A -> out B) : out B :=
  match m with Done a => k a | Throw => Throw | Undef => Undef | Loop => Loop end.
Notation "'do' x '<-' m ';' k" := (obind m (fun x => k))
  (at level 200, x pattern, m at level 100, k at level 200, right associativity).
(** A loop over a list that updates a state. *)
Fixpoint foldm {A S} (f : A -> S -> out S) (l : list A) (s : S) : out S :=
  match l with [] => Done s | x :: l => do s' <- f x s; foldm f l s' end.

(** * The tree *)
(** CompilerTypes.hpp StorageMode. *)
Inductive storage : Type := Static | Dynamic.
(** CompilerTypes.hpp 378-391, 473-492.  [Builtin e]: a builtin type other than those below, [e] telling ENUMERATED
    (constraints, named numbers and enumeration items are left out); [Ref m r]: DefinedType (without
    parameters); [Record set]: SEQUENCE or SET; [ListOf set]: SEQUENCE OF or SET OF; [Tagged]: PrefixedType (tag left
    out).  A component is a named one, with OPTIONAL, DEFAULT ([Some (Some v)]: a defined value [v]; [Some None]: any
    other value) and the storage of an optional; or COMPONENTS OF. *)
Inductive typ : Type :=
| Builtin (enumerated : bool)
| Ref (m : option string) (r : string)
| Record (set : bool) (cs : list comp)
| ListOf (set : bool) (st : storage) (t : typ)
| Choice (st : storage) (alts : list (string * typ))
| Tagged (t : typ)
with comp : Type :=
| Comp (name : string) (t : typ) (optional : bool) (default : option (option string)) (st : storage)
| CompOf (t : typ).
(** CompilerTypes.hpp 500-547, 564-600: type, value and other (object class and object set) assignments.  Of a value only
    the name it refers to, if any, is kept. *)
Inductive specific : Type := TypeA (t : typ) | ValueA (t : typ) (v : option string) | OtherA.
Record assignment : Type := Assign { a_name : string; a_spec : specific }.
Record module : Type := Module { m_name : string; m_imports : list string; m_assigns : list assignment }.
Definition tree : Type := list module.

(** * Resolving references *)
(** ResolveType.cpp 112-123 resolve(tree, module, reference): the first assignment of that name. *)
Fixpoint find_assign (l : list assignment) (r : string) : out assignment :=
  match l with [] => Throw | a :: l => if String.eqb (a_name a) r then Done a else find_assign l r end.
(** ResolveType.cpp 137-152 resolve_module: the first module of that name. *)
Fixpoint find_module (tr : tree) (m : string) : out module :=
  match tr with [] => Throw | x :: tr => if String.eqb (m_name x) m then Done x else find_module tr m end.
(** The module a reference is looked up in (ResolveType.cpp 140-141). *)
Definition ref_module (current : string) (m : option string) : string := match m with Some m => m | None => current end.
(** ResolveType.cpp 154-157 resolve(tree, current, defined). *)
Definition lookup (tr : tree) (current : string) (m : option string) (r : string) : out assignment :=
  do md <- find_module tr (ref_module current m); find_assign (m_assigns md) r.

(** ResolveType.cpp 159-201 resolve_type_and_module(tree, current_module_reference, original_defined), giving the type
    (with the tag kept if there is one, 183-189) and the name of its module.  The assertion at 166 on the first letter
    of the name is left out.  [fuel] bounds the number of assignments visited. *)
Fixpoint resolve_ref (fuel : nat) (tr : tree) (current md : string) (m : option string) (r : string) : out (typ * string) :=
  match fuel with
  | O => Loop
  | S fuel =>
      do working <- find_module tr (ref_module md m);
      do a <- find_assign (m_assigns working) r;
      match a_spec a with
      | TypeA (Ref m' r') => resolve_ref fuel tr current (match m with Some x => x | None => md end) m' r'
      | TypeA (Tagged (Ref m' r')) =>
          do (t, x) <- resolve_ref fuel tr current current m' r'; Done (Tagged t, x)
      | TypeA t => Done (t, m_name working)
      | _ => Throw
      end
  end.
(** ResolveType.cpp 203-219 resolve_type_and_module(tree, current, named type): tags in front are skipped. *)
Fixpoint resolve_type (fuel : nat) (tr : tree) (current : string) (t : typ) : out (typ * string) :=
  match t with
  | Ref m r => resolve_ref fuel tr current current m r
  | Tagged t => resolve_type fuel tr current t
  | t => do md <- find_module tr current; Done (t, m_name md)
  end.
(** is_enumerated(resolve_type(...).type) (ReorderAssignments.cpp 240, 281). *)
Definition is_enumerated (fuel : nat) (tr : tree) (current : string) (t : typ) : out bool :=
  do (t', _) <- resolve_type fuel tr current t; Done (match t' with Builtin true => true | _ => false end).

(** * Dependencies (Dependencies.cpp) *)
(** CompilerTypes.hpp 548-562. *)
Record dependency : Type := Dep { d_name : string; d_module : option string }.
Definition dep_eqb (a b : dependency) : bool :=
  String.eqb (d_name a) (d_name b) &&
  match d_module a, d_module b with Some x, Some y => String.eqb x y | None, None => true | _, _ => false end.
(** Dependencies.cpp 3-95 depends_on.  The default value of a component counts in a SEQUENCE (42-48) but not in a
    SET (64-73). *)
Fixpoint depends_on (t : typ) : list dependency :=
  match t with
  | Builtin _ => []
  | Ref m r => [Dep r m]
  | Record set cs => flat_map (comp_depends_on set) cs
  | ListOf _ _ t => depends_on t
  | Choice _ alts => flat_map (fun a => depends_on (snd a)) alts
  | Tagged t => depends_on t
  end
with comp_depends_on (set : bool) (c : comp) : list dependency :=
  match c with
  | Comp _ t _ default _ =>
      depends_on t ++
      match set, default, t with
      | true, _, _ => []
      | false, Some (Some v), Builtin true => []
      | false, Some (Some v), _ => [Dep v None]
      | false, _, _ => []
      end
  | CompOf _ => []
  end.
(** Dependencies.cpp 109-131. *)
Definition dependencies (a : assignment) : list dependency :=
  match a_spec a with
  | TypeA t => depends_on t
  | ValueA t v => depends_on t ++ match v with Some r => [Dep r None] | None => [] end
  | OtherA => []
  end.
(** !dependency.module_reference || dependency.module_reference == module (Dependencies.cpp 148). *)
Definition local (md : string) (d : dependency) : bool :=
  match d_module d with None => true | Some m => String.eqb m md end.
(** Dependencies.cpp 135-157 get_dependencies_recursive; [deps] is the depends_on field of the assignment map. *)
Fixpoint dependencies_recursive (fuel : nat) (md : string) (deps : string -> out (list dependency)) (name : string)
    (acc : list dependency) : out (list dependency) :=
  match fuel with
  | O => Loop
  | S fuel =>
      do ds <- deps name;
      foldm (fun d acc =>
        if local md d then
          if existsb (dep_eqb d) acc then Done acc
          else dependencies_recursive fuel md deps (d_name d) (d :: acc)
        else Done acc) ds acc
  end.

(** * Ordering assignments (ReorderAssignments.cpp) *)
(** ReorderAssignments.cpp 28-40. *)
Fixpoint duplicated (seen : list string) (l : list assignment) : bool :=
  match l with
  | [] => false
  | a :: l => existsb (String.eqb (a_name a)) seen || duplicated (a_name a :: seen) l
  end.
Definition check_duplicated_names (l : list assignment) : out unit := if duplicated [] l then Throw else Done tt.

(** The state of resolve_dependencies: assigned_names, visited_names, ordered_assignment_infos (last first), and the names
    whose depends_on has been cleared (182).  The other change to the map, storage modes, is made on the assignment
    that is pushed; nothing reads it from the map again. *)
Record dstate : Type := DState { assigned : list string; visited : list string; ordered : list assignment; cleared : list string }.
Definition mem (x : string) (l : list string) : bool := existsb (String.eqb x) l.
(** assignment_map (332-337): of assignments with the same name the last one. *)
Definition map_find (l : list assignment) (name : string) : out assignment := find_assign (rev l) name.
Definition map_deps (l : list assignment) (st : dstate) (name : string) : out (list dependency) :=
  do a <- map_find l name; Done (if mem name (cleared st) then [] else dependencies a).
(** The lambda is_circular (156-166). *)
Definition is_circular (fuel : nat) (md : string) (l : list assignment) (st : dstate) (name : string) (ds : list dependency) : out bool :=
  do all <- foldm (fun d acc => dependencies_recursive fuel md (map_deps l st) (d_name d) acc) ds [];
  Done (existsb (fun d => String.eqb (d_name d) name) all).
(** 184-211: a choice with circular dependencies and its lists become dynamic, a list itself too. *)
Definition dynamic_child (t : typ) : typ :=
  match t with
  | ListOf s _ t => ListOf s Dynamic t
  | Tagged (ListOf s _ t) => Tagged (ListOf s Dynamic t)
  | t => t
  end.
Definition make_dynamic (t : typ) : typ :=
  match t with
  | Choice _ alts => Choice Dynamic (map (fun a => (fst a, dynamic_child (snd a))) alts)
  | ListOf s _ t => ListOf s Dynamic t
  | t => t
  end.

(** resolve_dependencies for each of a list of names. *)
Definition resolve_names (rd : string -> dstate -> out dstate) (ds : list dependency) (st : dstate) : out dstate :=
  foldm (fun d st => rd (d_name d) st) ds st.
(** 228-265 and 269-306, the loop over the components of a SEQUENCE or SET (the two copies are equal). *)
Fixpoint resolve_comps (fuel : nat) (tr : tree) (md : string) (l : list assignment) (rd : string -> dstate -> out dstate)
    (name : string) (cs : list comp) (st : dstate) : out (list comp * dstate) :=
  match cs with
  | [] => Done ([], st)
  | c :: cs =>
      do (c, st) <-
        match c with
        | Comp n t optional (Some dflt) sto =>
            do st <- resolve_names rd (depends_on t) st;
            do st <- match dflt with
                     | Some v => do e <- is_enumerated fuel tr md t; if e : bool then Done st else rd v st
                     | None => Done st
                     end;
            Done (c, st)
        | Comp n t optional None sto =>
            do circ <- (if optional then is_circular fuel md l st name (depends_on t) else Done false);
            if circ : bool then Done (Comp n t optional None Dynamic, st)
            else do st <- resolve_names rd (depends_on t) st; Done (c, st)
        | CompOf t => Done (c, st)
        end;
      do (cs, st) <- resolve_comps fuel tr md l rd name cs st;
      Done (c :: cs, st)
  end.
(** ReorderAssignments.cpp 132-321 resolve_dependencies. *)
Fixpoint resolve_dependencies (fuel : nat) (tr : tree) (md : string) (l : list assignment) (name : string) (st : dstate) : out dstate :=
  match fuel with
  | O => Loop
  | S fuel' =>
      do a <- map_find l name;
      if mem name (assigned st) then Done st
      else if mem name (visited st) then Throw
      else
        let rd := resolve_dependencies fuel' tr md l in
        let st := DState (assigned st) (name :: visited st) (ordered st) (cleared st) in
        do (a, st) <-
          match a_spec a with
          | TypeA ((Choice _ _ | ListOf _ _ _) as t) =>
              do circ <- is_circular fuel md l st name [Dep name (Some md)];
              if circ : bool then
                Done (Assign (a_name a) (TypeA (make_dynamic t)), DState (assigned st) (visited st) (ordered st) (name :: cleared st))
              else do st <- resolve_names rd (filter (local md) (dependencies a)) st; Done (a, st)
          | TypeA (Record set cs) =>
              do (cs, st) <- resolve_comps fuel tr md l rd name cs st;
              Done (Assign (a_name a) (TypeA (Record set cs)), st)
          | _ => do st <- resolve_names rd (filter (local md) (dependencies a)) st; Done (a, st)
          end;
        Done (DState (name :: assigned st) (visited st) (a :: ordered st) (cleared st))
  end.
(** ReorderAssignments.cpp 325-354 reorder_assignments. *)
Definition reorder_assignments (fuel : nat) (tr : tree) (md : string) (l : list assignment) : out (list assignment) :=
  do st <- foldm (fun a st => resolve_dependencies fuel tr md l (a_name a) st) l (DState [] [] [] []);
  if Nat.eqb (List.length (ordered st)) (List.length l) then Done (rev (ordered st)) else Throw.

(** * Ordering modules *)
(** ReorderAssignments.cpp 560-622.  State: assigned_names, visited_names, ordered_modules (last first).  A module that is
    not defined is dereferenced (565) before the check (567); in practice the exception is what happens. *)
Record mstate : Type := MState { m_assigned : list string; m_visited : list string; m_ordered : list module }.
Definition module_map (l : list module) (name : string) : out module := find_module (rev l) name.
Fixpoint resolve_modules (fuel : nat) (l : list module) (name : string) (st : mstate) : out mstate :=
  match fuel with
  | O => Loop
  | S fuel =>
      do m <- module_map l name;
      if mem name (m_assigned st) then Done st
      else if mem name (m_visited st) then Done (MState (name :: m_assigned st) (m_visited st) (m :: m_ordered st))
      else
        let st := MState (m_assigned st) (name :: m_visited st) (m_ordered st) in
        do st <- foldm (resolve_modules fuel l) (m_imports m) st;
        Done (MState (name :: m_assigned st) (m_visited st) (m :: m_ordered st))
  end.
Definition reorder_modules (fuel : nat) (l : list module) : out (list module) :=
  do st <- foldm (fun m st => resolve_modules fuel l (m_name m) st) l (MState [] [] []);
  if Nat.eqb (List.length (m_ordered st)) (List.length l) then Done (rev (m_ordered st)) else Throw.

(** * COMPONENTS OF *)
Definition is_comp_of (c : comp) : bool := match c with CompOf _ => true | _ => false end.
(** ReorderAssignments.cpp 54-124: what one component of the SEQUENCE [name] in module [md] is replaced by before the
    COMPONENTS OF items are erased (119-122).  A reference is followed one step (62).  A SEQUENCE that includes itself is
    inserted into itself, and after inserting the components of a type written in place the size of that type is
    read through a dangling reference (97, 111): both undefined. *)
Definition included (tr : tree) (md name : string) (c : comp) : out (list comp) :=
  match c with
  | Comp _ _ _ _ _ => Done []
  | CompOf (Ref m r) =>
      do working <- find_module tr (ref_module md m);
      do a <- find_assign (m_assigns working) r;
      match a_spec a with
      | TypeA (Record _ cs) => if String.eqb (m_name working) md && String.eqb r name then Undef else Done cs
      | TypeA _ => Done []
      | _ => Throw
      end
  | CompOf (Record _ _) => Undef
  | CompOf _ => Throw
  end.
Fixpoint expand_comps (tr : tree) (md name : string) (cs : list comp) : out (list comp) :=
  match cs with
  | [] => Done []
  | c :: cs =>
      do l <- included tr md name c;
      do r <- expand_comps tr md name cs;
      Done (filter (fun c => negb (is_comp_of c)) (l ++ [c]) ++ r)
  end.
Definition expand_assign (tr : tree) (md : string) (a : assignment) : out assignment :=
  match a_spec a with
  | TypeA (Record false cs) => do cs <- expand_comps tr md (a_name a) cs; Done (Assign (a_name a) (TypeA (Record false cs)))
  | _ => Done a
  end.
(** The loops over modules and assignments (44-48).  [before]: modules already done (last first); [done_]: assignments of the
    current module already done (last first).  The tree a reference is resolved in has those expanded. *)
Definition current_tree (before : list module) (m : module) (done_ todo : list assignment) (after : list module) : tree :=
  rev before ++ Module (m_name m) (m_imports m) (rev done_ ++ todo) :: after.
Fixpoint expand_module (before : list module) (m : module) (done_ todo : list assignment) (after : list module) : out (list assignment) :=
  match todo with
  | [] => Done (rev done_)
  | a :: todo' =>
      do a' <- expand_assign (current_tree before m done_ todo after) (m_name m) a;
      expand_module before m (a' :: done_) todo' after
  end.
Fixpoint expand_tree (before after : list module) : out tree :=
  match after with
  | [] => Done (rev before)
  | m :: after =>
      do asg <- expand_module before m [] (m_assigns m) after;
      expand_tree (Module (m_name m) (m_imports m) asg :: before) after
  end.
(** ReorderAssignments.cpp 42-130 resolve_components_of. *)
Definition resolve_components_of (tr : tree) : out tree := expand_tree [] tr.
