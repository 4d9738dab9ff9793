(** Model of the compiler's first passes over the parsed modules (CompilerMain.cpp 261-276, in this order):
    /repo/src/compiler/Parameters.cpp (resolve_parameters), ReorderAssignments.cpp 356-558 (split_imports,
    split_definitions, which returns its argument, and split_nested_structures) and ObjectClass.cpp
    (resolve_object_classes).  The trees here keep more than those of CompilerTree.v (parameters, class fields, tags),
    whose passes run between and after these.  Names are strings; hash maps and sets are lists. *)
From Coq Require Export String.
From Verif Require Export Base CompilerNames CompilerTree.
Local Open Scope string_scope.
Local Open Scope list_scope.

(** * The tree *)
(** CompilerTypes.hpp 378-391, 473-492.  [PLeaf e k]: a builtin type without components, [e] telling ENUMERATED, [k] all
    else there is to know about it; [PRef m r ps]: DefinedType with its actual parameters; [PField m c fs]:
    ObjectClassFieldType (of the class m.c).  The storage modes, which are set by a later pass, are left out. *)
Inductive ptyp : Type :=
| PLeaf (enumerated : bool) (k : Z)
| PRef (m : option string) (r : string) (ps : list ptyp)
| PRecord (set : bool) (cs : list pcomp)
| PListOf (set : bool) (t : ptyp)
| PChoice (alts : list (string * ptyp))
| PTagged (tag : Z) (t : ptyp)
| PField (m : option string) (c : string) (fs : list string)
(** ComponentType: [default] stands for the default value; [PCompOf]: components_of is set (and named_type is left
    default constructed by the parser, so that passes looking at named_type.type see no component). *)
with pcomp : Type :=
| PComp (name : string) (t : ptyp) (optional : bool) (default : option Z)
| PCompOf (t : ptyp).
(** ClassField (CompilerTypes.hpp): [Some t] a FixedTypeValueField, [None] a TypeField. *)
Record class_field : Type := CField { f_name : string; f_type : option ptyp }.
(** TypeAssignment, ValueAssignment, ObjectClassAssignment, ObjectSetAssignment. *)
Inductive pspec : Type := PTypeA (t : ptyp) | PValueA (t : ptyp) (v : Z) | PClassA (fs : list class_field) | PSetA.
(** Assignment; of a Parameter the governor and the name ([p_params]). *)
Record passign : Type := PAssign { p_name : string; p_spec : pspec; p_params : list (option ptyp * string) }.
(** Module; an Import: the module's name and the imported types. *)
Record pmodule : Type := PModule { pm_name : string; pm_imports : list (string * list string); pm_assigns : list passign }.
Definition ptree : Type := list pmodule.

(** ResolveType.cpp 112-157 resolve(tree, current module, defined). *)
Fixpoint pfind (l : list passign) (r : string) : option passign :=
  match l with [] => None | a :: l => if String.eqb (p_name a) r then Some a else pfind l r end.
Fixpoint pfind_module (tr : ptree) (m : string) : option pmodule :=
  match tr with [] => None | x :: tr => if String.eqb (pm_name x) m then Some x else pfind_module tr m end.
Definition plookup (tr : ptree) (current : string) (m : option string) (r : string) : out passign :=
  match pfind_module tr (ref_module current m) with
  | None => Throw
  | Some md => match pfind (pm_assigns md) r with Some a => Done a | None => Throw end
  end.

(** * Parameters.cpp *)
(** unordered_map: of two entries with one name the later one is kept (182-186). *)
Definition pm_find (params : list (string * ptyp)) (r : string) : option ptyp :=
  match find (fun p => String.eqb (fst p) r) (rev params) with Some p => Some (snd p) | None => None end.
(** A loop over components or alternatives. *)
Definition omap {A B} (f : A -> out B) : list A -> out (list B) :=
  fix go l := match l with [] => Done [] | x :: l => do y <- f x; do ys <- go l; Done (y :: ys) end.
(** Parameters.cpp 4-96 resolve_parameterized. *)
Fixpoint resolve_parameterized (params : list (string * ptyp)) (t : ptyp) : out ptyp :=
  match t with
  | PRef m r ps =>
      match ps, m with
      | _ :: _, _ => Throw
      | [], None => match pm_find params r with Some u => Done u | None => Done t end
      | [], Some _ => Done t
      end
  | PRecord set cs =>
      do cs' <- omap (fun c => match c with
                               | PComp n t o d => do t' <- resolve_parameterized params t; Done (PComp n t' o d)
                               | PCompOf t => Done (PCompOf t)
                               end) cs;
      Done (PRecord set cs')
  | PListOf set t => do t' <- resolve_parameterized params t; Done (PListOf set t')
  | PChoice alts => do alts' <- omap (fun a => do t' <- resolve_parameterized params (snd a); Done (fst a, t')) alts; Done (PChoice alts')
  | PTagged tag t => do t' <- resolve_parameterized params t; Done (PTagged tag t')
  | PLeaf _ _ | PField _ _ _ => Done t
  end.
(** Parameters.cpp 98-197 parameterized_to_concrete. *)
Fixpoint parameterized_to_concrete (tr : ptree) (md : string) (t : ptyp) : out ptyp :=
  match t with
  | PRef m r ps =>
      match ps with
      | [] => Done t
      | _ :: _ =>
          do a <- plookup tr md m r;
          if Nat.eqb (length (p_params a)) (length ps)
          then match p_spec a with
               | PTypeA body => resolve_parameterized (combine (map snd (p_params a)) ps) body
               | _ => Throw
               end
          else Throw
      end
  | PRecord set cs =>
      do cs' <- omap (fun c => match c with
                               | PComp n t o d => do t' <- parameterized_to_concrete tr md t; Done (PComp n t' o d)
                               | PCompOf t => Done (PCompOf t)
                               end) cs;
      Done (PRecord set cs')
  | PListOf set t => do t' <- parameterized_to_concrete tr md t; Done (PListOf set t')
  | PChoice alts => do alts' <- omap (fun a => do t' <- parameterized_to_concrete tr md (snd a); Done (fst a, t')) alts; Done (PChoice alts')
  | PTagged tag t => do t' <- parameterized_to_concrete tr md t; Done (PTagged tag t')
  | PLeaf _ _ | PField _ _ _ => Done t
  end.
Definition is_template (a : passign) : bool := match p_params a with [] => false | _ => true end.
(** Parameters.cpp 210-223: the loop over the assignments of a module.  The loop changes the tree in place; this model reads
    every template from the tree as it was before, which is the same, since only assignments without parameters change and
    a reference with parameters to one of those throws. *)
Definition concrete_assign (tr : ptree) (md : string) (a : passign) : out passign :=
  match p_spec a with
  | PTypeA t => if is_template a then Done a
                else do t' <- parameterized_to_concrete tr md t; Done (PAssign (p_name a) (PTypeA t') (p_params a))
  | _ => Done a
  end.
(** Parameters.cpp 199-226 remove_parameter_templates and resolve_parameters. *)
Definition resolve_parameters (tr : ptree) : out ptree :=
  do tr' <- omap (fun m => do l <- omap (concrete_assign tr (pm_name m)) (pm_assigns m); Done (PModule (pm_name m) (pm_imports m) l)) tr;
  Done (map (fun m => PModule (pm_name m) (pm_imports m) (filter (fun a => negb (is_template a)) (pm_assigns m))) tr').

(** * Imports *)
(** ReorderAssignments.cpp 480-503 split_imports, for one module. *)
Definition split_imports (l : list passign) (imports : list (string * list string)) : list passign :=
  l ++ flat_map (fun i => map (fun n => PAssign n (PTypeA (PRef (Some (fst i)) n [])) []) (snd i)) imports.
(** CompilerMain.cpp 264-266, the part of the loop over the modules that calls it. *)
Definition import_all (tr : ptree) : ptree :=
  map (fun m => PModule (pm_name m) (pm_imports m) (split_imports (pm_assigns m) (pm_imports m))) tr.

(** * Nested structures *)
(** ReorderAssignments.cpp 380-400 and its two copies: what is taken out of a list or a tag, and the name's beginning. *)
Definition unnamed_prefix (t : ptyp) : option string :=
  match t with
  | PRecord true _ => Some "UnnamedSet"
  | PRecord false _ => Some "UnnamedSequence"
  | PLeaf true _ => Some "UnnamedEnum"
  | PChoice _ => Some "UnnamedChoice"
  | _ => None
  end%string.
(** The counter unnamed_definition_num (an int; here an integer) and nested_structs. *)
Definition nstate : Type := Z * list (string * ptyp).
Definition hoist (md : string) (t : ptyp) (s : nstate) : ptyp * nstate :=
  match unnamed_prefix t with
  | Some p => let name := (p ++ to_string (fst s))%string in (PRef (Some md) name [], (fst s + 1, snd s ++ [(name, t)]))
  | None => (t, s)
  end.
(** A loop over components or alternatives that changes them and a state. *)
Definition smap {A} (f : A -> nstate -> A * nstate) : list A -> nstate -> list A * nstate :=
  fix go l s := match l with [] => ([], s) | x :: l => let '(x', s) := f x s in let '(l', s) := go l s in (x' :: l', s) end.
(** ReorderAssignments.cpp 358-478 find_nested_structs. *)
Fixpoint find_nested (md : string) (t : ptyp) (s : nstate) : ptyp * nstate :=
  match t with
  | PRecord set cs =>
      let '(cs', s) := smap (fun c s => match c with
                                        | PComp n t o d => let '(t', s) := find_nested md t s in (PComp n t' o d, s)
                                        | PCompOf t => (PCompOf t, s)
                                        end) cs s in
      (PRecord set cs', s)
  | PListOf set t => let '(t', s) := find_nested md t s in let '(t'', s) := hoist md t' s in (PListOf set t'', s)
  | PChoice alts => let '(alts', s) := smap (fun a s => let '(t', s) := find_nested md (snd a) s in ((fst a, t'), s)) alts s in (PChoice alts', s)
  | PTagged tag t => let '(t', s) := find_nested md t s in let '(t'', s) := hoist md t' s in (PTagged tag t'', s)
  | PLeaf _ _ | PRef _ _ _ | PField _ _ _ => (t, s)
  end.
(** ReorderAssignments.cpp 535-558 split_nested_structures, with the counter before and after. *)
Fixpoint split_nested (md : string) (l : list passign) (n : Z) : list passign * Z :=
  match l with
  | [] => ([], n)
  | a :: l =>
      let '(front, a', n) :=
        match p_spec a with
        | PTypeA t => let '(t', (n, nested)) := find_nested md t (n, []) in
                      (map (fun p => PAssign (fst p) (PTypeA (snd p)) []) (rev nested), PAssign (p_name a) (PTypeA t') (p_params a), n)
        | _ => ([], a, n)
        end in
      let '(l', n) := split_nested md l n in (front ++ a' :: l', n)
  end.
(** The loop over the modules. *)
Fixpoint nest_all (tr : ptree) (n : Z) : ptree * Z :=
  match tr with
  | [] => ([], n)
  | m :: tr => let '(l, n) := split_nested (pm_name m) (pm_assigns m) n in
               let '(tr', n) := nest_all tr n in (PModule (pm_name m) (pm_imports m) l :: tr', n)
  end.

(** * ObjectClass.cpp *)
(** std::set<std::string>: a list without repetitions; the names "module.name". *)
Definition qualified (m r : string) : string := (m ++ "." ++ r)%string.
Definition mem (x : string) (s : list string) : bool := existsb (String.eqb x) s.
Definition add (x : string) (s : list string) : list string := if mem x s then s else x :: s.
(** A loop that changes a state. *)
Definition ofold {A S} (f : S -> A -> out S) : list A -> S -> out S :=
  fix go l s := match l with [] => Done s | x :: l => do s' <- f s x; go l s' end.
Definition is_class (a : passign) : bool := match p_spec a with PClassA _ => true | _ => false end.
(** ObjectClass.cpp 208-252: one assignment.  is_a_parameter: CompilerTypes.cpp. *)
Definition scan_assign (tr : ptree) (md : string) (s : list string) (a : passign) : out (list string) :=
  match p_spec a with
  | PTypeA (PRef m r _) | PValueA (PRef m r _) _ =>
      if existsb (fun p => String.eqb (snd p) r) (p_params a) then Done s
      else do b <- plookup tr md m r;
           Done (if is_class b || mem (qualified md r) s then add (qualified md (p_name a)) s else s)
  | PClassA _ => Done (add (qualified md (p_name a)) s)
  | _ => Done s
  end.
(** ObjectClass.cpp 255-267. *)
Definition scan_imports (tr : ptree) (s : list string) : list string :=
  fold_left (fun s m => fold_left (fun s i => fold_left (fun s x => if mem (qualified (fst i) x) s then add (qualified (pm_name m) x) s else s) (snd i) s) (pm_imports m) s) tr s.
(** ObjectClass.cpp 203-268: one round of the loop. *)
Definition scan (tr : ptree) (s : list string) : out (list string) :=
  do s <- ofold (fun s m => ofold (scan_assign tr (pm_name m)) (pm_assigns m) s) tr s; Done (scan_imports tr s).
(** The loop; [Loop]: not ended after [fuel] rounds. *)
Fixpoint scan_loop (fuel : nat) (tr : ptree) (s : list string) : out (list string) :=
  match fuel with
  | O => Loop
  | S fuel => do s' <- scan tr s; if Nat.ltb (length s) (length s') then scan_loop fuel tr s' else Done s'
  end.
(** ObjectClass.cpp 199-270 get_object_class_names.  The number of rounds is bounded by the number of names. *)
Definition class_rounds (tr : ptree) : nat :=
  S (length (flat_map (fun m => map p_name (pm_assigns m) ++ flat_map snd (pm_imports m)) tr)).
Definition object_class_names (tr : ptree) : out (list string) := scan_loop (class_rounds tr) tr [].
(** ObjectClass.cpp 69-98 create_concrete_type. *)
Definition create_concrete_type (tr : ptree) (md : string) (m : option string) (c : string) (fs : list string) : out ptyp :=
  do a <- plookup tr md m c;
  match p_spec a, fs with
  | PClassA fields, [f] =>
      match find (fun x => String.eqb (f_name x) f) fields with
      | Some x => match f_type x with Some t => Done t | None => Throw end
      | None => Throw
      end
  | _, _ => Throw
  end.
(** ObjectClass.cpp 6-67, 100-121 object_class_to_concrete. *)
Fixpoint object_class_to_concrete (tr : ptree) (md : string) (t : ptyp) : out ptyp :=
  match t with
  | PField m c fs => create_concrete_type tr md m c fs
  | PRecord set cs =>
      do cs' <- omap (fun c => match c with
                               | PComp n t o d => do t' <- object_class_to_concrete tr md t; Done (PComp n t' o d)
                               | PCompOf t => Done (PCompOf t)
                               end) cs;
      Done (PRecord set cs')
  | PListOf set t => do t' <- object_class_to_concrete tr md t; Done (PListOf set t')
  | PChoice alts => do alts' <- omap (fun a => do t' <- object_class_to_concrete tr md (snd a); Done (fst a, t')) alts; Done (PChoice alts')
  | PTagged tag t => do t' <- object_class_to_concrete tr md t; Done (PTagged tag t')
  | PLeaf _ _ | PRef _ _ _ => Done t
  end.
Definition class_free_assign (tr : ptree) (md : string) (a : passign) : out passign :=
  match p_spec a with
  | PTypeA t => do t' <- object_class_to_concrete tr md t; Done (PAssign (p_name a) (PTypeA t') (p_params a))
  | _ => Done a
  end.
(** ObjectClass.cpp 129-142 is_defined_object_class. *)
Definition defined_class (md : string) (names : list string) (t : ptyp) : bool :=
  match t with PRef m r _ => mem (qualified (ref_module md m) r) names | _ => false end.
(** ObjectClass.cpp 150-180: is the assignment removed? *)
Definition removed (md : string) (names : list string) (a : passign) : bool :=
  match p_spec a with
  | PClassA _ => true
  | PTypeA (PRef m r ps) | PValueA (PRef m r ps) _ => defined_class md names (PRef m r ps)
  | _ => existsb (fun p => match fst p with Some g => defined_class md names g | None => false end) (p_params a)
  end.
(** ObjectClass.cpp 144-196 remove_object_classes. *)
Definition remove_object_classes (tr : ptree) (names : list string) : ptree :=
  map (fun m => PModule (pm_name m)
                  (map (fun i => (fst i, filter (fun x => negb (mem (qualified (fst i) x) names)) (snd i))) (pm_imports m))
                  (filter (fun a => negb (removed (pm_name m) names a)) (pm_assigns m))) tr.
(** ObjectClass.cpp 272-289 resolve_object_classes.  The loop changes types in place, while it reads only classes, which stay
    as they are. *)
Definition resolve_object_classes (tr : ptree) : out ptree :=
  do names <- object_class_names tr;
  do tr' <- omap (fun m => do l <- omap (class_free_assign tr (pm_name m)) (pm_assigns m); Done (PModule (pm_name m) (pm_imports m) l)) tr;
  Done (remove_object_classes tr' names).
