(** The compiler between parsing and writing: CompilerMain.cpp 261-276, all passes in their order, over the tree that the parser builds
    (ParserTree.v).  The passes themselves are those of CompilerPasses.v and CompilerTree.v, here with nothing of the tree left out but
    the storage modes that reorder_assignments sets (CompilerTree.v has them; they decide where objects are kept, not what they are). *)
From Coq Require Import List String ZArith Bool.
From Verif Require Import Base CompilerNames CompilerTree CompilerPasses Ident View Prims Schema ParserTree ParserFile Compiler Elab.
Import ListNotations.
Local Open Scope string_scope.
Local Open Scope list_scope.

Definition olift {A} (o : option A) : out A := match o with Some x => Done x | None => Throw end.
(** ResolveType.cpp 112-157 resolve: the first of that name; an exception if there is none. *)
Definition resolve (tr : list module) (current : string) (d : defined) : out assignment :=
  match d with Defined m r _ => do md <- olift (module_named tr (ref_module current m)); olift (assign_named (m_assigns md) r) end.

(** * Parameters.cpp *)
(** 182-186: of two parameters with one name the later one is kept. *)
Definition param_find (ps : list (string * type)) (r : string) : option type := option_map snd (find (fun p => String.eqb (fst p) r) (rev ps)).
(** 4-96 resolve_parameterized.  Of a component with COMPONENTS OF the type is the one it was constructed with. *)
Fixpoint instantiate (ps : list (string * type)) (t : type) : out type :=
  match t with
  | TRef (Defined m r args) =>
      match args, m with
      | _ :: _, _ => Throw
      | [], None => match param_find ps r with Some u => Done u | None => Done t end
      | [], Some _ => Done t
      end
  | TRecord set cs ext =>
      do cs' <- omap (fun c => match c with Comp n u o d co => do u' <- instantiate ps u; Done (Comp n u' o d co) end) cs; Done (TRecord set cs' ext)
  | TListOf set n u => do u' <- instantiate ps u; Done (TListOf set n u')
  | ParserTree.TChoice alts => do alts' <- omap (fun a => do u' <- instantiate ps (snd a); Done (fst a, u')) alts; Done (ParserTree.TChoice alts')
  | TTagged g kw u => do u' <- instantiate ps u; Done (TTagged g kw u')
  | TSimple _ | TInteger _ | TEnumerated _ _ | TField _ _ => Done t
  end.
(** 98-197 parameterized_to_concrete. *)
Fixpoint to_concrete (tr : list module) (md : string) (t : type) : out type :=
  match t with
  | TRef (Defined m r args) =>
      match args with
      | [] => Done t
      | _ :: _ =>
          do a <- resolve tr md (Defined m r args);
          if Nat.eqb (length (a_parameters a)) (length args)
          then match a_specific a with
               | AType body => instantiate (combine (map p_reference (a_parameters a)) args) body
               | _ => Throw
               end
          else Throw
      end
  | TRecord set cs ext =>
      do cs' <- omap (fun c => match c with Comp n u o d co => do u' <- to_concrete tr md u; Done (Comp n u' o d co) end) cs; Done (TRecord set cs' ext)
  | TListOf set n u => do u' <- to_concrete tr md u; Done (TListOf set n u')
  | ParserTree.TChoice alts => do alts' <- omap (fun a => do u' <- to_concrete tr md (snd a); Done (fst a, u')) alts; Done (ParserTree.TChoice alts')
  | TTagged g kw u => do u' <- to_concrete tr md u; Done (TTagged g kw u')
  | TSimple _ | TInteger _ | TEnumerated _ _ | TField _ _ => Done t
  end.
Definition is_template (a : assignment) : bool := match a_parameters a with [] => false | _ => true end.
(** 210-223.  Templates are read from the tree as it was before (see concrete_assign in CompilerPasses.v). *)
Definition concrete (tr : list module) (md : string) (a : assignment) : out assignment :=
  match a_specific a with
  | AType t => if is_template a then Done a else do t' <- to_concrete tr md t; Done (Assign (a_name a) (AType t') (a_parameters a))
  | _ => Done a
  end.
Definition with_assigns (m : module) (l : list assignment) : module := Module (m_name m) (m_tagging m) (m_imports m) l.
(** 199-226 resolve_parameters, remove_parameter_templates. *)
Definition resolve_parameters (tr : list module) : out (list module) :=
  do tr' <- omap (fun m => do l <- omap (concrete tr (m_name m)) (m_assigns m); Done (with_assigns m l)) tr;
  Done (map (fun m => with_assigns m (filter (fun a => negb (is_template a)) (m_assigns m))) tr').

(** * The tree as CompilerTree.v has it *)
Fixpoint outline (t : type) : typ :=
  match t with
  | TSimple _ | TInteger _ | TField _ _ => Builtin false
  | TEnumerated _ _ => Builtin true
  | TRef (Defined m r _) => Ref m r
  | TRecord set cs _ =>
      Record set (map (fun c => match c with
                                | Comp _ _ _ _ (Some u) => CompOf (outline u)
                                | Comp n u o d None => CompilerTree.Comp n (outline u) o (option_map (fun v => match v with VDefined r => Some r | _ => None end) d) Static
                                end) cs)
  | TListOf set _ u => ListOf set Static (outline u)
  | ParserTree.TChoice alts => Choice Static (map (fun a => (fst a, outline (snd a))) alts)
  | TTagged _ _ u => Tagged (outline u)
  end.
Definition outline_assign (a : assignment) : CompilerTree.assignment :=
  CompilerTree.Assign (a_name a)
    match a_specific a with
    | AType t => TypeA (outline t)
    | AValue t v => ValueA (outline t) (match v with VDefined r => Some r | _ => None end)
    | _ => OtherA
    end.
Definition outline_module (m : module) : CompilerTree.module :=
  CompilerTree.Module (m_name m) (map i_module (m_imports m)) (map outline_assign (m_assigns m)).
(** ReorderAssignments.cpp 598-622 reorder_modules: the order is CompilerTree.reorder_modules, and what is put there is found by name in
    a map, of modules with the same name the last one. *)
Definition reorder_modules (fuel : nat) (tr : list module) : out (list module) :=
  do order <- CompilerTree.reorder_modules fuel (map outline_module tr);
  omap (fun m => olift (module_named (rev tr) (CompilerTree.m_name m))) order.

(** * Imports, duplicated names, nested structures *)
(** ReorderAssignments.cpp 380-400 and its two copies. *)
Definition unnamed_prefix (t : type) : option string :=
  match t with
  | TRecord true _ _ => Some "UnnamedSet"
  | TRecord false _ _ => Some "UnnamedSequence"
  | TEnumerated _ _ => Some "UnnamedEnum"
  | ParserTree.TChoice _ => Some "UnnamedChoice"
  | _ => None
  end.
(** unnamed_definition_num and nested_structs. *)
Definition nest_state : Type := Z * list (string * type).
Definition hoist (md : string) (t : type) (s : nest_state) : type * nest_state :=
  match unnamed_prefix t with
  | Some p => let name := (p ++ to_string (fst s))%string in (TRef (Defined (Some md) name []), (fst s + 1, snd s ++ [(name, t)])%Z)
  | None => (t, s)
  end.
Definition nmap {A} (f : A -> nest_state -> A * nest_state) : list A -> nest_state -> list A * nest_state :=
  fix go l s := match l with [] => ([], s) | x :: l => let (x', s) := f x s in let (l', s) := go l s in (x' :: l', s) end.
(** 358-478 find_nested_structs. *)
Fixpoint find_nested (md : string) (t : type) (s : nest_state) : type * nest_state :=
  match t with
  | TRecord set cs ext =>
      let (cs', s) := nmap (fun c s => match c with Comp n u o d co => let (u', s) := find_nested md u s in (Comp n u' o d co, s) end) cs s in (TRecord set cs' ext, s)
  | TListOf set n u => let (u', s) := find_nested md u s in let (u'', s) := hoist md u' s in (TListOf set n u'', s)
  | ParserTree.TChoice alts => let (alts', s) := nmap (fun a s => let (u', s) := find_nested md (snd a) s in ((fst a, u'), s)) alts s in (ParserTree.TChoice alts', s)
  | TTagged g kw u => let (u', s) := find_nested md u s in let (u'', s) := hoist md u' s in (TTagged g kw u'', s)
  | TSimple _ | TInteger _ | TEnumerated _ _ | TField _ _ | TRef _ => (t, s)
  end.
Definition type_assign (p : string * type) : assignment := Assign (fst p) (AType (snd p)) [].
(** 535-558 split_nested_structures. *)
Fixpoint split_nested (md : string) (l : list assignment) (n : Z) : list assignment * Z :=
  match l with
  | [] => ([], n)
  | a :: l =>
      match a_specific a with
      | AType t => let '(t', (n, nested)) := find_nested md t (n, []) in
                   let (l', n) := split_nested md l n in
                   (map type_assign (rev nested) ++ Assign (a_name a) (AType t') (a_parameters a) :: l', n)
      | _ => let (l', n) := split_nested md l n in (a :: l', n)
      end
  end.
(** CompilerMain.cpp 264-270: the loop over the modules.  The counter is an int (ReorderAssignments.cpp 356). *)
Fixpoint split_modules (tr : list module) (n : Z) : out (list module) :=
  match tr with
  | [] => Done []
  | m :: tr =>
      let l := with_imports m in
      do _ <- check_duplicated_names (map outline_assign l);
      let (l', n) := split_nested (m_name m) l n in
      if (2^31 <=? n)%Z then Undef else
      do tr' <- split_modules tr n; Done (with_assigns m l' :: tr')
  end.

(** * COMPONENTS OF: ReorderAssignments.cpp 42-130, as in CompilerTree.v *)
Definition is_comp_of (c : component) : bool := match c with Comp _ _ _ _ (Some _) => true | _ => false end.
Definition included (tr : list module) (md name : string) (c : component) : out (list component) :=
  match c with
  | Comp _ _ _ _ None => Done []
  | Comp _ _ _ _ (Some (TRef (Defined m r _))) =>
      do working <- olift (module_named tr (ref_module md m));
      do a <- olift (assign_named (m_assigns working) r);
      match a_specific a with
      | AType (TRecord _ cs _) => if String.eqb (m_name working) md && String.eqb r name then Undef else Done cs
      | AType _ => Done []
      | _ => Throw
      end
  | Comp _ _ _ _ (Some (TRecord _ _ _)) => Undef
  | Comp _ _ _ _ (Some _) => Throw
  end.
Fixpoint expand_comps (tr : list module) (md name : string) (cs : list component) : out (list component) :=
  match cs with
  | [] => Done []
  | c :: cs =>
      do l <- included tr md name c;
      do r <- expand_comps tr md name cs;
      Done (filter (fun c => negb (is_comp_of c)) (l ++ [c]) ++ r)
  end.
Definition expand_assign (tr : list module) (md : string) (a : assignment) : out assignment :=
  match a_specific a with
  | AType (TRecord false cs ext) => do cs <- expand_comps tr md (a_name a) cs; Done (Assign (a_name a) (AType (TRecord false cs ext)) (a_parameters a))
  | _ => Done a
  end.
(** The loops over modules and assignments: the tree that is read has what was done before expanded. *)
Fixpoint expand_module (before : list module) (m : module) (done_ todo : list assignment) (after : list module) : out (list assignment) :=
  match todo with
  | [] => Done (rev done_)
  | a :: todo' =>
      do a' <- expand_assign (rev before ++ with_assigns m (rev done_ ++ todo) :: after) (m_name m) a;
      expand_module before m (a' :: done_) todo' after
  end.
Fixpoint expand_tree (before after : list module) : out (list module) :=
  match after with
  | [] => Done (rev before)
  | m :: after => do l <- expand_module before m [] (m_assigns m) after; expand_tree (with_assigns m l :: before) after
  end.
Definition resolve_components_of (tr : list module) : out (list module) := expand_tree [] tr.

(** * ObjectClass.cpp *)
Definition is_class (a : assignment) : bool := match a_specific a with AClass _ => true | _ => false end.
(** 203-252: one assignment *)
Definition scan_assign (tr : list module) (md : string) (s : list string) (a : assignment) : out (list string) :=
  match a_specific a with
  | AType (TRef (Defined m r ps)) | AValue (TRef (Defined m r ps)) _ =>
      if existsb (fun p => String.eqb (p_reference p) r) (a_parameters a) then Done s
      else do b <- resolve tr md (Defined m r ps);
           Done (if is_class b || mem (qualified md r) s then add (qualified md (a_name a)) s else s)
  | AClass _ => Done (add (qualified md (a_name a)) s)
  | _ => Done s
  end.
(** 255-267 *)
Definition scan_imports (tr : list module) (s : list string) : list string :=
  fold_left (fun s m => fold_left (fun s i => fold_left (fun s x => if mem (qualified (i_module i) x) s then add (qualified (m_name m) x) s else s) (i_types i) s) (m_imports m) s) tr s.
Definition scan (tr : list module) (s : list string) : out (list string) :=
  do s <- ofold (fun s m => ofold (scan_assign tr (m_name m)) (m_assigns m) s) tr s; Done (scan_imports tr s).
Fixpoint scan_loop (fuel : nat) (tr : list module) (s : list string) : out (list string) :=
  match fuel with
  | O => Loop
  | S fuel => do s' <- scan tr s; if Nat.ltb (length s) (length s') then scan_loop fuel tr s' else Done s'
  end.
(** 199-270 get_object_class_names; the number of rounds is bounded by the number of names. *)
Definition object_class_names (tr : list module) : out (list string) :=
  scan_loop (S (length (flat_map (fun m => map a_name (m_assigns m) ++ flat_map i_types (m_imports m)) tr))) tr [].
(** 69-98 create_concrete_type *)
Definition field_type (tr : list module) (md : string) (d : defined) (fs : list string) : out type :=
  do a <- resolve tr md d;
  match a_specific a, fs with
  | AClass fields, [f] =>
      match find (fun x => String.eqb (f_name x) f) fields with
      | Some x => olift (f_type x)
      | None => Throw
      end
  | _, _ => Throw
  end.
(** 6-67, 100-121 object_class_to_concrete *)
Fixpoint classes_to_concrete (tr : list module) (md : string) (t : type) : out type :=
  match t with
  | TField d fs => field_type tr md d fs
  | TRecord set cs ext =>
      do cs' <- omap (fun c => match c with Comp n u o d co => do u' <- classes_to_concrete tr md u; Done (Comp n u' o d co) end) cs; Done (TRecord set cs' ext)
  | TListOf set n u => do u' <- classes_to_concrete tr md u; Done (TListOf set n u')
  | ParserTree.TChoice alts => do alts' <- omap (fun a => do u' <- classes_to_concrete tr md (snd a); Done (fst a, u')) alts; Done (ParserTree.TChoice alts')
  | TTagged g kw u => do u' <- classes_to_concrete tr md u; Done (TTagged g kw u')
  | TSimple _ | TInteger _ | TEnumerated _ _ | TRef _ => Done t
  end.
Definition class_free (tr : list module) (md : string) (a : assignment) : out assignment :=
  match a_specific a with
  | AType t => do t' <- classes_to_concrete tr md t; Done (Assign (a_name a) (AType t') (a_parameters a))
  | _ => Done a
  end.
(** 129-142 is_defined_object_class *)
Definition defined_class (md : string) (names : list string) (t : type) : bool :=
  match t with TRef (Defined m r _) => mem (qualified (ref_module md m) r) names | _ => false end.
(** 150-180 *)
Definition removed (md : string) (names : list string) (a : assignment) : bool :=
  match a_specific a with
  | AClass _ => true
  | AType (TRef d) | AValue (TRef d) _ => defined_class md names (TRef d)
  | _ => existsb (fun p => match p_governor p with Some g => defined_class md names g | None => false end) (a_parameters a)
  end.
(** 144-196 remove_object_classes *)
Definition remove_object_classes (tr : list module) (names : list string) : list module :=
  map (fun m => Module (m_name m) (m_tagging m)
                  (map (fun i => Import (i_module i) (filter (fun x => negb (mem (qualified (i_module i) x) names)) (i_types i)) (i_values i)) (m_imports m))
                  (filter (fun a => negb (removed (m_name m) names a)) (m_assigns m))) tr.
(** 272-289 resolve_object_classes *)
Definition resolve_object_classes (tr : list module) : out (list module) :=
  do names <- object_class_names tr;
  do tr' <- omap (fun m => do l <- omap (class_free tr (m_name m)) (m_assigns m); Done (with_assigns m l)) tr;
  Done (remove_object_classes tr' names).

(** * Ordering assignments: ReorderAssignments.cpp 325-354, CompilerMain.cpp 275-278 *)
(** The order is CompilerTree.reorder_assignments; assignments are found by name in a map, of two with one name the last one. *)
Definition reorder_assigns (fuel : nat) (tr : list module) (m : module) : out module :=
  do order <- CompilerTree.reorder_assignments fuel (map outline_module tr) (m_name m) (map outline_assign (m_assigns m));
  do l <- omap (fun a => olift (assign_named (rev (m_assigns m)) (CompilerTree.a_name a))) order; Done (with_assigns m l).
Fixpoint reorder_tree (fuel : nat) (before after : list module) : out (list module) :=
  match after with
  | [] => Done (rev before)
  | m :: after => do m' <- reorder_assigns fuel (rev before ++ m :: after) m; reorder_tree fuel (m' :: before) after
  end.

(** * CompilerMain.cpp 261-278 *)
Definition passes (fuel : nat) (tr : list module) : out (list module) :=
  do tr <- resolve_parameters tr;
  do tr <- reorder_modules fuel tr;
  do tr <- split_modules tr 0;
  do tr <- resolve_components_of tr;
  do tr <- resolve_object_classes tr;
  reorder_tree fuel [] tr.
(** What is then written for the type X of module M (TypeAsString.cpp 391-489, EncodeDecode.cpp), or [None].  The imports have become
    assignments. *)
Definition final (tr : list module) : list module := map (fun m => Module (m_name m) (m_tagging m) [] (m_assigns m)) tr.
Definition written_code (fuel : nat) (tr : list module) (M X : string) : option ty :=
  match module_named (final tr) M with
  | Some m =>
      match type_named m X with
      | Some t => match elab fuel (final tr) m m t with
                  | Some a => if accepts (mode_of (m_tagging m)) a then Some (cpp (mode_of (m_tagging m)) None a) else None
                  | None => None
                  end
      | None => None
      end
  | None => None
  end.
(** The whole program up to there, for the files' texts.  [fuel] bounds the recursion of the passes, [depth] the nesting of types. *)
Definition compile_texts (fuel depth : nat) (texts : list (list Z)) (M X : string) : option ty :=
  match parse_files initial_state texts with
  | Ok (Some s) => match passes fuel (st_modules s) with Done tr => written_code depth tr M X | _ => None end
  | _ => None
  end.
