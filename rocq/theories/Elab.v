(** From the parsed modules to the code of a type: the tree of ParserTree.v seen as the types of Compiler.v.  This is what
    Identifier.cpp and TypeAsString.cpp see when they follow references (ResolveType.cpp 112-157), after CompilerMain.cpp 264-276 has
    added the assignments of the imported types.
    Not modelled here ([None]): actual parameters, COMPONENTS OF, fields of classes (each has its own model: CompilerPasses.v,
    CompilerTree.v); ANY; the types for which the library has no class; recursive types (RecModel.v).  The order of assignments, and
    the checks of the passes that only reject (duplicate names, cycles, unknown modules in IMPORTS), are left out, so that [code_of] is
    the code that the compiler writes for a type if it gets to writing. *)
From Coq Require Import List String ZArith Bool.
From Verif Require Import Base Ident View Prims Schema ParserTree ParserFile Compiler.
Import ListNotations.
Local Open Scope string_scope.
Local Open Scope list_scope.

(** CompilerTypes.hpp 73-109 (UniversalTag), 233-269 universal_tag(CharacterStringType). *)
Definition universal_of_string (c : char_string) : Z :=
  match c with
  | bmp_string => 30 | general_string => 27 | graphic_string => 25 | ia5_string => 22 | iso646_string => 26 | numeric_string => 18
  | printable_string => 19 | teletex_string => 20 | t61_string => 20 | universal_string => 28 | utf8_string => 12 | videotex_string => 21
  | visible_string => 26 | character_string => 29 | unknown_string => 0
  end.
(** Identifier.cpp 24-35, 77-150, 200-213: the identifiers of the types without members; "return {}" is Identifier(): UNIVERSAL 0.
    (ANY, 6-22, has the identifiers of a CHOICE; 0 here.) *)
Definition universal_of (k : simple) : Z :=
  match k with
  | Any => 0
  | BitString => 3 | Boolean => 1
  | Date | DateTime | Duration => 0
  | EmbeddedPDV => 11 | External => 8 | GeneralizedTime => 24 | InstanceOf => 8 | IRI => 0 | Null => 5 | ObjectDescriptor => 7
  | ObjectIdentifier => 6 | OctetString => 4 | Real => 9 | RelativeIRI => 0 | RelativeOID => 13
  | Time | TimeOfDay => 0
  | UTCTime => 23
  | CharString c => universal_of_string c
  end.
(** TypeAsString.cpp 112-212, 320-341: the class that is named in the code; /repo/include/fast_ber/ber_types/All.hpp: where it is
    defined and what it holds.  [None]: no such class (T61String.hpp is not included in All.hpp and includes a file that does not exist). *)
Definition class_of_simple (k : simple) : option lkind :=
  match k with
  | Any => None
  | BitString => Some (KFixed [])                                     (* BitString.hpp 8: StringImpl *)
  | Boolean => Some KBool
  | Date | DateTime | Duration | Time | TimeOfDay | UTCTime => Some KTime     (* Date.hpp 8, DateTime.hpp 9, ...: GeneralizedTime *)
  | EmbeddedPDV | External | InstanceOf | IRI | ObjectDescriptor | RelativeIRI | RelativeOID => None
  | GeneralizedTime => Some KTime
  | Null => Some KNull
  | ObjectIdentifier => Some (KFixed [])
  | OctetString => Some (KFixed [])
  | Real => Some (KSmall 100 [])
  | CharString t61_string | CharString unknown_string => None
  | CharString _ => Some (KFixed [])
  end.
(** Integer.hpp 30, 72; Enumerated.hpp 16: an Integer. *)
Definition integer_class : lkind := KSmall 8 [0].

Definition mode_of (t : tagging) : mode := match t with Explicit => explicit_ | Implicit => implicit_ | Automatic => automatic end.
Definition class_of_tag (c : tag_class) : class :=
  match c with
  | ParserTree.universal => Ident.universal | ParserTree.application => Ident.application
  | ParserTree.context_specific => Ident.context_specific | ParserTree.private_ => Ident.private_
  end.

(** ReorderAssignments.cpp 480-503 split_imports: an assignment for every imported type, behind those of the module. *)
Definition with_imports (m : module) : list assignment :=
  m_assigns m ++ flat_map (fun i => map (fun x => Assign x (AType (TRef (Defined (Some (i_module i)) x []))) []) (i_types i)) (m_imports m).
(** ResolveType.cpp 137-152 resolve_module and 112-123 resolve: the first of that name. *)
Definition module_named (tr : list module) (x : string) : option module := find (fun m => String.eqb (m_name m) x) tr.
Definition assign_named (l : list assignment) (x : string) : option assignment := find (fun a => String.eqb (a_name a) x) l.
(** type(resolve(...)) (Identifier.cpp 228; CompilerTypes.cpp): the type assigned to a name.  Templates have been removed (Parameters.cpp
    199-208). *)
Definition type_named (m : module) (x : string) : option type :=
  match assign_named (with_imports m) x with Some (Assign _ (AType t) []) => Some t | _ => None end.
Definition is_ref (t : type) : bool := match t with TRef _ => true | _ => false end.
Fixpoint is_tagged_ref (t : type) : bool := match t with TTagged _ _ u => is_ref u || is_tagged_ref u | _ => false end.
(** Behind the tags is a reference without a module. *)
Definition is_bare_ref (t : type) : bool := match t with TRef (Defined None _ _) => true | _ => false end.
Fixpoint bare_tagged_ref (t : type) : bool := match t with TTagged _ _ u => is_bare_ref u || bare_tagged_ref u | _ => false end.

Definition traverse {A B} (f : A -> option B) : list A -> option (list B) :=
  fix go l := match l with [] => Some [] | x :: l => match f x, go l with Some y, Some ys => Some (y :: ys) | _, _ => None end end.
Fixpoint acomps_of (l : list (ckind * aty)) : acomps := match l with [] => ANil | (k, t) :: l => ACons k t (acomps_of l) end.
(** TypeAsString.cpp 72-88: Optional, Default or neither. *)
Definition kind_of (optional : bool) (default : option value) : ckind := if optional then Opt else match default with Some _ => Def | None => Mand end.
(** The type [t] written in module [m].  [site]: the module whose code is being generated: ResolveType.cpp 183-189 follows a reference
    behind a tag there, and not in the module of the definition (C62_module_refuted), and so does TypeAsString.cpp 317-327, 343-361 behind
    several tags; [None] if they differ (and the reference names no module).  [fuel] bounds the nesting. *)
Fixpoint elab (fuel : nat) (tr : list module) (site m : module) (t : type) : option aty :=
  match fuel with
  | O => None
  | S fuel =>
    match t with
    | TSimple k => option_map (fun c => APrim c (universal_of k)) (class_of_simple k)
    | TInteger _ => Some (APrim integer_class 2)                         (* Identifier.cpp 112-115 *)
    | TEnumerated _ _ => Some (APrim integer_class 10)                   (* Identifier.cpp 96-99 *)
    | TField _ _ => None
    | ParserTree.TChoice alts => option_map (fun l => AChoice (acomps_of l)) (traverse (fun e => option_map (pair Mand) (elab fuel tr m m (snd e))) alts)
    | TRecord set cs ext =>
        option_map (fun l => if set then ASet ext (acomps_of l) else ASeq (acomps_of l))
          (traverse (fun c => match c with
                     | Comp _ u o d None => option_map (pair (kind_of o d)) (elab fuel tr m m u)
                     | Comp _ _ _ _ (Some _) => None
                     end) cs)
    | TListOf set _ u => option_map (ASeqOf set) (elab fuel tr m m u)
    | TTagged (c, n) kw u => option_map (ATagged (mode_of kw) (class_of_tag c) n) (elab fuel tr (if is_ref u || is_tagged_ref u then site else m) m u)
    | TRef (Defined mo x []) =>
        match module_named tr (match mo with Some y => y | None => m_name m end) with
        | None => None
        | Some m' =>
            match type_named m' x with
            | None => None
            | Some u =>
                if bare_tagged_ref u && negb (String.eqb (m_name m') (m_name site)) then None
                else option_map (ADef (mode_of (m_tagging m'))) (elab fuel tr (if is_ref u || is_tagged_ref u then site else m') m' u)
            end
        end
    | TRef (Defined _ _ (_ :: _)) => None
    end
  end.
(** CompilerMain.cpp 217-285 for the type X of the module M. *)
Definition code_of (fuel : nat) (texts : list (list Z)) (M X : string) : option ty :=
  match parse_files initial_state texts with
  | Ok (Some s) =>
      match module_named (st_modules s) M with
      | Some m =>
          match type_named m X with
          | Some t => match elab fuel (st_modules s) m m t with Some a => compile (mode_of (m_tagging m)) a | None => None end
          | None => None
          end
      | None => None
      end
  | _ => None
  end.
