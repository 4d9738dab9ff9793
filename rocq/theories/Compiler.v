(** Model of the part of the ASN.1 compiler (/repo/src/compiler) that decides identifiers: Identifier.cpp, the type
    generation of TypeAsString.cpp and GenerateChoice.cpp, and the labels and component functions of EncodeDecode.cpp.
    [cpp] maps an ASN.1 type to the generated code, a term of [Schema.ty].

    Simplifications: a type reference is replaced by the definition it refers to, together with the tagging default of
    its module ([ADef]), so recursive types are not covered; ANY, ENUMERATED value names, parameterised types, object
    classes and constraints are not modelled (ENUMERATED is a primitive like INTEGER); names are left out, so that a
    generated C++ program that does not compile is not distinguished. *)
From Verif Require Export Schema.

(** ** ASN.1 types after parsing *)
(** CompilerTypes.hpp: enum class TaggingMode; the tagging default of a module, and the keyword of a tag where
    [automatic] stands for no keyword (asn_compiler.yacc 1336-1342). *)
Inductive mode := explicit_ | implicit_ | automatic.
(** CompilerTypes.hpp: Type, BuiltinType.  [APrim k u]: a primitive type stored like [k], with universal tag [u]. *)
Inductive aty :=
| APrim (k : lkind) (u : Z)
| ASeqOf (set : bool) (t : aty)                             (* SEQUENCE OF; SET OF if [set] *)
| ASeq (cs : acomps)
| ASet (ext : bool) (cs : acomps)
| AChoice (cs : acomps)                                     (* alternatives: components of kind Mand *)
| ATagged (kw : mode) (c : class) (n : Z) (t : aty)         (* [c n] kw t *)
| ADef (m : mode) (t : aty)                                 (* reference to "X ::= t", in a module with default [m] *)
with acomps :=
| ANil
| ACons (k : ckind) (t : aty) (cs : acomps).
Scheme aty_acomps_ind := Induction for aty Sort Prop with acomps_aty_ind := Induction for acomps Sort Prop.
Combined Scheme aty_mutind from aty_acomps_ind, acomps_aty_ind.

Definition is_automatic (m : mode) : bool := match m with automatic => true | _ => false end.
(** CompilerTypes.cpp: is_prefixed. *)
Definition is_prefixed (t : aty) : bool := match t with ATagged _ _ _ _ => true | _ => false end.

(** ** Identifiers at compile time *)
(** CompilerTypes.hpp struct Identifier: class_, tag_number, universal (0: UniversalTag::reserved). *)
Record cid := Cid { c_class : class; c_tag : Z; c_univ : Z }.
Definition tag_cid (c : class) (n : Z) : cid := Cid c n 0.
Definition univ_cid (u : Z) : cid := Cid universal u u.
(** Identifier::operator== and AbslHashValue: all three fields. *)
Definition cid_eqb (a b : cid) : bool :=
  class_eqb (c_class a) (c_class b) && (c_tag a =? c_tag b) && (c_univ a =? c_univ b).
(** The run-time identifier named by Identifier::name(). *)
Definition cid_id (a : cid) : class * Z := (c_class a, c_tag a).

(** CompilerTypes.hpp struct TaggingInfo. *)
Record tinfo := TInfo { ti_outer : option cid; ti_inner : cid; ti_choice : list cid; ti_default : bool }.
(** TaggingInfo::outer_tags(). *)
Definition outer_tags (i : tinfo) : list cid :=
  match ti_outer i with
  | Some o => [o]
  | None => match ti_choice i with [] => [ti_inner i] | ids => ids end
  end.
(** TaggingInfo::name(), as a run-time identifier; [None]: a ChoiceId. *)
Definition ti_name (i : tinfo) : option ident :=
  match ti_outer i with
  | Some o => Some (DoubleId (c_class o) (c_tag o) (c_class (ti_inner i)) (c_tag (ti_inner i)))
  | None => match ti_choice i with
            | [] => Some (Id (c_class (ti_inner i)) (c_tag (ti_inner i)))
            | _ => None
            end
  end.

(** Identifier.cpp 245-440: outer_identifiers. *)
Fixpoint outer_ids (m : mode) (t : aty) : list cid :=
  match t with
  | APrim _ u => [univ_cid u]
  | ASeqOf set _ => [univ_cid (if set then 17 else 16)]
  | ASeq _ => [univ_cid 16]
  | ASet _ _ => [univ_cid 17]
  | AChoice cs => outer_ids_choice m 0 cs                     (* 271-290 *)
  | ATagged _ c n _ => [tag_cid c n]                          (* 392-395 *)
  | ADef m' t => outer_ids m' t
  end
with outer_ids_choice (m : mode) (i : Z) (cs : acomps) : list cid :=
  match cs with
  | ANil => []
  | ACons _ t cs =>
      (if is_automatic m then [tag_cid context_specific i] else outer_ids m t) ++ outer_ids_choice m (i + 1) cs
  end.
(** Identifier.cpp 41-62: the choice_ids of identifier(ChoiceType). *)
Fixpoint choice_ids (m : mode) (i : Z) (cs : acomps) : list cid :=
  match cs with
  | ANil => []
  | ACons _ t cs =>
      (if is_automatic m
       then if is_prefixed t then firstn 1 (outer_ids m t) else [tag_cid context_specific i]
       else outer_ids m t) ++ choice_ids m (i + 1) cs
  end.
(** Identifier.cpp 6-243: identifier().  The exception of 64-73 is [choice_ok] below. *)
Fixpoint info (m : mode) (t : aty) : tinfo :=
  match t with
  | APrim _ u => TInfo None (univ_cid u) [] true
  | ASeqOf set _ => TInfo None (univ_cid (if set then 17 else 16)) [] true
  | ASeq _ => TInfo None (univ_cid 16) [] true
  | ASet _ _ => TInfo None (univ_cid 17) [] true
  | AChoice cs => TInfo None (Cid universal 0 0) (choice_ids m 0 cs) true   (* 36-76 *)
  | ATagged kw c n t =>                                                      (* 172-199 *)
      let is_explicit :=
        match kw with
        | explicit_ => true
        | implicit_ => false
        | automatic => match m with explicit_ | automatic => true | implicit_ => false end
        end in
      let child := info m t in
      if is_explicit || (match ti_outer child with Some _ => true | None => false end)
      then TInfo (Some (tag_cid c n)) (ti_inner child) [] false
      else TInfo None (tag_cid c n) [] false
  | ADef m' t => info m' t                                                   (* 226-233 *)
  end.

(** ** What the compiler rejects *)
Fixpoint has_dup (ids : list cid) : bool :=
  match ids with [] => false | a :: ids => existsb (cid_eqb a) ids || has_dup ids end.
(** Identifier.cpp 64-73: false when it throws. *)
Definition choice_ok (m : mode) (cs : acomps) : bool := negb (has_dup (outer_tags (info m (AChoice cs)))).
(** TypeAsString.cpp 288-306: check_valid(SetType), false when it throws. *)
Fixpoint set_ids (m : mode) (cs : acomps) : list cid :=
  match cs with ANil => [] | ACons _ t cs => outer_tags (info m t) ++ set_ids m cs end.
Definition check_set (m : mode) (cs : acomps) : bool := is_automatic m || negb (has_dup (set_ids m cs)).
(** TypeAsString.cpp 231-264: check_valid(SequenceType), false when it throws.  [prev]: previous_optional_ids (empty
    exactly if previous_optional_type is not set, since outer_tags() is never empty). *)
Fixpoint check_seq_loop (m : mode) (prev : list cid) (cs : acomps) : bool :=
  match cs with
  | ANil => true
  | ACons Mand _ cs => check_seq_loop m [] cs
  | ACons _ t cs =>
      let ids := outer_tags (info m t) in
      if existsb (fun p => match ids with a :: _ => cid_eqb p a | [] => false end) prev then false
      else check_seq_loop m ids cs
  end.
Definition check_seq (m : mode) (cs : acomps) : bool := is_automatic m || check_seq_loop m [] cs.
(** The whole definition: every SEQUENCE, SET and CHOICE in it is checked when its code is generated
    (TypeAsString.cpp 428, 434; identifier() of a CHOICE is called for its definition, GenerateChoice.cpp 22, or for the
    tag or member it stands under). *)
Fixpoint accepts (m : mode) (t : aty) : bool :=
  match t with
  | APrim _ _ => true
  | ASeqOf _ t => accepts m t
  | ASeq cs => check_seq m cs && accepts_comps m cs
  | ASet _ cs => check_set m cs && accepts_comps m cs
  | AChoice cs => choice_ok m cs && accepts_comps m cs
  | ATagged _ _ _ t => accepts m t
  | ADef m' t => accepts m' t
  end
with accepts_comps (m : mode) (cs : acomps) : bool :=
  match cs with ANil => true | ACons _ t cs => accepts m t && accepts_comps m cs end.

(** ** Generated types: those with their own struct *)
(** CompilerTypes.cpp 316-323: is_generated. *)
Fixpoint is_generated (t : aty) : bool :=
  match t with
  | ASeq _ | ASet _ _ | AChoice _ => true
  | ATagged _ _ _ t => is_generated t
  | _ => false
  end.
(** is_generated(resolve_type(tree, module, DefinedType).type), for a reference to a definition with type [t]
    (ResolveType.cpp 159-201: aliases are followed, and one tag in front of a reference is kept). *)
Fixpoint gen_def (t : aty) : bool :=
  match t with
  | ADef _ t => gen_def t
  | ATagged _ _ _ (ADef _ t) => gen_def t
  | _ => is_generated t
  end.
(** is_generated(resolve_type(tree, module, NamedType).type) (ResolveType.cpp 203-219). *)
Fixpoint gen_named (t : aty) : bool :=
  match t with
  | ADef _ t => gen_def t
  | ATagged _ _ _ t => gen_named t
  | _ => is_generated t
  end.

(** ** Code generation *)
Definition or_id {A} (a b : option A) : option A := match a with Some _ => a | None => b end.
Definition get_id (a : option ident) (b : ident) : ident := match a with Some a => a | None => b end.
(** encode_with_id / decode_with_id / encoded_length_with_id of a generated type. *)
Definition with_id (o : option ident) (t : ty) : ty :=
  match o, t with
  | Some i, TSeq _ cs => TSeq i cs
  | Some i, TSet _ ext cs => TSet i ext cs
  | Some i, TChoice g _ cs => TChoice g (Some i) cs
  | _, _ => t
  end.
(** EncodeDecode.cpp 14-24: make_component_function; [t'] is the C++ type of the member. *)
Definition member (m : mode) (t : aty) (t' : ty) : ty :=
  if gen_named t && negb (ti_default (info m t)) then with_id (ti_name (info m t)) t' else t'.
Inductive where_ := InSeq | InSet | InChoice.
(** The identifiers the generated decoder tests for.  SEQUENCE: EncodeDecode.cpp 363-368 (nothing is tested for a
    mandatory member: the model puts the identifiers of its type there).  SET: 222-232, 262-286.  CHOICE: 467-503. *)
Definition labels (w : where_) (m : mode) (i : Z) (k : ckind) (t : aty) (t' : ty) : list (class * Z) :=
  match w with
  | InSeq => match k with Mand => type_ids t' | _ => map cid_id (outer_ids m t) end
  | _ => if is_automatic m then [(context_specific, i)] else map cid_id (outer_ids m t)
  end.
(** TypeAsString.cpp 391-489 create_type_assignment, 20-110 create_collection_definition, 265-361 type_as_string;
    GenerateChoice.cpp 8-48.  [ov]: identifier_override.  In a module with AUTOMATIC TAGS the identifier of a CHOICE with
    prefixed alternatives (Identifier.cpp 45-48) differs from its labels; the model takes the labels. *)
Fixpoint cpp (m : mode) (ov : option ident) (t : aty) {struct t} : ty :=
  match t with
  | APrim k u => TLeaf k (get_id ov (Id universal u))
  | ASeqOf set t => TSeqOf (get_id ov (Id universal (if set then 17 else 16))) (cpp m None t)
  | ASeq cs => TSeq (get_id ov (Id universal 16)) (cpp_comps InSeq m 0 cs)
  | ASet ext cs => TSet (get_id ov (Id universal 17)) ext (cpp_comps InSet m 0 cs)
  | AChoice cs => TChoice CGen ov (cpp_comps InChoice m 0 cs)
  | ATagged kw c n t' => cpp m (or_id ov (ti_name (info m t))) t'            (* 443-453, 317-327 *)
  | ADef m' t' =>                                                            (* 343-361 *)
      if gen_def t' then cpp m' None t' else cpp m' (or_id ov (ti_name (info m t))) t'
  end
with cpp_comps (w : where_) (m : mode) (i : Z) (cs : acomps) {struct cs} : comps :=
  match cs with
  | ANil => CNil
  | ACons k t cs =>
      let t' := member m t (cpp m (if is_automatic m then Some (Id context_specific i) else None) t) in
      CCons k (labels w m i k t t') t' (cpp_comps w m (i + 1) cs)
  end.
(** ** Nested structures *)
(** ReorderAssignments.cpp 358-476 find_nested_structs and 537-558 split_nested_structures: a SEQUENCE, SET or CHOICE that
    is the element of a SEQUENCE OF or SET OF, or stands behind a tag, becomes a definition of its own ("UnnamedSequence0").
    (So does an ENUMERATED, which makes no difference here.) *)
Definition unnamed (m : mode) (t : aty) : aty :=
  match t with ASeq _ | ASet _ _ | AChoice _ => ADef m t | _ => t end.
Fixpoint split (m : mode) (t : aty) : aty :=
  match t with
  | APrim _ _ => t
  | ASeqOf set t => ASeqOf set (unnamed m (split m t))
  | ASeq cs => ASeq (split_comps m cs)
  | ASet ext cs => ASet ext (split_comps m cs)
  | AChoice cs => AChoice (split_comps m cs)
  | ATagged kw c n t => ATagged kw c n (unnamed m (split m t))
  | ADef m' t => ADef m' (split m' t)                        (* the referenced definition is split in its own module *)
  end
with split_comps (m : mode) (cs : acomps) : acomps :=
  match cs with ANil => ANil | ACons k t cs => ACons k (split m t) (split_comps m cs) end.
(** CompilerMain.cpp 264-285 and TypeAsString.cpp 485-489: compiling the type assignment "X ::= t" of a module; [None]: an
    exception, no code is generated. *)
Definition compile (m : mode) (t : aty) : option ty :=
  let t := split m t in if accepts m t then Some (cpp m None t) else None.
