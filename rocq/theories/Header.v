(** What the compiler writes for the modules it has brought into their final form (Frontend.passes): the declarations of the header
    (CompilerMain.cpp 38-110, 167-192, TypeAsString.cpp, ValueType.cpp, GenerateChoice.cpp) and the functions of the detail file
    (CompilerMain.cpp 143-165, EncodeDecode.cpp, Visit.hpp), as declarations of CppSpec.v, with all names.
    Simplifications: storage modes are left out (they are written, but decide only where objects are kept); of the functions only what
    CppSpec.v has; layout and comments are left out.  [None]: an exception, or out of fuel, which bounds the following of references and
    the nesting of types. *)
From Coq Require Import List String Ascii ZArith Bool.
From Verif Require Import Base CompilerNames Ident Prims Schema ParserTree Compiler Elab CppSpec.
From Verif Require RealText.
Import ListNotations.
Local Open Scope string_scope.
Local Open Scope list_scope.

(** * Names *)
(** std::toupper in the C locale. *)
Definition to_upper (c : ascii) : ascii :=
  let n := N_of_ascii c in if ((97 <=? n) && (n <=? 122))%N then ascii_of_N (n - 32) else c.
Definition capital (s : string) : string := match s with String c s => String (to_upper c) s | EmptyString => EmptyString end.
(** CppGeneration.cpp 64-74 make_type_name.  (Its assertion that the name is not empty always holds for what was parsed.) *)
Definition make_type_name (name parent : string) : string :=
  if String.eqb (capital name) parent then (capital name ++ "_")%string else capital name.
(** CompilerTypes.cpp 185-200: to_string(Class, true) *)
Definition class_text (c : class) : string :=
  match c with universal => "uni" | application => "app" | context_specific => "ctx" | private_ => "pri" end.
(** CompilerTypes.hpp 110-165: to_string(UniversalTag) *)
Definition universal_text (u : Z) : string :=
  (match u with
  | 0 => "reserved" | 1 => "boolean" | 2 => "integer" | 3 => "bit_string" | 4 => "octet_string" | 5 => "null" | 6 => "object_identifier"
  | 7 => "object_descriptor" | 8 => "instance_of" | 9 => "real" | 10 => "enumerated" | 11 => "embedded_pdv" | 12 => "utf8_string"
  | 13 => "relative_oid" | 16 => "sequence" | 17 => "set" | 18 => "numeric_string" | 19 => "printable_string" | 20 => "teletex_string"
  | 21 => "videotex_string" | 22 => "ia5_string" | 23 => "utc_time" | 24 => "generalized_time" | 25 => "graphic_string"
  | 26 => "visible_string" | 27 => "general_string" | 28 => "universal_string" | 29 => "character_string" | 30 => "bmp_string"
  | _ => "Unknown Universal Tag" end)%Z.
(** CompilerTypes.hpp 611-621 Identifier::name() *)
Definition cid_text (i : cid) : idexp := if (c_univ i =? 0)%Z then IId (class_text (c_class i)) (c_tag i) else IExplicit (universal_text (c_univ i)).
(** 641-667 TaggingInfo::name() *)
Definition info_text (i : tinfo) : idexp :=
  match ti_outer i with
  | Some o => IDouble (cid_text o) (cid_text (ti_inner i))
  | None => match ti_choice i with [] => cid_text (ti_inner i) | l => IChoice (map cid_text l) end
  end.

(** * Identifier.cpp *)
(** The types for which identifier() returns an Identifier() of its own, UNIVERSAL 0, and outer_identifiers() nothing at all
    (77-91, 116-120, 146, 200-209; 292-306, 331-335, 361-364, ...).  ANY and a type with an unknown name are left out ([None]). *)
Definition no_number (k : simple) : bool := match k with Date | DateTime | Duration | IRI | RelativeIRI | Time | TimeOfDay => true | _ => false end.
Definition has_identifier (k : simple) : bool := match k with Any | CharString unknown_string => false | _ => true end.
(** ResolveType.cpp 112-157: the type and the module that a reference leads to. *)
Definition follow (tr : list module) (m : module) (d : defined) : option (type * module) :=
  match d with
  | Defined mo x [] =>
      match module_named tr (match mo with Some y => y | None => m_name m end) with
      | Some m' => option_map (fun t => (t, m')) (type_named m' x)
      | None => None
      end
  | _ => None
  end.
Definition is_auto (m : module) : bool := match m_tagging m with Automatic => true | _ => false end.
Definition numbered {A} (f : nat -> A -> option (list cid)) : nat -> list A -> option (list cid) :=
  fix go i l := match l with [] => Some [] | x :: l => match f i x, go (S i) l with Some a, Some b => Some (a ++ b) | _, _ => None end end.
Definition auto_cid (i : nat) : cid := tag_cid context_specific (Z.of_nat i).
(** 245-440 outer_identifiers *)
Fixpoint outer_identifiers (fuel : nat) (tr : list module) (m : module) (t : type) : option (list cid) :=
  match fuel with
  | O => None
  | S fuel =>
    match t with
    | TSimple k => if has_identifier k then Some (if no_number k then [] else [univ_cid (universal_of k)]) else None
    | TInteger _ => Some [univ_cid 2]
    | TEnumerated _ _ => Some [univ_cid 10]
    | TField _ _ => None
    | ParserTree.TChoice alts =>
        numbered (fun i a => if is_auto m then Some [auto_cid i] else outer_identifiers fuel tr m (snd a)) 0 alts
    | TRecord set _ _ => Some [univ_cid (if set then 17 else 16)]
    | TListOf set _ _ => Some [univ_cid (if set then 17 else 16)]
    | TTagged (c, n) _ _ => Some [tag_cid (class_of_tag c) n]
    | TRef d => match follow tr m d with Some (u, m') => outer_identifiers fuel tr m' u | None => None end
    end
  end.
(** 6-243 identifier *)
Fixpoint identifier (fuel : nat) (tr : list module) (m : module) (t : type) : option tinfo :=
  match fuel with
  | O => None
  | S fuel =>
    match t with
    | TSimple k => if has_identifier k then Some (if no_number k then TInfo None (Cid universal 0 0) [] false else TInfo None (univ_cid (universal_of k)) [] true) else None
    | TInteger _ => Some (TInfo None (univ_cid 2) [] true)
    | TEnumerated _ _ => Some (TInfo None (univ_cid 10) [] true)
    | TField _ _ => None
    | ParserTree.TChoice alts =>
        match numbered (fun i a =>
                if is_auto m
                then match snd a with
                     | TTagged _ _ _ => option_map (firstn 1) (outer_identifiers fuel tr m (snd a))
                     | _ => Some [auto_cid i]
                     end
                else outer_identifiers fuel tr m (snd a)) 0 alts with
        | Some ids => let i := TInfo None (Cid universal 0 0) ids true in if has_dup (outer_tags i) then None else Some i
        | None => None
        end
    | TRecord set _ _ => Some (TInfo None (univ_cid (if set then 17 else 16)) [] true)
    | TListOf set _ _ => Some (TInfo None (univ_cid (if set then 17 else 16)) [] true)
    | TTagged (c, n) kw u =>
        let is_explicit := match kw with
                           | Explicit => true
                           | Implicit => false
                           | Automatic => match m_tagging m with Explicit | Automatic => true | Implicit => false end
                           end in
        match identifier fuel tr m u with
        | Some child =>
            if is_explicit || match ti_outer child with Some _ => true | None => false end
            then Some (TInfo (Some (tag_cid (class_of_tag c) n)) (ti_inner child) [] false)
            else Some (TInfo None (tag_cid (class_of_tag c) n) [] false)
        | None => None
        end
    | TRef d => match follow tr m d with Some (u, m') => identifier fuel tr m' u | None => None end
    end
  end.
(** identifier().name() *)
Definition id_text (fuel : nat) (tr : list module) (m : module) (t : type) : option idexp := option_map info_text (identifier fuel tr m t).

(** * ResolveType.cpp 159-201, 203-219 *)
(** resolve_type_and_module(DefinedType): the name, the type and the module found.  [current]: current_module_reference, from where a
    reference behind a tag is followed. *)
Fixpoint resolve_ref (fuel : nat) (tr : list module) (current m : module) (d : defined) : option (string * type * module) :=
  match fuel with
  | O => None
  | S fuel =>
    match follow tr m d with
    | Some (TRef d', m') => resolve_ref fuel tr current m' d'
    | Some (TTagged g kw (TRef d'), _) =>
        match resolve_ref fuel tr current current d', d with
        | Some (_, u, m''), Defined _ x _ => Some (x, TTagged g kw u, m'')
        | None, _ => None
        end
    | Some (u, m') => match d with Defined _ x _ => Some (x, u, m') end
    | None => None
    end
  end.
(** resolve_type_and_module(NamedType) *)
Fixpoint resolve_named (fuel : nat) (tr : list module) (m : module) (name : string) (t : type) : option (string * type * module) :=
  match t with
  | TRef d => resolve_ref fuel tr m m d
  | TTagged _ _ u => resolve_named fuel tr m name u
  | _ => Some (name, t, m)
  end.
(** CompilerTypes.cpp 316-323 is_generated *)
Fixpoint generated (t : type) : bool :=
  match t with TRecord _ _ _ | ParserTree.TChoice _ => true | TTagged _ _ u => generated u | _ => false end.

(** * TypeAsString.cpp *)
(** 112-225, 265-341: the class; CompilerTypes.hpp 195-231 for character strings. *)
Definition string_class (c : char_string) : string :=
  match c with
  | bmp_string => "BMPString" | general_string => "GeneralString" | graphic_string => "GraphicString" | ia5_string => "IA5String"
  | iso646_string => "ISO646String" | numeric_string => "NumericString" | printable_string => "PrintableString" | teletex_string => "TeletexString"
  | t61_string => "T161String" | universal_string => "UniversalString" | utf8_string => "UTF8String" | videotex_string => "VideotexString"
  | visible_string => "VisibleString" | character_string => "CharacterString" | unknown_string => "UnknownStringType"
  end.
Definition class_name (k : simple) : string :=
  match k with
  | Any => "Any" | BitString => "BitString" | Boolean => "Boolean" | Date => "Date" | DateTime => "DateTime" | Duration => "Duration"
  | EmbeddedPDV => "EmbeddedPDV" | External => "External" | GeneralizedTime => "GeneralizedTime" | InstanceOf => "InstanceOf" | IRI => "IRI"
  | Null => "Null" | ObjectDescriptor => "ObjectDescriptor" | ObjectIdentifier => "ObjectIdentifier" | OctetString => "OctetString"
  | Real => "Real" | RelativeIRI => "RelativeIRI" | RelativeOID => "RelativeOID" | Time => "Time" | TimeOfDay => "TimeOfDay"
  | UTCTime => "UTCTime" | CharString c => string_class c
  end.
(** 112-361 type_as_string.  The identifier_override is never empty where it is called (461-483). *)
Fixpoint type_as_string (fuel : nat) (tr : list module) (m : module) (t : type) (name : string) (id : idexp) : option texp :=
  match fuel with
  | O => None
  | S fuel =>
    match t with
    | TSimple k => Some (XLib (class_name k) id)
    | TInteger _ => Some (XLib "Integer" id)
    | TEnumerated _ _ => Some (XEnum (name ++ "Values") id)
    | TField _ _ => None
    | ParserTree.TChoice _ | TRecord _ _ _ => Some (XLocal name)
    | TListOf _ _ _ => Some (XList (name ++ "Contained") id)
    | TTagged _ _ u => match identifier fuel tr m t with Some _ => type_as_string fuel tr m u "" id | None => None end   (* 317-327 *)
    | TRef d =>                                                                                                         (* 343-361 *)
        match resolve_ref fuel tr m m d, d with
        | Some (_, u, _), Defined mo x _ =>
            if generated u then Some (XRef (match mo with Some y => y | None => m_name m end) x)
            else type_as_string fuel tr m u x id
        | None, _ => None
        end
    end
  end.
(** ValueType.cpp: value_type.  [name]: type_name.  (Types written with "<>" and names of structs are one case, [VPlain].) *)
Fixpoint value_type (fuel : nat) (tr : list module) (m : module) (t : type) (name : string) : option vexp :=
  match fuel with
  | O => None
  | S fuel =>
    match t with
    | TSimple (BitString | OctetString | CharString _) => Some (VPlain "absl::string_view")
    | TSimple Boolean => Some (VPlain "bool")
    | TSimple Null => Some (VPlain "nullptr_t")
    | TSimple Real => Some (VPlain "double")
    | TSimple k => Some (VPlain (class_name k ++ "<>"))
    | TInteger _ => Some (VPlain "int64_t")
    | TEnumerated _ _ => Some (VEnum (name ++ "Values"))
    | TField _ _ => None
    | ParserTree.TChoice _ | TRecord _ _ _ => Some (VPlain (name ++ "<>"))
    | TListOf _ _ _ => Some (VPlain "SequenceOf<>")
    | TTagged _ _ u => match identifier fuel tr m t with Some _ => value_type fuel tr m u "" | None => None end
    | TRef d => match resolve_ref fuel tr m m d with Some (x, u, _) => value_type fuel tr m u x | None => None end
    end
  end.
(** ValueAsString.cpp 28-129 (CompilerNames.value_as_string; for a value that is a real, RealText.v). *)
Fixpoint plain_value (v : ParserTree.value) : option CompilerNames.value :=
  match v with
  | ParserTree.VList l => option_map CompilerNames.VList (traverse plain_value l)
  | ParserTree.VInt n => Some (CompilerNames.VInt n)
  | ParserTree.VString s => Some (CompilerNames.VStr s)
  | ParserTree.VNamed s n => Some (CompilerNames.VNamed s n)
  | ParserTree.VBits s => Some (CompilerNames.VBits s)
  | ParserTree.VHex s => Some (CompilerNames.VHex s)
  | ParserTree.VChars s => Some (CompilerNames.VChars s)
  | ParserTree.VDefined s => Some (CompilerNames.VDefined s)
  | ParserTree.VBoolean b => Some (CompilerNames.VBool b)
  | ParserTree.VNull | ParserTree.VTime _ | ParserTree.VReal _ => None
  end.
Definition kind_of_value (t : type) (name : string) : value_kind :=
  match t with TSimple ObjectIdentifier => ForOid | TSimple BitString => ForBitString | TEnumerated _ _ => ForEnumerated name | _ => ForOther end.
Definition value_text (t : type) (name : string) (v : ParserTree.value) : option string :=
  match v, kind_of_value t name with
  | ParserTree.VReal s, ForOther => RealText.real_text s
  | ParserTree.VReal _, ForOid => Some ""                 (* 56-60: a warning *)
  | ParserTree.VReal _, ForBitString => Some (quote ++ quote)%string
  | (ParserTree.VNull | ParserTree.VTime _), ForOid => Some ""
  | (ParserTree.VNull | ParserTree.VTime _), ForBitString => Some (quote ++ quote)%string
  | _, k => match plain_value v with Some w => value_as_string k w | None => None end
  end.
Definition enum_used (t : type) (name : string) : option string := match t with TEnumerated _ _ => Some (name ++ "Values")%string | _ => None end.

(** 231-264 check_valid(SequenceType), 288-306 check_valid(SetType): false when it throws; [None] if identifier() does. *)
Fixpoint check_sequence (fuel : nat) (tr : list module) (m : module) (prev : list cid) (cs : list component) : option bool :=
  match cs with
  | [] => Some true
  | Comp _ u o d _ :: cs =>
      match Elab.kind_of o d with
      | Mand => check_sequence fuel tr m [] cs
      | _ => match identifier fuel tr m u with
             | Some i => let ids := outer_tags i in
                         if existsb (fun p => match ids with a :: _ => cid_eqb p a | [] => false end) prev then Some false
                         else check_sequence fuel tr m ids cs
             | None => None
             end
      end
  end.
Fixpoint all_outer_tags (fuel : nat) (tr : list module) (m : module) (cs : list component) : option (list cid) :=
  match cs with
  | [] => Some []
  | Comp _ u _ _ _ :: cs => match identifier fuel tr m u, all_outer_tags fuel tr m cs with Some i, Some l => Some (outer_tags i ++ l) | _, _ => None end
  end.
Definition check_valid (fuel : nat) (tr : list module) (m : module) (set : bool) (cs : list component) : option bool :=
  if is_auto m then Some true
  else if set then option_map (fun l => negb (has_dup l)) (all_outer_tags fuel tr m cs)
  else check_sequence fuel tr m [] cs.

Definition bind {A B} (o : option A) (f : A -> option B) : option B := match o with Some x => f x | None => None end.
Local Notation "'let?' x := e 'in' f" := (bind e (fun x => f)) (at level 200, x pattern, e at level 100, f at level 200).
(** 31-45: the structs with the default values. *)
Definition default_decl (fuel : nat) (tr : list module) (m : module) (c : component) : option (list decl) :=
  match c with
  | Comp x u _ (Some v) _ =>
      let? t := value_type fuel tr m u x in
      let? (y, r, _) := resolve_named fuel tr m x u in
      let? e := value_text r y v in
      Some [DDefault ("DefaultValue" ++ capital x) t e (enum_used r y)]
  | _ => Some []
  end.
(** 70-88: the members. *)
Definition member_decl (parent : string) (c : component) : ckind * string * string * string :=
  match c with Comp x _ o d _ => (Elab.kind_of o d, make_type_name x parent, ("DefaultValue" ++ capital x)%string, x) end.
(** The identifier of the member with this number with AUTOMATIC TAGS (53-57; GenerateChoice.cpp 36-40). *)
Definition member_id (m : module) (i : nat) : option idexp := if is_auto m then Some (cid_text (auto_cid i)) else None.
Definition concat_map {A B} (f : nat -> A -> option (list B)) : nat -> list A -> option (list B) :=
  fix go i l := match l with [] => Some [] | x :: l => let? a := f i x in let? b := go (S i) l in Some (a ++ b) end.
Definition override (fuel : nat) (tr : list module) (m : module) (t : type) (ov : option idexp) : option idexp :=
  match ov with Some i => Some i | None => id_text fuel tr m t end.
(** 391-483 create_type_assignment; 20-110 create_collection_definition; GenerateChoice.cpp 8-165 create_choice_definition. *)
Fixpoint create_type (fuel : nat) (tr : list module) (m : module) (name : string) (t : type) (ov : option idexp) (introduce : bool) : option (list decl) :=
  match fuel with
  | O => None
  | S fuel =>
    let finish e := if introduce then DAlias name e else DUsing name e in
    match t with
    | TRecord set cs _ =>
        let? ok := check_valid fuel tr m set cs in
        if negb ok then None else
        if existsb (fun c => match c with Comp _ _ _ _ (Some _) => true | _ => false end) cs then None else
        let? defaults := concat_map (fun _ => default_decl fuel tr m) 0 cs in
        let? types := concat_map (fun i c => match c with Comp x u _ _ _ => create_type fuel tr m (make_type_name x name) u (member_id m i) false end) 0 cs in
        let? id := override fuel tr m t ov in
        Some [DStruct name (defaults ++ types) (map (member_decl name) cs) id]
    | ParserTree.TChoice alts =>
        let? id := override fuel tr m t ov in
        let? types := concat_map (fun i a => create_type fuel tr m (make_type_name (fst a) "") (snd a) (member_id m i) false) 0 alts in
        Some [DChoice name types (map (fun a => make_type_name (fst a) "") alts) id]
    | TTagged _ _ u =>
        let? id := override fuel tr m t ov in
        create_type fuel tr m name u (Some id) introduce
    | TEnumerated vs _ =>
        let? id := override fuel tr m t ov in
        let? e := type_as_string fuel tr m t name id in
        Some [DEnum (name ++ "Values") vs; finish e]
    | TListOf _ _ u =>
        let? ds := create_type fuel tr m (name ++ "Contained") u None false in
        let? id := override fuel tr m t ov in
        let? e := type_as_string fuel tr m t name id in
        Some (ds ++ [finish e])
    | TRef (Defined mo x ps) =>
        let? id := override fuel tr m t ov in
        let? (_, r, m') := resolve_ref fuel tr m m (Defined mo x ps) in
        let? e := type_as_string fuel tr m t name id in
        let values := (x ++ "Values")%string in
        Some ((match r with
               | TEnumerated _ _ => if String.eqb (m_name m') (m_name m) then [] else [DUsing values (XRef (m_name m') values)]
               | _ => []
               end) ++ [finish e])
    | _ =>
        let? id := override fuel tr m t ov in
        let? e := type_as_string fuel tr m t name id in
        Some [finish e]
    end
  end.

(** * EncodeDecode.cpp *)
(** 14-24 make_component_function: the argument of _with_id, if it is written. *)
Definition component_function (fuel : nat) (tr : list module) (m : module) (name : string) (t : type) : option (option idexp) :=
  let? (_, r, _) := resolve_named fuel tr m name t in
  if generated r then let? i := identifier fuel tr m t in Some (if ti_default i then None else Some (info_text i)) else Some None.
(** What a decoder tests for: 222-232, 262-286 (SET), 357-368 (SEQUENCE), 465-503 (CHOICE). *)
Definition tested (fuel : nat) (tr : list module) (m : module) (seq : bool) (i : nat) (k : ckind) (t : type) : option (option (list (class * Z))) :=
  if seq then match k with Mand => Some None | _ => option_map (fun l => Some (map cid_id l)) (outer_identifiers fuel tr m t) end
  else if is_auto m then Some (Some [cid_id (auto_cid i)])
  else option_map (fun l => Some (map cid_id l)) (outer_identifiers fuel tr m t).
(** 26-83, 85-167: encode and encoded_length; 169-420, 422-515: decode. *)
Definition encode_entry (fuel : nat) (tr : list module) (m : module) (label : string) (name : string) (t : type) : option (list (string * option idexp)) :=
  let? o := component_function fuel tr m name t in Some [(label, o)].
Definition decode_entry (fuel : nat) (tr : list module) (m : module) (seq : bool) (i : nat) (k : ckind) (label name : string) (t : type)
  : option (list (string * ckind * option (list (class * Z)) * option idexp)) :=
  let? o := component_function fuel tr m name t in
  let? l := tested fuel tr m seq i k t in
  Some [(label, k, l, o)].
Definition own_function (fuel : nat) (tr : list module) (m : module) (path : list string) (t : type) : option (list func) :=
  match t with
  | TRecord set cs ext =>
      let? enc := concat_map (fun _ c => match c with Comp x u _ _ _ => encode_entry fuel tr m x x u end) 0 cs in
      let? dec := concat_map (fun i c => match c with Comp x u o d _ => decode_entry fuel tr m (negb set) i (Elab.kind_of o d) x x u end) 0 cs in
      Some [Func path (if set then FSet ext else FSeq) enc dec]
  | ParserTree.TChoice alts =>
      let? enc := concat_map (fun i a => encode_entry fuel tr m (to_string (Z.of_nat i)) (fst a) (snd a)) 0 alts in
      let? dec := concat_map (fun i a => decode_entry fuel tr m false i Mand (to_string (Z.of_nat i)) (fst a) (snd a)) 0 alts in
      Some [Func path FChoice enc dec]
  | _ => Some []
  end.
(** Visit.hpp 6-66: the functions of all types in a type, at their paths. *)
Fixpoint functions (fuel : nat) (tr : list module) (m : module) (path : list string) (t : type) : option (list func) :=
  let? inner :=
    match t with
    | TRecord _ cs _ => concat_map (fun _ c => match c with Comp x u _ _ _ => functions fuel tr m (path ++ [make_type_name x ""]) u end) 0 cs
    | ParserTree.TChoice alts => concat_map (fun _ a => functions fuel tr m (path ++ [make_type_name (fst a) ""]) (snd a)) 0 alts
    | TListOf _ (Some x) u => functions fuel tr m (path ++ [make_type_name x ""]) u
    | TTagged _ _ u => functions fuel tr m path u
    | _ => Some []
    end in
  let? own := own_function fuel tr m path t in
  Some (inner ++ own).

(** * CompilerMain.cpp *)
(** 38-82 create_assignment.  A reference to a value's type is followed once (47-50); value_as_string asserts that this was enough. *)
Definition create_assignment (fuel : nat) (tr : list module) (m : module) (a : assignment) : option (list decl) :=
  match a_specific a with
  | AType t => create_type fuel tr m (a_name a) t None true
  | AValue t v =>
      let? r := match t with TRef d => option_map fst (follow tr m d) | _ => Some t end in
      match r with
      | TRef _ => None
      | _ =>
          let? ty := value_type fuel tr m t "" in
          let? e := value_text r (a_name a) v in
          Some [DConst (a_name a) ty e (enum_used r (a_name a))]
      end
  | AClass _ => None
  | AObjectSet => Some []
  end.
(** 84-119 create_imports, create_body *)
Definition create_imports (l : list import) : list decl := flat_map (fun i => map (fun x => DImport x (i_module i)) (i_values i)) l.
Definition create_body (fuel : nat) (tr : list module) (m : module) : option (list decl) := concat_map (fun _ => create_assignment fuel tr m) 0 (m_assigns m).
(** 143-165 create_detail_body *)
Definition create_detail (fuel : nat) (tr : list module) (m : module) : option (list func) :=
  concat_map (fun _ a => match a_specific a with AType t => functions fuel tr m [m_name m; a_name a] t | _ => Some [] end) 0 (m_assigns m).
(** 167-192 create_output_file, 280-282.  The imported types are assignments by now, so types are looked for among these (Frontend.final). *)
Definition bare_module (m : module) : module := Module (m_name m) (m_tagging m) [] (m_assigns m).
Definition bare (tr : list module) : list module := map bare_module tr.
Definition header (fuel : nat) (tr : list module) : option program :=
  let? ms := concat_map (fun _ m => let? ds := create_body fuel (bare tr) (bare_module m) in Some [(m_name m, create_imports (m_imports m) ++ ds)]) 0 tr in
  let? fs := concat_map (fun _ m => create_detail fuel (bare tr) (bare_module m)) 0 tr in
  Some (Program ms fs).
