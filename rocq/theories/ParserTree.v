(** The tree that the compiler's parser builds: /repo/src/compiler/include/fast_ber/compiler/CompilerTypes.hpp, and the values that
    the symbols of the grammar carry: asn_compiler.yacc 185-323. *)
From Coq Require Import List String Ascii ZArith Bool.
From Verif Require Import Base CompilerNames.
Import ListNotations.
Local Open Scope string_scope.
Local Open Scope list_scope.

(** CompilerTypes.hpp 22-35: TaggingMode, Class. *)
Inductive tagging := Explicit | Implicit | Automatic.
Inductive tag_class := universal | application | context_specific | private_.
(** 168-185 CharacterStringType *)
Inductive char_string := unknown_string | bmp_string | general_string | graphic_string | ia5_string | iso646_string | numeric_string
  | printable_string | teletex_string | t61_string | universal_string | utf8_string | videotex_string | visible_string | character_string.
(** The alternatives of BuiltinType (378-383) that have no members, and CharacterStringType. *)
Inductive simple := Any | BitString | Boolean | Date | DateTime | Duration | EmbeddedPDV | External | GeneralizedTime | InstanceOf | IRI
  | Null | ObjectDescriptor | ObjectIdentifier | OctetString | Real | RelativeIRI | RelativeOID | Time | TimeOfDay | UTCTime
  | CharString (c : char_string).
(** 452-458 Value (default: the empty list); a double is represented by the text it was read from. *)
Inductive value := VList (l : list value) | VInt (x : Z) | VString (s : string) | VNamed (s : string) (x : Z) | VBits (s : string)
  | VHex (s : string) | VChars (s : string) | VDefined (s : string) | VBoolean (b : bool) | VNull | VTime (s : string) | VReal (s : string).
(** 384-391 Type and DefinedType, 393-425 SequenceOfType, SetOfType, ChoiceType, 431-435 ObjectClassFieldType, 473-492 ComponentType,
    TaggedType.  Storage modes, which the parser always sets to the same, are left out; has_name and the two pointers of
    SequenceOfType are the optional name of the element. *)
Inductive type :=
| TSimple (k : simple)
| TInteger (named_numbers : list (string * Z))
| TEnumerated (values : list (string * option Z)) (accept_anything : bool)
| TField (object_class : defined) (fieldnames : list string)
| TChoice (choices : list (string * type))
| TRecord (set : bool) (components : list component) (allow_extensions : bool)
| TListOf (set : bool) (name : option string) (t : type)
| TTagged (tag : tag_class * Z) (mode : tagging) (t : type)
| TRef (d : defined)
with defined := Defined (module_reference : option string) (type_reference : string) (parameters : list type)
with component := Comp (name : string) (t : type) (is_optional : bool) (default : option value) (components_of : option type).
(** 500-600: assignments, imports, modules.  A ClassField without a type is a TypeField. *)
Record class_field := ClassField { f_name : string; f_type : option type }.
Inductive specific := AType (t : type) | AValue (t : type) (v : value) | AClass (fields : list class_field) | AObjectSet.
Record parameter := Param { p_governor : option type; p_reference : string }.
Record assignment := Assign { a_name : string; a_specific : specific; a_parameters : list parameter }.
Record import := Import { i_module : string; i_types : list string; i_values : list string }.
Record module := Module { m_name : string; m_tagging : tagging; m_imports : list import; m_assigns : list assignment }.

Definition any_type : type := TSimple Any.
Definition no_value : value := VList [].

(** What outlives the parsing of a file: Context::asn1_tree (asn_compiler.yacc 16-22), and the counter of gen_anon_member_name
    (CompilerTypes.cpp 325-329). *)
Record state := State { st_modules : list module; st_anon : Z }.
Definition anon_name (n : Z) : string := ("anonymous_member_" ++ to_string n)%string.
(** std::isupper(ref[0]) in the C locale; the first character of an empty string is NUL. *)
Definition isupper_first (s : string) : bool :=
  match s with EmptyString => false | String c _ => ((65 <=? N_of_ascii c) && (N_of_ascii c <=? 90))%N end.
(** int64_t to int (yacc 1353-1355): the value modulo 2^32 (implementation-defined, and this in gcc and clang). *)
Definition to_int (x : Z) : Z := ((x + 2^31) mod 2^32 - 2^31)%Z.

(** * Values of symbols *)
(** The types declared for symbols (185-323).  [KEmpty]: the structs without members. *)
Inductive kind := KNone | KString | KDouble | KInt64 | KInt | KDefinedValue | KBuiltin | KDefined | KEnumerated | KEnumValue | KExports
  | KFields | KStrings | KClassDef | KModule | KNamedTypes | KAssigns | KAssign | KType | KEmpty (s : simple) | KChar | KChoice | KInteger
  | KField | KSequence | KSet | KSequenceOf | KSetOf | KPrefixed | KTypes | KClass | KNamedType | KNamedNumber | KNamedNumbers | KComp
  | KComps | KCollection | KValue | KBool | KTime | KValues | KImports | KImport | KMode | KTag | KTagged | KOidComp | KOidComps
  | KParams | KParam.
Definition denote (k : kind) : Type :=
  match k with
  | KNone | KEmpty _ | KExports => unit           (* Export has no members, and no action adds one *)
  | KString | KDouble | KDefinedValue | KTime => string
  | KInt64 | KInt => Z
  | KBuiltin | KType => type
  | KDefined => defined
  | KEnumerated => (list (string * option Z) * bool)%type
  | KEnumValue => (string * option Z)%type
  | KFields | KClassDef => list class_field
  | KStrings => list string
  | KModule => module
  | KNamedTypes | KChoice => list (string * type)
  | KAssigns => list assignment
  | KAssign => assignment
  | KChar => char_string
  | KInteger | KNamedNumbers => list (string * Z)
  | KField => (defined * list string)%type
  | KSequence | KSet | KCollection => (list component * bool)%type
  | KSequenceOf | KSetOf => (option string * type)%type
  | KPrefixed | KTagged => ((tag_class * Z) * tagging * type)%type
  | KTypes => list type
  | KClass => tag_class
  | KNamedType => (string * type)%type
  | KNamedNumber => (string * Z)%type
  | KComp => component
  | KComps => list component
  | KValue => value
  | KBool => bool
  | KValues => list value
  | KImports => list import
  | KImport => import
  | KMode => tagging
  | KTag => (tag_class * Z)%type
  | KOidComp => (option string * option Z)%type
  | KOidComps => list (option string * option Z)
  | KParams => list parameter
  | KParam => parameter
  end.
(** "yylhs.value.emplace<T>()" (asn_compiler.hpp 7665-9000): what $$ is before the action, and without one. *)
Definition default_value (k : kind) : denote k :=
  match k with
  | KNone | KEmpty _ | KExports => tt
  | KString | KDouble | KDefinedValue | KTime => ""
  | KInt64 | KInt => 0%Z
  | KBuiltin | KType => any_type
  | KDefined => Defined None "" []
  | KEnumerated => ([], false)
  | KEnumValue => ("", None)
  | KFields | KClassDef => []
  | KStrings => []
  | KModule => Module "" Explicit [] []
  | KNamedTypes | KChoice => []
  | KAssigns => []
  | KAssign => Assign "" (AType any_type) []
  | KChar => unknown_string
  | KInteger | KNamedNumbers => []
  | KField => (Defined None "" [], [])
  | KSequence | KSet | KCollection => ([], false)
  | KSequenceOf | KSetOf => (None, any_type)
  | KPrefixed | KTagged => ((universal, 0%Z), Explicit, any_type)
  | KTypes => []
  | KClass => universal
  | KNamedType => ("", any_type)
  | KNamedNumber => ("", 0%Z)
  | KComp => Comp "" any_type false None None
  | KComps => []
  | KValue => no_value
  | KBool => false
  | KValues => []
  | KImports => []
  | KImport => Import "" [] []
  | KMode => Explicit
  | KTag => (universal, 0%Z)
  | KOidComp => (None, None)
  | KOidComps => []
  | KParams => []
  | KParam => Param None ""
  end.
(** A value on the parser's stack, with its type (yy::variant, checked by parse.assert). *)
Definition semantic : Type := { k : kind & denote k }.
Definition kind_eq_dec (a b : kind) : {a = b} + {a <> b}.
Proof. decide equality. decide equality. decide equality. Defined.
Definition cast (k : kind) (v : semantic) : option (denote k) :=
  match kind_eq_dec (projT1 v) k with left e => Some (eq_rect _ denote (projT2 v) _ e) | right _ => None end.

(** * Actions *)
(** An action: the types of the symbols on the right, that of the symbol on the left, and what is done. *)
Fixpoint function (ks : list kind) (R : Type) : Type := match ks with [] => R | k :: ks => denote k -> function ks R end.
Inductive action := Action (ks : list kind) (k : kind) (f : function ks (state -> denote k * state)).
Fixpoint apply {ks : list kind} {R : Type} : function ks R -> list semantic -> option R :=
  match ks return function ks R -> list semantic -> option R with
  | [] => fun f vs => match vs with [] => Some f | _ => None end
  | k :: ks => fun f vs => match vs with
      | v :: vs => match cast k v with Some x => apply (f x) vs | None => None end
      | [] => None
      end
  end.
(** Executing an action on the values of the symbols of the right side; taking a value for one of another type is UB. *)
Definition act (a : action) (vs : list semantic) (s : state) : res (semantic * state) :=
  match a with
  | Action ks k f => match apply f vs with Some g => let (v, s') := g s in Ok (existT _ k v, s') | None => UB end
  end.
