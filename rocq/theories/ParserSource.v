(** ASN.1 notation as users write it (its common part), the tokens it is written in, and what the compiler is to make of it.
    Nothing here refers to the grammar or to the tables of the parser. *)
From Coq Require Import List String Ascii ZArith Bool.
From Verif Require Import Base CompilerNames Lexer ParserTree.
Import ListNotations.
Local Open Scope string_scope.
Local Open Scope list_scope.

(** * Tokens *)
Definition kw (s : string) : Lexer.token := Lexer.Token s PNone.
Definition upper (x : string) : Lexer.token := Lexer.Token "GENERIC_IDENTIFIER_UPPERCASE" (PName x).
Definition lower (x : string) : Lexer.token := Lexer.Token "GENERIC_IDENTIFIER_LOWERCASE" (PName x).
Definition num (x : Z) : Lexer.token := Lexer.Token (if (x <? 0)%Z then "negativenumber" else "number") (PInteger x).
(** The items of [l] with [s] between them. *)
Fixpoint sep (s : Lexer.token) (l : list (list Lexer.token)) : list Lexer.token :=
  match l with [] => [] | [x] => x | x :: l => x ++ s :: sep s l end.
Definition commas := sep (kw "COMMA").
Definition braces (l : list Lexer.token) : list Lexer.token := kw "OPEN_BRACE" :: l ++ [kw "CLOSE_BRACE"].
Definition parens (l : list Lexer.token) : list Lexer.token := kw "OPEN_PARENTHESIS" :: l ++ [kw "CLOSE_PARENTHESIS"].
Definition nonempty {A} (l : list A) : bool := match l with [] => false | _ => true end.

(** * Values *)
(** Values in constraints and behind DEFAULT: TRUE, NULL, '01'B, 'AF'H, "text", a word, a reference to a value, numbers. *)
Inductive single := SBoolean (b : bool) | SNull | SBits (u : list Z) | SHex (u : list Z) | SText (u : list Z) | SWord (x : string) | SRef (x : string)
  | SInt (x : Z) | SReal (u : list Z).
Definition single_tokens (v : single) : list Lexer.token :=
  match v with
  | SBoolean b => [kw (if b then "TRUE" else "FALSE")]
  | SNull => [kw "ASN_NULL"]
  | SBits u => [Lexer.Token "bstring" (PText u)]
  | SHex u => [Lexer.Token "hstring" (PText u)]
  | SText u => [Lexer.Token "cstring" (PText u)]
  | SWord x => [upper x]
  | SRef x => [lower x]
  | SInt x => [num x]
  | SReal u => [Lexer.Token "realnumber" (PText u)]
  end.
Definition read_single (v : single) : value :=
  match v with
  | SBoolean b => VBoolean b
  | SNull => VNull
  | SBits u | SHex u | SText u => VString (string_of u)
  | SWord x => VString x
  | SRef x => VDefined x
  | SInt x => VInt x
  | SReal u => VReal (string_of u)
  end.
(** Values of value assignments: also name(1), and lists of values in braces, without commas. *)
Inductive val := WBoolean (b : bool) | WNull | WBits (u : list Z) | WHex (u : list Z) | WText (u : list Z) | WWord (x : string) | WRef (x : string)
  | WNamed (x : string) (n : Z) | WInt (x : Z) | WReal (u : list Z) | WList (l : list val).
Fixpoint val_tokens (v : val) : list Lexer.token :=
  match v with
  | WBoolean b => [kw (if b then "TRUE" else "FALSE")]
  | WNull => [kw "ASN_NULL"]
  | WBits u => [Lexer.Token "bstring" (PText u)]
  | WHex u => [Lexer.Token "hstring" (PText u)]
  | WText u => [Lexer.Token "cstring" (PText u)]
  | WWord x => [upper x]
  | WRef x => [lower x]
  | WNamed x n => lower x :: parens [num n]
  | WInt x => [num x]
  | WReal u => [Lexer.Token "realnumber" (PText u)]
  | WList l => braces (flat_map val_tokens l)
  end.
Fixpoint read_val (v : val) : value :=
  match v with
  | WBoolean _ | WNull => no_value
  | WBits u => VBits (string_of u)
  | WHex u => VHex (string_of u)
  | WText u => VChars (string_of u)
  | WWord x => VString x
  | WRef x => VDefined x
  | WNamed x n => VNamed x n
  | WInt x => VInt x
  | WReal u => VReal (string_of u)
  | WList l => VList (map read_val l)
  end.
(** Lists are not empty; in a list, no reference stands before a list (it would be taken for a parameterized value). *)
Fixpoint no_ref_list (l : list val) : bool :=
  match l with WRef _ :: (WList _ :: _) => false | _ :: l => no_ref_list l | [] => true end.
Fixpoint wf_val (v : val) : bool :=
  match v with WNamed _ n => (0 <=? n)%Z | WList l => nonempty l && no_ref_list l && forallb wf_val l | _ => true end.

(** * Constraints *)
(** A constraint: a union of intersections of elements, perhaps with "..." and more behind it.  Elements: values, ranges (None: MIN
    or MAX), SIZE, FROM, and constraints in parentheses. *)
Inductive constr := Constr (elements : list (list elem)) (ext : option (option (list (list elem))))
with elem := EValue (v : single) | ERange (lo hi : option single) | ESize (c : constr) | EFrom (c : constr) | EGroup (c : constr).
Definition end_tokens (name : string) (v : option single) : list Lexer.token := match v with Some v => single_tokens v | None => [kw name] end.
Fixpoint elem_tokens (e : elem) : list Lexer.token :=
  match e with
  | EValue v => single_tokens v
  | ERange lo hi => end_tokens "MIN" lo ++ kw "RANGE" :: end_tokens "MAX" hi
  | ESize c => kw "SIZE" :: constr_tokens c
  | EFrom c => kw "FROM" :: constr_tokens c
  | EGroup c => constr_tokens c
  end
with constr_tokens (c : constr) : list Lexer.token :=
  match c with
  | Constr u ext =>
      let unions u := sep (kw "VERTICAL_LINE") (map (fun i => sep (kw "ACCENT") (map elem_tokens i)) u) in
      parens (unions u ++ match ext with
        | None => []
        | Some None => [kw "COMMA"; kw "ELIPSIS"]
        | Some (Some u) => kw "COMMA" :: kw "ELIPSIS" :: kw "COMMA" :: unions u
        end)
  end.
Definition not_null (v : single) : bool := match v with SNull => false | _ => true end.
Definition wf_end (v : option single) : bool := match v with Some v => not_null v | None => true end.
Fixpoint wf_elem (e : elem) : bool :=
  match e with EValue v => not_null v | ERange lo hi => wf_end lo && wf_end hi | ESize c | EFrom c | EGroup c => wf_constr c end
with wf_constr (c : constr) : bool :=
  match c with
  | Constr u ext =>
      let unions u := nonempty u && forallb (fun i => nonempty i && forallb wf_elem i) u in
      unions u && match ext with Some (Some u) => unions u | _ => true end
  end.

(** * Types *)
Definition simple_tokens (k : simple) : list string :=
  match k with
  | Any => ["ANY"] | BitString => ["BIT"; "STRING"] | Boolean => ["BOOLEAN"] | Date => ["DATE"] | DateTime => ["DATE_TIME"] | Duration => ["DURATION"]
  | EmbeddedPDV => ["EMBEDDED"; "PDV"] | External => ["EXTERNAL"] | GeneralizedTime => ["GeneralizedTime"] | InstanceOf => [] | IRI => ["OID_IRI"]
  | Null => ["ASN_NULL"] | ObjectDescriptor => ["ObjectDescriptor"] | ObjectIdentifier => ["OBJECT"; "IDENTIFIER"] | OctetString => ["OCTET"; "STRING"]
  | Real => ["REAL"] | RelativeIRI => ["RELATIVE_OID_IRI"] | RelativeOID => ["RELATIVE_OID"] | Time => ["TIME"] | TimeOfDay => ["TIME_OF_DAY"]
  | UTCTime => ["UTCTime"]
  | CharString c => match c with
      | unknown_string => [] | bmp_string => ["BMPString"] | general_string => ["GeneralString"] | graphic_string => ["GraphicString"]
      | ia5_string => ["IA5String"] | iso646_string => ["ISO646String"] | numeric_string => ["NumericString"]
      | printable_string => ["PrintableString"] | teletex_string => ["TeletexString"] | t61_string => ["T61String"]
      | universal_string => ["UniversalString"] | utf8_string => ["UTF8String"] | videotex_string => ["VideotexString"]
      | visible_string => ["VisibleString"] | character_string => ["CHARACTER"; "STRING"]
      end
  end.
Inductive presence := Required | Optional | Default (v : single).
(** Types: BIT STRING { a(0) }; INTEGER, or INTEGER { a(0) }; ENUMERATED { a, b(2), ..., c }; CHOICE { a T, ..., b T };
    SEQUENCE or SET { components, ..., additions, ..., components }; SEQUENCE or SET [SIZE(...)] OF [name] T; [APPLICATION 1] IMPLICIT T;
    references M.T; T { argument }; CLASS.&field; and constrained types. *)
Inductive ty :=
| YSimple (k : simple)
| YBits (names : list (string * Z))
| YInteger (names : list (string * Z))
| YEnumerated (root : list (string * option Z)) (more : option (list (string * option Z)))
| YChoice (root : list (string * ty)) (more : option (list (string * ty)))
| YRecord (set : bool) (root : list comp) (more : option (list comp * option (list comp)))
| YListOf (set : bool) (size : option constr) (name : option string) (t : ty)
| YTagged (class : tag_class) (n : Z) (mode : tagging) (t : ty)
| YRef (m : option string) (x : string)
| YApply (x : string) (argument : ty)
| YField (class : string) (fields : list (bool * string))
| YWith (t : ty) (c : constr)
(** Components: name T, name T OPTIONAL, name T DEFAULT v; the same without a name; COMPONENTS OF T. *)
with comp := CNamed (x : string) (t : ty) (p : presence) | CAnonymous (t : ty) (p : presence) | COf (t : ty).

Definition presence_tokens (p : presence) : list Lexer.token :=
  match p with Required => [] | Optional => [kw "OPTIONAL"] | Default v => kw "DEFAULT" :: single_tokens v end.
Definition numbered_name (e : string * Z) : list Lexer.token := lower (fst e) :: parens [num (snd e)].
Definition enum_item (e : string * option Z) : list Lexer.token := match snd e with Some n => numbered_name (fst e, n) | None => [lower (fst e)] end.
Definition field_token (f : bool * string) : Lexer.token := Lexer.Token (if fst f then "typefieldreference" else "valuefieldreference") (PName (snd f)).
Fixpoint ty_tokens (t : ty) : list Lexer.token :=
  let named (e : string * ty) := lower (fst e) :: ty_tokens (snd e) in
  match t with
  | YSimple k => map kw (simple_tokens k)
  | YBits l => kw "BIT" :: kw "STRING" :: braces (commas (map numbered_name l))
  | YInteger l => kw "INTEGER" :: if nonempty l then braces (commas (map numbered_name l)) else []
  | YEnumerated root more => kw "ENUMERATED" :: braces (commas (map enum_item root ++ match more with None => [] | Some l => [kw "ELIPSIS"] :: map enum_item l end))
  | YChoice root more => kw "CHOICE" :: braces (commas (map named root ++ match more with None => [] | Some l => [kw "ELIPSIS"] :: map named l end))
  | YRecord set root more => kw (if set then "SET" else "SEQUENCE") :: braces (commas (map comp_tokens root ++ match more with
      | None => []
      | Some (l, None) => [kw "ELIPSIS"] :: map comp_tokens l
      | Some (l, Some l2) => [kw "ELIPSIS"] :: map comp_tokens l ++ [kw "ELIPSIS"] :: map comp_tokens l2
      end))
  | YListOf set size name t => kw (if set then "SET" else "SEQUENCE") :: match size with Some c => kw "SIZE" :: constr_tokens c | None => [] end ++
      kw "OF" :: match name with Some x => [lower x] | None => [] end ++ ty_tokens t
  | YTagged class n mode t => kw "OPEN_SQUARE_BRACKET" ::
      match class with universal => [kw "UNIVERSAL"] | application => [kw "APPLICATION"] | private_ => [kw "PRIVATE"] | context_specific => [] end ++
      num n :: kw "CLOSE_SQUARE_BRACKET" :: match mode with Implicit => [kw "IMPLICIT"] | Explicit => [kw "EXPLICIT"] | Automatic => [] end ++ ty_tokens t
  | YRef None x => [upper x]
  | YRef (Some m) x => [upper m; kw "FULL_STOP"; upper x]
  | YApply x t => upper x :: braces (ty_tokens t)
  | YField c fs => upper c :: kw "FULL_STOP" :: sep (kw "FULL_STOP") (map (fun f => [field_token f]) fs)
  | YWith t c => ty_tokens t ++ constr_tokens c
  end
with comp_tokens (c : comp) : list Lexer.token :=
  match c with
  | CNamed x t p => lower x :: ty_tokens t ++ presence_tokens p
  | CAnonymous t p => ty_tokens t ++ presence_tokens p
  | COf t => kw "COMPONENTS" :: kw "OF" :: ty_tokens t
  end.

(** Not everything can be written: lists are not empty; numbers of bits and tags are not negative; additions of a SEQUENCE are not empty
    where components or a second "..." stand around them; NULL is no argument; a constraint belongs to the innermost type it can belong
    to, so that tagged types and lists are not constrained as a whole. *)
Definition closed (t : ty) : bool := match t with YListOf _ _ _ _ | YTagged _ _ _ _ => false | _ => true end.
Definition is_null (t : ty) : bool := match t with YSimple Null => true | _ => false end.
Fixpoint wf_ty (t : ty) : bool :=
  match t with
  | YSimple k => nonempty (simple_tokens k)
  | YBits l => nonempty l && forallb (fun e => (0 <=? snd e)%Z) l
  | YInteger _ => true
  | YEnumerated root _ => nonempty root
  | YChoice root more => nonempty root && forallb (fun e => wf_ty (snd e)) root && match more with Some l => forallb (fun e => wf_ty (snd e)) l | None => true end
  | YRecord _ root more => forallb wf_comp root && match more with
      | None => true
      | Some (l, None) => forallb wf_comp l
      | Some (l, Some l2) => forallb wf_comp l && forallb wf_comp l2 && (if nonempty root then nonempty l else negb (nonempty l2))
      end
  | YListOf _ size _ t => match size with Some c => wf_constr c | None => true end && wf_ty t
  | YTagged _ n _ t => (0 <=? n)%Z && wf_ty t
  | YRef _ _ => true
  | YApply _ t => wf_ty t && negb (is_null t)
  | YField _ fs => nonempty fs
  | YWith t c => wf_ty t && closed t && wf_constr c
  end
with wf_comp (c : comp) : bool := match c with CNamed _ t _ | CAnonymous t _ | COf t => wf_ty t end.

(** What the compiler is to make of a type: constraints and the names of bits are dropped; components and alternatives before and behind
    "..." are in one list (the additions of a CHOICE in front); a tag's number is cut to 32 bits; components without a name get the
    names anonymous_member_0, 1, ... in the order of their ends in the text ([n] is the next one). *)
Definition thread {A B} (f : A -> Z -> B * Z) : list A -> Z -> list B * Z :=
  fix thread (l : list A) (n : Z) := match l with [] => ([], n) | x :: l => let (y, n) := f x n in let (ys, n) := thread l n in (y :: ys, n) end.
Definition is_optional (p : presence) : bool := match p with Optional => true | _ => false end.
Definition default_of (p : presence) : option value := match p with Default v => Some (read_single v) | _ => None end.
Fixpoint read_ty (t : ty) (n : Z) : type * Z :=
  let named (e : string * ty) n := let (u, n) := read_ty (snd e) n in ((fst e, u), n) in
  match t with
  | YSimple k => (TSimple k, n)
  | YBits _ => (TSimple BitString, n)
  | YInteger l => (TInteger l, n)
  | YEnumerated root more => (TEnumerated (root ++ match more with Some l => l | None => [] end) (match more with Some _ => true | None => false end), n)
  | YChoice root more =>
      let (r, n) := thread named root n in
      let (m, n) := match more with Some l => thread named l n | None => ([], n) end in (TChoice (m ++ r), n)
  | YRecord set root more =>
      let (r, n) := thread read_comp root n in
      let (a, n) := match more with Some (l, _) => thread read_comp l n | None => ([], n) end in
      let (b, n) := match more with Some (_, Some l) => thread read_comp l n | _ => ([], n) end in
      (TRecord set (r ++ a ++ b) (match more with Some _ => true | None => false end), n)
  | YListOf set _ name t => let (u, n) := read_ty t n in (TListOf set name u, n)
  | YTagged class x mode t => let (u, n) := read_ty t n in (TTagged (class, to_int x) mode u, n)
  | YRef m x => (TRef (Defined m x []), n)
  | YApply x t => let (u, n) := read_ty t n in (TRef (Defined None x [u]), n)
  | YField c fs => (TField (Defined None c []) (map snd fs), n)
  | YWith t _ => read_ty t n
  end
with read_comp (c : comp) (n : Z) : component * Z :=
  match c with
  | CNamed x t p => let (u, n) := read_ty t n in (Comp x u (is_optional p) (default_of p) None, n)
  | CAnonymous t p => let (u, n) := read_ty t n in (Comp (anon_name n) u (is_optional p) (default_of p) None, (n + 1)%Z)
  | COf t => let (u, n) := read_ty t n in (Comp "" any_type false None (Some u), n)
  end.

(** * Assignments and modules *)
(** Parameters: T, or governor : reference. *)
Definition symbol (s : bool * string) : Lexer.token := if fst s then upper (snd s) else lower (snd s).
Inductive param := PPlain (x : string) | PGoverned (t : ty) (s : bool * string).
(** Fields of classes: &T, &T OPTIONAL; &v T, with UNIQUE or not. *)
Inductive field := FType (x : string) (optional : bool) | FValue (x : string) (t : ty) (unique : bool) (p : presence).
Inductive decl := DType (x : string) (ps : list param) (t : ty) | DValue (x : string) (t : ty) (v : val) | DClass (x : string) (fs : list field).
Definition param_tokens (p : param) : list Lexer.token := match p with PPlain x => [upper x] | PGoverned t s => ty_tokens t ++ [kw "COLON"; symbol s] end.
Definition field_tokens (f : field) : list Lexer.token :=
  match f with
  | FType x o => field_token (true, x) :: if o then [kw "OPTIONAL"] else []
  | FValue x t u p => field_token (false, x) :: ty_tokens t ++ (if u then [kw "UNIQUE"] else []) ++ presence_tokens p
  end.
Definition decl_tokens (d : decl) : list Lexer.token :=
  match d with
  | DType x ps t => upper x :: (if nonempty ps then braces (commas (map param_tokens ps)) else []) ++ kw "DEFINED_AS" :: ty_tokens t
  | DValue x t v => lower x :: ty_tokens t ++ kw "DEFINED_AS" :: val_tokens v
  | DClass x fs => upper x :: kw "DEFINED_AS" :: kw "CLASS" :: braces (commas (map field_tokens fs))
  end.
(** Governors are no parameterized types. *)
Fixpoint plain (t : ty) : bool := match t with YApply _ _ => false | YWith t _ => plain t | _ => true end.
Definition wf_param (p : param) : bool := match p with PPlain _ => true | PGoverned t _ => wf_ty t && plain t end.
Definition wf_field (f : field) : bool := match f with FType _ _ => true | FValue _ t _ _ => wf_ty t end.
Definition wf_decl (d : decl) : bool :=
  match d with
  | DType _ ps t => forallb wf_param ps && wf_ty t
  | DValue _ t v => wf_ty t && wf_val v
  | DClass _ fs => nonempty fs && forallb wf_field fs
  end.
Definition read_param (p : param) (n : Z) : parameter * Z :=
  match p with PPlain x => (Param None x, n) | PGoverned t s => let (u, n) := read_ty t n in (Param (Some u) (snd s), n) end.
Definition read_field (f : field) (n : Z) : class_field * Z :=
  match f with FType x _ => (ClassField x None, n) | FValue x t _ _ => let (u, n) := read_ty t n in (ClassField x (Some u), n) end.
Definition read_decl (d : decl) (n : Z) : assignment * Z :=
  match d with
  | DType x ps t => let (l, n) := thread read_param ps n in let (u, n) := read_ty t n in (Assign x (AType u) l, n)
  | DValue x t v => let (u, n) := read_ty t n in (Assign x (AValue u (read_val v)) [], n)
  | DClass x fs => let (l, n) := thread read_field fs n in (Assign x (AClass l) [], n)
  end.
(** Object identifiers: { iso standard(0) 1 }. *)
Inductive arc := ArcName (x : string) | ArcNumber (n : Z) | ArcBoth (x : string) (n : Z).
Definition arc_tokens (a : arc) : list Lexer.token := match a with ArcName x => [lower x] | ArcNumber n => [num n] | ArcBoth x n => numbered_name (x, n) end.
Definition wf_arc (a : arc) : bool := match a with ArcName _ => true | ArcNumber n | ArcBoth _ n => (0 <=? n)%Z end.
Definition oid_tokens (l : list arc) : list Lexer.token := if nonempty l then braces (flat_map arc_tokens l) else [].
(** Modules: Name { oid } DEFINITIONS IMPLICIT TAGS EXTENSIBILITY IMPLIED ::= BEGIN EXPORTS a, B; IMPORTS a, B FROM M { oid } ...; assignments END *)
Record source := Source {
  s_name : string; s_oid : list arc; s_tags : option tagging; s_implied : bool;
  s_exports : option (option (list (bool * string)));
  s_imports : option (list (list (bool * string) * string * list arc));
  s_decls : list decl }.
Definition symbols (l : list (bool * string)) : list Lexer.token := commas (map (fun s => [symbol s]) l).
Definition import_tokens (i : list (bool * string) * string * list arc) : list Lexer.token :=
  let '(l, m, oid) := i in symbols l ++ kw "FROM" :: upper m :: oid_tokens oid.
Definition source_tokens (m : source) : list Lexer.token :=
  upper (s_name m) :: oid_tokens (s_oid m) ++ kw "DEFINITIONS" ::
  match s_tags m with Some Explicit => [kw "EXPLICIT"; kw "TAGS"] | Some Implicit => [kw "IMPLICIT"; kw "TAGS"] | Some Automatic => [kw "AUTOMATIC"; kw "TAGS"] | None => [] end ++
  (if s_implied m then [kw "EXTENSIBILITY"; kw "IMPLIED"] else []) ++
  kw "DEFINED_AS" :: kw "BEGIN" ::
  match s_exports m with None => [] | Some None => [kw "EXPORTS"; kw "ALL"; kw "SEMICOLON"] | Some (Some l) => kw "EXPORTS" :: symbols l ++ [kw "SEMICOLON"] end ++
  match s_imports m with None => [] | Some l => kw "IMPORTS" :: flat_map import_tokens l ++ [kw "SEMICOLON"] end ++
  flat_map decl_tokens (s_decls m) ++ [kw "END"].
Definition starts_upper (s : string) : bool :=
  match s with EmptyString => false | String c _ => existsb (Ascii.eqb c) (list_ascii_of_string "ABCDEFGHIJKLMNOPQRSTUVWXYZ") end.
(** Imports and exports need assignments behind them.  Whether an imported name is a type is told from its first letter. *)
Definition wf_import (i : list (bool * string) * string * list arc) : bool :=
  let '(l, _, oid) := i in nonempty l && forallb (fun s => Bool.eqb (starts_upper (snd s)) (fst s)) l && forallb wf_arc oid.
Definition wf_source (m : source) : bool :=
  forallb wf_arc (s_oid m) && match s_imports m with Some l => forallb wf_import l | None => true end && forallb wf_decl (s_decls m) &&
  (nonempty (s_decls m) || match s_exports m, s_imports m with None, None => true | _, _ => false end).
Definition read_import (i : list (bool * string) * string * list arc) : import :=
  let '(l, m, _) := i in Import m (map snd (filter fst l)) (map snd (filter (fun s => negb (fst s)) l)).
(** The assignments come out in reverse. *)
Definition read_source (m : source) (n : Z) : module * Z :=
  let (l, n) := thread read_decl (s_decls m) n in
  (Module (s_name m) (match s_tags m with Some t => t | None => Explicit end)
    (match s_imports m with Some l => map read_import l | None => [] end) (rev l), n).
