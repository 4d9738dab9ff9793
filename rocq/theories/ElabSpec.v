(** What written types are (X.680), in terms of the abstract types of CompilerSpec.v.  Uses the notation of ParserSource.v; nothing of the
    parser or of the model of the compiler. *)
From Coq Require Import List String ZArith Bool.
From Verif Require Import Base Ident View Prims Schema ParserTree Compiler CompilerSpec ParserSource.
Import ListNotations.
Local Open Scope string_scope.
Local Open Scope list_scope.

(** X.680 8.6, Table 1: universal class tag assignments. *)
Definition x680_universal (k : simple) : option Z :=
  match k with
  | Boolean => Some 1 | BitString => Some 3 | OctetString => Some 4 | Null => Some 5 | ObjectIdentifier => Some 6
  | ObjectDescriptor => Some 7 | External | InstanceOf => Some 8 | Real => Some 9 | EmbeddedPDV => Some 11 | RelativeOID => Some 13
  | Time => Some 14 | UTCTime => Some 23 | GeneralizedTime => Some 24 | Date => Some 31 | TimeOfDay => Some 32 | DateTime => Some 33
  | Duration => Some 34 | IRI => Some 35 | RelativeIRI => Some 36
  | CharString utf8_string => Some 12 | CharString numeric_string => Some 18 | CharString printable_string => Some 19
  | CharString teletex_string | CharString t61_string => Some 20 | CharString videotex_string => Some 21 | CharString ia5_string => Some 22
  | CharString graphic_string => Some 25 | CharString visible_string | CharString iso646_string => Some 26
  | CharString general_string => Some 27 | CharString universal_string => Some 28 | CharString character_string => Some 29
  | CharString bmp_string => Some 30
  | Any | CharString unknown_string => None
  end.
(** The types that the library has a class for, by what objects hold (the classes of /repo/include/fast_ber/ber_types): one octet, nothing, up to 8 or 100 octets,
    a time, any octets. *)
Definition holds (k : simple) (c : lkind) : Prop :=
  match k with
  | Boolean => c = KBool
  | Null => c = KNull
  | Real => c = KSmall 100 []
  | UTCTime | GeneralizedTime => c = KTime
  | BitString | OctetString | ObjectIdentifier => c = KFixed []
  | CharString t61_string | CharString unknown_string => False
  | CharString _ => c = KFixed []
  | _ => False
  end.
Definition holds_integer : lkind := KSmall 8 [0].
Definition mode_word (t : tagging) : mode := match t with Explicit => explicit_ | Implicit => implicit_ | Automatic => automatic end.
Definition class_word (c : tag_class) : class :=
  match c with
  | ParserTree.universal => Ident.universal | ParserTree.application => Ident.application
  | ParserTree.context_specific => Ident.context_specific | ParserTree.private_ => Ident.private_
  end.
(** X.680 13.2: EXPLICIT TAGS if a module says nothing. *)
Definition default_tags (s : source) : mode := match s_tags s with Some t => mode_word t | None => explicit_ end.
(** The name [x] stands for a type in module [s]: it is defined there, or imported from module M and short for M.x. *)
Definition stands_for (s : source) (x : string) (t : ParserSource.ty) : Prop :=
  In (DType x [] t) (s_decls s) \/
  exists i names M oid, s_imports s = Some i /\ In (names, M, oid) i /\ In (true, x) names /\ t = YRef (Some M) x.
Definition in_module (s : source) (M : option string) : string := match M with Some M => M | None => s_name s end.
Definition additions {A} (more : option (list A)) : list A := match more with Some l => l | None => [] end.
(** Components behind the first dots: the additions, and those behind the second dots. *)
Definition inserted {A} (more : option (list A * option (list A))) : list A := match more with Some (l, Some l2) => l ++ l2 | Some (l, None) => l | None => [] end.
Definition presence_kind (p : presence) : ckind := match p with Required => Mand | Optional => Opt | Default _ => Def end.
(** [means l s t a]: in the modules [l], the type [t] written in module [s] is the type [a].  Constraints and names do not matter.
    Alternatives are numbered with the additions of a CHOICE in front (their order is of no consequence in X.680, except with
    AUTOMATIC TAGS).  A SEQUENCE or SET is extensible if it has dots or the module says EXTENSIBILITY IMPLIED.  A reference means what it
    stands for, in the module where that is written.  Not covered: COMPONENTS OF, parameters, fields of classes, types that refer to
    themselves, ANY and types without a class. *)
Inductive means (l : list source) : source -> ParserSource.ty -> aty -> Prop :=
| mn_simple s k c u : holds k c -> x680_universal k = Some u -> means l s (YSimple k) (APrim c u)
| mn_bits s names : means l s (YBits names) (APrim (KFixed []) 3)
| mn_integer s names : means l s (YInteger names) (APrim holds_integer 2)
| mn_enumerated s root more : means l s (YEnumerated root more) (APrim holds_integer 10)
| mn_choice s root more cs : means_alternatives l s (additions more ++ root) cs -> means l s (YChoice root more) (AChoice cs)
| mn_sequence s root more cs : means_components l s (root ++ inserted more) cs -> means l s (YRecord false root more) (ASeq cs)
| mn_set s root more cs ext : means_components l s (root ++ inserted more) cs ->
    (ext = true <-> more <> None \/ s_implied s = true) -> means l s (YRecord true root more) (ASet ext cs)
| mn_list s set size name t a : means l s t a -> means l s (YListOf set size name t) (ASeqOf set a)
| mn_tagged s c n kw t a : means l s t a -> means l s (YTagged c n kw t) (ATagged (mode_word kw) (class_word c) n a)
| mn_ref s M x s' t a : In s' l -> s_name s' = in_module s M -> stands_for s' x t -> means l s' t a ->
    means l s (YRef M x) (ADef (default_tags s') a)
| mn_constrained s t c a : means l s t a -> means l s (YWith t c) a
with means_alternatives (l : list source) : source -> list (string * ParserSource.ty) -> acomps -> Prop :=
| mn_no_alternative s : means_alternatives l s [] ANil
| mn_alternative s x t a rest cs : means l s t a -> means_alternatives l s rest cs -> means_alternatives l s ((x, t) :: rest) (ACons Mand a cs)
with means_components (l : list source) : source -> list ParserSource.comp -> acomps -> Prop :=
| mn_no_component s : means_components l s [] ANil
| mn_named s x t p a rest cs : means l s t a -> means_components l s rest cs -> means_components l s (CNamed x t p :: rest) (ACons (presence_kind p) a cs)
| mn_anonymous s t p a rest cs : means l s t a -> means_components l s rest cs -> means_components l s (CAnonymous t p :: rest) (ACons (presence_kind p) a cs).

(** ** Conditions on the modules *)
(** The names of a module: of its assignments and of the types it imports. *)
Definition decl_name (d : decl) : string := match d with DType x _ _ | DValue x _ _ | DClass x _ => x end.
Definition imported_names (s : source) : list string :=
  flat_map (fun i => map snd (filter fst (fst (fst i)))) (additions (s_imports s)).
Definition names_of (s : source) : list string := map decl_name (s_decls s) ++ imported_names s.
(** Modules have different names, and so have the assignments and imports of a module. *)
Definition well_named (l : list source) : Prop := NoDup (map s_name l) /\ forall s, In s l -> NoDup (names_of s).
(** Definitions "X ::= [n] Y", with one or more tags, without a module in front of Y. *)
Fixpoint is_reference (t : ParserSource.ty) : bool := match t with YRef None _ | YApply _ _ => true | YWith t _ => is_reference t | _ => false end.
Fixpoint is_tagged_reference (t : ParserSource.ty) : bool := match t with YTagged _ _ _ t => is_reference t || is_tagged_reference t | YWith t _ => is_tagged_reference t | _ => false end.
(** There is only one module, or no such definitions (C62_module_refuted). *)
Definition no_tagged_references (l : list source) : Prop :=
  length l = 1%nat \/ forall s x t, In s l -> In (DType x [] t) (s_decls s) -> is_tagged_reference t = false.
(** No module says EXTENSIBILITY IMPLIED (which the parser drops). *)
Definition none_implied (l : list source) : Prop := forall s, In s l -> s_implied s = false.
(** Numbers in tags are not negative and less than 2^31 (the parser cuts them to 32 bits). *)
Definition small_tags (m : mode) (t : aty) : Prop := match t with ATagged _ _ n _ => 0 <= n < 2^31 | _ => True end.
