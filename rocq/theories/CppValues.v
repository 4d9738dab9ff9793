(** The values of constants in generated headers, and of the default values of members: what the declarations of CppSpec.v mean to a C++
    compiler, continued.  As there, nothing depends on the ASN.1 compiler.  A header in which a name is declared twice is rejected by
    CppSpec.v and not considered here; names are identifiers. *)
From Coq Require Import List String ZArith Bool.
From Verif Require Import Base NamesSpec Schema CppSpec.
From Verif Require Spec DecimalSpec.
Import ListNotations.
Local Open Scope string_scope.
Local Open Scope list_scope.
Local Open Scope Z_scope.

(** Numbers, doubles (as their eight octets), truth values, characters, the numbers of an object identifier; an item of an enumeration. *)
Inductive cval := CInt (n : Z) | CReal (d : list Z) | CBool (b : bool) | CText (l : list Z) | COid (l : list Z) | CItem (enumeration item : string).
(** [literal t e c]: the expression [e], in which no name occurs, can be given to an object of the type [t], which is then [c].  A string
    literal is converted by absl::string_view(const char* ), which takes the characters before the first zero.  A
    floating-point literal (digits and a point, C++ [lex.fcon]) is the nearest double, and so is a whole number that is converted to double
    (both are up to the implementation, which may also choose the next double; compilers that follow IEEE 754 choose the nearest). *)
Definition characters_of (l : list Z) : string := string_of_list_ascii (map (fun c => Ascii.ascii_of_N (Z.to_N c)) l).
Inductive literal : string -> string -> cval -> Prop :=
| l_int e n : int_literal e n -> in_i64 n -> literal "int64_t" e (CInt n)
| l_true : literal "bool" "true" (CBool true)
| l_false : literal "bool" "false" (CBool false)
| l_view e l : denotes_view e l -> literal "absl::string_view" e (CText l)
| l_chars e l : cpp_literal e = Some l -> literal "absl::string_view" e (CText (before_nul l))
| l_oid e l : denotes_oid e l -> literal "ObjectIdentifier<>" e (COid l)
| l_floating e ip fp d : e = characters_of (ip ++ 46 :: fp) -> DecimalSpec.digits ip -> DecimalSpec.digits fp -> ip ++ fp <> [] ->
    DecimalSpec.nearest_double false (DecimalSpec.number_of (ip ++ fp)) (- zlen fp) d -> Spec.dbl_finite d -> literal "double" e (CReal d)
| l_whole e n d : int_literal e n -> in_i64 n -> DecimalSpec.nearest_double (n <? 0) (Z.abs n) 0 d -> literal "double" e (CReal d).
(** [constant ds x t c]: the declarations [ds] of a namespace, in this order, make [x] a constant of the type [t] with the value [c].  An
    initializer is a literal, or the name of a constant that is already there. *)
Inductive constant : list decl -> string -> string -> cval -> Prop :=
| k_literal before x t e u after c : literal t e c -> constant (before ++ DConst x (VPlain t) e u :: after) x t c
| k_name before x t y u after c : constant before y t c -> constant (before ++ DConst x (VPlain t) y u :: after) x t c.

Definition declared (d : decl) : string :=
  match d with DEnum x _ | DUsing x _ | DAlias x _ | DDefault x _ _ _ | DStruct x _ _ _ | DChoice x _ _ _ | DConst x _ _ _ | DImport x _ => x end.
(** The names that hide those of the namespace inside get_value() of the struct [d] in the struct [x] ([basic.lookup.unqual]: all names
    of the two structs, and those of the structs themselves). *)
Definition hiding (x d : string) (body : list decl) (members : list (ckind * string * string * string)) : list string :=
  "get_value" :: d :: x :: map declared body ++ map snd members ++ struct_names.
(** [returns before hidden t e c]: get_value(), of the type [t], whose body is "return e;", returns [c]; [before]: the declarations of the
    namespace up to the struct. *)
Definition returns (before : list decl) (hidden : list string) (t : vexp) (e : string) (c : cval) : Prop :=
  match t with
  | VPlain t => literal t e c \/ (~ In e hidden /\ constant before e t c)
  | VEnum v => exists item items, e = (v ++ "::" ++ item)%string /\ ~ In v hidden /\ In (DEnum v items) before /\ In item (map fst items) /\ c = CItem v item
  end.
(** [member_default ds x f c]: in the namespace with the declarations [ds] the struct [x] has a member [f] whose default value is [c]. *)
Definition member_default (ds : list decl) (x f : string) (c : cval) : Prop :=
  exists before body members i after T D t e u,
    ds = before ++ DStruct x body members i :: after /\ In (Def, T, D, f) members /\ In (DDefault D t e u) body /\
    returns before (hiding x D body members) t e c.
(** No name of the struct [x] hides [z] where the default value of its member [f] is given. *)
Definition unhidden (ds : list decl) (x f z : string) : Prop :=
  forall body members i T D, In (DStruct x body members i) ds -> In (Def, T, D, f) members -> ~ In z (hiding x D body members).
