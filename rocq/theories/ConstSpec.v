(** The values that are written in a module: of constants ("x INTEGER ::= 5") and behind DEFAULT (X.680), in the notation of
    ParserSource.v.  Nothing of the parser or of the model of the compiler is used; for the values see CppValues.v. *)
From Coq Require Import List String ZArith Bool.
From Verif Require Import Base Schema CppSpec CppValues ParserTree ParserSource ElabSpec.
From Verif Require DecimalSpec.
Import ListNotations.
Local Open Scope string_scope.
Local Open Scope list_scope.
Local Open Scope Z_scope.

(** The types of values: INTEGER, REAL, BOOLEAN, character strings, OBJECT IDENTIFIER; and an ENUMERATED type that has a name. *)
Inductive kind := Number | Floating | Truth | Characters | Oid | Item (x : string) (items : list string).
(** [governs s t k]: values of the type [t] in module [s] are of this kind.  References: one, to a type of the module that is defined
    without a further one (C128_reference_refuted, C128_import_refuted). *)
Inductive governs_directly : ParserSource.ty -> kind -> Prop :=
| gd_integer names : governs_directly (YInteger names) Number
| gd_real : governs_directly (YSimple Real) Floating
| gd_boolean : governs_directly (YSimple Boolean) Truth
| gd_string c : governs_directly (YSimple (CharString c)) Characters
| gd_oid : governs_directly (YSimple ObjectIdentifier) Oid
| gd_with t c k : governs_directly t k -> governs_directly (YWith t c) k.
Inductive governs (s : source) : ParserSource.ty -> kind -> Prop :=
| g_directly t k : governs_directly t k -> governs s t k
| g_reference x t k : In (DType x [] t) (s_decls s) -> governs_directly t k -> governs s (YRef None x) k
| g_item x root more : In (DType x [] (YEnumerated root more)) (s_decls s) -> governs s (YRef None x) (Item x (map fst (root ++ additions more)))
| g_with t c k : governs s t k -> governs s (YWith t c) k.

(** "text": without quotation marks and line breaks in it; nor backslashes and zeros, of which C++ makes something else (C71). *)
Definition written_text (u l : list Z) : Prop := u = 34 :: l ++ [34] /\ Forall (fun c => 0 < c < 256 /\ c <> 34 /\ c <> 92 /\ c <> 10) l.
(** 5 and name(5) in an object identifier. *)
Definition arc_number (v : val) (n : Z) : Prop := 0 <= n < 2^63 /\ (v = WInt n \/ exists x, v = WNamed x n).
(** 1.25: digits, a point, and at most six digits, which stand for the nearest double. *)
Definition written_real (u : list Z) (d : list Z) : Prop :=
  exists ip fp, u = ip ++ 46 :: fp /\ DecimalSpec.digits ip /\ DecimalSpec.digits fp /\ ip <> [] /\ zlen fp <= 6 /\ DecimalSpec.nearest_double false (DecimalSpec.number_of (ip ++ fp)) (- zlen fp) d.
(** [stands s v k c]: in module [s] the value [v] of the kind [k] is [c]; a reference stands for the value of a constant of that kind. *)
Inductive stands (s : source) : val -> kind -> cval -> Prop :=
| s_number n : - 2^63 < n < 2^63 -> stands s (WInt n) Number (CInt n)
| s_real u d : written_real u d -> stands s (WReal u) Floating (CReal d)
| s_whole n d : - 2^63 < n < 2^63 -> DecimalSpec.nearest_double (n <? 0) (Z.abs n) 0 d -> stands s (WInt n) Floating (CReal d)
| s_text u l : written_text u l -> stands s (WText u) Characters (CText l)
| s_oid l ns : Forall2 arc_number l ns -> stands s (WList l) Oid (COid ns)
| s_reference y t v k c : (k = Number \/ k = Floating \/ k = Characters) -> In (DValue y t v) (s_decls s) -> governs s t k -> stands s v k c -> stands s (WRef y) k c.
(** The same for what stands behind DEFAULT. *)
Inductive default_stands (s : source) : single -> kind -> cval -> Prop :=
| d_number n : - 2^63 < n < 2^63 -> default_stands s (SInt n) Number (CInt n)
| d_real u d : written_real u d -> default_stands s (SReal u) Floating (CReal d)
| d_whole n d : - 2^63 < n < 2^63 -> DecimalSpec.nearest_double (n <? 0) (Z.abs n) 0 d -> default_stands s (SInt n) Floating (CReal d)
| d_truth b : default_stands s (SBoolean b) Truth (CBool b)
| d_text u l : written_text u l -> default_stands s (SText u) Characters (CText l)
| d_item x items y : In y items -> default_stands s (SRef y) (Item x items) (CItem (x ++ "Values")%string y)
| d_reference y t v k c : (k = Number \/ k = Floating \/ k = Characters) -> In (DValue y t v) (s_decls s) -> governs s t k -> stands s v k c -> default_stands s (SRef y) k c.
(** The name that such a value needs in the generated struct. *)
Definition name_needed (v : single) (k : kind) : option string :=
  match v, k with SRef _, Item x _ => Some (x ++ "Values")%string | SRef y, _ => Some y | _, _ => None end.

(** ** A condition on the modules *)
(** Only a SET that is a definition by itself has defaults that are names (C57_nested_set_refuted: elsewhere the order of the generated
    declarations does not respect them). *)
Definition names_value (p : presence) : bool := match p with Default (SRef _) => true | _ => false end.
Fixpoint quiet (t : ParserSource.ty) : bool :=
  let component set (c : ParserSource.comp) := match c with CNamed _ t p | CAnonymous t p => quiet t && negb (set && names_value p) | COf _ => true end in
  match t with
  | YRecord set root more => forallb (component set) root && match more with
      | None => true
      | Some (l, None) => forallb (component set) l
      | Some (l, Some l2) => forallb (component set) l && forallb (component set) l2
      end
  | YChoice root more => forallb (fun e => quiet (snd e)) root && match more with Some l => forallb (fun e => quiet (snd e)) l | None => true end
  | YListOf _ _ _ t | YTagged _ _ _ t | YWith t _ | YApply _ t => quiet t
  | YSimple _ | YBits _ | YInteger _ | YEnumerated _ _ | YRef _ _ | YField _ _ => true
  end.
Definition quiet_component (c : ParserSource.comp) : bool := match c with CNamed _ t _ | CAnonymous t _ => quiet t | COf _ => true end.
Definition quiet_decl (d : ParserSource.decl) : bool :=
  match d with
  | DType _ [] (YRecord _ root more) => forallb quiet_component (root ++ inserted more)
  | DType _ _ t | DValue _ t _ => quiet t
  | DClass _ _ => true
  end.
Definition quiet_sets (l : list source) : Prop := forall s d, In s l -> In d (s_decls s) -> quiet_decl d = true.
