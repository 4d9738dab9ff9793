(** Model of the library's text output: every operator<< of /repo/include/fast_ber/ber_types, the operator<< the compiler
    generates (/repo/src/compiler/GenerateHelpers.cpp), and the ber_view tool (/repo/src/util/BerView.cpp,
    /repo/src/view/view.cpp).  Text is a list of octets; a stream only grows, so an operator<< is modelled by the text it
    appends.  (Simplification: streams do not fail, no locale or format flag is set, as in the tool; the C++ stack is
    unbounded.) *)
From Coq Require Import String Ascii.
From Verif Require Import Base Ident View Prims Schema Oid Time.
From Verif Require RealModel RealDecimal RealEq RealPrint.
Close Scope string_scope.

(** The octets of a string literal. *)
Definition txt (s : string) : list Z := map (fun c => Z.of_N (N_of_ascii c)) (list_ascii_of_string s).

(** What the platform adds.  [high_octet b]: std::isprint called with the negative char that octet b (128 or more) becomes
    (StringImpl.hpp 158; the C standard leaves all but EOF undefined).  [show_time]: how absl prints an absl::Time. *)
Record env := Env { high_octet : Z -> res bool; show_time : civil -> list Z }.

(** os << n for an integer type. *)
Definition show_int (n : Z) : list Z := if n <? 0 then 45 :: decimal 20 (- n) else decimal 20 n.

(** ** Strings: ber_types/StringImpl.hpp 155-166 *)
(** std::isprint in the C locale. *)
Definition is_print (e : env) (b : Z) : res bool := if b <? 128 then Ok ((32 <=? b) && (b <=? 126)) else high_octet e b.
(** 158: std::all_of, which stops at the first octet that is not printable. *)
Fixpoint all_print (e : env) (l : list Z) : res bool :=
  match l with
  | [] => Ok true
  | b :: l => let* p := is_print e b in if p then all_print e l else Ok false
  end.
Definition print_octets (e : env) (x : list Z) : res (list Z) :=
  let* p := all_print e x in Ok (if p then [34] ++ x ++ [34] else txt """binary data""").
(** 155-166: operator<<(ostream, StringImpl). *)
Definition print_string (e : env) (f : fixed) : res (list Z) := let* x := fixed_content f in print_octets e x.

(** ** Separators *)
(** The first flag of SequenceOf.hpp 147-158, GenerateHelpers.cpp 14-29 and BerView.cpp 110-121, and the index test of
    ObjectIdentifier.hpp 242-249: ", " between two items. *)
Fixpoint joined (l : list (list Z)) : list Z :=
  match l with
  | [] => []
  | [s] => s
  | s :: l => s ++ txt ", " ++ joined l
  end.

(** ** The other primitive types *)
(** ber_types/Boolean.hpp 144-152. *)
Definition print_bool (data : list Z) : list Z := if bool_value data then txt "true" else txt "false".
(** ber_types/Integer.hpp 195-199. *)
Definition print_integer (i : ident) (data : list Z) : res (list Z) := let* n := int_value i data in Ok (show_int n).
(** ber_types/Null.hpp 100-104. *)
Definition print_null : list Z := txt "null".
(** ber_types/ObjectIdentifier.hpp 237-252. *)
Definition print_oid (f : fixed) : res (list Z) := let* cs := oid_value f in Ok (txt "[" ++ joined (map show_int cs) ++ txt "]").
(** ber_types/GeneralizedTime.hpp 185-189; None: time() has thrown, nothing was printed. *)
Definition print_time (e : env) (f : fixed) : res (option (list Z)) :=
  let* t := time_value f in Ok (match t with Some t => Some (show_time e t) | None => None end).
(** GenerateHelpers.cpp 116-137 with ber_types/Enumerated.hpp 97-100: the name in quotes.  [items]: the enumerators, with
    their values (C90 is about these lines of the generator). *)
Definition enum_to_string (items : list (list Z * Z)) (n : Z) : list Z :=
  match find (fun p => snd p =? n) items with Some p => fst p | None => txt "Invalid state!" end.
Definition print_enum (items : list (list Z * Z)) (i : ident) (data : list Z) : res (list Z) :=
  let* n := enum_value 32 i data in Ok ([34] ++ enum_to_string items n ++ [34]).

(** ** Identifiers *)
(** ber_types/Class.hpp 27-42. *)
Definition class_text (c : class) : list Z :=
  match c with
  | universal => txt "Universal" | application => txt "Application"
  | context_specific => txt "Context Specific" | private_ => txt "Private"
  end.
(** ber_types/Tag.hpp 55-118. *)
Definition universal_text (t : Z) : list Z :=
  if t =? 0 then txt "Reserved" else if t =? 1 then txt "Boolean" else if t =? 2 then txt "Integer"
  else if t =? 3 then txt "Bit String" else if t =? 4 then txt "Octet String" else if t =? 5 then txt "Null"
  else if t =? 6 then txt "Object Identifier" else if t =? 7 then txt "Object Descriptor"
  else if t =? 8 then txt "Instance Of / External" else if t =? 9 then txt "Real" else if t =? 10 then txt "Enumerated"
  else if t =? 11 then txt "Embedded PDV" else if t =? 12 then txt "UTF8 String" else if t =? 13 then txt "Relative OID"
  else if t =? 16 then txt "Sequence / Sequence Of" else if t =? 17 then txt "Set / Set Of"
  else if t =? 18 then txt "Numeric String" else if t =? 19 then txt "Printable String"
  else if t =? 20 then txt "Teletex String / T161 String" else if t =? 21 then txt "Videotex String"
  else if t =? 22 then txt "IA5 String" else if t =? 23 then txt "UTC Time" else if t =? 24 then txt "Generalized Time"
  else if t =? 25 then txt "Graphic String" else if t =? 26 then txt "Visible String / ISO646 String"
  else if t =? 27 then txt "General String" else if t =? 28 then txt "Universal String"
  else if t =? 29 then txt "Character String" else if t =? 30 then txt "BMP String" else txt "Unknown Universal Tag".
(** ber_types/Identifier.hpp 150-158. *)
Definition print_identifier (i : class * Z) : list Z :=
  match fst i with
  | universal => txt "{ ""class"": """ ++ class_text (fst i) ++ txt """, ""tag"": """ ++ universal_text (snd i) ++ txt """ }"
  | _ => txt "{ ""class"": """ ++ class_text (fst i) ++ txt """, ""tag"": " ++ show_int (snd i) ++ txt " }"
  end.

(** ** ber_view *)
(** The constructor of the type from a view (Boolean.hpp 30, Integer.hpp 32, StringImpl.hpp 41, Null.hpp 24,
    ObjectIdentifier.hpp 32, GeneralizedTime.hpp 42): decode into a default constructed container; the result is ignored. *)
Definition of_view {A} (r : dec_result A) : res A := let* (_, a) := r in Ok a.
(** StringImpl.hpp 40: OctetString<>(span). *)
Definition octet_string_of (x : list Z) : res fixed :=
  let i := Id universal 4 in fixed_assign_content i (fixed_init i) x.
Definition print_content_octets (e : env) (v : view) : res (list Z) :=
  let* x := v_content v in let* f := octet_string_of x in print_string e f.
(** Tags whose case prints a StringImpl. *)
Definition string_tag (t : Z) : bool :=
  (t =? 3) || (t =? 4) || (t =? 12) || ((18 <=? t) && (t <=? 22)) || ((25 <=? t) && (t <=? 30)).
(** src/util/BerView.cpp 21-104: the switch for a primitive, universal view; 101-104: the handler for an exception (only
    GeneralizedTime's operator<< throws).  59-61: REAL prints nothing.  62-64: ENUMERATED is printed by Integer<>, whose
    identifier is INTEGER's. *)
Definition print_universal (e : env) (v : view) : res (list Z) :=
  let t := v_tag v in
  let i := Id universal t in
  if t =? 1 then let* d := of_view (bool_decode i (bool_init i) v) in Ok (print_bool d)
  else if (t =? 2) || (t =? 10) then
    let i := Id universal 2 in
    let* d := of_view (int_decode i (small_init i int_max) v) in print_integer i d
  else if string_tag t then let* f := of_view (fixed_decode i (fixed_init i) v) in print_string e f
  else if t =? 5 then let* _ := null_decode i v in Ok print_null
  else if t =? 6 then let* f := of_view (oid_decode i (fixed_init i) v) in print_oid f
  else if t =? 9 then Ok []
  else if (t =? 23) || (t =? 24) then
    let* f := of_view (time_decode i (fixed_init i) v) in
    let* s := print_time e f in
    match s with Some s => Ok s | None => print_content_octets e v end
  else print_content_octets e v.
(** src/util/BerView.cpp 109-121: the loop over the children.  [pv] prints one. *)
Fixpoint print_children (pv : view -> res (list Z)) (fuel : nat) (first : bool) (it : iter) : res (list Z) :=
  match fuel with
  | O => NoFuel
  | S fuel =>
      if it_at_end it then Ok []
      else let* s := pv (it_view it) in
           let* it' := it_next it in
           let* r := print_children pv fuel false it' in
           Ok ((if first then [] else txt ", ") ++ s ++ r)
  end.
(** src/util/BerView.cpp 6-125: operator<<(ostream, BerView). *)
Fixpoint print_view (e : env) (fuel : nat) (v : view) {struct fuel} : res (list Z) :=
  match fuel with
  | O => NoFuel
  | S fuel =>
      if negb (is_valid v) then Ok (txt "null")
      else
        let* i := v_identifier v in
        let* con := v_construction v in
        let* body :=
          match con with
          | primitive => if class_eqb (fst i) universal then print_universal e v else print_content_octets e v
          | constructed =>
              let* it := v_begin v in
              let* s := print_children (print_view e fuel) fuel true it in Ok (txt "[" ++ s ++ txt "]")
          end in
        Ok (txt "{ ""length"": " ++ show_int (v_ber_length v) ++ txt ", ""identifier"": " ++ print_identifier i ++
            txt ", ""content"": " ++ body ++ txt " }")
  end.
(** src/view/view.cpp 13-37: main, for a file that could be opened: the text on std::cout and the return value. *)
Definition ber_view (e : env) (fuel : nat) (file : list Z) : res (list Z * Z) :=
  let* v := v_make file in
  let* s := print_view e fuel v in
  Ok (s, if is_valid v then 0 else -1).

(** ** Generated objects *)
(** A type of generated code, with what its operator<< and operator== need beside [ty]: which library class a primitive
    type is, the names of the components, the default values.  (Not covered: ANY, EXTERNAL and the other library structures.) *)
Inductive pkind := PBool | PNull | PInt | PEnum (items : list (list Z * Z)) | PText | POid | PTime | PReal.
Inductive nty :=
| NLeaf (k : pkind) (i : ident)
| NList (i : ident) (t : nty)
| NSeq (i : ident) (fs : fields)
| NSet (i : ident) (ext : bool) (fs : fields)
| NChoice (g : gen) (o : option ident) (fs : fields)
with fields :=
| FNil
| FCons (name : list Z) (k : fkind) (ids : list (class * Z)) (t : nty) (fs : fields)
with fkind := FMand | FOpt | FDef (d : st).
Scheme nty_ind2 := Induction for nty Sort Prop with fields_ind2 := Induction for fields Sort Prop.
Combined Scheme nty_mutind from nty_ind2, fields_ind2.
(** The type as the encoder and decoder see it (Schema.v). *)
Definition erase_kind (k : pkind) : lkind :=
  match k with
  | PBool => KBool | PNull => KNull | PInt | PEnum _ => KSmall 8 [0] | PText | POid => KFixed [] | PTime => KTime | PReal => KSmall 100 []
  end.
Definition erase_fkind (k : fkind) : ckind := match k with FMand => Mand | FOpt => Opt | FDef _ => Def end.
Fixpoint erase (t : nty) : ty :=
  match t with
  | NLeaf k i => TLeaf (erase_kind k) i
  | NList i t => TSeqOf i (erase t)
  | NSeq i fs => TSeq i (erase_fields fs)
  | NSet i ext fs => TSet i ext (erase_fields fs)
  | NChoice g o fs => TChoice g o (erase_fields fs)
  end
with erase_fields (fs : fields) : comps :=
  match fs with FNil => CNil | FCons _ k ids t fs => CCons (erase_fkind k) ids (erase t) (erase_fields fs) end.

(** Printing: the text, or None when an exception leaves the operator (after part of the text was written). *)
Definition obind {A B} (m : res (option A)) (k : A -> res (option B)) : res (option B) :=
  let* a := m in match a with Some a => k a | None => Ok None end.
(** PReal: Real.hpp 643-647 (RealPrint.v).  The number of steps that value() is given is 0, as it does not matter: value() ends at once, or
    never (C86). *)
Definition print_leaf (e : env) (k : pkind) (i : ident) (l : lstate) : res (option (list Z)) :=
  match k, l with
  | PBool, LData d => Ok (Some (print_bool d))
  | PNull, LNull => Ok (Some print_null)
  | PInt, LData d => let* s := print_integer i d in Ok (Some s)
  | PEnum items, LData d => let* s := print_enum items i d in Ok (Some s)
  | PText, LFixed f => let* s := print_string e f in Ok (Some s)
  | POid, LFixed f => let* s := print_oid f in Ok (Some s)
  | PTime, LFixed f => print_time e f
  | PReal, LData d => let* s := RealPrint.print_real RealDecimal.decode_real_decimal 0 i d in Ok (Some s)
  | _, _ => UB
  end.
Fixpoint print_list (p : st -> res (option (list Z))) (l : list st) : res (option (list (list Z))) :=
  match l with
  | [] => Ok (Some [])
  | s :: l => obind (p s) (fun a => obind (print_list p l) (fun b => Ok (Some (a :: b))))
  end.
(** SequenceOf.hpp 144-160; GenerateHelpers.cpp 7-35 (SEQUENCE and SET); Choice.hpp 691-709 with GenerateChoice.cpp
    265-270 (CHOICE: the value alone); Optional.hpp 192-201; Default.hpp 183-187 (in [print_fields]). *)
Fixpoint print (e : env) (t : nty) (s : st) {struct t} : res (option (list Z)) :=
  match t, s with
  | NLeaf k i, SLeaf l => print_leaf e k i l
  | NList _ t, SList l => obind (print_list (print e t) l) (fun ss => Ok (Some (txt "[" ++ joined ss ++ txt "]")))
  | NSeq _ fs, SRec ms | NSet _ _ fs, SRec ms =>
      obind (print_fields e fs ms) (fun ss => Ok (Some (txt "{" ++ joined ss ++ txt "}")))
  | NChoice _ _ fs, SAlt n s => print_alt e fs n s
  | _, _ => UB
  end
with print_fields (e : env) (fs : fields) (ms : list (option st)) {struct fs} : res (option (list (list Z))) :=
  match fs, ms with
  | FNil, [] => Ok (Some [])
  | FCons name k _ t fs, m :: ms =>
      let one := match k, m with
                 | FMand, Some s | FOpt, Some s | FDef _, Some s => print e t s
                 | FOpt, None => Ok (Some (txt "null"))
                 | FDef d, None => print e t d
                 | FMand, None => UB
                 end in
      obind one (fun a => obind (print_fields e fs ms) (fun b => Ok (Some (([34] ++ name ++ txt """ : " ++ a) :: b))))
  | _, _ => UB
  end
with print_alt (e : env) (fs : fields) (n : nat) (s : st) {struct fs} : res (option (list Z)) :=
  match fs, n with
  | FCons _ _ _ t _, O => print e t s
  | FCons _ _ _ _ fs, S n => print_alt e fs n s
  | FNil, _ => UB
  end.

(** ** operator== *)
(** [None]: an exception leaves the operator.  Every operator== the compiler generates is noexcept
    (GenerateHelpers.cpp 41, GenerateChoice.cpp 249), as is SequenceOf's, so there std::terminate is called. *)
Definition civil_eqb (a b : civil) : bool :=
  (c_year a =? c_year b) && (c_month a =? c_month b) && (c_day a =? c_day b) && (c_hour a =? c_hour b) &&
  (c_min a =? c_min b) && (c_sec a =? c_sec b) && (c_ns a =? c_ns b).
Definition list_eqb (a b : list Z) : bool := if list_eq_dec Z.eq_dec a b then true else false.
(** Boolean.hpp 131-135; Null.hpp 43-47; Integer.hpp 42-46; Enumerated.hpp 37-41; StringImpl.hpp 137-141;
    ObjectIdentifier.hpp 223-228; GeneralizedTime.hpp 58-62 (the zone is not looked at); Real.hpp 597-627 (RealEq.v). *)
Definition leaf_equal (k : pkind) (i : ident) (a b : lstate) : res (option bool) :=
  match k, a, b with
  | PBool, LData d1, LData d2 => Ok (Some (Bool.eqb (bool_value d1) (bool_value d2)))
  | PNull, LNull, LNull => Ok (Some true)
  | PInt, LData d1, LData d2 => let* x := int_value i d1 in let* y := int_value i d2 in Ok (Some (x =? y))
  | PEnum _, LData d1, LData d2 => let* x := enum_value 32 i d1 in let* y := enum_value 32 i d2 in Ok (Some (x =? y))
  | PText, LFixed f, LFixed g | POid, LFixed f, LFixed g =>
      let* x := fixed_content f in let* y := fixed_content g in Ok (Some (list_eqb x y))
  | PTime, LFixed f, LFixed g =>
      obind (time_value f) (fun x => obind (time_value g) (fun y => Ok (Some (civil_eqb x y))))
  | PReal, LData a, LData b => let* same := RealEq.real_equal RealDecimal.decode_real_decimal 0 i a b in Ok (Some same)
  | _, _, _ => UB
  end.
(** a && b: b is not evaluated when a is false. *)
Definition oand (a b : res (option bool)) : res (option bool) :=
  obind a (fun x => if x then b else Ok (Some false)).
(** std::equal after the size test: SequenceOf.hpp 76-80. *)
Fixpoint equal_lists (eq : st -> st -> res (option bool)) (l m : list st) : res (option bool) :=
  match l, m with
  | [], [] => Ok (Some true)
  | a :: l, b :: m => oand (eq a b) (equal_lists eq l m)
  | _, _ => Ok (Some false)
  end.
(** GenerateHelpers.cpp 37-58 (SEQUENCE, SET: the members in order, stopping at the first difference);
    GenerateChoice.cpp 249-253 with Choice.hpp 468-473 and absl::variant's operator== (same index, then the values);
    Optional.hpp 215-219 with absl::optional's operator==; Default.hpp 201-205. *)
Fixpoint equal (t : nty) (a b : st) {struct t} : res (option bool) :=
  match t, a, b with
  | NLeaf k i, SLeaf a, SLeaf b => leaf_equal k i a b
  | NList _ t, SList l, SList m =>
      if Nat.eqb (List.length l) (List.length m) then equal_lists (equal t) l m else Ok (Some false)
  | NSeq _ fs, SRec l, SRec m | NSet _ _ fs, SRec l, SRec m => equal_fields fs l m
  | NChoice _ _ fs, SAlt n a, SAlt k b => if Nat.eqb n k then equal_alt fs n a b else Ok (Some false)
  | _, _, _ => UB
  end
with equal_fields (fs : fields) (l m : list (option st)) {struct fs} : res (option bool) :=
  match fs, l, m with
  | FNil, [], [] => Ok (Some true)
  | FCons _ k _ t fs, a :: l, b :: m =>
      let one := match k with
                 | FMand => match a, b with Some a, Some b => equal t a b | _, _ => UB end
                 | FOpt => match a, b with
                           | Some a, Some b => equal t a b | None, None => Ok (Some true) | _, _ => Ok (Some false)
                           end
                 | FDef d => equal t (default_get d a) (default_get d b)
                 end in
      oand one (equal_fields fs l m)
  | _, _, _ => UB
  end
with equal_alt (fs : fields) (n : nat) (a b : st) {struct fs} : res (option bool) :=
  match fs, n with
  | FCons _ _ _ t _, O => equal t a b
  | FCons _ _ _ _ fs, S n => equal_alt fs n a b
  | FNil, _ => UB
  end.
