(** A fragment of C++, as far as headers written by the compiler need it: names, scopes and the order of declarations.  This says what
    the declarations of such a header mean to a C++ compiler, and which it rejects; nothing here depends on the ASN.1 compiler.
    Objects of the library's classes are those of Schema.v.
    Limits: names that the library declares in namespace fast_ber are considered only if the headers mention them ([library_names]);
    whether templates can be instantiated is not considered, except for what is said below; nor is anything but the types and the
    functions encode, encoded_length and decode.  Every type has to be complete where it is mentioned (so recursive types are rejected). *)
From Coq Require Import List String ZArith Bool.
From Verif Require Import Base Ident Prims Schema Compiler.
Import ListNotations.
Local Open Scope string_scope.
Local Open Scope list_scope.

(** * Identifiers: Identifier.hpp, Class.hpp 44-50, Tag.hpp 11-47 *)
Inductive idexp :=
| IId (c : string) (n : Z)                       (* Id<ctx, 3> *)
| IExplicit (u : string)                         (* ExplicitId<UniversalTag::integer> *)
| IDouble (outer inner : idexp)                  (* DoubleId<outer, inner> *)
| IChoice (l : list idexp).                      (* ChoiceId<...> *)
Definition class_constant (c : string) : option class :=
  if String.eqb c "uni" then Some universal else if String.eqb c "app" then Some application
  else if String.eqb c "ctx" then Some context_specific else if String.eqb c "pri" then Some private_ else None.
Definition universal_tags : list (string * Z) :=
  [("reserved", 0); ("boolean", 1); ("integer", 2); ("bit_string", 3); ("octet_string", 4); ("null", 5); ("object_identifier", 6);
   ("object_descriptor", 7); ("instance_of", 8); ("external", 8); ("real", 9); ("enumerated", 10); ("embedded_pdv", 11); ("utf8_string", 12);
   ("relative_oid", 13); ("sequence", 16); ("sequence_of", 16); ("set", 17); ("set_of", 17); ("numeric_string", 18); ("printable_string", 19);
   ("teletex_string", 20); ("t161_string", 20); ("videotex_string", 21); ("ia5_string", 22); ("utc_time", 23); ("generalized_time", 24);
   ("graphic_string", 25); ("visible_string", 26); ("iso646_string", 26); ("general_string", 27); ("universal_string", 28);
   ("character_string", 29); ("bmp_string", 30)]%Z.
Definition assoc {A} (l : list (string * A)) (x : string) : option A := option_map snd (find (fun p => String.eqb (fst p) x) l).
Definition eval_single (i : idexp) : option (class * Z) :=
  match i with
  | IId c n => option_map (fun c => (c, n)) (class_constant c)
  | IExplicit u => option_map (fun n => (universal, n)) (assoc universal_tags u)
  | _ => None
  end.
(** The identifier; [Some None]: a ChoiceId. *)
Definition eval_id (i : idexp) : option (option ident) :=
  match i with
  | IDouble a b => match eval_single a, eval_single b with Some (c, n), Some (d, k) => Some (Some (DoubleId c n d k)) | _, _ => None end
  | IChoice l => if forallb (fun j => match eval_single j with Some _ => true | None => false end) l then Some None else None
  | _ => option_map (fun p => Some (Id (fst p) (snd p))) (eval_single i)
  end.
(** The names that are looked up. *)
Definition single_names (i : idexp) : list string := match i with IId c _ => ["Id"; c] | IExplicit _ => ["ExplicitId"; "UniversalTag"] | _ => [] end.
Definition id_names (i : idexp) : list string :=
  match i with IDouble a b => "DoubleId" :: single_names a ++ single_names b | IChoice l => "ChoiceId" :: flat_map single_names l | _ => single_names i end.

(** * Types and declarations *)
Inductive texp :=
| XLib (c : string) (i : idexp)                  (* ::fast_ber::Integer<i> *)
| XEnum (v : string) (i : idexp)                 (* ::fast_ber::Enumerated<v,i> *)
| XList (e : string) (i : idexp)                 (* SequenceOf<e, i, StorageMode::...> *)
| XRef (m x : string)                            (* ::fast_ber::m::x *)
| XLocal (x : string).                           (* x *)
Inductive vexp := VEnum (v : string) | VPlain (text : string).          (* the type of a constant *)
Inductive decl :=
| DEnum (x : string) (items : list (string * option Z))                 (* enum class x { ... }; *)
| DUsing (x : string) (e : texp)                                        (* using x = e; *)
| DAlias (x : string) (e : texp)                                        (* FAST_BER_ALIAS(x, e); *)
| DDefault (x : string) (t : vexp) (e : string) (uses : option string)  (* struct x { constexpr static t get_value() noexcept { return e; } }; *)
| DStruct (x : string) (body : list decl) (members : list (ckind * string * string * string)) (i : idexp)
| DChoice (x : string) (body : list decl) (alternatives : list string) (i : idexp)
| DConst (x : string) (t : vexp) (e : string) (uses : option string)    (* static constexpr t x = e; *)
| DImport (x m : string).                                               (* static const auto x = m::x; *)
(** [uses]: the enumeration that the value names; of the expressions [e], CppValues.v says more.  A member: how it is wrapped, its type, the name of its DefaultValue struct, its own
    name: "T x;", "Optional<T, StorageMode::...> x;", "Default<T, D> x;".  Behind the members of a struct come its functions and AsnId. *)

(** The functions of a struct: encode and encoded_length (per member: its name or number, and I of encode_with_id<I>, if it is that and
    not encode), and decode (also: what is done for a missing member, and the class and number tested for, if any). *)
Inductive fkind := FSeq | FSet (ext : bool) | FChoice.
Record func := Func { f_path : list string; f_kind : fkind; f_encode : list (string * option idexp);
                      f_decode : list (string * ckind * option (list (class * Z)) * option idexp) }.
Record program := Program { p_modules : list (string * list decl); p_functions : list func }.

(** * Scopes *)
Inductive entity := Type_ (t : ty) | Enum_ (path : list string) | Other_.
Definition scope := list (string * entity).
(** [e_done]: the namespaces inside fast_ber that came before; [e_module], [e_names]: the one that is open; [e_classes]: the classes that
    are open, innermost first. *)
Record env := Env { e_done : list (string * scope); e_module : string; e_names : scope; e_classes : list (string * scope) }.
(** Unqualified lookup: the innermost scope first.  [None]: a name of the library, or none at all.  A class that is open is not complete. *)
Fixpoint lookup_classes (l : list (string * scope)) (x : string) : option entity :=
  match l with
  | [] => None
  | (c, s) :: l => match assoc s x with Some e => Some e | None => if String.eqb c x then Some Other_ else lookup_classes l x end
  end.
Definition lookup (E : env) (x : string) : option entity :=
  match lookup_classes (e_classes E) x with Some e => Some e | None => assoc (e_names E) x end.
(** ::fast_ber::m::x *)
Definition namespace (E : env) (m : string) : option scope := if String.eqb m (e_module E) then Some (e_names E) else assoc (e_done E) m.
Definition lookup_in (E : env) (m x : string) : option entity := match namespace E m with Some s => assoc s x | None => None end.
(** The library's names, used without "::fast_ber::", must be visible. *)
Definition visible (E : env) (l : list string) : bool := forallb (fun x => match lookup E x with Some _ => false | None => true end) l.
(** Declaring a name: no other of that name in the same scope, and none with the name of the class.  A namespace may repeat that a name
    stands for an enumeration. *)
Definition same_enum (a b : entity) : bool := match a, b with Enum_ p, Enum_ q => if list_eq_dec string_dec p q then true else false | _, _ => false end.
Definition declare (x : string) (e : entity) (again : bool) (E : env) : option env :=
  match e_classes E with
  | (c, s) :: l =>
      if String.eqb c x then None
      else match assoc s x with Some _ => None | None => Some (Env (e_done E) (e_module E) (e_names E) ((c, (x, e) :: s) :: l)) end
  | [] =>
      match assoc (e_names E) x with
      | Some e' => if again && same_enum e e' then Some E else None
      | None => Some (Env (e_done E) (e_module E) ((x, e) :: e_names E) [])
      end
  end.
Definition path (E : env) : list string := e_module E :: rev (map fst (e_classes E)).

(** * The library: All.hpp and what it includes.  [None]: there is no such class. *)
Definition library_classes : list (string * lkind) :=
  [("BitString", KFixed []); ("Boolean", KBool); ("Date", KTime); ("DateTime", KTime); ("Duration", KTime); ("GeneralizedTime", KTime);
   ("Integer", KSmall 8 [0]); ("Null", KNull); ("ObjectIdentifier", KFixed []); ("OctetString", KFixed []); ("Real", KSmall 100 []);
   ("Time", KTime); ("TimeOfDay", KTime); ("UTCTime", KTime);
   ("BMPString", KFixed []); ("GeneralString", KFixed []); ("GraphicString", KFixed []); ("IA5String", KFixed []); ("ISO646String", KFixed []);
   ("NumericString", KFixed []); ("PrintableString", KFixed []); ("TeletexString", KFixed []); ("UniversalString", KFixed []);
   ("UTF8String", KFixed []); ("VideotexString", KFixed []); ("VisibleString", KFixed []); ("CharacterString", KFixed [])]%Z.
Definition library_names : list string :=
  ["Id"; "ExplicitId"; "DoubleId"; "ChoiceId"; "UniversalTag"; "uni"; "app"; "ctx"; "pri"; "SequenceOf"; "StorageMode"; "Optional"; "Default";
   "Choice"; "Choices"; "Enumerated"; "abbreviations"; "dynamic"; "EncodeResult"; "DecodeResult"; "BerView"] ++ map fst library_classes.
Definition struct_names : list string :=
  ["encoded_length_with_id"; "encode_with_id"; "decode_with_id"; "encoded_length"; "encode"; "decode"; "AsnId"].
Definition choice_names : list string :=
  ["Storage"; "Nothing_"; "ToTypeImpl"; "ToType"; "ExactlyOnce"; "AcceptedIndex"; "AcceptedType"; "emplace"; "index"] ++ struct_names ++ ["impl"; "m_storage"].

(** * Meaning *)
Definition eval_type (E : env) (e : texp) : option entity :=
  match e with
  | XLib c i =>
      if visible E (id_names i) then
        match assoc library_classes c, eval_id i with Some k, Some (Some d) => Some (Type_ (TLeaf k d)) | _, _ => None end
      else None
  | XEnum v i =>                                                        (* Enumerated.hpp 16: an Integer *)
      if visible E (id_names i) then
        match lookup E v, eval_id i with Some (Enum_ _), Some (Some d) => Some (Type_ (TLeaf (KSmall 8 [0%Z]) d)) | _, _ => None end
      else None
  | XList x i =>
      if visible E ("SequenceOf" :: "StorageMode" :: id_names i) then
        match lookup E x, eval_id i with Some (Type_ t), Some (Some d) => Some (Type_ (TSeqOf d t)) | _, _ => None end
      else None
  | XRef m x => lookup_in E m x
  | XLocal x => lookup E x
  end.
Definition enum_known (E : env) (v : string) : bool := match lookup E v with Some (Enum_ _) => true | _ => false end.
Definition vexp_ok (E : env) (t : vexp) (uses : option string) : bool :=
  match t with VEnum v => enum_known E v | VPlain _ => true end && match uses with Some v => enum_known E v | None => true end.
(** Declaring several names one after the other. *)
Fixpoint declare_all (l : list string) (E : env) : option env :=
  match l with [] => Some E | x :: l => match declare x Other_ false E with Some E => declare_all l E | None => None end end.
(** Members: their types, wrapped.  (A name used in a class has to mean the same where it is used and in the complete class,
    [basic.scope.class]: it is looked up there.) *)
Fixpoint members_of (E : env) (l : list (ckind * string * string * string)) : option (list (ckind * ty * string)) :=
  match l with
  | [] => Some []
  | (k, t, d, x) :: l =>
      let wrapper := match k with Mand => true | Opt => visible E ["Optional"; "StorageMode"] | Def => visible E ["Default"] && match lookup E d with Some Other_ => true | _ => false end end in
      if wrapper then
        match lookup E t with
        | Some (Type_ u) => option_map (cons (k, u, x)) (members_of E l)
        | _ => None
        end
      else None
  end.
Fixpoint alternatives_of (E : env) (l : list string) : option (list ty) :=
  match l with
  | [] => Some []
  | x :: l => match lookup E x with Some (Type_ u) => option_map (cons u) (alternatives_of E l) | _ => None end
  end.
Definition ckind_eqb (a b : ckind) : bool := match a, b with Mand, Mand | Opt, Opt | Def, Def => true | _, _ => false end.
Definition kind_matches (k : fkind) (a b : ckind) : bool := match k with FChoice => true | _ => ckind_eqb a b end.
(** encode_with_id<I> of a member: [None] if there is no such function or name. *)
Definition with_function (E : env) (o : option idexp) (t : ty) : option ty :=
  match o with
  | None => Some t
  | Some i =>
      if visible E (id_names i) then
        match t, eval_id i with
        | (TSeq _ _ | TSet _ _ _ | TChoice _ _ _), Some d => Some (with_id d t)
        | _, _ => None
        end
      else None
  end.
Definition opt_id_eq_dec (a b : option idexp) : {a = b} + {a <> b}.
Proof. assert (forall i j : idexp, {i = j} + {i <> j}). { fix F 1. decide equality; try apply string_dec; try apply Z.eq_dec. apply list_eq_dec, F. } decide equality. Defined.
(** The functions treat exactly the members, in their order, and encode and decode agree. *)
Fixpoint comps_of (E : env) (k : fkind) (ms : list (ckind * ty * string)) (enc : list (string * option idexp))
    (dec : list (string * ckind * option (list (class * Z)) * option idexp)) : option comps :=
  match ms, enc, dec with
  | [], [], [] => Some CNil
  | (c, t, x) :: ms, (y, o) :: enc, (z, c', ls, o') :: dec =>
      if String.eqb x y && String.eqb x z && kind_matches k c c' && (if opt_id_eq_dec o o' then true else false) then
        match with_function E o t, comps_of E k ms enc dec with
        | Some t', Some cs => Some (CCons c (match ls with Some l => l | None => type_ids t' end) t' cs)
        | _, _ => None
        end
      else None
  | _, _, _ => None
  end.
(** No function is defined twice. *)
Fixpoint distinct_paths (fs : list func) : bool :=
  match fs with [] => true | f :: fs => negb (existsb (fun g => if list_eq_dec string_dec (f_path f) (f_path g) then true else false) fs) && distinct_paths fs end.
Definition function_of (fs : list func) (p : list string) : option func := find (fun f => if list_eq_dec string_dec (f_path f) p then true else false) fs.
Definition struct_type (E : env) (fs : list func) (ms : list (ckind * ty * string)) (i : idexp) : option ty :=
  match function_of fs (path E) with
  | Some f =>
      if visible E (id_names i) then
        match comps_of E (f_kind f) ms (f_encode f) (f_decode f), f_kind f, eval_id i with
        | Some cs, FSeq, Some (Some d) => Some (TSeq d cs)
        | Some cs, FSet ext, Some (Some d) => Some (TSet d ext cs)
        | _, _, _ => None
        end
      else None
  | None => None
  end.
Definition choice_type (E : env) (fs : list func) (ts : list ty) (i : idexp) : option ty :=
  match function_of fs (path E) with
  | Some f =>
      if visible E ("Choices" :: "StorageMode" :: id_names i) && negb (Nat.eqb (length ts) 0) then     (* a variant has an alternative *)
        match comps_of E FChoice (combine (combine (repeat Mand (length ts)) ts) (map fst (f_encode f))) (f_encode f) (f_decode f), f_kind f, eval_id i with
        | Some cs, FChoice, Some d => Some (TChoice CGen d cs)
        | _, _, _ => None
        end
      else None
  | None => None
  end.
Definition open_class (x : string) (E : env) : env := Env (e_done E) (e_module E) (e_names E) ((x, []) :: e_classes E).

Definition run_all (run : decl -> env -> option env) : list decl -> env -> option env :=
  fix go l E := match l with [] => Some E | d :: l => match run d E with Some E => go l E | None => None end end.
(** What the declaration does, or [None]: the compiler reports an error. *)
Fixpoint run (fs : list func) (d : decl) (E : env) : option env :=
  match d with
  | DEnum x _ => declare x (Enum_ (path E ++ [x])) false E
  | DUsing x e => match eval_type E e with Some t => declare x t true E | None => None end
  | DAlias x e => match eval_type E e with Some (Type_ t) => declare x (Type_ t) false E | _ => None end
  | DDefault x t _ uses => if vexp_ok E t uses then declare x Other_ false E else None
  | DStruct x body ms i =>
      match run_all (run fs) body (open_class x E) with
      | Some E1 =>
          match declare_all (map snd ms ++ struct_names) E1 with
          | Some E2 =>
              match members_of E2 ms with
              | Some l => match struct_type E2 fs l i with Some t => declare x (Type_ t) false E | None => None end
              | None => None
              end
          | None => None
          end
      | None => None
      end
  | DChoice x body alts i =>
      match run_all (run fs) body (open_class x E) with
      | Some E1 =>
          match declare_all choice_names E1 with
          | Some E2 =>
              match alternatives_of E2 alts with
              | Some l => match choice_type E2 fs l i with Some t => declare x (Type_ t) false E | None => None end
              | None => None
              end
          | None => None
          end
      | None => None
      end
  | DConst x t _ uses => if vexp_ok E t uses then declare x Other_ false E else None
  | DImport x m => match lookup E m, lookup_in E m x with None, Some Other_ => declare x Other_ false E | _, _ => None end
  end.
(** All namespaces of a header. *)
Fixpoint run_modules (fs : list func) (l : list (string * list decl)) (finished : list (string * scope)) : option (list (string * scope)) :=
  match l with
  | [] => Some finished
  | (m, ds) :: l =>
      if existsb (String.eqb m) library_names then None
      else match assoc finished m with
           | Some _ => None
           | None =>
               match run_all (run fs) ds (Env finished m [] []) with
               | Some E => run_modules fs l ((m, e_names E) :: finished)
               | None => None
               end
           end
  end.
(** Functions are written outside their classes: the classes have to be there. *)
Fixpoint class_paths (p : list string) (d : decl) : list (list string) :=
  match d with
  | DStruct x body _ _ => (p ++ [x]) :: flat_map (class_paths (p ++ [x])) body
  | DChoice x body _ _ => (p ++ [x]) :: flat_map (class_paths (p ++ [x])) body
  | _ => []
  end.
Definition all_class_paths (p : program) : list (list string) := flat_map (fun m => flat_map (class_paths [fst m]) (snd m)) (p_modules p).
Definition functions_belong (p : program) : bool :=
  forallb (fun f => existsb (fun c => if list_eq_dec string_dec (f_path f) c then true else false) (all_class_paths p)) (p_functions p).
Definition compiles (p : program) : option (list (string * scope)) :=
  if distinct_paths (p_functions p) && functions_belong p then run_modules (p_functions p) (p_modules p) [] else None.
(** In a header that compiles, ::fast_ber::M::X is a class with this code. *)
Definition declares (p : program) (M X : string) (t : ty) : Prop :=
  exists S s, compiles p = Some S /\ assoc S M = Some s /\ assoc s X = Some (Type_ t).
