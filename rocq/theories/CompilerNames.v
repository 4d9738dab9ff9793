(** Model of how the compiler turns ASN.1 names and values into C++ text.
    /repo/src/compiler/CompilerTypes.cpp 22-183 (reserved_keywords, santize_name) and
    /repo/src/compiler/ValueAsString.cpp (cpp_value, value_as_string), with the value types of
    /repo/src/compiler/include/fast_ber/compiler/CompilerTypes.hpp 466-471, 683-725.
    Strings are Coq strings of 8 bit characters. *)
From Coq Require Export String Ascii.
From Verif Require Export Base.
Local Open Scope string_scope.
Local Open Scope Z_scope.

(** CompilerTypes.cpp 22-170 reserved_keywords.  There is no comma after "xor_eq" (line 121), so that literal and
    the next one, "BMPString", are one element. *)
Definition reserved_keywords : list string := [
  "alignas"; "alignof"; "and"; "and_eq"; "asm"; "atomic_cancel"; "atomic_commit"; "atomic_noexcept"; "auto";
  "bitand"; "bitor"; "bool"; "break"; "case"; "catch"; "char"; "char8_t"; "char16_t"; "char32_t"; "class"; "compl";
  "concept"; "const"; "consteval"; "constexpr"; "const_cast"; "continue"; "co_await"; "co_return"; "co_yield";
  "decltype"; "default"; "delete"; "do"; "double"; "dynamic_cast"; "else"; "enum"; "explicit"; "export"; "extern";
  "false"; "float"; "for"; "friend"; "goto"; "if"; "import"; "inline"; "int"; "long"; "module"; "mutable";
  "namespace"; "new"; "noexcept"; "not"; "not_eq"; "nullptr"; "operator"; "or"; "or_eq"; "private"; "protected";
  "public"; "reflexpr"; "register"; "reinterpret_cast"; "requires"; "return"; "short"; "signed"; "sizeof"; "static";
  "static_assert"; "static_cast"; "struct"; "switch"; "synchronized"; "template"; "this"; "thread_local"; "throw";
  "true"; "try"; "typedef"; "typeid"; "typename"; "union"; "unsigned"; "using"; "virtual"; "void"; "volatile";
  "wchar_t"; "while"; "xor"; "xor_eqBMPString"; "BitString"; "Boolean"; "CharacterString"; "Choice"; "Date";
  "DateTime"; "Duration"; "EmbeddedPDV"; "Enumerated"; "External"; "GeneralString"; "GeneralizedTime";
  "GraphicString"; "IA5String"; "IRI"; "ISO646String"; "Id"; "Identifier"; "InstanceOf"; "Integer"; "Null";
  "NumericString"; "ObjectIdentifier"; "OctetString"; "Optional"; "Prefixed"; "PrintableString"; "Real";
  "RelativeIRI"; "RelativeOID"; "Sequence"; "SequenceOf"; "Set"; "SetOf"; "TaggedType"; "TeletexString"; "Time";
  "TimeOfDay"; "UTCTime"; "UTF8String"; "UniversalString"; "VideotexString"; "VisibleString"; "decode"; "encode";
  "encoded_length"].

(** std::replace(copy.begin(), copy.end(), '-', '_') (CompilerTypes.cpp 176). *)
Fixpoint hyphen_to_underscore (s : string) : string :=
  match s with
  | EmptyString => EmptyString
  | String c s => String (if Ascii.eqb c "-" then "_"%char else c) (hyphen_to_underscore s)
  end.

(** reserved_keywords.count(copy) > 0. *)
Definition reserved (s : string) : bool := existsb (String.eqb s) reserved_keywords.

(** CompilerTypes.cpp 173-183. *)
Definition santize_name (name : string) : string :=
  let copy := hyphen_to_underscore name in
  if reserved copy then copy ++ "_" else copy.

(** std::stoi(_, nullptr, 16) on hexadecimal digits (the lexer, asn_compiler.yacc 1940, accepts no other characters). *)
Definition hex_digit (c : ascii) : Z :=
  let n := Z.of_N (N_of_ascii c) in
  if n <? 58 then n - 48 else if n <? 71 then n - 55 else n - 87.

(** std::to_string of an integer: decimal, no leading zeros. *)
Definition digit_char (d : Z) : ascii := ascii_of_N (Z.to_N (48 + d)).
Fixpoint decimal (fuel : nat) (n : Z) (acc : string) : string :=
  match fuel with
  | O => acc
  | S fuel => let acc := String (digit_char (n mod 10)) acc in if n <? 10 then acc else decimal fuel (n / 10) acc
  end.
Definition to_string (n : Z) : string :=
  if n <? 0 then String "-" (decimal 20 (- n) "") else decimal 20 n "".

(** ValueAsString.cpp 19-24, the loop over pairs of digits.  The leftover case of one digit does not occur. *)
Fixpoint hex_pairs (s : string) : string :=
  match s with
  | String a (String b s) => "\" ++ to_string (16 * hex_digit a + hex_digit b) ++ hex_pairs s
  | _ => ""
  end.

(** The double quote character. *)
Definition quote : string := String (ascii_of_nat 34) "".

(** ValueAsString.cpp 5-26 cpp_value. *)
Definition cpp_hex (hex : string) : string :=
  quote ++ match hex with
           | String a s => if Nat.odd (String.length hex) then "\" ++ to_string (hex_digit a) ++ hex_pairs s else hex_pairs hex
           | "" => ""
           end ++ quote.

(** CompilerTypes.hpp 466-471 Value.  NULL, time and real values, which value_as_string rejects or prints with
    std::to_string(double), are not in it (for real values, see RealText.v). *)
Inductive value : Type :=
| VList (l : list value) | VInt (n : Z) | VStr (s : string) | VNamed (name : string) (n : Z)
| VBits (s : string) | VHex (s : string) | VChars (s : string) | VDefined (ref : string) | VBool (b : bool).

(** ObjectIdComponents(const Value&), CompilerTypes.hpp 691-722: the number of each component if it has one;
    [None]: the constructor throws. *)
Fixpoint oid_components (l : list value) : option (list (option Z)) :=
  match l with
  | [] => Some []
  | v :: l =>
      match oid_components l, v with
      | Some r, (VDefined _ | VStr _) => Some (None :: r)
      | Some r, (VInt n | VNamed _ n) => Some (Some n :: r)
      | _, _ => None
      end
  end.
Definition comp_value (c : option Z) : string := to_string (match c with Some n => n | None => 0 end).
Fixpoint comma_list (l : list string) : string :=
  match l with [] => "" | [s] => s | s :: l => s ++ ", " ++ comma_list l end.

(** The type a value is assigned to, as far as value_as_string looks at it. *)
Inductive value_kind : Type := ForOid | ForBitString | ForEnumerated (name : string) | ForOther.

(** ValueAsString.cpp 28-129 value_as_string.  [None]: it throws.  For an object identifier that cannot be
    interpreted a warning is printed and the empty string returned (56-60). *)
Definition value_as_string (k : value_kind) (v : value) : option string :=
  match k, v with
  | ForOid, VList l =>
      match oid_components l with
      | Some cs => Some ("ObjectIdentifier<>{" ++ comma_list (map comp_value cs) ++ "}")
      | None => Some ""
      end
  | ForOid, _ => Some ""
  | ForBitString, _ => Some (quote ++ quote)
  | ForEnumerated name, VDefined ref => Some (name ++ "Values::" ++ ref)
  | ForEnumerated _, _ => None
  | ForOther, VStr s => Some s
  | ForOther, VHex s => Some ("absl::string_view(" ++ cpp_hex s ++ ")")
  | ForOther, VChars s => Some ("absl::string_view(" ++ s ++ ")")
  | ForOther, VInt n => Some (to_string n)
  | ForOther, VDefined ref => Some ref
  | ForOther, VBool b => Some (if b then "true" else "false")
  | ForOther, (VList _ | VNamed _ _ | VBits _) => None
  end.
