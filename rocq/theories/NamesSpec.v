(** What ASN.1 (X.680) and C++ say about names, strings and literals.  Independent of the compiler model. *)
From Coq Require Export String Ascii.
From Verif Require Export Base.
Local Open Scope string_scope.
Local Open Scope Z_scope.

(** * Names *)
Definition code (c : ascii) : Z := Z.of_N (N_of_ascii c).
Definition letter (c : ascii) : Prop := 65 <= code c <= 90 \/ 97 <= code c <= 122.
Definition digit (c : ascii) : Prop := 48 <= code c <= 57.
(** X.680 12.2, 12.3: type references and identifiers are a letter followed by letters, digits and hyphens; a hyphen
    is not the last character and is not followed by another hyphen. *)
Inductive name_rest : string -> Prop :=
| nr_end : name_rest ""
| nr_char c s : letter c \/ digit c -> name_rest s -> name_rest (String c s)
| nr_hyphen c s : letter c \/ digit c -> name_rest s -> name_rest (String "-" (String c s)).
Definition asn1_name (s : string) : Prop := exists c r, s = String c r /\ letter c /\ name_rest r.
(** C++ [lex.name]. *)
Inductive ident_rest : string -> Prop :=
| ir_end : ident_rest ""
| ir_char c s : letter c \/ digit c \/ c = "_"%char -> ident_rest s -> ident_rest (String c s).
Definition cpp_identifier (s : string) : Prop :=
  exists c r, s = String c r /\ (letter c \/ c = "_"%char) /\ ident_rest r.
(** C++17 [lex.key], keywords and alternative representations. *)
Definition cpp_keywords : list string := [
  "alignas"; "alignof"; "asm"; "auto"; "bool"; "break"; "case"; "catch"; "char"; "char16_t"; "char32_t"; "class";
  "const"; "const_cast"; "constexpr"; "continue"; "decltype"; "default"; "delete"; "do"; "double"; "dynamic_cast";
  "else"; "enum"; "explicit"; "export"; "extern"; "false"; "float"; "for"; "friend"; "goto"; "if"; "inline"; "int";
  "long"; "mutable"; "namespace"; "new"; "noexcept"; "nullptr"; "operator"; "private"; "protected"; "public";
  "register"; "reinterpret_cast"; "return"; "short"; "signed"; "sizeof"; "static"; "static_assert"; "static_cast";
  "struct"; "switch"; "template"; "this"; "thread_local"; "throw"; "true"; "try"; "typedef"; "typeid"; "typename";
  "union"; "unsigned"; "using"; "virtual"; "void"; "volatile"; "wchar_t"; "while";
  "and"; "and_eq"; "bitand"; "bitor"; "compl"; "not"; "not_eq"; "or"; "or_eq"; "xor"; "xor_eq"].
(** Names of fast_ber's own types and functions that generated code uses: CompilerTypes.cpp lists them under the
    comment "fast_ber". *)
Definition library_names : list string := [
  "BMPString"; "BitString"; "Boolean"; "CharacterString"; "Choice"; "Date"; "DateTime"; "Duration"; "EmbeddedPDV";
  "Enumerated"; "External"; "GeneralString"; "GeneralizedTime"; "GraphicString"; "IA5String"; "IRI"; "ISO646String";
  "Id"; "Identifier"; "InstanceOf"; "Integer"; "Null"; "NumericString"; "ObjectIdentifier"; "OctetString"; "Optional";
  "Prefixed"; "PrintableString"; "Real"; "RelativeIRI"; "RelativeOID"; "Sequence"; "SequenceOf"; "Set"; "SetOf";
  "TaggedType"; "TeletexString"; "Time"; "TimeOfDay"; "UTCTime"; "UTF8String"; "UniversalString"; "VideotexString";
  "VisibleString"; "decode"; "encode"; "encoded_length"].

(** * Values *)
(** Hexadecimal digits. *)
Definition hex_char (c : ascii) : Prop := digit c \/ 65 <= code c <= 70 \/ 97 <= code c <= 102.
Definition nibble (c : ascii) : Z := if code c <=? 57 then code c - 48 else if code c <=? 70 then code c - 55 else code c - 87.
Fixpoint all_hex (s : string) : Prop := match s with String c s => hex_char c /\ all_hex s | _ => True end.
(** X.680 23.2 (hstring as OCTET STRING value): two digits an octet, most significant first; if there is an odd
    number of digits, a zero digit is added at the end. *)
Fixpoint hstring_octets (s : string) : list Z :=
  match s with
  | String a (String b s) => 16 * nibble a + nibble b :: hstring_octets s
  | String a _ => [16 * nibble a]
  | _ => []
  end.
(** X.680 12.14: a cstring is written between double quotes; two double quotes inside stand for one.  Here for
    strings on one line. *)
Definition is_quote (c : ascii) : bool := code c =? 34.
Fixpoint cstring_body (s : string) : option (list Z) :=
  match s with
  | String c s' =>
      if is_quote c then
        match s' with
        | "" => Some []
        | String d s'' => if is_quote d then option_map (cons 34) (cstring_body s'') else None
        end
      else if code c =? 10 then None else option_map (cons (code c)) (cstring_body s')
  | "" => None
  end.
Definition cstring_chars (s : string) : option (list Z) :=
  match s with String c s => if is_quote c then cstring_body s else None | "" => None end.

(** C++ [lex.string], [lex.ccon]: the characters denoted by a sequence of string literals (without the terminating
    zero).  One to three octal digits after a backslash are a character code.  Adjacent literals are concatenated.
    [None]: not a literal, or one whose meaning is implementation-defined (such as an 8 after a backslash), or one
    with hexadecimal or universal character escapes, which are not needed here. *)
Definition octal (c : ascii) : bool := (48 <=? code c) && (code c <=? 55).
Definition oval (c : ascii) : Z := code c - 48.
Definition chr (x : Z) (l : option (list Z)) : option (list Z) := if x <? 256 then option_map (cons x) l else None.
Definition simple_escape (c : ascii) : option Z :=
  let n := code c in
  if (n =? 34) || (n =? 39) || (n =? 63) || (n =? 92) then Some n
  else if n =? 97 then Some 7 else if n =? 98 then Some 8 else if n =? 102 then Some 12 else if n =? 110 then Some 10
  else if n =? 114 then Some 13 else if n =? 116 then Some 9 else if n =? 118 then Some 11 else None.
Fixpoint literal_body (s : string) : option (list Z) :=
  match s with
  | "" => None
  | String c s =>
      if is_quote c then
        match s with
        | "" => Some []
        | String d s => if is_quote d then literal_body s else None
        end
      else if code c =? 92 then
        match s with
        | "" => None
        | String d s1 =>
            if octal d then
              match s1 with
              | String e s2 =>
                  if octal e then
                    match s2 with
                    | String f s3 =>
                        if octal f then chr (64 * oval d + 8 * oval e + oval f) (literal_body s3)
                        else chr (8 * oval d + oval e) (literal_body s2)
                    | "" => None
                    end
                  else chr (oval d) (literal_body s1)
              | "" => None
              end
            else match simple_escape d with Some x => chr x (literal_body s1) | None => None end
        end
      else if code c =? 10 then None else chr (code c) (literal_body s)
  end.
Definition cpp_literal (s : string) : option (list Z) :=
  match s with String c s => if is_quote c then literal_body s else None | "" => None end.
(** absl::string_view(const char* s): the characters of [s] before the first zero (or the terminating zero). *)
Fixpoint before_nul (l : list Z) : list Z :=
  match l with [] => [] | x :: l => if x =? 0 then [] else x :: before_nul l end.
(** The C++ expression [e] is absl::string_view(literal) and denotes the octets [l]. *)
Definition denotes_view (e : string) (l : list Z) : Prop :=
  exists lit x, e = "absl::string_view(" ++ lit ++ ")" /\ cpp_literal lit = Some x /\ before_nul x = l.

(** C++ [lex.icon]: a decimal literal (it does not begin with 0, which would make it octal, unless it is 0, and has to fit into the
    largest signed type), possibly negated, and its value. *)
Fixpoint digits_value (s : string) (acc : Z) : option Z :=
  match s with
  | "" => Some acc
  | String c s => if (48 <=? code c) && (code c <=? 57) then digits_value s (10 * acc + (code c - 48)) else None
  end.
Definition decimal_literal (s : string) (n : Z) : Prop :=
  digits_value s 0 = Some n /\ s <> "" /\ (forall r, s = String "0" r -> r = "") /\ n < 2^63.
Definition int_literal (s : string) (n : Z) : Prop :=
  decimal_literal s n \/ exists r, s = String "-" r /\ decimal_literal r (- n).
(** The C++ expression ObjectIdentifier<>{a, b, ...}. *)
Definition denotes_oid (e : string) (l : list Z) : Prop :=
  exists ls, e = "ObjectIdentifier<>{" ++ String.concat ", " ls ++ "}" /\ Forall2 int_literal ls l.
