(** Model of what the compiler writes for an ENUMERATED type:
    /repo/src/compiler/asn_compiler.yacc 1148-1176 (the grammar's actions), TypeAsString.cpp 396-412 (the enum class)
    and GenerateHelpers.cpp 110-141 (to_string).  Strings are Coq strings of 8 bit characters. *)
From Verif Require Export Base CompilerNames.
Local Open Scope string_scope.
Local Open Scope Z_scope.

(** CompilerTypes.hpp 57-61 EnumerationValue. *)
Record enum_value := EnumValue { ev_name : string; ev_value : option Z }.

(** asn_compiler.yacc 1152-1163 Enumerations: the items after the extension marker are put behind the others. *)
Definition enumerations (root additions : list enum_value) : list enum_value := (root ++ additions)%list.

(** TypeAsString.cpp 401-411: one line for each item. *)
Definition enum_line (v : enum_value) : string :=
  match ev_value v with
  | Some n => ev_name v ++ " = " ++ to_string n ++ ","
  | None => ev_name v ++ ","
  end.
(** TypeAsString.cpp 399-411: the head line and the lines between the braces that CodeScope writes. *)
Definition enum_class (name : string) (l : list enum_value) : string * list string :=
  ("enum class " ++ name ++ "Values", map enum_line l).

(** GenerateHelpers.cpp 113-126: the lines of the switch in to_string. *)
Definition to_string_cases (name : string) (l : list enum_value) : list string :=
  app (map (fun v => "    case " ++ (name ++ "Values") ++ "::" ++ ev_name v ++ ": return " ++ quote ++ ev_name v ++ quote ++ ";") l)
  ["default: return " ++ quote ++ "Invalid state!" ++ quote ++ ";"].
