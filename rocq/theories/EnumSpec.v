(** What C++ and X.680 say about enumerations.  Independent of the compiler model. *)
From Verif Require Export Base NamesSpec.
Local Open Scope string_scope.
Local Open Scope Z_scope.

(** the values of int, the underlying type of a scoped enumeration that names no other *)
Definition in_i32 (n : Z) : Prop := -(2^31) <= n < 2^31.

(** C++ [dcl.enum]: the lines between the braces of an enum class, one enumerator a line, and the enumerators'
    values: the value of the initializer, or one more than the enumerator before ([next]; zero for the first).  Every
    value has to be one of int. *)
Inductive cpp_enumerators : Z -> list string -> list (string * Z) -> Prop :=
| ce_nil next : cpp_enumerators next [] []
| ce_next next n ls vs : cpp_identifier n -> in_i32 next -> cpp_enumerators (next + 1) ls vs ->
    cpp_enumerators next ((n ++ ",") :: ls) ((n, next) :: vs)
| ce_init next n e v ls vs : cpp_identifier n -> int_literal e v -> in_i32 v -> cpp_enumerators (v + 1) ls vs ->
    cpp_enumerators next ((n ++ " = " ++ e ++ ",") :: ls) ((n, v) :: vs).

(** X.680 20.6: an item without a number gets the next non-negative integer, counting from 0, that is not the number of
    an item with one.  [used]: the numbers given; [k]: where to count from. *)
Inductive x680_numbers (used : list Z) : Z -> list (option Z) -> list Z -> Prop :=
| xn_nil k : x680_numbers used k [] []
| xn_given k n l vs : x680_numbers used k l vs -> x680_numbers used k (Some n :: l) (n :: vs)
| xn_next k m l vs : k <= m -> ~ In m used -> (forall j, k <= j < m -> In j used) -> x680_numbers used (m + 1) l vs ->
    x680_numbers used k (None :: l) (m :: vs).
Definition given (l : list (option Z)) : list Z := flat_map (fun o => match o with Some n => [n] | None => [] end) l.
Definition x680_enumeration (l : list (option Z)) (vs : list Z) : Prop := x680_numbers (given l) 0 l vs.

(** The head line and the lines between the braces of the definition of the scoped enumeration [name]. *)
Definition cpp_enum (def : string * list string) (name : string) (vs : list (string * Z)) : Prop :=
  fst def = "enum class " ++ name /\ cpp_enumerators 0 (snd def) vs /\ NoDup (map fst vs).

Definition dq : string := String (ascii_of_nat 34) "". (* the double quote *)
(** A line of a switch over enumerators of [scope]: the enumerator and the string returned (here an identifier, so that
    nothing in it is escaped). *)
Definition case_line (scope : string) (line : string) (p : string * string) : Prop :=
  line = "    case " ++ scope ++ "::" ++ fst p ++ ": return " ++ dq ++ snd p ++ dq ++ ";" /\ cpp_identifier (fst p) /\ cpp_identifier (snd p).
(** The switch with these lines and a default: it is well formed when its labels are enumerators with different values
    ([stmt.switch]), and then returns, for an enum with the value [v], the string [r]. *)
Definition cpp_switch (scope : string) (enums : list (string * Z)) (lines : list string) (f : Z -> string) : Prop :=
  exists cs dflt ls vs, lines = app cs ["default: return " ++ dq ++ dflt ++ dq ++ ";"] /\ Forall2 (case_line scope) cs ls /\ Forall2 (fun p v => In (fst p, v) enums) ls vs /\ NoDup vs /\
    (forall k p v, nth_error ls k = Some p -> nth_error vs k = Some v -> f v = snd p) /\ (forall v, ~ In v vs -> f v = dflt).
