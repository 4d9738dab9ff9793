(** Model of what the compiler does with a number that is written with a point: the lexer reads it with std::stod (asn_compiler.yacc 1933), and
    ValueAsString.cpp (120-124) writes it into the header with std::to_string.  (The tree of ParserTree.v keeps the text.)  Of the standard
    library, what C++ [string.conversions] says is modelled: strtod, that is the nearest double, and an exception if there is none or if the number
    is too small (glibc: if the result is below 2^-1022 and not exact; here the results below 2^-1022 that are exact are taken in, which need more
    than 1022 digits); and printf's %f, which rounds to six places (RealPrint.v). *)
From Coq Require Import List String Ascii ZArith Bool SpecFloat.
From Verif Require Import Base Lexer RealDecimal RealPrint.
Import ListNotations.
Local Open Scope list_scope.
Local Open Scope Z_scope.

Definition characters (s : string) : list Z := map (fun a => Z.of_N (N_of_ascii a)) (list_ascii_of_string s).
(** std::stod of digits, a point and digits; [None]: std::out_of_range. *)
Definition stod (t : list Z) : option spec_float :=
  match read_number t with
  | Some (neg, n, e) =>
      match round_decimal neg n e with
      | S754_finite s m x => if Zpos m <? 2^52 then None else Some (S754_finite s m x)
      | S754_zero s => if n =? 0 then Some (S754_zero s) else None
      | _ => None
      end
  | None => None
  end.
Fixpoint decimal_digits (fuel : nat) (q : Z) : list Z :=
  match fuel with O => [] | S fuel => if q <? 10 then [48 + q] else decimal_digits fuel (q / 10) ++ [48 + q mod 10] end.
(** std::to_string of a finite double.  (Less than 2^1024: 310 digits are enough.) *)
Definition fixed (q : Z) : list Z := decimal_digits 310 (q / 10 ^ 6) ++ 46 :: last_digits 6 (q mod 10 ^ 6).
Definition to_string_double (f : spec_float) : list Z :=
  match f with
  | S754_finite s m e => minus_sign s ++ fixed (round_even (Zpos m * 2 ^ Z.max e 0 * 10 ^ 6) (2 ^ Z.max (- e) 0))
  | S754_zero s => minus_sign s ++ fixed 0
  | _ => []                                                 (* stod does not return it *)
  end.
Definition real_text (s : string) : option string := option_map (fun f => string_of (to_string_double f)) (stod (characters s)).
