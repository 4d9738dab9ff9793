(** Model of operator<< of Real (/repo/include/fast_ber/ber_types/Real.hpp 643-647): os << object.value(), for a stream with the settings that a stream has
    at first.  Of the standard library, what C++ [facet.num.put.virtuals] says is modelled: printf's %g with precision 6, as in C11 7.21.6.1, with
    the exact value of the double rounded to nearest, ties to even (IEEE 754 5.12.2; glibc). *)
From Coq Require Import List ZArith Bool SpecFloat.
From Verif Require Import Base Ident View Prims RealModel Spec RealEq.
Import ListNotations.
Local Open Scope Z_scope.

(** 10^k <= num / den. *)
Definition reaches (num den k : Z) : bool := den * 10 ^ Z.max k 0 <=? num * 10 ^ Z.max (- k) 0.
(** The exponent of the first digit, from [k] on. *)
Fixpoint decade (fuel : nat) (k num den : Z) : Z :=
  match fuel with O => k | S fuel => if reaches num den (k + 1) then decade fuel (k + 1) num den else k end.
Definition round_even (a b : Z) : Z :=
  let q := a / b in let r := a mod b in
  if 2 * r <? b then q else if b <? 2 * r then q + 1 else if Z.even q then q else q + 1.
(** The first six digits, as a number, and the exponent of the first. *)
Definition six_digits (num den : Z) : Z * Z :=
  let k := decade 700 (-324) num den in
  let q := round_even (num * 10 ^ Z.max (5 - k) 0) (den * 10 ^ Z.max (k - 5) 0) in
  if q =? 10 ^ 6 then (10 ^ 5, k + 1) else (q, k).

Fixpoint last_digits (n : nat) (q : Z) : list Z := match n with O => [] | S n => last_digits n (q / 10) ++ [48 + q mod 10] end.
(** Trailing zeros are removed, and the decimal point if nothing is behind it. *)
Fixpoint strip_zeros (l : list Z) : list Z :=
  match l with
  | [] => []
  | c :: r => match strip_zeros r with [] => if c =? 48 then [] else [c] | r => c :: r end
  end.
Definition point (l : list Z) : list Z := match strip_zeros l with [] => [] | l => 46 :: l end.
(** At least two digits. *)
Definition exponent (x : Z) : list Z := 101 :: (if x <? 0 then 45 else 43) :: last_digits (if Z.abs x <? 100 then 2 else 3) (Z.abs x).
Definition general (q x : Z) : list Z :=
  let ds := last_digits 6 q in
  if (-4 <=? x) && (x <? 6) then
    if 0 <=? x then firstn (Z.to_nat (x + 1)) ds ++ point (skipn (Z.to_nat (x + 1)) ds)
    else 48 :: point (repeat 48 (Z.to_nat (- x - 1)) ++ ds)
  else firstn 1 ds ++ point (skipn 1 ds) ++ exponent x.
Definition minus_sign (s : bool) : list Z := if s then [45] else [].
(** os << double. *)
Definition print_double (d : list Z) : list Z :=
  match datum d with
  | S754_zero s => minus_sign s ++ [48]
  | S754_infinity s => minus_sign s ++ [105; 110; 102]
  | S754_nan => minus_sign (dbl_sign d =? 1) ++ [110; 97; 110]
  | S754_finite s m e =>
      let (q, x) := six_digits (Zpos m * 2 ^ Z.max e 0) (2 ^ Z.max (- e) 0) in minus_sign s ++ general q x
  end.
(** Real.hpp 643-647; [decimal] and [fuel] as in RealModel.v. *)
Definition print_real (decimal : list Z -> option (list Z)) (fuel : nat) (i : ident) (data : list Z) : res (list Z) :=
  let* d := real_value decimal fuel i data in Ok (print_double d).
