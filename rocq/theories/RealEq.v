(** Model of operator== of Real (/repo/include/fast_ber/ber_types/Real.hpp 597-627).  IEEE 754 arithmetic is that of Coq's SpecFloat (prec 53,
    emax 1024, round to nearest, ties to even), which has no axioms. *)
From Coq Require Import List ZArith Bool SpecFloat.
From Verif Require Import Base Ident View Prims RealModel.
From Verif Require Import Spec.
Import ListNotations.
Local Open Scope Z_scope.

(** The floating-point datum with this pattern (IEEE 754 3.4; the fields of the pattern are in Spec.v). *)
Definition datum (d : list Z) : spec_float :=
  let sign := dbl_sign d =? 1 in
  if dbl_exp d =? 2047 then if dbl_frac d =? 0 then S754_infinity sign else S754_nan
  else match dbl_mantissa d with Zpos m => S754_finite sign m (dbl_scale d) | _ => S754_zero sign end.
Definition minus (a b : spec_float) : spec_float := SFsub 53 1024 a b.
Definition times (a b : spec_float) : spec_float := SFmul 53 1024 a b.
(** std::isnan, std::isinf, std::signbit. *)
Definition isnan (a : spec_float) : bool := match a with S754_nan => true | _ => false end.
Definition isinf (a : spec_float) : bool := match a with S754_infinity _ => true | _ => false end.
Definition signbit (a : spec_float) : bool := match a with S754_zero s | S754_infinity s | S754_finite s _ _ => s | S754_nan => false end.
(** std::max(a, b): (a < b) ? b : a. *)
Definition max_ (a b : spec_float) : spec_float := if SFltb a b then b else a.
(** std::numeric_limits<double>::epsilon() = 2^-52. *)
Definition epsilon : spec_float := S754_finite false (2^52) (-104).
(** Lines 603-626. *)
Definition almost_equal (lhs rhs : spec_float) : bool :=
  if isnan lhs || isnan rhs then false
  else if isinf lhs && isinf rhs then Bool.eqb (signbit lhs) (signbit rhs)
  else if SFleb (SFabs (minus lhs rhs)) epsilon then true
  else SFleb (SFabs (minus lhs rhs)) (times epsilon (max_ (SFabs lhs) (SFabs rhs))).
(** Lines 597-627: operator==, of two objects (of the same identifier).  [decimal] and [fuel] as in RealModel.v. *)
Definition real_equal (decimal : list Z -> option (list Z)) (fuel : nat) (i : ident) (lhs rhs : list Z) : res bool :=
  let* a := real_value decimal fuel i lhs in
  let* b := real_value decimal fuel i rhs in
  Ok (almost_equal (datum a) (datum b)).
