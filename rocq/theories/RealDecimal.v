(** Model of decode_real_decimal (/repo/src/ber_types/Real.cpp), the part of Real that RealModel.v has as a parameter. *)
From Coq Require Import List ZArith Bool SpecFloat.
From Verif Require Import Base RealModel.
Import ListNotations.
Local Open Scope Z_scope.

(** ** std::regex_match *)
(** The part of the notation of std::regex (ECMAScript) that occurs in lines 8-10; ^ and $ at the ends say nothing in regex_match, and {1} says
    once. *)
Inductive regex :=
| RNone
| REmpty
| RClass (octets : list Z)                  (* [abc] *)
| RThen (r s : regex)
| ROr (r s : regex)                         (* r|s *)
| RStar (r : regex).                        (* r* *)
Definition RPlus (r : regex) : regex := RThen r (RStar r).      (* r+ *)
Definition ROpt (r : regex) : regex := ROr r REmpty.            (* r? *)
Fixpoint may_be_empty (r : regex) : bool :=
  match r with
  | RNone | RClass _ => false
  | REmpty | RStar _ => true
  | RThen r s => may_be_empty r && may_be_empty s
  | ROr r s => may_be_empty r || may_be_empty s
  end.
(** What may follow the octet [c]. *)
Fixpoint after (c : Z) (r : regex) : regex :=
  match r with
  | RNone | REmpty => RNone
  | RClass l => if existsb (Z.eqb c) l then REmpty else RNone
  | RThen r s => if may_be_empty r then ROr (RThen (after c r) s) (after c s) else RThen (after c r) s
  | ROr r s => ROr (after c r) (after c s)
  | RStar r => RThen (after c r) (RStar r)
  end.
(** Whether the whole text matches.  (Computed by derivatives; std::regex backtracks, to the same answer.) *)
Fixpoint regex_match (r : regex) (text : list Z) : bool :=
  match text with [] => may_be_empty r | c :: text => regex_match (after c r) text end.
Definition digit_class : regex := RClass [48; 49; 50; 51; 52; 53; 54; 55; 56; 57].
Definition sign_class : regex := RClass [43; 45].
Definition mark_class : regex := RClass [46; 44].
Definition mantissa_regex : regex := ROr (RThen (RPlus digit_class) (RThen mark_class (RStar digit_class))) (RThen (RStar digit_class) (RThen mark_class (RPlus digit_class))).
(** Lines 8-10. *)
Definition nr1 : regex := RThen (RStar (RClass [32])) (RThen (ROpt sign_class) (RPlus digit_class)).
Definition nr2 : regex := RThen (RStar (RClass [32])) (RThen (ROpt sign_class) mantissa_regex).
Definition nr3 : regex := RThen (RStar (RClass [32])) (RThen (ROpt sign_class) (RThen mantissa_regex (RThen (RClass [69; 101]) (RThen (ROpt sign_class) (RPlus digit_class))))).

(** ** absl::SimpleAtod *)
(** Not code of /repo.  What absl documents is modelled: leading blanks are skipped, a number is read (optional sign, digits, optional point and digits,
    optional exponent), and the double nearest to it is returned, ties to even, an infinity if it is too great; false if this is not the whole text. *)
Definition is_digit (c : Z) : bool := (48 <=? c) && (c <=? 57).
Fixpoint skip_blanks (t : list Z) : list Z := match t with c :: r => if c =? 32 then skip_blanks r else t | [] => [] end.
Definition read_sign (t : list Z) : bool * list Z :=
  match t with c :: r => if c =? 45 then (true, r) else if c =? 43 then (false, r) else (false, t) | [] => (false, t) end.
(** Digits: added to the number read so far, how many, and the rest. *)
Fixpoint read_digits (t : list Z) (n : Z) (count : Z) : Z * Z * list Z :=
  match t with c :: r => if is_digit c then read_digits r (10 * n + (c - 48)) (count + 1) else (n, count, t) | [] => (n, count, t) end.
Definition read_exponent_part (t : list Z) : option Z :=
  match t with
  | [] => Some 0
  | c :: r => if (c =? 69) || (c =? 101)
              then let '(neg, r) := read_sign r in let '(n, count, r) := read_digits r 0 0 in
                   match r with [] => if count =? 0 then None else Some (if neg then - n else n) | _ => None end
              else None
  end.
(** Sign, [N] and [E] of the number N * 10^E. *)
Definition read_number (t : list Z) : option (bool * Z * Z) :=
  let '(neg, t) := read_sign (skip_blanks t) in
  let '(n, count, t) := read_digits t 0 0 in
  let '(n, places, t) := match t with c :: r => if c =? 46 then read_digits r n 0 else (n, 0, t) | [] => (n, 0, t) end in
  if count + places =? 0 then None else
  match read_exponent_part t with Some e => Some (neg, n, e - places) | None => None end.
(** The double nearest to N * 10^E: N * 10^E * 2^1201 is cut off to a whole number (of which the last bit is set if anything was lost), and this is
    rounded; no double has more than 1074 binary places. *)
Definition round_decimal (neg : bool) (n e : Z) : spec_float :=
  let num := n * 10 ^ Z.max e 0 in
  let den := 10 ^ Z.max (- e) 0 in
  let q := num * 2^1200 / den in
  let m := 2 * q + (if num * 2^1200 mod den =? 0 then 0 else 1) in
  if m =? 0 then S754_zero neg else binary_round_aux 53 1024 neg m (-1201) loc_Exact.
(** The 64 bits of a double, as eight octets (IEEE 754 3.4). *)
Definition pattern (f : spec_float) : Z :=
  let s (neg : bool) := if neg then 2^63 else 0 in
  match f with
  | S754_zero neg => s neg
  | S754_infinity neg => s neg + 2047 * 2^52
  | S754_nan => 2047 * 2^52 + 2^51
  | S754_finite neg m e => s neg + (if Zpos m <? 2^52 then Zpos m else (e + 1075) * 2^52 + (Zpos m - 2^52))
  end.
Fixpoint octets_of (k : nat) (x : Z) : list Z := match k with O => [] | S k => octets_of k (x / 256) ++ [x mod 256] end.
Definition simple_atod (t : list Z) : option (list Z) :=
  match read_number t with Some (neg, n, e) => Some (octets_of 8 (pattern (round_decimal neg n e))) | None => None end.

(** Lines 18-36.  ([input] has the first octet in front: its value is not looked at.) *)
Definition comma_to_dot (c : Z) : Z := if c =? 44 then 46 else c.
Definition decode_real_decimal (input : list Z) : option (list Z) :=
  let text := tl input in
  if regex_match nr1 text || regex_match nr2 text || regex_match nr3 text
  then simple_atod (map comma_to_dot text)
  else None.
