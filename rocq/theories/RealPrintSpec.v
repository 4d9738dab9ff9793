(** Specification for C135: JSON numbers, and rounding to six digits. *)
From Coq Require Import List ZArith Bool.
From Verif Require Import Base Spec PropertiesRealEq DecimalSpec.
Import ListNotations.
Local Open Scope Z_scope.

(** RFC 8259 section 6, with the number that the text stands for: N * 10^E, or minus this. *)
Inductive json_number : list Z -> bool -> Z -> Z -> Prop :=
| is_json_number m neg ip frac fp exp x :
    (m = [] /\ neg = false \/ m = [45] /\ neg = true) ->
    digits ip -> (ip = [48] \/ exists c l, ip = c :: l /\ c <> 48) ->
    digits fp -> (frac = [] /\ fp = [] \/ frac = 46 :: fp /\ fp <> []) ->
    (exp = [] /\ x = 0 \/ exists c s neg' l, exp = c :: s ++ l /\ (c = 69 \/ c = 101) /\ signs s neg' /\ digits l /\ l <> [] /\ x = (if neg' then -1 else 1) * number_of l) ->
    json_number (m ++ ip ++ frac ++ exp) neg (number_of (ip ++ fp)) (x - zlen fp).

(** N * 10^E is the absolute value of the finite double [d] rounded to six significant digits: [d] has its first digit at 10^k, N * 10^E is [q] units of 10^(k-5), which is within half a unit
    of [d], and if it is off by half a unit, [q] is even.  (All this is multiplied by 10^400 * 2^1074, to have whole numbers.) *)
Definition six_digits_of (d : list Z) (N E : Z) : Prop :=
  (in_units d = 0 /\ N = 0) \/
  exists k q, -324 <= k <= 308 /\ -400 <= E /\ N * 10 ^ (E + 400) = q * 10 ^ (k - 5 + 400) /\
    let value := Z.abs (in_units d) * 10 ^ 400 in
    let unit := 10 ^ (k - 5 + 400) * 2 ^ 1074 in
    10 ^ (k + 400) * 2 ^ 1074 <= value < 10 ^ (k + 401) * 2 ^ 1074 /\
    2 * Z.abs (q * unit - value) <= unit /\ (2 * Z.abs (q * unit - value) = unit -> Z.even q = true).
