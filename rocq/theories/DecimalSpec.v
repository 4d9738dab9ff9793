(** What the decimal encodings of REAL mean: X.690 8.5.8 refers to ISO 6093, which has three forms of numbers. *)
From Coq Require Import List ZArith Bool.
From Verif Require Import Base Spec PropertiesRealEq.
Import ListNotations.
Local Open Scope Z_scope.

(** Decimal digits, and the number that they denote. *)
Definition digits (l : list Z) : Prop := Forall (fun c => 48 <= c <= 57) l.
Definition number_of (l : list Z) : Z := fold_left (fun n c => 10 * n + (c - 48)) l 0.
(** Nothing, + or -; true: minus. *)
Inductive signs : list Z -> bool -> Prop :=
| no_sign : signs [] false
| plus_sign : signs [43] false
| minus_sign : signs [45] true.
(** Digits with a decimal mark (a point or a comma) between them, in front of them or after them: the number without the mark, and the number of
    places behind the mark. *)
Inductive marked : list Z -> Z -> Z -> Prop :=
| is_marked ip mark fp : digits ip -> digits fp -> ip ++ fp <> [] -> mark = 46 \/ mark = 44 -> marked (ip ++ mark :: fp) (number_of (ip ++ fp)) (zlen fp).
(** The text denotes N * 10^E, or minus this. *)
Inductive iso_6093 : list Z -> bool -> Z -> Z -> Prop :=
| form_1 k s neg l : signs s neg -> digits l -> l <> [] -> iso_6093 (repeat 32 k ++ s ++ l) neg (number_of l) 0
| form_2 k s neg l N places : signs s neg -> marked l N places -> iso_6093 (repeat 32 k ++ s ++ l) neg N (- places)
| form_3 k s neg l N places exp s' neg' l' : signs s neg -> marked l N places -> exp = 69 \/ exp = 101 -> signs s' neg' -> digits l' -> l' <> [] ->
    iso_6093 (repeat 32 k ++ s ++ l ++ exp :: s' ++ l') neg N ((if neg' then -1 else 1) * number_of l' - places).

(** [d] is the double nearest to N * 10^E (IEEE 754, ties to even): no finite double is nearer, and if another is as near, the last bit of [d] is
    zero; an infinity from the middle between the greatest finite double and 2^1024 on.  Numerator and denominator of N * 10^E are [num] and [den]. *)
Definition nearest_double (neg : bool) (N E : Z) (d : list Z) : Prop :=
  let num := N * 10 ^ Z.max E 0 in
  let den := 10 ^ Z.max (- E) 0 in
  let too_great := (2^54 - 1) * 2^970 * den <= num in
  let off (x : list Z) := Z.abs ((if neg then -1 else 1) * num * 2^1074 - in_units x * den) in
  is_double d /\ dbl_sign d = (if neg then 1 else 0) /\
  (too_great -> dbl_inf d) /\
  (~ too_great -> dbl_finite d /\ forall x, is_double x -> dbl_finite x -> off d <= off x /\ (off d = off x -> in_units x <> in_units d -> Z.even (dbl_frac d) = true)).
