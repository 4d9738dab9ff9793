(** C132: operator== of Real. *)
From Coq Require Import List ZArith Bool SpecFloat Lia.
From Verif Require Import Base Ident View Prims RealModel RealEq Spec IdentProofs PropertiesReal RealEqProofs.
From Verif Require Import Schema.
Import ListNotations.
Local Open Scope Z_scope.

(** *** The specification: integers only *)
(** The value of a finite double, in units of 2^-1074 (of which every finite double is a whole number). *)
Definition in_units (d : list Z) : Z := (if dbl_sign d =? 1 then -1 else 1) * (dbl_mantissa d * 2 ^ (dbl_scale d + 1074)).
(** The number one in these units. *)
Definition one_unit : Z := 2^1074.
Definition apart (a b : list Z) : Z := Z.abs (in_units a - in_units b).
Definition greater (a b : list Z) : Z := Z.max (Z.abs (in_units a)) (Z.abs (in_units b)).

Section Comparison.
Context (decimal : list Z -> option (list Z)) (fuel : nat) (i : ident) (lhs rhs : list Z).
(** What value() of the two objects returns. *)
Context (a b : list Z) (Da : is_double a) (Db : is_double b) (Va : real_value decimal fuel i lhs = Ok a) (Vb : real_value decimal fuel i rhs = Ok b).

Lemma by_value : real_equal decimal fuel i lhs rhs = Ok (almost_equal (datum a) (datum b)).
Proof. unfold real_equal. rewrite Va, Vb. reflexivity. Qed.
Lemma swapped : real_equal decimal fuel i rhs lhs = Ok (almost_equal (datum b) (datum a)).
Proof. unfold real_equal. rewrite Va, Vb. reflexivity. Qed.

(** It does not matter which of the two objects stands on the left. *)
Theorem C132_symmetric : exists same, real_equal decimal fuel i lhs rhs = Ok same /\ real_equal decimal fuel i rhs lhs = Ok same.
Proof. eexists. split; [apply by_value|]. rewrite swapped, almost_equal_sym. reflexivity. Qed.
(** Objects with the same value are equal, unless it is NaN. *)
Theorem C132_same_value : a = b -> ~ dbl_nan a -> real_equal decimal fuel i lhs rhs = Ok true.
Proof.
  intros E0 H. rewrite by_value, <- E0, almost_equal_refl; [reflexivity|]. destruct (isnan (datum a)) eqn:E; [|reflexivity]. exfalso. apply H. apply datum_nan; assumption.
Qed.
(** NaN is equal to nothing. *)
Theorem C132_nan : dbl_nan a \/ dbl_nan b -> real_equal decimal fuel i lhs rhs = Ok false.
Proof.
  intros H. rewrite by_value. unfold almost_equal. replace (isnan (datum a) || isnan (datum b)) with true; [reflexivity|]. symmetry. apply orb_true_iff. rewrite !datum_nan by assumption. exact H.
Qed.
(** Two infinities are equal when they have the same sign. *)
Theorem C132_infinities : dbl_inf a -> dbl_inf b -> real_equal decimal fuel i lhs rhs = Ok (dbl_sign a =? dbl_sign b).
Proof.
  intros Ha Hb. rewrite by_value, (datum_inf a Da Ha), (datum_inf b Db Hb). unfold almost_equal. cbn [isnan isinf orb andb signbit]. f_equal.
  assert (S : forall d, is_double d -> dbl_sign d = 0 \/ dbl_sign d = 1).
  { intros d [Hl Hd]. pose proof (be_value_bound d Hd) as Hv. rewrite Hl in Hv. change (256^8) with (2 * 2^63) in Hv. unfold dbl_sign. Z.div_mod_to_equations. lia. }
  destruct (S a Da) as [-> | ->], (S b Db) as [-> | ->]; reflexivity.
Qed.
(** Finite values that compare equal are within the tolerance, relative to the greater of one and both magnitudes, but for the rounding of
    their difference: at most (2^-52 + 2^-104) times that. *)
Theorem C132_equal_close : dbl_finite a -> dbl_finite b -> real_equal decimal fuel i lhs rhs = Ok true ->
  apart a b * 2^104 <= Z.max one_unit (greater a b) * (2^52 + 1).
Proof.
  intros Fa Fb H. rewrite by_value in H. injection H as H. destruct (datum_usual a Da Fa) as (Ua & Ea), (datum_usual b Db Fb) as (Ub & Eb).
  destruct (almost_equal_bounds _ _ Ua Ub) as (B & _). rewrite Ea, Eb in B. exact (B H).
Qed.
(** Finite values within 2^-52 of each other, or within 2^-52 of the greater magnitude, compare equal. *)
Theorem C132_close_equal : dbl_finite a -> dbl_finite b -> apart a b * 2^52 <= Z.max one_unit (greater a b) -> real_equal decimal fuel i lhs rhs = Ok true.
Proof.
  intros Fa Fb H. rewrite by_value. f_equal. destruct (datum_usual a Da Fa) as (Ua & Ea), (datum_usual b Db Fb) as (Ub & Eb).
  destruct (almost_equal_bounds _ _ Ua Ub) as (_ & B & _). rewrite Ea, Eb in B. exact (B H).
Qed.
(** When one of the magnitudes is at least one, the relation is exactly: within 2^-52 of the greater magnitude. *)
Theorem C132_equal_iff_close : dbl_finite a -> dbl_finite b -> one_unit <= greater a b ->
  (real_equal decimal fuel i lhs rhs = Ok true <-> apart a b * 2^52 <= greater a b).
Proof.
  intros Fa Fb H. rewrite by_value. destruct (datum_usual a Da Fa) as (Ua & Ea), (datum_usual b Db Fb) as (Ub & Eb).
  destruct (almost_equal_bounds _ _ Ua Ub) as (_ & _ & B). rewrite Ea, Eb in B. specialize (B H). change (almost_equal (datum a) (datum b) = true <-> apart a b * 2^52 <= greater a b) in B.
  split; [intros Q; injection Q as Q; tauto|intros Q; f_equal; tauto].
Qed.
(** Refuted: an infinity compares equal to every finite value (of either sign), the difference and the tolerance both being infinite. *)
Theorem C132_infinite_refuted : dbl_inf a -> dbl_finite b -> real_equal decimal fuel i lhs rhs = Ok true /\ real_equal decimal fuel i rhs lhs = Ok true.
Proof.
  intros Ha Fb. rewrite by_value, swapped, (almost_equal_sym (datum b)). rewrite (datum_inf a Da Ha). destruct (datum_finite b Fb) as (N & I). rewrite almost_equal_inf by assumption. auto.
Qed.
End Comparison.

(** *** Objects *)
(** Two objects, whatever they held before, into which the same number was stored, compare equal (for the numbers that a Real can hold: C36, C87);
    so does the object a peer decodes from the encoding of one. *)
Theorem C132_assigned : forall i data d decimal fuel, real_reachable i data -> is_double d -> real_exact d -> ~ dbl_nan d ->
  exists data' p, real_assign i data d = Ok data' /\ writes (real_encode i data') p /\
    (forall other other', real_reachable i other -> real_assign i other d = Ok other' -> real_equal decimal fuel i data' other' = Ok true) /\
    forall e rest, real_reachable i e -> zlen (p ++ rest) < 2^63 ->
      exists view e', v_make (p ++ rest) = Ok view /\ real_decode i e view = Ok (true, e') /\ real_equal decimal fuel i data' e' = Ok true.
Proof.
  intros i data d decimal fuel Hr Hd Hx Hn. destruct (C36_real_round_trip_partial i data d decimal fuel Hr Hd Hx) as (data' & d' & p & E & V & S & W & _ & Dec).
  assert (Same : forall x, same_double d x -> x = d) by (intros x (_ & [(N & _)| ->]); [contradiction|reflexivity]). rewrite (Same _ S) in V.
  exists data', p. split; [exact E|]. split; [exact W|]. split.
  - intros other other' Ho Eo. destruct (C36_real_round_trip_partial i other d decimal fuel Ho Hd Hx) as (o' & d2 & _ & E2 & V2 & S2 & _). rewrite (Same _ S2) in V2.
    assert (o' = other') by congruence. subst o'. apply (C132_same_value _ _ _ _ _ d d); auto.
  - intros e rest He Hl. destruct (Dec e rest He Hl) as (view & e' & d2 & V1 & D1 & V2 & S2). rewrite (Same _ S2) in V2. exists view, e'. split; [exact V1|]. split; [exact D1|].
    apply (C132_same_value _ _ _ _ _ d d); auto.
Qed.
(** operator== as the DEFAULT member of a REAL component uses it (Default.hpp 86-112). *)
Definition real_same (decimal : list Z -> option (list Z)) (fuel : nat) (i : ident) (s t : st) : bool :=
  match s, t with SLeaf (LData a), SLeaf (LData b) => match real_equal decimal fuel i a b with Ok same => same | _ => false end | _, _ => false end.
(** Refuted: a component with a finite default keeps it when an infinity is assigned: the component then counts as absent and get() returns the default. *)
Theorem C132_default_refuted : forall decimal fuel i def val a b, is_double a -> is_double b -> real_value decimal fuel i def = Ok a -> real_value decimal fuel i val = Ok b ->
  dbl_finite a -> dbl_inf b -> let m := default_assign (real_same decimal fuel i) (SLeaf (LData def)) (SLeaf (LData val)) in
  is_default m = true /\ default_get (SLeaf (LData def)) m = SLeaf (LData def).
Proof.
  intros decimal fuel i def val a b Da Db Va Vb Fa Ib m. assert (E : real_equal decimal fuel i def val = Ok true) by (apply (C132_infinite_refuted decimal fuel i val def b a); assumption).
  unfold m, default_assign, real_same. rewrite E. auto.
Qed.
(** Objects with the tag of REAL, holding 0, 2^-52, 2^-51, 1, the next double after 1, the one after that, and infinity. *)
Definition holds (d : list Z) : res (list Z) := real_assign (Id universal 9) (real_init (Id universal 9)) d.
Definition compare_doubles (d e : list Z) : res bool := let* l := holds d in let* r := holds e in real_equal (fun _ => None) 100 (Id universal 9) l r.
Definition d_zero := [0; 0; 0; 0; 0; 0; 0; 0].
Definition d_tiny := [0x3c; 0xb0; 0; 0; 0; 0; 0; 0].
Definition d_twice_tiny := [0x3c; 0xc0; 0; 0; 0; 0; 0; 0].
Definition d_one := [0x3f; 0xf0; 0; 0; 0; 0; 0; 0].
Definition d_next := [0x3f; 0xf0; 0; 0; 0; 0; 0; 1].
Definition d_next_next := [0x3f; 0xf0; 0; 0; 0; 0; 0; 2].
Definition d_two := [0x40; 0; 0; 0; 0; 0; 0; 0].
Definition d_infinity := [0x7f; 0xf0; 0; 0; 0; 0; 0; 0].
(** Refuted: equality is not transitive, and unequal values compare equal: 0 == 2^-52 == 2^-51 != 0, and 1 == 1 + 2^-52. *)
Theorem C132_transitive_refuted : compare_doubles d_zero d_tiny = Ok true /\ compare_doubles d_tiny d_twice_tiny = Ok true /\ compare_doubles d_zero d_twice_tiny = Ok false /\
  in_units d_zero < in_units d_tiny < in_units d_twice_tiny.
Proof. vm_compute. auto. Qed.
Theorem C132_value_refuted : compare_doubles d_one d_next = Ok true /\ in_units d_one < in_units d_next /\ compare_doubles d_infinity d_two = Ok true /\ compare_doubles d_infinity d_zero = Ok true.
Proof. vm_compute. auto. Qed.
(** The hypotheses of the theorems above are met, and the answer is not always the same. *)
Example C132_example : is_double d_one /\ is_double d_two /\ is_double d_infinity /\ dbl_finite d_one /\ dbl_finite d_two /\ dbl_inf d_infinity /\ real_exact d_one /\ ~ dbl_nan d_one /\
  real_reachable (Id universal 9) (real_init (Id universal 9)) /\ one_unit <= greater d_one d_two /\
  compare_doubles d_one d_two = Ok false /\ compare_doubles d_one d_next_next = Ok false /\ compare_doubles d_two d_two = Ok true /\
  (exists l, holds d_one = Ok l /\ real_value (fun _ => None) 100 (Id universal 9) l = Ok d_one) /\ (exists l, holds d_infinity = Ok l /\ real_value (fun _ => None) 100 (Id universal 9) l = Ok d_infinity).
Proof.
  assert (B : is_double d_one /\ is_double d_two /\ is_double d_infinity) by (repeat split; try reflexivity; repeat constructor; unfold wf_byte; lia). destruct B as (B1 & B2 & B3).
  split; [exact B1|]. split; [exact B2|]. split; [exact B3|]. split; [vm_compute; reflexivity|]. split; [vm_compute; reflexivity|]. split; [vm_compute; auto|]. split; [right; right; right; vm_compute; split; discriminate|].
  split; [vm_compute; intros (N & _); discriminate|]. split; [apply rr_default; cbn; lia|]. split; [vm_compute; discriminate|].
  split; [vm_compute; reflexivity|]. split; [vm_compute; reflexivity|]. split; [vm_compute; reflexivity|].
  split; (eexists; split; [vm_compute; reflexivity|]; vm_compute; reflexivity).
Qed.
