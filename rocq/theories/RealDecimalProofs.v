(** Proofs about RealDecimal.v. *)
From Coq Require Import List ZArith Bool SpecFloat Lia.
From Verif Require Import Base Ident View Prims RealModel RealDecimal Spec IdentProofs RealProofs RealEq RealEqProofs PropertiesRealEq DecimalSpec.
Import ListNotations.
Local Open Scope Z_scope.

(** ** Rounding to the nearest *)
(** [rem] of [2^n] is what is cut off behind [q]. *)
Definition nearest_of (q' q rem u : Z) : Prop := (q' = q /\ (2 * rem < u \/ (2 * rem = u /\ Z.even q = true))) \/ (q' = q + 1 /\ (u < 2 * rem \/ (2 * rem = u /\ Z.even q = false))).
Lemma iter_half M (p : positive) : 0 <= M -> let r := SpecFloat.iter_pos shr_1 p (Build_shr_record M false false) in
  let rem := M mod 2 ^ Zpos p in let u := 2 ^ Zpos p in
  shr_m r = M / u /\
  match shr_r r, shr_s r with false, false => rem = 0 | false, true => 0 < rem /\ 2 * rem < u | true, false => 2 * rem = u | true, true => u < 2 * rem end.
Proof.
  intros HM. cbv zeta. induction p as [|p IH] using Pos.peano_ind.
  - cbn [SpecFloat.iter_pos]. destruct (shr_1_spec (Build_shr_record M false false) HM) as (A & B & C). split; [exact A|]. rewrite B, C. cbn [shr_m shr_r shr_s orb]. change (2 ^ 1) with 2.
    rewrite Zmod_odd. destruct (Z.odd M); reflexivity.
  - rewrite iter_pos_iter, Pos.iter_succ, <- iter_pos_iter. destruct IH as (A & B). set (r := SpecFloat.iter_pos shr_1 p (Build_shr_record M false false)) in *.
    assert (P : 0 < 2 ^ Zpos p) by (apply Z.pow_pos_nonneg; lia). assert (Q : 0 <= M / 2 ^ Zpos p) by (apply Z.div_pos; lia).
    destruct (shr_1_spec r) as (C & D & E); [rewrite A; exact Q|]. rewrite Pos2Z.inj_succ, Z.pow_succ_r by lia. rewrite (Z.mul_comm 2). split; [rewrite C, A, Z.div_div by lia; reflexivity|].
    rewrite Z.rem_mul_r by lia. rewrite D, E, A. pose proof (Z.mod_pos_bound M (2 ^ Zpos p) P). pose proof (Zmod_odd (M / 2 ^ Zpos p)) as O.
    destruct (Z.odd (M / 2 ^ Zpos p)), (shr_r r), (shr_s r); cbn [orb]; rewrite O; lia.
Qed.
Lemma round_half s (M : positive) e : 0 < lost (Zpos M) e ->
  let n := lost (Zpos M) e in let q := Zpos M / 2 ^ n in exists q', nearest_of q' q (Zpos M mod 2 ^ n) (2 ^ n) /\
  0 <= q < 2^53 /\ -1074 <= e + n /\ (-1074 < e + n -> 2^52 <= q) /\
  match binary_round_aux 53 1024 s (Zpos M) e loc_Exact with
  | S754_zero s' => s' = s /\ q' = 0
  | S754_infinity s' => s' = s /\ units (2^53) 971 <= units q' (e + n)
  | S754_finite s' m' e' => s' = s /\ canonical (Zpos m') e' /\ e' <= 971 /\ units q' (e + n) = units (Zpos m') e' /\ (Z.even q' = true -> Z.even (Zpos m') = true)
  | S754_nan => False
  end.
Proof.
  intros Hn n q. destruct (digits_spec M) as (D1 & D2). set (dg := Zpos (digits2_pos M)) in *.
  assert (En : n = Z.max (dg + e - 53) (-1074) - e) by reflexivity. change (0 < n) in Hn. assert (Pn : 0 < 2 ^ n) by (apply Z.pow_pos_nonneg; lia).
  assert (Q0 : 0 <= q) by (apply Z.div_pos; lia).
  assert (Q1 : q < 2^53).
  { apply Z.div_lt_upper_bound; [exact Pn|]. rewrite <- Z.pow_add_r by lia. eapply Z.lt_le_trans; [exact D2|]. apply Z.pow_le_mono_r; lia. }
  assert (Q2 : -1074 < e + n -> 2^52 <= q).
  { intros L. apply Z.div_le_lower_bound; [exact Pn|]. rewrite <- Z.pow_add_r by lia. eapply Z.le_trans; [|exact D1]. apply Z.pow_le_mono_r; lia. }
  assert (S1 : exists r, shr_fexp 53 1024 (Zpos M) e loc_Exact = (r, e + n) /\ shr_m r = q /\ nearest_of (round_nearest_even q (loc_of_shr_record r)) q (Zpos M mod 2 ^ n) (2 ^ n)).
  { unfold shr_fexp. cbn [shr_record_of_loc]. change (fexp 53 1024 (Zdigits2 (Zpos M) + e) - e) with n. unfold shr. destruct n as [|p|p] eqn:E; [lia| |lia].
    eexists. split; [reflexivity|]. destruct (iter_half (Zpos M) p ltac:(lia)) as (A & B). split; [exact A|]. pose proof (Z.mod_pos_bound (Zpos M) (2 ^ Zpos p) Pn) as Mb.
    destruct (SpecFloat.iter_pos shr_1 p _) as [m rr ss]. cbn [shr_r shr_s] in B. unfold nearest_of, loc_of_shr_record. destruct rr, ss; cbn [round_nearest_even]; [lia| |lia|lia].
    destruct (Z.even q) eqn:Ev; lia. }
  destruct S1 as (r & E1 & Er & El). unfold binary_round_aux. rewrite E1. rewrite Er.
  set (q' := round_nearest_even q (loc_of_shr_record r)) in *. exists q'. split; [exact El|]. split; [lia|]. split; [lia|]. split; [exact Q2|].
  assert (R0 : 0 <= q' <= 2^53) by (destruct El as [(-> & _)|(-> & _)]; lia). assert (R1 : q <= q') by (destruct El as [(-> & _)|(-> & _)]; lia). clearbody q'.
  set (e1 := e + n) in *. assert (B1 : -1074 <= e1) by lia.
  destruct q' as [|p|p]; [| |lia].
  { unfold shr_fexp. cbn [Zdigits2 shr_record_of_loc]. assert (T : fexp 53 1024 (0 + e1) - e1 <= 0) by (unfold fexp, emin; lia).
    unfold shr. destruct (fexp 53 1024 (0 + e1) - e1) as [|x|x]; [| lia |]; cbn [shr_m]; auto. }
  destruct (Z.eq_dec (Zpos p) (2^53)) as [E53|N53].
  - (* one more digit *)
    assert (Ep : p = (2^53)%positive) by (apply Pos2Z.inj; rewrite E53; reflexivity). subst p. unfold shr_fexp. change (Zdigits2 (Z.pos (2 ^ 53))) with 54. cbn [shr_record_of_loc].
    replace (fexp 53 1024 (54 + e1) - e1) with 1 by (unfold fexp, emin; lia). change (shr {| shr_m := Z.pos (2 ^ 53); shr_r := false; shr_s := false |} e1 1) with (Build_shr_record (Z.pos (2^52)) false false, e1 + 1). cbn [shr_m].
    destruct (e1 + 1 <=? 1024 - 53) eqn:L.
    + split; [reflexivity|]. split; [split; [vm_compute; split; reflexivity|split; [lia|intros _; vm_compute; discriminate]]|]. split; [lia|]. split; [|intros _; reflexivity].
      unfold units. replace (e1 + 1 + 1074) with (Z.succ (e1 + 1074)) by lia. rewrite Z.pow_succ_r by lia. change (Z.pos (2^53)) with (2 * Z.pos (2^52)). lia.
    + split; [reflexivity|]. unfold units. change (Z.pos (2 ^ 53)) with (2^53). apply Z.mul_le_mono_nonneg_l; [lia|]. apply Z.pow_le_mono_r; lia.
  - assert (Lp : Zpos p < 2^53) by lia. unfold shr_fexp. cbn [Zdigits2 shr_record_of_loc]. pose proof (digits_below p 53 ltac:(lia) Lp) as Dp.
    assert (T : fexp 53 1024 (Z.pos (digits2_pos p) + e1) - e1 <= 0) by (unfold fexp, emin; lia).
    assert (U : shr (Build_shr_record (Z.pos p) false false) e1 (fexp 53 1024 (Z.pos (digits2_pos p) + e1) - e1) = (Build_shr_record (Z.pos p) false false, e1)).
    { unfold shr. destruct (fexp 53 1024 (Z.pos (digits2_pos p) + e1) - e1); [reflexivity|lia|reflexivity]. }
    rewrite U. cbn [shr_m]. destruct (e1 <=? 1024 - 53) eqn:L.
    + split; [reflexivity|]. split; [split; [lia|split; [exact B1|intros B2; specialize (Q2 B2); lia]]|]. split; [lia|]. auto.
    + split; [reflexivity|]. specialize (Q2 ltac:(lia)). apply Z.le_trans with (units (2^52) e1); [|apply units_mono; lia]. unfold units. rewrite <- !Z.pow_add_r by lia. apply Z.pow_le_mono_r; lia.
Qed.
(** Doubles lie on one side or the other of the gap behind [q]. *)
Lemma grid q e1 m e : canonical m e -> -1074 <= e1 -> (-1074 < e1 -> 2^52 <= q) -> q < 2^53 -> units m e <= units q e1 \/ units (q + 1) e1 <= units m e.
Proof.
  intros Hc He Hq Hq'. destruct (Z.lt_ge_cases (units q e1) (units m e)) as [L|L]; [|left; exact L]. right. pose proof Hc as (A & B & C).
  destruct (Z.le_gt_cases e1 e) as [G|G].
  - assert (X : units m e = units (m * 2 ^ (e - e1)) e1). { unfold units. rewrite <- Z.mul_assoc, <- Z.pow_add_r by lia. do 2 f_equal. lia. }
    rewrite X in *. apply units_mono; [lia|]. unfold units in L. apply Z.mul_lt_mono_pos_r in L; [lia|apply Z.pow_pos_nonneg; lia].
  - exfalso. assert (units m e < units q e1); [|lia]. apply canonical_below; [exact Hc| |exact G]. split; [lia|]. split; [lia|auto].
Qed.
(** With what was cut off the number: [A / B] is between the neighbours [Q] and [Q + U] (of the doubles), and [X] is the nearer of the two. *)
Lemma nearer A B Q U X x : 0 < B -> 0 < U -> Q * B <= A < (Q + U) * B -> x <= Q \/ Q + U <= x ->
  (X = Q /\ 2 * (A - Q * B) <= U * B) \/ (X = Q + U /\ U * B <= 2 * (A - Q * B)) ->
  Z.abs (A - X * B) <= Z.abs (A - x * B) /\ (Z.abs (A - X * B) = Z.abs (A - x * B) -> x <> X -> 2 * (A - Q * B) = U * B).
Proof.
  intros HB HU HA Hx HX. assert (Hx' : x * B <= Q * B \/ Q * B + U * B <= x * B) by (destruct Hx; [left|right]; nia). assert (Ne : x <> X -> x * B <> X * B) by (intros N E; apply N; nia).
  destruct HX as [(-> & HX)|(-> & HX)]; rewrite ?Z.mul_add_distr_r in *; split; [lia| |lia|]; intros E N; specialize (Ne N); lia.
Qed.
Definition cut (num den : Z) : Z := 2 * (num * 2^1200 / den) + (if num * 2^1200 mod den =? 0 then 0 else 1).
Lemma cut_pos num den : 0 < num -> 0 < den -> 0 < cut num den.
Proof.
  intros Hn Hd. unfold cut. assert (0 <= num * 2^1200 / den) by (apply Z.div_pos; lia). destruct (Z.eqb_spec (num * 2 ^ 1200 mod den) 0) as [E|N]; [|lia].
  pose proof (Z.div_mod (num * 2^1200) den ltac:(lia)) as D. rewrite E in D. assert (num * 2^1200 / den <> 0); [|lia]. intros Z0. rewrite Z0 in D. assert (0 < 2^1200) by (apply Z.pow_pos_nonneg; lia). nia.
Qed.
Lemma rounded neg num den m : 0 < num -> 0 < den -> cut num den = Zpos m -> exists X ev,
  (forall x, x = 0 \/ (exists m' e', canonical m' e' /\ x = units m' e') ->
     Z.abs (num * 2^1074 - X * den) <= Z.abs (num * 2^1074 - x * den) /\ (Z.abs (num * 2^1074 - X * den) = Z.abs (num * 2^1074 - x * den) -> x <> X -> ev = true)) /\
  match binary_round_aux 53 1024 neg (Zpos m) (-1201) loc_Exact with
  | S754_zero s => s = neg /\ X = 0
  | S754_infinity s => s = neg /\ units (2^53) 971 <= X
  | S754_finite s m' e' => s = neg /\ canonical (Zpos m') e' /\ e' <= 971 /\ X = units (Zpos m') e' /\ (ev = true -> Z.even (Zpos m') = true)
  | S754_nan => False
  end.
Proof.
  intros Hn Hd Hm. assert (L : 127 <= lost (Zpos m) (-1201)) by (unfold lost; lia).
  destruct (round_half neg m (-1201) ltac:(lia)) as (q' & Near & Q1 & Q2 & Q3 & R). set (n := lost (Z.pos m) (-1201)) in *. set (q := Zpos m / 2 ^ n) in *.
  set (e1 := -1201 + n) in *. assert (Pn : 0 < 2 ^ n) by (apply Z.pow_pos_nonneg; lia). set (U := 2 ^ (e1 + 1074)). assert (PU : 0 < U) by (apply Z.pow_pos_nonneg; lia).
  assert (EP : 2 ^ n = 2^127 * U) by (unfold U; rewrite <- Z.pow_add_r by lia; f_equal; lia).
  pose proof (Z.div_mod (Zpos m) (2 ^ n) ltac:(lia)) as DM. fold q in DM. pose proof (Z.mod_pos_bound (Zpos m) (2 ^ n) Pn) as MB. set (rem := Zpos m mod 2 ^ n) in *.
  set (W := num * 2^1200) in *. pose proof (Z.div_mod W den ltac:(lia)) as DW. pose proof (Z.mod_pos_bound W den Hd) as MW.
  assert (EA : 2 * W = 2^127 * (num * 2^1074)) by (unfold W; change (2^1200) with (2^126 * 2^1074); change (2^127) with (2 * 2^126); lia).
  set (A := num * 2^1074) in *. assert (E4 : 2 ^ n = 4 * (2^125 * U)) by (rewrite EP; change (2^127) with (4 * 2^125); lia).
  (* what was cut off, times den *)
  assert (Key : let R' := 2 * W - q * 2 ^ n * den in 0 <= R' < 2 ^ n * den /\ (2 * rem < 2 ^ n -> 2 * R' < 2 ^ n * den) /\ (2 * rem = 2 ^ n -> 2 * R' = 2 ^ n * den) /\ (2 ^ n < 2 * rem -> 2 ^ n * den < 2 * R')).
  { cbv zeta. unfold cut in Hm. fold W in Hm. set (k := 2^125 * U) in *. assert (Pk : 0 < k) by lia. rewrite E4 in *. clearbody k W rem q. clear EP EA E4 R Near Q2 Q3 L. clearbody n.
    destruct (Z.eqb_spec (W mod den) 0) as [Z0|Nz].
    - rewrite Z0 in DW. assert (2 * W - q * (4 * k) * den = rem * den) as -> by nia. nia.
    - set (w := W mod den) in *. assert (T : 2 * W - q * (4 * k) * den = (rem - 1) * den + 2 * w) by nia. rewrite T. assert (Odd : exists j, rem = 2 * j + 1) by (exists (W / den - 2 * (q * k)); lia). destruct Odd as (j & ->).
      clear T DW. repeat split; intros; nia. }
  cbv zeta in Key. destruct Key as (K1 & K2 & K3 & K4).
  exists (q' * U), (Z.even q'). split.
  - intros x Hx. assert (Hx' : x <= q * U \/ q * U + U <= x).
    { destruct Hx as [->|(m' & e' & Hc & ->)]; [left; nia|]. destruct (grid q e1 m' e' Hc Q2 Q3 ltac:(lia)) as [G|G]; [left; exact G|right]. unfold units in G. fold U in G. unfold units. lia. }
    assert (C : 2^127 * (A - q * U * den) = 2 * W - q * 2 ^ n * den) by (rewrite EP, EA; lia).
    assert (C2 : 2 ^ n * den = 2^127 * (U * den)) by (rewrite EP; lia). rewrite <- C, C2 in *.
    destruct (nearer A den (q * U) U (q' * U) x Hd PU) as (N1 & N2).
    + lia.
    + exact Hx'.
    + destruct Near as [(-> & [N|(N & _)])|(-> & [N|(N & _)])]; [left|left|right|right]; (split; [lia|]).
      * specialize (K2 N). lia.
      * specialize (K3 N). lia.
      * specialize (K4 N). lia.
      * specialize (K3 N). lia.
    + split; [exact N1|]. intros E Ne. specialize (N2 E Ne). destruct Near as [(-> & [N|(_ & Ev)])|(-> & [N|(_ & Ev)])].
      * specialize (K2 N). lia.
      * exact Ev.
      * specialize (K4 N). lia.
      * rewrite Z.add_1_r, Z.even_succ, <- Z.negb_even, Ev. reflexivity.
  - destruct (binary_round_aux 53 1024 neg (Z.pos m) (-1201) loc_Exact) as [s'|s'| |s' m' e'].
    + destruct R as (-> & ->). split; [reflexivity|lia].
    + destruct R as (-> & R). split; [reflexivity|]. exact R.
    + destruct R.
    + destruct R as (-> & R1 & R2 & R3 & R4). split; [reflexivity|]. split; [exact R1|]. split; [exact R2|]. split; [exact R3|exact R4].
Qed.

(** ** Patterns *)
Lemma octets_value k x : 0 <= x < 256 ^ Z.of_nat k -> be_value (octets_of k x) = x /\ zlen (octets_of k x) = Z.of_nat k /\ bytes (octets_of k x).
Proof.
  revert x. induction k as [|k IH]; intros x H.
  - cbn in *. split; [lia|]. split; [reflexivity|constructor].
  - rewrite Nat2Z.inj_succ, Z.pow_succ_r in H by lia. cbn [octets_of]. destruct (IH (x / 256)) as (A & B & C). { split; [apply Z.div_pos; lia|]. apply Z.div_lt_upper_bound; lia. }
    pose proof (Z.mod_pos_bound x 256 ltac:(lia)) as M. split; [|split].
    + rewrite be_value_app, A. change (be_value [x mod 256]) with (x mod 256). change (zlen [x mod 256]) with 1. change (256 ^ 1) with 256. pose proof (Z.div_mod x 256). lia.
    + unfold zlen in *. rewrite app_length. cbn [List.length]. lia.
    + unfold bytes in *. apply Forall_app. split; [exact C|]. constructor; [exact M|constructor].
Qed.
Lemma pattern_fields x s ex fr : x = s * 2^63 + ex * 2^52 + fr -> 0 <= s <= 1 -> 0 <= ex < 2^11 -> 0 <= fr < 2^52 ->
  let d := octets_of 8 x in is_double d /\ dbl_sign d = s /\ dbl_exp d = ex /\ dbl_frac d = fr.
Proof.
  intros Hx Hs He Hf d. destruct (octets_value 8 x) as (A & B & C). { change (256 ^ Z.of_nat 8) with (2^64). lia. }
  fold d in A, B, C. split; [split; [exact B|exact C]|]. unfold dbl_sign, dbl_exp, dbl_frac. rewrite A. rewrite Hx. clear A B C d Hx. split; [|split].
  - symmetry. apply Z.div_unique with (ex * 2^52 + fr); lia.
  - assert (E : (s * 2^63 + ex * 2^52 + fr) / 2^52 = s * 2^11 + ex) by (symmetry; apply Z.div_unique with fr; lia). rewrite E. symmetry. apply Z.mod_unique with s; lia.
  - symmetry. apply Z.mod_unique with (s * 2^11 + ex); lia.
Qed.
Lemma pattern_finite neg m e : canonical (Zpos m) e -> e <= 971 -> let d := octets_of 8 (pattern (S754_finite neg m e)) in
  is_double d /\ dbl_sign d = (if neg then 1 else 0) /\ dbl_finite d /\ in_units d = (if neg then -1 else 1) * units (Zpos m) e /\ Z.even (dbl_frac d) = Z.even (Zpos m).
Proof.
  intros (A & B & C) He d. unfold d. cbn [pattern]. destruct (Z.ltb_spec (Zpos m) (2^52)) as [L|L].
  - destruct (pattern_fields ((if neg then 2^63 else 0) + Zpos m) (if neg then 1 else 0) 0 (Zpos m)) as (H1 & H2 & H3 & H4); [destruct neg; lia|destruct neg; lia|lia|lia|].
    split; [exact H1|]. split; [exact H2|]. unfold dbl_finite, in_units, dbl_mantissa, dbl_scale. rewrite H2, H3, H4. split; [lia|]. split; [|reflexivity].
    assert (e = -1074) by (destruct (Z.eq_dec e (-1074)); [assumption|specialize (C ltac:(lia)); lia]). subst e. unfold units. destruct neg; reflexivity.
  - destruct (pattern_fields ((if neg then 2^63 else 0) + ((e + 1075) * 2^52 + (Zpos m - 2^52))) (if neg then 1 else 0) (e + 1075) (Zpos m - 2^52)) as (H1 & H2 & H3 & H4); [destruct neg; lia|destruct neg; lia|lia|lia|].
    split; [exact H1|]. split; [exact H2|]. unfold dbl_finite, in_units, dbl_mantissa, dbl_scale. rewrite H2, H3, H4. split; [lia|]. replace (e + 1075 =? 0) with false by lia. split.
    + unfold units. replace (2 ^ 52 + (Z.pos m - 2 ^ 52)) with (Zpos m) by lia. replace (e + 1075 - 1075 + 1074) with (e + 1074) by lia. destruct neg; reflexivity.
    + rewrite Z.even_sub. change (Z.even (2^52)) with true. destruct (Z.even (Z.pos m)); reflexivity.
Qed.
Lemma pattern_zero neg : let d := octets_of 8 (pattern (S754_zero neg)) in is_double d /\ dbl_sign d = (if neg then 1 else 0) /\ dbl_finite d /\ in_units d = 0 /\ Z.even (dbl_frac d) = true.
Proof.
  intros d. unfold d. cbn [pattern]. destruct (pattern_fields (if neg then 2^63 else 0) (if neg then 1 else 0) 0 0) as (H1 & H2 & H3 & H4); [destruct neg; lia|destruct neg; lia|lia|lia|].
  split; [exact H1|]. split; [exact H2|]. unfold dbl_finite, in_units, dbl_mantissa, dbl_scale. rewrite H2, H3, H4. split; [lia|]. split; [destruct neg; reflexivity|reflexivity].
Qed.
Lemma pattern_inf neg : let d := octets_of 8 (pattern (S754_infinity neg)) in is_double d /\ dbl_sign d = (if neg then 1 else 0) /\ dbl_inf d.
Proof.
  intros d. unfold d. cbn [pattern]. destruct (pattern_fields ((if neg then 2^63 else 0) + 2047 * 2^52) (if neg then 1 else 0) 2047 0) as (H1 & H2 & H3 & H4); [destruct neg; lia|destruct neg; lia|lia|lia|].
  split; [exact H1|]. split; [exact H2|]. split; assumption.
Qed.
Lemma finite_units d : is_double d -> dbl_finite d -> in_units d = 0 \/ exists sg m e, (sg = 1 \/ sg = -1) /\ canonical m e /\ e <= 971 /\ in_units d = sg * units m e.
Proof.
  intros Hd Hf. destruct (datum_usual d Hd Hf) as (U & V). change (Uval (datum d) = in_units d) in V. rewrite <- V. destruct (datum d) as [s|s| |s m e]; cbn [usual Uval] in *; try (destruct U; fail); [left; reflexivity|].
  right. exists (if s then -1 else 1), (Zpos m), e. destruct U. split; [destruct s; auto|]. split; [assumption|]. split; [assumption|]. destruct s; cbn [cond_Zopp]; lia.
Qed.
Lemma greatest_finite m e : canonical m e -> e <= 971 -> units m e <= units (2^53 - 1) 971.
Proof.
  intros Hc He. destruct (Z.eq_dec e 971) as [->|N]; [apply units_mono; [lia|destruct Hc as (A & _); lia]|]. apply Z.lt_le_incl, canonical_below; [exact Hc| |lia]. split; [lia|]. split; lia.
Qed.
Lemma greatest_unique m e : canonical m e -> e <= 971 -> units m e = units (2^53 - 1) 971 -> m = 2^53 - 1.
Proof.
  intros Hc He E. destruct (Z.eq_dec e 971) as [->|N].
  - unfold units in E. apply Z.mul_reg_r in E; [exact E|]. assert (0 < 2 ^ (971 + 1074)) by (apply Z.pow_pos_nonneg; lia). lia.
  - exfalso. assert (units m e < units (2^53 - 1) 971); [|lia]. apply canonical_below; [exact Hc| |lia]. split; [lia|]. split; lia.
Qed.
Lemma opposite (neg : bool) A u den : 0 <= A -> 0 < u -> 0 < den -> Z.abs ((if neg then -1 else 1) * A - - (if neg then -1 else 1) * u * den) = A + u * den /\ A < A + u * den.
Proof. intros HA Hu Hd. assert (P : 0 < u * den) by nia. destruct neg; lia. Qed.
Lemma alike (neg : bool) A u den : Z.abs ((if neg then -1 else 1) * A - (if neg then -1 else 1) * u * den) = Z.abs (A - u * den).
Proof. destruct neg; lia. Qed.
Lemma round_decimal_nearest neg N E : 0 <= N -> nearest_double neg N E (octets_of 8 (pattern (round_decimal neg N E))).
Proof.
  intros HN. unfold nearest_double, round_decimal. set (num := N * 10 ^ Z.max E 0). set (den := 10 ^ Z.max (- E) 0). fold (cut num den).
  assert (Hd : 0 < den) by (apply Z.pow_pos_nonneg; lia). assert (Hn : 0 <= num) by (apply Z.mul_nonneg_nonneg; [exact HN|apply Z.pow_nonneg; lia]).
  set (G := units (2^53 - 1) 971). set (H := units (2^53) 971).
  assert (EG : 2 * ((2^54 - 1) * 2^970 * 2^1074) = G + H).
  { unfold G, H, units. change (971 + 1074) with (970 + 1 + 1074). rewrite !Z.pow_add_r by lia. lia. }
  assert (GH : G < H) by (unfold G, H, units; apply Z.mul_lt_mono_pos_r; [apply Z.pow_pos_nonneg; lia|lia]). assert (G0 : 0 < G) by (apply units_pos; lia).
  assert (Eff : (2^54 - 1) * 2^970 * den <= num <-> (G + H) * den <= 2 * (num * 2^1074)).
  { rewrite <- EG. assert (0 < 2^1074) by (apply Z.pow_pos_nonneg; lia). set (T := (2^54 - 1) * 2^970) in *. clearbody T. set (K := 2^1074) in *. clearbody K. nia. }
  rewrite Eff. clear Eff EG. remember (num * 2^1074) as A eqn:EA. assert (EGd : G = units (2^53 - 1) 971) by reflexivity. assert (EHd : H = units (2^53) 971) by reflexivity.
  assert (EHd' : H = units (2^52) 972) by (rewrite EHd; unfold units; change (972 + 1074) with (1 + (971 + 1074)); rewrite (Z.pow_add_r 2 1) by lia; lia).
  assert (GHd : G * den < H * den) by (apply Z.mul_lt_mono_pos_r; assumption). clearbody G H den num.
  destruct (Z.eq_dec num 0) as [Z0|Nz].
  - assert (cut num den = 0) as ->. { unfold cut. rewrite Z0, Z.mul_0_l, Z.div_0_l, Z.mod_0_l by lia. reflexivity. }
    cbn [Z.eqb]. destruct (pattern_zero neg) as (P1 & P2 & P3 & P4 & P5). split; [exact P1|]. split; [exact P2|].
    assert (EA0 : A = 0) by (rewrite EA, Z0; reflexivity). rewrite EA0. split; [intros T; exfalso; rewrite Z.mul_add_distr_r in T; clear - T GHd G0 Hd; nia|]. intros _. split; [exact P3|]. intros x _ _. rewrite P4, Z0. split; [lia|auto].
  - pose proof (cut_pos num den ltac:(lia) Hd) as Cp. replace (cut num den =? 0) with false by lia. destruct (cut num den) as [|m|m] eqn:Em; try lia.
    destruct (rounded neg num den m ltac:(lia) Hd Em) as (X & ev & Near & R). rewrite <- EA in Near. assert (A0 : 0 <= A) by (rewrite EA; apply Z.mul_nonneg_nonneg; [exact Hn|apply Z.pow_nonneg; lia]).
    assert (NG := Near G ltac:(right; exists (2^53 - 1), 971; split; [split; [lia|split; lia]|exact EGd])).
    assert (NH := Near H ltac:(right; exists (2^52), 972; split; [split; [lia|split; lia]|exact EHd'])).
    assert (Near0 := Near 0 (or_introl eq_refl)).
    assert (Fin : 0 <= X <= G -> (X = G -> ev = false) -> ~ (G + H) * den <= 2 * A).
    { intros HX Odd T. destruct NH as (N1 & N2). assert (XG : X * den <= G * den) by (apply Z.mul_le_mono_nonneg_r; lia). rewrite Z.mul_add_distr_r in T.
      assert (E0 : 2 * A = G * den + H * den /\ X * den = G * den) by (clear - N1 XG GHd T; lia). destruct E0 as (E0 & E1). apply Z.mul_reg_r in E1; [|clear - Hd; lia]. specialize (Odd E1). rewrite N2 in Odd; [discriminate| |].
      - rewrite E1. clear - E0 GHd. lia.
      - rewrite E1. clear - GH. lia. }
    assert (Off : forall d, (exists r, in_units d = (if neg then -1 else 1) * X /\ r = X) -> (ev = true -> Z.even (dbl_frac d) = true) -> forall x, is_double x -> dbl_finite x ->
       Z.abs ((if neg then -1 else 1) * num * 2 ^ 1074 - in_units d * den) <= Z.abs ((if neg then -1 else 1) * num * 2 ^ 1074 - in_units x * den) /\
       (Z.abs ((if neg then -1 else 1) * num * 2 ^ 1074 - in_units d * den) = Z.abs ((if neg then -1 else 1) * num * 2 ^ 1074 - in_units x * den) -> in_units x <> in_units d -> Z.even (dbl_frac d) = true)).
    { intros d (_ & Ed & _) Hev x Dx Fx. rewrite Ed. rewrite <- Z.mul_assoc, <- EA.
      rewrite alike.
      destruct (finite_units x Dx Fx) as [Ex|(sg & m' & e' & Hs & Hc & He & Ex)].
      - rewrite Ex. replace 0 with ((if neg then -1 else 1) * 0) at 1 2 by (destruct neg; reflexivity). rewrite alike. destruct Near0 as (N1 & N2). split; [exact N1|]. intros E1 Nx. apply Hev, N2; [exact E1|]. clear - Nx. destruct neg; lia.
      - assert (Px : 0 < units m' e') by (apply units_pos; destruct Hc as (C1 & C2 & C3); lia). destruct (Near (units m' e')) as (N1 & N2); [right; exists m', e'; auto|]. rewrite Ex. set (u := units m' e') in *.
        assert (C : sg = (if neg then -1 else 1) \/ sg = - (if neg then -1 else 1)) by (clear - Hs; destruct neg; lia). destruct C as [-> | ->].
        + rewrite alike. split; [exact N1|]. intros E1 Nx. apply Hev, N2; [exact E1|]. clear - Nx. destruct neg; lia.
        + destruct (opposite neg A u den A0 Px Hd) as (-> & Lt). destruct Near0 as (N3 & _). rewrite Z.mul_0_l, Z.sub_0_r, (Z.abs_eq A A0) in N3. split; [clear - N3 Lt; lia|]. intros E1 _. exfalso. clear - E1 N3 Lt. lia. }
    destruct (binary_round_aux 53 1024 neg (Z.pos m) (-1201) loc_Exact) as [s'|s'| |s' m' e'].
    + destruct R as (-> & EX). destruct (pattern_zero neg) as (P1 & P2 & P3 & P4 & P5). split; [exact P1|]. split; [exact P2|]. split; [intros T; exfalso; apply Fin; [rewrite EX; clear - G0; lia|rewrite EX; intros Q; clear - Q G0; lia|exact T]|].
      intros _. split; [exact P3|]. apply Off; [exists X; split; [rewrite P4, EX; clear; lia|reflexivity]|auto].
    + destruct R as (-> & EX). rewrite <- EHd in EX. destruct (pattern_inf neg) as (P1 & P2 & P3). split; [exact P1|]. split; [exact P2|]. split; [intros _; exact P3|].
      intros T. exfalso. apply T. destruct NG as (N1 & _). assert (HX : H * den <= X * den) by (apply Z.mul_le_mono_nonneg_r; [clear - Hd; lia|exact EX]). rewrite Z.mul_add_distr_r. clear - N1 HX GHd. lia.
    + destruct R.
    + destruct R as (-> & Hc & He & EX & Hev). destruct (pattern_finite neg m' e' Hc He) as (P1 & P2 & P3 & P4 & P5). split; [exact P1|]. split; [exact P2|]. split.
      * intros T. exfalso. assert (0 < units (Zpos m') e') by (apply units_pos; destruct Hc as (C1 & C2 & C3); lia). apply Fin; [split; [rewrite EX; apply Z.lt_le_incl; assumption|rewrite EX, EGd; apply greatest_finite; assumption]| |exact T].
        intros EG. destruct ev; [|reflexivity]. specialize (Hev eq_refl). rewrite EX, EGd in EG. apply greatest_unique in EG; [|assumption|assumption]. rewrite EG in Hev. discriminate.
      * intros _. split; [exact P3|]. apply Off; [exists X; split; [rewrite P4, EX; reflexivity|reflexivity]|]. rewrite P5. exact Hev.
Qed.

(** ** Regular expressions *)
Inductive many (P : list Z -> Prop) : list Z -> Prop :=
| many_nil : many P []
| many_app u v : P u -> many P v -> many P (u ++ v).
Fixpoint lang (r : regex) (t : list Z) : Prop :=
  match r with
  | RNone => False
  | REmpty => t = []
  | RClass l => exists c, In c l /\ t = [c]
  | RThen r s => exists u v, t = u ++ v /\ lang r u /\ lang s v
  | ROr r s => lang r t \/ lang s t
  | RStar r => many (lang r) t
  end.
Lemma lang_empty r : may_be_empty r = true <-> lang r [].
Proof.
  induction r as [| |l|r IHr s IHs|r IHr s IHs|r IH]; cbn [may_be_empty lang].
  - split; [discriminate|tauto].
  - tauto.
  - split; [discriminate|]. intros (c & _ & E). discriminate.
  - rewrite andb_true_iff, IHr, IHs. split; [intros (A & B); exists [], []; auto|]. intros (u & v & E & A & B). symmetry in E. apply app_eq_nil in E. destruct E; subst. auto.
  - rewrite orb_true_iff, IHr, IHs. tauto.
  - split; [intros _; constructor|reflexivity].
Qed.
Lemma many_cons P c t : many P (c :: t) -> exists u v, t = u ++ v /\ P (c :: u) /\ many P v.
Proof.
  intros H. remember (c :: t) as s eqn:E. induction H as [|u v Hu Hv IH]; [discriminate|]. destruct u as [|c' u]; [apply IH; exact E|]. injection E as -> E. exists u, v. auto.
Qed.
Lemma lang_after c r : forall t, lang (after c r) t <-> lang r (c :: t).
Proof.
  induction r as [| |l|r IHr s IHs|r IHr s IHs|r IH]; intros t; cbn [after lang].
  - tauto.
  - split; [tauto|discriminate].
  - destruct (existsb (Z.eqb c) l) eqn:E.
    + apply existsb_exists in E. destruct E as (x & Hx & E). apply Z.eqb_eq in E. subst x. cbn [lang]. split; [intros ->; eauto|]. intros (x & _ & E). congruence.
    + cbn [lang]. split; [tauto|]. intros (x & Hx & Ex). injection Ex as <- ->. assert (existsb (Z.eqb c) l = true); [|congruence]. apply existsb_exists. exists c. split; [exact Hx|apply Z.eqb_refl].
  - assert (Then : lang (RThen (after c r) s) t <-> exists u v, t = u ++ v /\ lang r (c :: u) /\ lang s v) by (cbn [lang]; setoid_rewrite IHr; tauto).
    assert (Split : (exists u v, c :: t = u ++ v /\ lang r u /\ lang s v) <-> (exists u v, t = u ++ v /\ lang r (c :: u) /\ lang s v) \/ (lang r [] /\ lang s (c :: t))).
    { split.
      - intros (u & v & E & A & B). destruct u as [|x u]; [right; cbn in E; subst v; auto|]. injection E as <- ->. left. eauto.
      - intros [(u & v & -> & A & B)|(A & B)]; [exists (c :: u), v; auto|exists [], (c :: t); auto]. }
    rewrite Split. destruct (may_be_empty r) eqn:E.
    + apply lang_empty in E. cbn [lang] in *. rewrite Then, IHs. tauto.
    + rewrite Then. split; [tauto|]. intros [H|(H & _)]; [exact H|]. apply lang_empty in H. congruence.
  - rewrite IHr, IHs. tauto.
  - split.
    + intros (u & v & -> & A & B). apply IH in A. apply (many_app _ (c :: u) v A B).
    + intros H. apply many_cons in H. destruct H as (u & v & -> & A & B). exists u, v. split; [reflexivity|]. split; [apply IH; exact A|exact B].
Qed.
Lemma regex_match_lang t : forall r, regex_match r t = true <-> lang r t.
Proof. induction t as [|c t IH]; intros r; cbn [regex_match]; [apply lang_empty|]. rewrite IH. apply lang_after. Qed.
Lemma many_class l t : many (lang (RClass l)) t <-> Forall (fun c => In c l) t.
Proof.
  split.
  - induction 1 as [|u v (c & Hc & ->) Hv IH]; [constructor|]. constructor; assumption.
  - induction 1 as [|c t Hc Ht IH]; [constructor|]. apply (many_app _ [c] t); [exists c; auto|exact IH].
Qed.
Lemma digit_class_spec c : In c [48; 49; 50; 51; 52; 53; 54; 55; 56; 57] <-> 48 <= c <= 57.
Proof. cbn [In]. lia. Qed.
Lemma lang_digits t : lang (RStar digit_class) t <-> digits t.
Proof. cbn [lang]. unfold digit_class. rewrite many_class. unfold digits. split; apply Forall_impl; intros c; apply digit_class_spec. Qed.
Lemma lang_plus_digits t : lang (RPlus digit_class) t <-> digits t /\ t <> [].
Proof.
  unfold RPlus. change (lang (RThen digit_class (RStar digit_class)) t) with (exists u v, t = u ++ v /\ lang digit_class u /\ lang (RStar digit_class) v). split.
  - intros (u & v & -> & (c & Hc & ->) & B). apply lang_digits in B. split; [|discriminate]. constructor; [apply digit_class_spec; exact Hc|exact B].
  - intros (H & N). destruct t as [|c t]; [congruence|]. inversion H; subst. exists [c], t. split; [reflexivity|]. split; [exists c; split; [apply digit_class_spec; assumption|reflexivity]|apply lang_digits; assumption].
Qed.
Lemma lang_sign t : lang (ROpt sign_class) t <-> exists neg, signs t neg.
Proof.
  cbn [ROpt lang sign_class In]. split.
  - intros [(c & Hc & ->) | ->]; [|eexists; constructor]. destruct Hc as [<-|[<-|[]]]; eexists; constructor.
  - intros (neg & H). destruct H; eauto 6.
Qed.
Lemma lang_blanks t : lang (RStar (RClass [32])) t <-> exists k, t = repeat 32 k.
Proof.
  cbn [lang]. change (many (lang (RClass [32])) t <-> exists k, t = repeat 32 k). rewrite many_class. split.
  - induction 1 as [|c t Hc Ht (k & IH)]; [exists 0%nat; reflexivity|]. destruct Hc as [<-|[]]. exists (S k). cbn [repeat]. rewrite IH. reflexivity.
  - intros (k & ->). induction k as [|k IH]; constructor; [left; reflexivity|exact IH].
Qed.
Lemma lang_mantissa t : lang mantissa_regex t <-> exists N p, marked t N p.
Proof.
  unfold mantissa_regex. cbn [lang]. fold (lang (RStar digit_class)). split.
  - intros [(u & v & -> & A & w & x & -> & (c & Hc & ->) & B)|(u & v & -> & A & w & x & -> & (c & Hc & ->) & B)].
    + apply lang_plus_digits in A. apply lang_digits in B. destruct A as (A & N). eexists. eexists. apply (is_marked u c x A B); [intros E; apply app_eq_nil in E; tauto|]. cbn in Hc. intuition auto.
    + apply lang_digits in A. apply lang_plus_digits in B. destruct B as (B & N). eexists. eexists. apply (is_marked u c x A B); [intros E; apply app_eq_nil in E; tauto|]. cbn in Hc. intuition auto.
  - intros (N & p & H). destruct H as [ip mark fp A B Ne Hm]. assert (M : In mark [46; 44]) by (cbn; intuition auto). destruct ip as [|c ip].
    + right. exists [], (mark :: fp). split; [reflexivity|]. split; [apply lang_digits; exact A|]. exists [mark], fp. split; [reflexivity|]. split; [exists mark; auto|]. apply lang_plus_digits. auto.
    + left. exists (c :: ip), (mark :: fp). split; [reflexivity|]. split; [apply lang_plus_digits; split; [exact A|discriminate]|]. exists [mark], fp. split; [reflexivity|]. split; [exists mark; auto|]. apply lang_digits. exact B.
Qed.
Lemma regex_iso t : regex_match nr1 t || regex_match nr2 t || regex_match nr3 t = true <-> exists neg N E, iso_6093 t neg N E.
Proof.
  rewrite !orb_true_iff, !regex_match_lang. unfold nr1, nr2, nr3. split.
  - intros [[H|H]|H]; destruct H as (u & v & -> & Hu & x & y & -> & Hx & Hy); apply lang_blanks in Hu; destruct Hu as (k & ->); apply lang_sign in Hx; destruct Hx as (neg & Hx).
    + apply lang_plus_digits in Hy. destruct Hy as (A & B). eexists. eexists. eexists. apply form_1; eauto.
    + apply lang_mantissa in Hy. destruct Hy as (N & p & Hm). eexists. eexists. eexists. apply form_2; eauto.
    + destruct Hy as (m & w & -> & Hm & e & z & -> & (c & Hc & ->) & s & l & -> & Hs & Hl). apply lang_mantissa in Hm. destruct Hm as (N & p & Hm). apply lang_sign in Hs. destruct Hs as (neg' & Hs). apply lang_plus_digits in Hl. destruct Hl as (Hl & Nl).
      eexists. eexists. eexists. apply (form_3 k x neg m N p c s neg' l); auto. cbn in Hc. intuition auto.
  - intros (neg & N & E & H). destruct H as [k s neg l Hs Hd Hn|k s neg l N p Hs Hm|k s neg l N p exp s' neg' l' Hs Hm He Hs' Hd Hn].
    + left. left. exists (repeat 32 k), (s ++ l). split; [reflexivity|]. split; [apply lang_blanks; eauto|]. exists s, l. split; [reflexivity|]. split; [apply lang_sign; eauto|]. apply lang_plus_digits; auto.
    + left. right. exists (repeat 32 k), (s ++ l). split; [reflexivity|]. split; [apply lang_blanks; eauto|]. exists s, l. split; [reflexivity|]. split; [apply lang_sign; eauto|]. apply lang_mantissa; eauto.
    + right. exists (repeat 32 k), (s ++ l ++ exp :: s' ++ l'). split; [reflexivity|]. split; [apply lang_blanks; eauto|]. exists s, (l ++ exp :: s' ++ l'). split; [reflexivity|]. split; [apply lang_sign; eauto|].
      exists l, (exp :: s' ++ l'). split; [reflexivity|]. split; [apply lang_mantissa; eauto|]. exists [exp], (s' ++ l'). split; [reflexivity|]. split; [exists exp; cbn; intuition auto|].
      exists s', l'. split; [reflexivity|]. split; [apply lang_sign; eauto|]. apply lang_plus_digits; auto.
Qed.

(** ** Reading the number *)
Definition not_digit_first (t : list Z) : Prop := match t with c :: _ => is_digit c = false | [] => True end.
Lemma read_digits_app l t n k : digits l -> not_digit_first t -> read_digits (l ++ t) n k = (fold_left (fun n c => 10 * n + (c - 48)) l n, k + zlen l, t).
Proof.
  intros H Ht. revert n k. induction H as [|c l Hc Hl IH]; intros n k.
  - cbn [app fold_left]. replace (k + zlen []) with k by (cbn; lia). destruct t as [|c t]; [reflexivity|]. cbn [read_digits]. cbn in Ht. rewrite Ht. reflexivity.
  - cbn [app read_digits fold_left]. unfold is_digit at 1. replace ((48 <=? c) && (c <=? 57)) with true by lia. rewrite IH, zlen_cons. f_equal. f_equal. lia.
Qed.
Lemma map_digits l : digits l -> map comma_to_dot l = l.
Proof. induction 1 as [|c l Hc Hl IH]; [reflexivity|]. cbn [map]. rewrite IH. unfold comma_to_dot. replace (c =? 44) with false by lia. reflexivity. Qed.
Lemma map_signs s neg : signs s neg -> map comma_to_dot s = s.
Proof. destruct 1; reflexivity. Qed.
Lemma skip_blanks_app k t : (forall r, t <> 32 :: r) -> skip_blanks (repeat 32 k ++ t) = t.
Proof. intros H. induction k as [|k IH]; [|exact IH]. cbn [repeat app]. destruct t as [|c t]; [reflexivity|]. cbn [skip_blanks]. destruct (Z.eqb_spec c 32) as [->|N]; [exfalso; apply (H t); reflexivity|reflexivity]. Qed.
Definition no_sign_first (t : list Z) : Prop := match t with c :: _ => c <> 43 /\ c <> 45 /\ c <> 32 | [] => True end.
Lemma read_sign_app s neg t : signs s neg -> no_sign_first t -> read_sign (s ++ t) = (neg, t).
Proof.
  intros H Ht. destruct H; [|reflexivity|reflexivity]. cbn [app]. destruct t as [|c t]; [reflexivity|]. destruct Ht as (A & B & C). unfold read_sign. replace (c =? 45) with false by lia. replace (c =? 43) with false by lia. reflexivity.
Qed.
Lemma not_blank_first s neg t : signs s neg -> no_sign_first t -> forall r, s ++ t <> 32 :: r.
Proof. intros H Ht r. destruct H; cbn [app]; try discriminate. destruct t as [|c t]; [discriminate|]. destruct Ht as (A & B & C). congruence. Qed.
Lemma digits_no_sign l t : digits l -> l <> [] -> no_sign_first (l ++ t).
Proof. intros H N. destruct l as [|c l]; [congruence|]. inversion H; subst. cbn. lia. Qed.
Lemma number_app l m : number_of (l ++ m) = fold_left (fun n c => 10 * n + (c - 48)) m (number_of l).
Proof. unfold number_of. apply fold_left_app. Qed.
Lemma read_iso t neg N E : iso_6093 t neg N E -> read_number (map comma_to_dot t) = Some (neg, N, E).
Proof.
  assert (Blanks : forall k, map comma_to_dot (repeat 32 k) = repeat 32 k) by (induction k as [|k IH]; [reflexivity|cbn [repeat map]; rewrite IH; reflexivity]).
  assert (Marked : forall k s neg l N p tail, signs s neg -> marked l N p -> not_digit_first tail -> map comma_to_dot tail = tail ->
    read_number (map comma_to_dot (repeat 32 k ++ s ++ l ++ tail)) = match read_exponent_part tail with Some e => Some (neg, N, e - p) | None => None end).
  { intros k s ng l N0 p tail Hs Hm Ht Mt. destruct Hm as [ip mark fp A B Ne Hmk]. rewrite !map_app, Blanks, (map_signs s ng Hs). cbn [map]. rewrite (map_digits ip A), (map_digits fp B), Mt.
    replace (comma_to_dot mark) with 46 by (destruct Hmk as [-> | ->]; reflexivity). rewrite <- app_assoc. cbn [app].
    assert (F : no_sign_first (ip ++ 46 :: fp ++ tail)) by (destruct ip as [|c ip]; [cbn; lia|apply digits_no_sign; [exact A|discriminate]]).
    unfold read_number. rewrite skip_blanks_app by (apply (not_blank_first s ng); assumption). rewrite (read_sign_app s ng) by assumption. rewrite read_digits_app by (exact A || reflexivity). change (46 =? 46) with true. cbv iota.
    rewrite read_digits_app by assumption. fold (number_of ip). rewrite <- number_app.
    assert (0 < zlen (ip ++ fp)) by (destruct (ip ++ fp); [congruence|rewrite zlen_cons; pose proof (zlen_nonneg l); lia]). rewrite zlen_app in H. replace (0 + zlen ip + (0 + zlen fp) =? 0) with false by lia. rewrite Z.add_0_l. reflexivity. }
  intros H. destruct H as [k s neg l Hs Hd Hn|k s neg l N p Hs Hm|k s neg l N p exp s' neg' l' Hs Hm He Hs' Hd Hn].
  - rewrite !map_app, Blanks, (map_signs s neg Hs), (map_digits l Hd). pose proof (digits_no_sign l [] Hd Hn) as F. rewrite app_nil_r in F. unfold read_number. rewrite skip_blanks_app by (apply (not_blank_first s neg); assumption).
    rewrite (read_sign_app s neg) by assumption. rewrite <- (app_nil_r l) at 1. rewrite read_digits_app by (exact Hd || exact I).
    assert (0 < zlen l) by (destruct l; [congruence|rewrite zlen_cons; pose proof (zlen_nonneg l); lia]). replace (0 + zlen l + 0 =? 0) with false by lia. reflexivity.
  - specialize (Marked k s neg l N p [] Hs Hm I eq_refl). rewrite app_nil_r in Marked. rewrite Marked. cbn [read_exponent_part]. f_equal.
  - rewrite (Marked k s neg l N p (exp :: s' ++ l') Hs Hm).
    + cbn [read_exponent_part]. replace ((exp =? 69) || (exp =? 101)) with true by lia. pose proof (digits_no_sign l' [] Hd Hn) as F. rewrite app_nil_r in F. rewrite (read_sign_app s' neg') by assumption.
      rewrite <- (app_nil_r l') at 1. rewrite read_digits_app by (exact Hd || exact I). assert (0 < zlen l') by (destruct l'; [congruence|rewrite zlen_cons; pose proof (zlen_nonneg l'); lia]). replace (0 + zlen l' =? 0) with false by lia.
      fold (number_of l'). do 2 f_equal. destruct neg'; lia.
    + cbn. unfold is_digit. lia.
    + cbn [map]. rewrite map_app, (map_signs s' neg' Hs'), (map_digits l' Hd). f_equal. unfold comma_to_dot. replace (exp =? 44) with false by lia. reflexivity.
Qed.
Lemma number_nonneg l : digits l -> 0 <= number_of l.
Proof.
  intros H. unfold number_of. assert (G : forall n, 0 <= n -> 0 <= fold_left (fun n c => 10 * n + (c - 48)) l n); [|apply G; lia]. induction H as [|c l Hc Hl IH]; intros n Hn; [exact Hn|]. cbn [fold_left]. apply IH. lia.
Qed.
Lemma iso_nonneg t neg N E : iso_6093 t neg N E -> 0 <= N.
Proof.
  assert (M : forall l N p, marked l N p -> 0 <= N) by (intros l N0 p [ip mark fp A B _ _]; apply number_nonneg, Forall_app; auto).
  intros H. destruct H; [apply number_nonneg; assumption|eapply M; eassumption|eapply M; eassumption].
Qed.
Lemma decimal_accepts b t neg N E : iso_6093 t neg N E -> exists d, decode_real_decimal (b :: t) = Some d /\ nearest_double neg N E d.
Proof.
  intros H. unfold decode_real_decimal. cbn [tl]. rewrite (proj2 (regex_iso t)) by eauto. unfold simple_atod. rewrite (read_iso t neg N E H). eexists. split; [reflexivity|]. apply round_decimal_nearest, (iso_nonneg t neg N E H).
Qed.
Lemma decimal_rejects b t : (forall neg N E, ~ iso_6093 t neg N E) -> decode_real_decimal (b :: t) = None.
Proof.
  intros H. unfold decode_real_decimal. cbn [tl]. destruct (_ || _ || _) eqn:Q; [|reflexivity]. apply regex_iso in Q. destruct Q as (neg & N & E & Q). destruct (H _ _ _ Q).
Qed.
