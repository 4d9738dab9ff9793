(** Proofs about RealEq.v: rounding, with integers only. *)
From Coq Require Import List ZArith Bool SpecFloat Lia.
From Verif Require Import Base Ident View Prims RealModel RealEq Spec RealProofs.
Import ListNotations.
Local Open Scope Z_scope.

(** ** Shifting *)
Definition lossless (r : shr_record) : bool := negb (shr_r r) && negb (shr_s r).
Lemma shr_1_spec r : 0 <= shr_m r -> shr_m (shr_1 r) = shr_m r / 2 /\ (shr_r (shr_1 r) = Z.odd (shr_m r)) /\ shr_s (shr_1 r) = shr_r r || shr_s r.
Proof.
  destruct r as [m rr s]. cbn [shr_m]. intros H. rewrite <- Z.div2_div. destruct m as [|[p|p|]|p]; cbn [shr_1 shr_m shr_r shr_s Z.odd Z.div2 Pos.div2]; try lia; auto.
Qed.
Lemma iter_pos_iter {A} (f : A -> A) p x : SpecFloat.iter_pos f p x = Pos.iter f x p.
Proof. revert x. induction p as [p IH|p IH|]; intros x; cbn [SpecFloat.iter_pos Pos.iter]; rewrite ?IH; [|reflexivity|reflexivity]. rewrite <- !Pos.iter_swap. reflexivity. Qed.
Lemma iter_shr M (p : positive) : 0 <= M -> let r := SpecFloat.iter_pos shr_1 p (Build_shr_record M false false) in
  shr_m r = M / 2 ^ Zpos p /\ (lossless r = true <-> M mod 2 ^ Zpos p = 0).
Proof.
  intros HM. cbv zeta. induction p as [|p IH] using Pos.peano_ind.
  - cbn [SpecFloat.iter_pos]. destruct (shr_1_spec (Build_shr_record M false false) HM) as (A & B & C). split; [exact A|]. unfold lossless. rewrite B, C. cbn [shr_m shr_r shr_s]. change (2 ^ 1) with 2.
    rewrite Zmod_odd. destruct (Z.odd M); cbn; split; congruence.
  - rewrite iter_pos_iter, Pos.iter_succ, <- iter_pos_iter. destruct IH as (A & B).
    set (r := SpecFloat.iter_pos shr_1 p (Build_shr_record M false false)) in *. assert (P : 0 < 2 ^ Zpos p) by (apply Z.pow_pos_nonneg; lia).
    assert (Q : 0 <= M / 2 ^ Zpos p) by (apply Z.div_pos; lia). destruct (shr_1_spec r) as (C & D & E); [rewrite A; exact Q|].
    rewrite Pos2Z.inj_succ, Z.pow_succ_r by lia. rewrite (Z.mul_comm 2). split.
    + rewrite C, A, Z.div_div by lia. reflexivity.
    + rewrite Z.rem_mul_r by lia. unfold lossless. rewrite D, E, A. pose proof (Z.mod_pos_bound M (2 ^ Zpos p) P). pose proof (Z.mod_pos_bound (M / 2 ^ Zpos p) 2 ltac:(lia)). rewrite negb_orb.
      pose proof (Zmod_odd (M / 2 ^ Zpos p)) as O. destruct (Z.odd (M / 2 ^ Zpos p)); cbn [negb andb].
      * rewrite O. split; [discriminate|nia].
      * rewrite O, Z.mul_0_r, Z.add_0_r. exact B.
Qed.
Lemma digits_spec p : 2 ^ (Zpos (digits2_pos p) - 1) <= Zpos p < 2 ^ Zpos (digits2_pos p).
Proof.
  induction p as [p IH|p IH|]; cbn [digits2_pos]; [| |cbn; lia]; rewrite Pos2Z.inj_succ, ?Z.pow_succ_r by lia;
  (replace (Z.succ (Z.pos (digits2_pos p)) - 1) with (Z.succ (Z.pos (digits2_pos p) - 1)) by lia; rewrite Z.pow_succ_r by lia; lia).
Qed.
Lemma digits_below p k : 0 <= k -> Zpos p < 2 ^ k -> Zpos (digits2_pos p) <= k.
Proof. intros Hk H. destruct (digits_spec p) as (A & _). assert (2 ^ (Z.pos (digits2_pos p) - 1) < 2 ^ k) by lia. apply Z.pow_lt_mono_r_iff in H0; lia. Qed.
Lemma shift_pos_value d m : Zpos (shift_pos d m) = Zpos m * 2 ^ Zpos d.
Proof. rewrite shift_pos_correct, Z.pow_pos_fold. lia. Qed.

(** ** Rounding *)
(** Floats as they come out of operations: 53 bits, the first of them set unless the exponent is the least. *)
Definition canonical (m e : Z) : Prop := 0 < m < 2^53 /\ -1074 <= e /\ (-1074 < e -> 2^52 <= m).
(** [m * 2^e], times 2^1074. *)
Definition units (m e : Z) : Z := m * 2 ^ (e + 1074).
Definition lost (M e : Z) : Z := Z.max (Zdigits2 M + e - 53) (-1074) - e.
Lemma round_bound s (M : positive) e : 0 <= lost (Zpos M) e ->
  let n := lost (Zpos M) e in let q := Zpos M / 2 ^ n in
  0 <= q < 2^53 /\ -1074 <= e + n /\ (-1074 < e + n -> 2^52 <= q) /\
  match binary_round_aux 53 1024 s (Zpos M) e loc_Exact with
  | S754_zero s' => s' = s /\ q = 0
  | S754_infinity s' => s' = s /\ 970 < e + n
  | S754_finite s' m' e' => s' = s /\ canonical (Zpos m') e' /\ (units q (e + n) = units (Zpos m') e' \/ (Zpos M mod 2 ^ n <> 0 /\ units (q + 1) (e + n) = units (Zpos m') e'))
  | S754_nan => False
  end.
Proof.
  intros Hn n q. destruct (digits_spec M) as (D1 & D2). set (dg := Zpos (digits2_pos M)) in *.
  assert (En : n = Z.max (dg + e - 53) (-1074) - e) by reflexivity. change (0 <= n) in Hn. assert (Pn : 0 < 2 ^ n) by (apply Z.pow_pos_nonneg; lia).
  assert (Q0 : 0 <= q) by (apply Z.div_pos; lia).
  assert (Q1 : q < 2^53).
  { apply Z.div_lt_upper_bound; [exact Pn|]. rewrite <- Z.pow_add_r by lia. eapply Z.lt_le_trans; [exact D2|]. apply Z.pow_le_mono_r; lia. }
  assert (Q2 : -1074 < e + n -> 2^52 <= q).
  { intros L. apply Z.div_le_lower_bound; [exact Pn|]. rewrite <- Z.pow_add_r by lia. eapply Z.le_trans; [|exact D1]. apply Z.pow_le_mono_r; lia. }
  split; [lia|]. split; [lia|]. split; [exact Q2|].
  assert (S1 : exists r, shr_fexp 53 1024 (Zpos M) e loc_Exact = (r, e + n) /\ shr_m r = q /\ (lossless r = true <-> Zpos M mod 2 ^ n = 0)).
  { unfold shr_fexp. cbn [shr_record_of_loc]. change (fexp 53 1024 (Zdigits2 (Zpos M) + e) - e) with n. unfold shr. destruct n as [|p|p] eqn:E; [| |lia].
    - eexists. split; [f_equal; lia|]. cbn [shr_m]. split; [unfold q; rewrite Z.div_1_r; reflexivity|]. cbn. rewrite Z.mod_1_r. tauto.
    - eexists. split; [reflexivity|]. apply iter_shr. lia. }
  destruct S1 as (r & E1 & Er & El). unfold binary_round_aux. rewrite E1. rewrite Er.
  set (q' := round_nearest_even q (loc_of_shr_record r)).
  assert (Q' : q' = q \/ (Zpos M mod 2 ^ n <> 0 /\ q' = q + 1)).
  { unfold q', loc_of_shr_record. destruct r as [m rr ss]. destruct rr, ss; cbn [round_nearest_even]; auto.
    - right. split; [|reflexivity]. intros Z0. apply El in Z0. discriminate.
    - destruct (Z.even q); [left; reflexivity|right; split; [|reflexivity]]. intros Z0. apply El in Z0. discriminate. }
  clearbody q'. assert (R0 : 0 <= q' <= 2^53) by lia.
  set (e1 := e + n) in *. assert (B1 : -1074 <= e1) by lia.
  assert (Z1 : q' = 0 -> q = 0) by lia.
  destruct q' as [|p|p]; [| |lia].
  { unfold shr_fexp. cbn [Zdigits2 shr_record_of_loc]. assert (T : fexp 53 1024 (0 + e1) - e1 <= 0) by (unfold fexp, emin; lia).
    unfold shr. destruct (fexp 53 1024 (0 + e1) - e1) as [|x|x]; [| lia |]; cbn [shr_m]; auto. }
  destruct (Z.eq_dec (Zpos p) (2^53)) as [E53|N53].
  - (* one more digit *)
    assert (Ep : p = (2^53)%positive) by (apply Pos2Z.inj; rewrite E53; reflexivity). subst p. unfold shr_fexp. change (Zdigits2 (Z.pos (2 ^ 53))) with 54. cbn [shr_record_of_loc].
    replace (fexp 53 1024 (54 + e1) - e1) with 1 by (unfold fexp, emin; lia). change (shr {| shr_m := Z.pos (2 ^ 53); shr_r := false; shr_s := false |} e1 1) with (Build_shr_record (Z.pos (2^52)) false false, e1 + 1). cbn [shr_m].
    destruct (e1 + 1 <=? 1024 - 53) eqn:L.
    + split; [reflexivity|]. split; [split; [vm_compute; split; reflexivity|split; [lia|intros _; vm_compute; discriminate]]|].
      destruct Q' as [Q'|(Q'' & Q')]; [lia|]. right. split; [exact Q''|]. unfold units. rewrite <- Q'. replace (e1 + 1 + 1074) with (Z.succ (e1 + 1074)) by lia. rewrite Z.pow_succ_r by lia. change (Z.pos (2^53)) with (2 * Z.pos (2^52)). lia.
    + split; [reflexivity|]. lia.
  - assert (Lp : Zpos p < 2^53) by lia. unfold shr_fexp. cbn [Zdigits2 shr_record_of_loc]. pose proof (digits_below p 53 ltac:(lia) Lp) as Dp.
    assert (T : fexp 53 1024 (Z.pos (digits2_pos p) + e1) - e1 <= 0) by (unfold fexp, emin; lia).
    assert (U : shr (Build_shr_record (Z.pos p) false false) e1 (fexp 53 1024 (Z.pos (digits2_pos p) + e1) - e1) = (Build_shr_record (Z.pos p) false false, e1)).
    { unfold shr. destruct (fexp 53 1024 (Z.pos (digits2_pos p) + e1) - e1); [reflexivity|lia|reflexivity]. }
    rewrite U. cbn [shr_m]. destruct (e1 <=? 1024 - 53) eqn:L.
    + split; [reflexivity|]. split; [split; [lia|split; [exact B1|intros B2; specialize (Q2 B2); lia]]|]. destruct Q' as [->|(Q'' & ->)]; auto.
    + split; [reflexivity|]. lia.
Qed.
Lemma align_spec s (M : positive) e : -1074 <= e -> exists M' e', binary_round 53 1024 s M e = binary_round_aux 53 1024 s (Zpos M') e' loc_Exact /\
  units (Zpos M') e' = units (Zpos M) e /\ -1074 <= e' /\ 0 <= lost (Zpos M') e' /\ (Zpos M < 2^53 -> lost (Zpos M') e' = 0).
Proof.
  intros He. unfold binary_round, shl_align. destruct (digits_spec M) as (D1 & D2).
  set (f := fexp 53 1024 (Z.pos (digits2_pos M) + e)). assert (Ef : f = Z.max (Z.pos (digits2_pos M) + e - 53) (-1074)) by reflexivity.
  assert (C : f - e < 0 \/ 0 <= f - e) by lia. destruct C as [C|C].
  - destruct (f - e) as [|d|d] eqn:E; try lia. exists (shift_pos d M), f. split; [reflexivity|].
    split; [unfold units; rewrite shift_pos_value, <- Z.mul_assoc, <- Z.pow_add_r by lia; do 2 f_equal; lia|]. split; [lia|].
    pose proof (shift_pos_value d M) as V. destruct (digits_spec (shift_pos d M)) as (D3 & D4). rewrite V in D3, D4.
    assert (L : lost (Z.pos (shift_pos d M)) f = 0); [|split; [lia|auto]]. unfold lost. cbn [Zdigits2].
    assert (A : Z.pos (digits2_pos M) - 1 + Z.pos d < Z.pos (digits2_pos (shift_pos d M))).
    { apply (Z.pow_lt_mono_r_iff 2); [lia|lia|]. rewrite Z.pow_add_r by lia. eapply Z.le_lt_trans; [|exact D4]. apply Z.mul_le_mono_nonneg_r; [apply Z.pow_nonneg; lia|exact D1]. }
    assert (B : Z.pos (digits2_pos (shift_pos d M)) - 1 < Z.pos (digits2_pos M) + Z.pos d).
    { apply (Z.pow_lt_mono_r_iff 2); [lia|lia|]. rewrite (Z.pow_add_r 2 (Z.pos (digits2_pos M))) by lia. eapply Z.le_lt_trans; [exact D3|]. apply Z.mul_lt_mono_pos_r; [apply Z.pow_pos_nonneg; lia|exact D2]. }
    lia.
  - exists M, e. assert (L : lost (Z.pos M) e = f - e) by reflexivity.
    split; [destruct (f - e); [reflexivity|reflexivity|lia]|]. split; [reflexivity|]. split; [exact He|]. split; [lia|].
    intros H. pose proof (digits_below M 53 ltac:(lia) H). lia.
Qed.

(** ** Comparing *)
Lemma units_mono m m' e : -1074 <= e -> m <= m' -> units m e <= units m' e.
Proof. intros He H. unfold units. apply Z.mul_le_mono_nonneg_r; [apply Z.pow_nonneg; lia|exact H]. Qed.
Lemma units_pos m e : -1074 <= e -> 0 < m -> 0 < units m e.
Proof. intros He H. unfold units. apply Z.mul_pos_pos; [exact H|apply Z.pow_pos_nonneg; lia]. Qed.
Lemma canonical_below m1 e1 m2 e2 : canonical m1 e1 -> canonical m2 e2 -> e1 < e2 -> units m1 e1 < units m2 e2.
Proof.
  intros (A1 & B1 & C1) (A2 & B2 & C2) L. specialize (C2 ltac:(lia)). unfold units. assert (P : 0 < 2 ^ (e1 + 1074)) by (apply Z.pow_pos_nonneg; lia).
  apply Z.lt_le_trans with (2^53 * 2 ^ (e1 + 1074)); [apply Z.mul_lt_mono_pos_r; lia|]. apply Z.le_trans with (2^52 * 2 ^ (e2 + 1074)); [|apply Z.mul_le_mono_nonneg_r; lia].
  rewrite <- !Z.pow_add_r by lia. apply Z.pow_le_mono_r; lia.
Qed.
Lemma compare_units m1 e1 m2 e2 : canonical (Zpos m1) e1 -> canonical (Zpos m2) e2 ->
  SFcompare (S754_finite false m1 e1) (S754_finite false m2 e2) = Some (units (Zpos m1) e1 ?= units (Zpos m2) e2).
Proof.
  intros H1 H2. cbn [SFcompare]. f_equal. destruct (Z.compare_spec e1 e2) as [E|L|L].
  - subst e2. unfold units. assert (P : 0 < 2 ^ (e1 + 1074)) by (apply Z.pow_pos_nonneg; destruct H1; lia).
    change (Pos.compare_cont Eq m1 m2) with (Pos.compare m1 m2). rewrite <- Zmult_compare_compat_r by lia. reflexivity.
  - symmetry. apply Z.compare_lt_iff. apply canonical_below; auto.
  - symmetry. apply Z.compare_gt_iff. apply canonical_below; auto.
Qed.
Lemma leb_units m1 e1 m2 e2 : canonical (Zpos m1) e1 -> canonical (Zpos m2) e2 ->
  SFleb (S754_finite false m1 e1) (S754_finite false m2 e2) = (units (Zpos m1) e1 <=? units (Zpos m2) e2).
Proof. intros H1 H2. unfold SFleb. rewrite compare_units by assumption. reflexivity. Qed.

(** [z] is as near to [D] as the comparison with any threshold can tell. *)
Definition near (z : spec_float) (D : Z) : Prop := forall m e, canonical (Zpos m) e -> e <= 970 ->
  (D <= units (Zpos m) e -> SFleb (SFabs z) (S754_finite false m e) = true) /\
  (SFleb (SFabs z) (S754_finite false m e) = true -> D * 2^52 <= units (Zpos m) e * (2^52 + 1)).
Definition exactly (z : spec_float) (D : Z) : Prop := forall m e, canonical (Zpos m) e -> e <= 970 ->
  SFleb (SFabs z) (S754_finite false m e) = (D <=? units (Zpos m) e).
Lemma exactly_near z D : exactly z D -> near z D.
Proof.
  intros H m e Hc He. rewrite (H m e Hc He). assert (P : 0 < units (Zpos m) e) by (apply units_pos; destruct Hc as (A & B & C); lia).
  split; [apply Z.leb_le|]. intros L. apply Z.leb_le in L. lia.
Qed.
Lemma exactly_zero s : exactly (S754_zero s) 0.
Proof. intros m e Hc He. assert (P : 0 < units (Zpos m) e) by (apply units_pos; destruct Hc as (A & B & C); lia). symmetry. apply Z.leb_le. lia. Qed.
Lemma exactly_finite s m e : canonical (Zpos m) e -> exactly (S754_finite s m e) (units (Zpos m) e).
Proof. intros H m' e' H' _. apply leb_units; assumption. Qed.
Lemma round_near s (M : positive) e : -1074 <= e -> near (binary_round 53 1024 s M e) (units (Zpos M) e) /\
  (Zpos M < 2^53 -> exactly (binary_round 53 1024 s M e) (units (Zpos M) e)).
Proof.
  intros He0. destruct (align_spec s M e He0) as (M' & e' & E & V & He & Hl & Hx). rewrite E, <- V. assert (V' := V). clear E.
  pose proof (round_bound s M' e' Hl) as R. cbv zeta in R. set (n := lost (Z.pos M') e') in *. set (q := Zpos M' / 2 ^ n) in *. destruct R as (Q1 & Q2 & Q3 & R).
  assert (Pn : 0 < 2 ^ n) by (apply Z.pow_pos_nonneg; lia). assert (Pe : 0 < 2 ^ (e' + 1074)) by (apply Z.pow_pos_nonneg; lia).
  pose proof (Z.div_mod (Zpos M') (2 ^ n) ltac:(lia)) as DM. fold q in DM. pose proof (Z.mod_pos_bound (Zpos M') (2 ^ n) Pn) as MB.
  assert (Uq : forall k, units k (e' + n) = k * 2 ^ n * 2 ^ (e' + 1074)).
  { intros k. unfold units. replace (e' + n + 1074) with (n + (e' + 1074)) by lia. rewrite Z.pow_add_r by lia. lia. }
  set (D := units (Zpos M') e') in *. assert (DE : D = Zpos M' * 2 ^ (e' + 1074)) by reflexivity.
  assert (L1 : units q (e' + n) <= D). { rewrite Uq, DE. apply Z.mul_le_mono_nonneg_r; lia. }
  assert (L2 : D < units (q + 1) (e' + n)). { rewrite Uq, DE. apply Z.mul_lt_mono_pos_r; lia. }
  assert (L3 : Zpos M' mod 2 ^ n <> 0 -> units q (e' + n) < D). { intros N. rewrite Uq, DE. apply Z.mul_lt_mono_pos_r; lia. }
  assert (N0 : e' + n = -1074 -> units q (e' + n) = D). { intros N. assert (n = 0) by lia. rewrite Uq, DE. unfold q. rewrite H. rewrite Z.pow_0_r, Z.div_1_r. lia. }
  assert (NX : Zpos M < 2^53 -> units q (e' + n) = D /\ Zpos M' mod 2 ^ n = 0).
  { intros N. specialize (Hx N). rewrite Uq, DE. unfold q. rewrite Hx. rewrite Z.pow_0_r, Z.div_1_r, Z.mod_1_r. lia. }
  clearbody D. destruct (binary_round_aux 53 1024 s (Z.pos M') e' loc_Exact) as [s'|s'| |s' m' e''].
  - destruct R as (_ & R). exfalso. destruct (Z.eq_dec (e' + n) (-1074)) as [Z0|Z0]; [|specialize (Q3 ltac:(lia)); lia].
    assert (n = 0) by lia. unfold q in R. rewrite H, Z.pow_0_r, Z.div_1_r in R. lia.
  - destruct R as (_ & R). specialize (Q3 ltac:(lia)).
    assert (B : forall m e, canonical (Zpos m) e -> e <= 970 -> units (Zpos m) e < D).
    { intros m x Hc Hx'. eapply Z.lt_le_trans; [|exact L1]. apply canonical_below; [exact Hc| |lia]. split; [lia|]. split; [lia|auto]. }
    split.
    + intros m x Hc Hx'. specialize (B m x Hc Hx'). split; [lia|]. cbn. discriminate.
    + intros _ m x Hc Hx'. specialize (B m x Hc Hx'). symmetry. apply Z.leb_gt. exact B.
  - destruct R.
  - destruct R as (_ & Hc' & R). split.
    + intros m x Hc Hx'. cbn [SFabs]. rewrite leb_units by assumption. rewrite Z.leb_le. split.
      * intros H. destruct R as [R|(Nz & R)]; [lia|]. specialize (L3 Nz). rewrite <- R.
        assert (Nm : e' + n <> -1074) by (intros Z0; specialize (N0 Z0); lia). specialize (Q3 ltac:(lia)).
        destruct (Z.le_gt_cases (e' + n) x) as [C|C].
        -- assert (X : units (Zpos m) x = units (Zpos m * 2 ^ (x - (e' + n))) (e' + n)). { unfold units. rewrite <- Z.mul_assoc, <- Z.pow_add_r by lia. do 2 f_equal. lia. }
           rewrite X in *. apply units_mono; [lia|]. assert (Y : units q (e' + n) < units (Zpos m * 2 ^ (x - (e' + n))) (e' + n)) by lia.
           unfold units in Y. apply Z.mul_lt_mono_pos_r in Y; [lia|apply Z.pow_pos_nonneg; lia].
        -- exfalso. assert (units (Zpos m) x < units q (e' + n)); [|lia]. apply canonical_below; [exact Hc| |exact C]. split; [lia|]. split; [lia|auto].
      * intros H. assert (Z1 : units q (e' + n) <= units (Zpos m) x). { destruct R as [R|(_ & R)]; [lia|]. assert (units q (e' + n) <= units (q + 1) (e' + n)) by (apply units_mono; lia). lia. }
        assert (Pm : 0 < units (Zpos m) x) by (apply units_pos; destruct Hc as (A & B & C); lia).
        destruct (Z.eq_dec (e' + n) (-1074)) as [Z0|Z0]; [specialize (N0 Z0); lia|]. specialize (Q3 ltac:(lia)).
        rewrite Uq in *. set (u := 2 ^ n * 2 ^ (e' + 1074)) in *. assert (0 < u) by (apply Z.mul_pos_pos; assumption).
        assert (Q : q * u <= units (Z.pos m) x) by (unfold u; lia). assert (Q' : D < (q + 1) * u) by (unfold u; lia). nia.
    + intros Sm m x Hc Hx'. destruct (NX Sm) as (Y1 & Y2). destruct R as [R|(Nz & _)]; [|congruence]. cbn [SFabs]. rewrite leb_units by assumption. f_equal. lia.
Qed.

(** ** Subtracting, multiplying, the greater *)
Definition Uval (f : spec_float) : Z := match f with S754_finite s m e => cond_Zopp s (units (Zpos m) e) | _ => 0 end.
Definition usual (f : spec_float) : Prop := match f with S754_zero _ => True | S754_finite _ m e => canonical (Zpos m) e /\ e <= 971 | _ => False end.
Lemma align_units m e e' : -1074 <= e' <= e -> units (Zpos (fst (shl_align m e e'))) e' = units (Zpos m) e.
Proof.
  intros H. unfold shl_align, units. assert (C : e' - e = 0 \/ e' - e < 0) by lia. destruct C as [C|C].
  - rewrite C. cbn [fst]. do 2 f_equal. lia.
  - destruct (e' - e) as [|d|d] eqn:E; try lia. cbn [fst]. rewrite shift_pos_value, <- Z.mul_assoc, <- Z.pow_add_r by lia. do 2 f_equal. lia.
Qed.
Lemma cond_Zopp_units s m e : cond_Zopp s (units m e) = units (cond_Zopp s m) e.
Proof. unfold units. destruct s; cbn [cond_Zopp]; lia. Qed.
Lemma minus_near x y : usual x -> usual y -> near (minus x y) (Z.abs (Uval x - Uval y)).
Proof.
  intros Hx Hy. destruct x as [sx|sx| |sx mx ex], y as [sy|sy| |sy my ey]; try (destruct Hx; fail); try (destruct Hy; fail); unfold minus; cbn [SFsub Uval].
  - destruct (Bool.eqb sx (negb sy)); apply exactly_near, exactly_zero.
  - apply exactly_near. replace (Z.abs (0 - cond_Zopp sy (units (Z.pos my) ey))) with (units (Z.pos my) ey); [apply exactly_finite, Hy|].
    assert (0 < units (Zpos my) ey) by (apply units_pos; destruct Hy as ((A & B & C) & D); lia). destruct sy; cbn [cond_Zopp]; lia.
  - apply exactly_near. replace (Z.abs (cond_Zopp sx (units (Z.pos mx) ex) - 0)) with (units (Z.pos mx) ex); [apply exactly_finite, Hx|].
    assert (0 < units (Zpos mx) ex) by (apply units_pos; destruct Hx as ((A & B & C) & D); lia). destruct sx; cbn [cond_Zopp]; lia.
  - destruct Hx as ((A & B & C) & D), Hy as ((A' & B' & C') & D'). set (ez := Z.min ex ey).
    rewrite <- (align_units mx ex ez), <- (align_units my ey ez) by lia. rewrite !cond_Zopp_units.
    set (K := cond_Zopp sx (Z.pos (fst (shl_align mx ex ez))) - cond_Zopp sy (Z.pos (fst (shl_align my ey ez)))).
    replace (units (cond_Zopp sx (Z.pos (fst (shl_align mx ex ez)))) ez - units (cond_Zopp sy (Z.pos (fst (shl_align my ey ez)))) ez) with (units K ez) by (unfold units, K; lia).
    replace (Z.abs (units K ez)) with (units (Z.abs K) ez).
    2:{ unfold units. rewrite Z.abs_mul, (Z.abs_eq (2 ^ _)) by (apply Z.pow_nonneg; lia). reflexivity. }
    unfold binary_normalize. destruct K as [|k|k]; cbn [Z.abs].
    + apply exactly_near, exactly_zero.
    + apply round_near. lia.
    + apply round_near. lia.
Qed.
(** Nothing is lost when the operands are close (Sterbenz). *)
Lemma minus_exactly x y : usual x -> usual y -> let D := Z.abs (Uval x - Uval y) in 2^51 * D <= Z.max (Z.abs (Uval x)) (Z.abs (Uval y)) -> exactly (minus x y) D.
Proof.
  intros Hx Hy D HD. unfold D in *. clear D. destruct x as [sx|sx| |sx mx ex], y as [sy|sy| |sy my ey]; try (destruct Hx; fail); try (destruct Hy; fail); unfold minus; cbn [SFsub Uval] in *.
  - destruct (Bool.eqb sx (negb sy)); apply exactly_zero.
  - replace (Z.abs (0 - cond_Zopp sy (units (Z.pos my) ey))) with (units (Z.pos my) ey); [apply exactly_finite, Hy|].
    assert (0 < units (Zpos my) ey) by (apply units_pos; destruct Hy as ((A & B & C) & D); lia). destruct sy; cbn [cond_Zopp]; lia.
  - replace (Z.abs (cond_Zopp sx (units (Z.pos mx) ex) - 0)) with (units (Z.pos mx) ex); [apply exactly_finite, Hx|].
    assert (0 < units (Zpos mx) ex) by (apply units_pos; destruct Hx as ((A & B & C) & D); lia). destruct sx; cbn [cond_Zopp]; lia.
  - destruct Hx as (Cx & D), Hy as (Cy & D'). pose proof Cx as (A & B & C). pose proof Cy as (A' & B' & C').
    assert (Px : 0 < units (Zpos mx) ex) by (apply units_pos; lia). assert (Py : 0 < units (Zpos my) ey) by (apply units_pos; lia).
    set (ez := Z.min ex ey).
    assert (Near : ex <= ey + 1 /\ ey <= ex + 1).
    { split.
      - apply Z.nlt_ge. intros L. assert (T : 2 * units (Zpos my) ey < units (Zpos mx) ex).
        { apply Z.lt_le_trans with (units (2^52) ex); [|apply units_mono; [lia|apply C; lia]]. unfold units. replace (ex + 1074) with ((ex - ey - 2) + 2 + (ey + 1074)) by lia. rewrite (Z.pow_add_r 2 (ex - ey - 2 + 2)), (Z.pow_add_r 2 (ex - ey - 2)) by lia.
          assert (0 < 2 ^ (ey + 1074)) by (apply Z.pow_pos_nonneg; lia). set (u := 2 ^ (ey + 1074)) in *. set (v := 2 ^ (ex - ey - 2)). assert (1 <= v) by (apply (Z.pow_le_mono_r 2 0); lia). assert (Z.pos my * u < 2^53 * u) by (apply Z.mul_lt_mono_pos_r; lia). assert (u <= v * u) by nia. change (2 ^ 2) with 4. lia. }
        destruct sx, sy; cbn [cond_Zopp] in HD; lia.
      - apply Z.nlt_ge. intros L. assert (T : 2 * units (Zpos mx) ex < units (Zpos my) ey).
        { apply Z.lt_le_trans with (units (2^52) ey); [|apply units_mono; [lia|apply C'; lia]]. unfold units. replace (ey + 1074) with ((ey - ex - 2) + 2 + (ex + 1074)) by lia. rewrite (Z.pow_add_r 2 (ey - ex - 2 + 2)), (Z.pow_add_r 2 (ey - ex - 2)) by lia.
          assert (0 < 2 ^ (ex + 1074)) by (apply Z.pow_pos_nonneg; lia). set (u := 2 ^ (ex + 1074)) in *. set (v := 2 ^ (ey - ex - 2)). assert (1 <= v) by (apply (Z.pow_le_mono_r 2 0); lia). assert (Z.pos mx * u < 2^53 * u) by (apply Z.mul_lt_mono_pos_r; lia). assert (u <= v * u) by nia. change (2 ^ 2) with 4. lia. }
        destruct sx, sy; cbn [cond_Zopp] in HD; lia. }
    assert (Ux : units (Z.pos mx) ex < 2 ^ 54 * 2 ^ (ez + 1074)).
    { unfold units. apply Z.lt_le_trans with (2^53 * 2 ^ (ex + 1074)); [apply Z.mul_lt_mono_pos_r; [apply Z.pow_pos_nonneg; lia|lia]|]. rewrite <- !Z.pow_add_r by lia. apply Z.pow_le_mono_r; lia. }
    assert (Uy : units (Z.pos my) ey < 2 ^ 54 * 2 ^ (ez + 1074)).
    { unfold units. apply Z.lt_le_trans with (2^53 * 2 ^ (ey + 1074)); [apply Z.mul_lt_mono_pos_r; [apply Z.pow_pos_nonneg; lia|lia]|]. rewrite <- !Z.pow_add_r by lia. apply Z.pow_le_mono_r; lia. }
    assert (HD2 : 2 ^ 51 * Z.abs (cond_Zopp sx (units (Z.pos mx) ex) - cond_Zopp sy (units (Z.pos my) ey)) < 2^54 * 2 ^ (ez + 1074)).
    { eapply Z.le_lt_trans; [exact HD|]. destruct sx, sy; cbn [cond_Zopp]; lia. }
    clear HD Near Ux Uy.
    rewrite <- (align_units mx ex ez), <- (align_units my ey ez) in * by lia. rewrite !cond_Zopp_units in *.
    set (K := cond_Zopp sx (Z.pos (fst (shl_align mx ex ez))) - cond_Zopp sy (Z.pos (fst (shl_align my ey ez)))) in *.
    replace (units (cond_Zopp sx (Z.pos (fst (shl_align mx ex ez)))) ez - units (cond_Zopp sy (Z.pos (fst (shl_align my ey ez)))) ez) with (units K ez) in * by (unfold units, K; lia).
    replace (Z.abs (units K ez)) with (units (Z.abs K) ez) in *.
    2:{ unfold units. rewrite Z.abs_mul, (Z.abs_eq (2 ^ _)) by (apply Z.pow_nonneg; lia). reflexivity. }
    assert (SK : Z.abs K < 2^53). { unfold units in HD2. assert (0 < 2 ^ (ez + 1074)) by (apply Z.pow_pos_nonneg; lia). nia. }
    unfold binary_normalize. destruct K as [|k|k]; cbn [Z.abs] in *.
    + apply exactly_zero.
    + apply round_near; lia.
    + apply round_near; lia.
Qed.

Lemma max_units x y : usual x -> usual y -> usual (max_ (SFabs x) (SFabs y)) /\ Uval (max_ (SFabs x) (SFabs y)) = Z.max (Z.abs (Uval x)) (Z.abs (Uval y)) /\ SFabs (max_ (SFabs x) (SFabs y)) = max_ (SFabs x) (SFabs y).
Proof.
  intros Hx Hy. assert (P : forall s m e, usual (S754_finite s m e) -> 0 < units (Zpos m) e /\ Z.abs (cond_Zopp s (units (Zpos m) e)) = units (Zpos m) e).
  { intros s m e ((A & B & C) & _). assert (0 < units (Zpos m) e) by (apply units_pos; lia). split; [assumption|]. destruct s; cbn [cond_Zopp]; lia. }
  destruct x as [sx|sx| |sx mx ex], y as [sy|sy| |sy my ey]; try (destruct Hx; fail); try (destruct Hy; fail); unfold max_, SFltb; cbn [SFabs].
  - cbn. auto.
  - cbn [SFcompare Uval]. destruct (P _ _ _ Hy) as (P1 & P2). rewrite P2. cbn [cond_Zopp Uval]. split; [exact Hy|]. split; [lia|reflexivity].
  - cbn [SFcompare Uval]. destruct (P _ _ _ Hx) as (P1 & P2). rewrite P2. cbn [cond_Zopp Uval]. split; [exact Hx|]. split; [lia|reflexivity].
  - cbn [Uval]. destruct (P _ _ _ Hx) as (_ & P2). destruct (P _ _ _ Hy) as (_ & P4). rewrite P2, P4. rewrite compare_units by (apply Hx || apply Hy).
    destruct (Z.compare_spec (units (Z.pos mx) ex) (units (Z.pos my) ey)); (split; [exact Hx || exact Hy|]); cbn [Uval cond_Zopp]; split; try lia; reflexivity.
Qed.
Lemma times_units m e : canonical (Zpos m) e -> -1022 <= e <= 971 -> exists m' e', times epsilon (S754_finite false m e) = S754_finite false m' e' /\ canonical (Zpos m') e' /\ e' <= 970 /\ units (Zpos m') e' * 2^52 = units (Zpos m) e.
Proof.
  intros (A & B & C) He. specialize (C ltac:(lia)). unfold times, epsilon. cbn [SFmul xorb].
  set (M := (2 ^ 52 * m)%positive). assert (EM : Zpos M = 2^52 * Zpos m) by (unfold M; rewrite Pos2Z.inj_mul; reflexivity). destruct (digits_spec M) as (D1 & D2). rewrite EM in D1, D2.
  assert (Dg : Zpos (digits2_pos M) = 105).
  { assert (G1 : Z.pos (digits2_pos M) - 1 < 105). { apply (Z.pow_lt_mono_r_iff 2); [lia|lia|]. eapply Z.le_lt_trans; [exact D1|]. change (2^105) with (2^52 * 2^53). lia. }
    assert (G2 : 104 < Z.pos (digits2_pos M)). { apply (Z.pow_lt_mono_r_iff 2); [lia|lia|]. eapply Z.le_lt_trans; [|exact D2]. change (2^104) with (2^52 * 2^52). lia. }
    lia. }
  assert (Hn : lost (Zpos M) (-104 + e) = 52). { unfold lost. cbn [Zdigits2]. rewrite Dg. lia. }
  pose proof (round_bound false M (-104 + e) ltac:(lia)) as R. cbv zeta in R. rewrite Hn in R. assert (Q : Z.pos M / 2 ^ 52 = Zpos m) by (rewrite EM, Z.mul_comm; apply Z.div_mul; lia).
  rewrite Q in R. destruct R as (_ & _ & _ & R). destruct (binary_round_aux 53 1024 false (Z.pos M) (-104 + e) loc_Exact) as [s'|s'| |s' m' e'].
  - destruct R. discriminate.
  - destruct R. lia.
  - destruct R.
  - destruct R as (-> & Hc & R). exists m', e'. split; [reflexivity|]. split; [exact Hc|].
    assert (U : units (Zpos m') e' * 2^52 = units (Zpos m) e).
    { destruct R as [R|(N & _)].
      - rewrite <- R. unfold units. replace (e + 1074) with (52 + (-104 + e + 52 + 1074)) by lia. rewrite (Z.pow_add_r 2 52) by lia. lia.
      - exfalso. apply N. rewrite EM, Z.mul_comm. apply Z.mod_mul. lia. }
    split; [|exact U]. apply Z.nlt_ge. intros L. assert (units (Z.pos m) e < units (Zpos m') e' * 2^52); [|lia]. clear U R.
    apply Z.lt_le_trans with (units (2^53) e); [unfold units; apply Z.mul_lt_mono_pos_r; [apply Z.pow_pos_nonneg; lia|lia]|].
    destruct Hc as (A' & B' & C'). specialize (C' ltac:(lia)). apply Z.le_trans with (units (2^52) e' * 2^52); [|apply Z.mul_le_mono_nonneg_r; [lia|apply units_mono; lia]].
    unfold units. rewrite <- !Z.pow_add_r by lia. apply Z.pow_le_mono_r; lia.
Qed.
Lemma eps_canonical : canonical (Zpos (2^52)) (-104) /\ units (Zpos (2^52)) (-104) = 2^1022.
Proof. split; [split; [vm_compute; split; reflexivity|split; [lia|intros _; vm_compute; discriminate]]|vm_compute; reflexivity]. Qed.
Lemma usual_flags x : usual x -> isnan x = false /\ isinf x = false.
Proof. destruct x; cbn; tauto. Qed.
(** The second threshold, where the first is not passed anyway. *)
Lemma thresholds x y : usual x -> usual y -> let D := Z.abs (Uval x - Uval y) in let M := Z.max (Z.abs (Uval x)) (Z.abs (Uval y)) in
  (SFleb (SFabs (minus x y)) epsilon = true /\ D <= 2^1022 /\ M < 2^1021) \/
  (2^1021 <= M /\ exists m e, times epsilon (max_ (SFabs x) (SFabs y)) = S754_finite false m e /\ canonical (Zpos m) e /\ e <= 970 /\ units (Zpos m) e * 2^52 = M).
Proof.
  intros Hx Hy D M. destruct eps_canonical as (Ec & Eu). destruct (Z.lt_ge_cases M (2^1021)) as [L|L].
  - left. assert (DL : D <= 2^1022). { assert (H : D <= 2 * M) by (unfold D, M; lia). change (2^1022) with (2 * 2^1021). lia. }
    split; [|split; [exact DL|exact L]]. destruct (minus_near x y Hx Hy _ _ Ec ltac:(lia)) as (N & _). unfold epsilon. apply N. rewrite Eu. exact DL.
  - right. split; [exact L|]. destruct (max_units x y Hx Hy) as (U1 & U2 & U3). fold M in U2. destruct (max_ (SFabs x) (SFabs y)) as [s|s| |s m e] eqn:E; cbn [Uval] in U2; try (rewrite <- U2 in L; exfalso; apply L; reflexivity).
    cbn [SFabs] in U3. injection U3 as U3. subst s. cbn [cond_Zopp] in U2. cbn [usual] in U1. destruct U1 as (Hc & He).
    destruct (times_units m e Hc) as (m' & e' & T1 & T2 & T3 & T4).
    { split; [|exact He]. apply Z.nlt_ge. intros Q. assert (units (Z.pos m) e < 2^1021); [|lia]. destruct Hc as (A & B & C). unfold units. apply Z.lt_le_trans with (2^53 * 2 ^ (e + 1074)).
      - apply Z.mul_lt_mono_pos_r; [apply Z.pow_pos_nonneg; lia|lia].
      - rewrite <- Z.pow_add_r by lia. apply Z.pow_le_mono_r; lia. }
    exists m', e'. rewrite T4. auto.
Qed.
Lemma almost_equal_usual x y : usual x -> usual y -> almost_equal x y = SFleb (SFabs (minus x y)) epsilon || SFleb (SFabs (minus x y)) (times epsilon (max_ (SFabs x) (SFabs y))).
Proof. intros Hx Hy. unfold almost_equal. destruct (usual_flags x Hx) as (-> & ->), (usual_flags y Hy) as (-> & ->). cbn [orb andb]. destruct (SFleb (SFabs (minus x y)) epsilon); reflexivity. Qed.
Lemma almost_equal_bounds x y : usual x -> usual y -> let D := Z.abs (Uval x - Uval y) in let M := Z.max (Z.abs (Uval x)) (Z.abs (Uval y)) in
  (almost_equal x y = true -> D * 2^104 <= Z.max (2^1074) M * (2^52 + 1)) /\
  (D * 2^52 <= Z.max (2^1074) M -> almost_equal x y = true) /\
  (2^1074 <= M -> (almost_equal x y = true <-> D * 2^52 <= M)).
Proof.
  intros Hx Hy. pose proof (thresholds x y Hx Hy) as T. cbv zeta in T. pose proof (minus_near x y Hx Hy) as N. pose proof (minus_exactly x y Hx Hy) as X. cbv zeta in X.
  cbv zeta. rewrite (almost_equal_usual x y Hx Hy), orb_true_iff. destruct eps_canonical as (Ec & Eu). destruct (N _ _ Ec ltac:(lia)) as (N1 & N2). rewrite Eu in N1, N2. fold epsilon in N1, N2.
  set (D := Z.abs (Uval x - Uval y)) in *. set (M := Z.max (Z.abs (Uval x)) (Z.abs (Uval y))) in *. assert (D0 : 0 <= D) by (unfold D; lia). clearbody D M.
  change (2^1074) with (2^1022 * 2^52) in *. set (E := 2^1022) in *. assert (E0 : 0 < E) by (unfold E; apply Z.pow_pos_nonneg; lia).
  destruct T as [(T1 & T2 & T3)|(T1 & m & e & T2 & T3 & T4 & T5)].
  - assert (M < E) by (assert (2^1021 < E) by (vm_compute; reflexivity); lia). clearbody E. split; [lia|]. split; [auto|lia].
  - rewrite T2. destruct (N _ _ T3 T4) as (N3 & N4). pose proof (fun H => X H _ _ Ec ltac:(lia)) as XE. rewrite Eu in XE. fold E epsilon in XE. specialize (fun H => X H m e T3 T4). set (S := units (Z.pos m) e) in *. clear T1. clearbody E S.
    assert (Sound : SFleb (SFabs (minus x y)) epsilon = true \/ SFleb (SFabs (minus x y)) (S754_finite false m e) = true -> D * 2^104 <= Z.max (E * 2^52) M * (2^52 + 1)).
    { intros [H|H]; [specialize (N2 H)|specialize (N4 H)]; lia. }
    split; [exact Sound|]. split.
    + intros H. destruct (Z.le_gt_cases M (E * 2^52)) as [L|L]; [left; apply N1; lia|right; apply N3; lia].
    + intros L. split; [|intros H; right; apply N3; lia]. intros H. specialize (Sound H). destruct H as [H|H].
      * rewrite XE in H by lia. apply Z.leb_le in H. lia.
      * rewrite X in H by lia. apply Z.leb_le in H. lia.
Qed.

(** ** Symmetry and reflexivity *)
Lemma round_aux_opp m e l : SFabs (binary_round_aux 53 1024 true m e l) = SFabs (binary_round_aux 53 1024 false m e l).
Proof.
  unfold binary_round_aux. destruct (shr_fexp 53 1024 m e l) as [r1 e1]. destruct (shr_fexp 53 1024 (round_nearest_even (shr_m r1) (loc_of_shr_record r1)) e1 loc_Exact) as [r2 e2].
  destruct (shr_m r2); [reflexivity| |reflexivity]. destruct (e2 <=? 1024 - 53); reflexivity.
Qed.
Lemma minus_sym x y : SFabs (minus x y) = SFabs (minus y x).
Proof.
  unfold minus. destruct x as [sx|sx| |sx mx ex], y as [sy|sy| |sy my ey]; cbn [SFsub]; try reflexivity; try (destruct sx, sy; reflexivity).
  rewrite (Z.min_comm ey ex). set (a := cond_Zopp sx _). set (b := cond_Zopp sy _). replace (b - a) with (- (a - b)) by lia. destruct (a - b) as [|k|k]; cbn [Z.opp binary_normalize]; [reflexivity| |];
  unfold binary_round; destruct (shl_align k _ _) as [mz ez]; [symmetry|]; apply round_aux_opp.
Qed.
Lemma compare_abs_sym x y : SFcompare (SFabs y) (SFabs x) = match SFcompare (SFabs x) (SFabs y) with Some c => Some (CompOpp c) | None => None end.
Proof.
  destruct x as [sx|sx| |sx mx ex], y as [sy|sy| |sy my ey]; cbn [SFabs SFcompare]; try reflexivity. f_equal. rewrite (Z.compare_antisym ex ey). destruct (ex ?= ey); cbn [CompOpp]; try reflexivity.
  change (Pos.compare_cont Eq my mx) with (Pos.compare my mx). change (Pos.compare_cont Eq mx my) with (Pos.compare mx my). apply Pos.compare_antisym.
Qed.
Lemma compare_abs_eq x y : SFcompare (SFabs x) (SFabs y) = Some Eq -> SFabs x = SFabs y.
Proof.
  destruct x as [sx|sx| |sx mx ex], y as [sy|sy| |sy my ey]; cbn [SFabs SFcompare]; try congruence. intros H. injection H as H. destruct (Z.compare_spec ex ey) as [->|L|L]; try discriminate.
  change (Pos.compare_cont Eq mx my) with (Pos.compare mx my) in H. apply Pos.compare_eq in H. subst. reflexivity.
Qed.
Lemma max_sym x y : isnan x = false -> isnan y = false -> max_ (SFabs x) (SFabs y) = max_ (SFabs y) (SFabs x).
Proof.
  intros Hx Hy. unfold max_, SFltb. rewrite (compare_abs_sym x y). destruct (SFcompare (SFabs x) (SFabs y)) as [[]|] eqn:E; cbn [CompOpp]; try reflexivity.
  - apply compare_abs_eq in E. exact E.
  - exfalso. destruct x as [sx|sx| |sx mx ex], y as [sy|sy| |sy my ey]; try discriminate.
Qed.
Lemma almost_equal_sym x y : almost_equal x y = almost_equal y x.
Proof.
  unfold almost_equal. rewrite (orb_comm (isnan y)), (andb_comm (isinf y)). destruct (isnan x) eqn:Nx; [reflexivity|]. destruct (isnan y) eqn:Ny; [reflexivity|]. cbn [orb].
  rewrite (minus_sym y x), (max_sym y x Ny Nx). destruct (isinf x && isinf y); [|reflexivity]. destruct (signbit x), (signbit y); reflexivity.
Qed.
Lemma almost_equal_refl x : isnan x = false -> almost_equal x x = true.
Proof.
  intros H. unfold almost_equal. rewrite H. cbn [orb]. destruct x as [s|s| |s m e]; try discriminate.
  - destruct s; reflexivity.
  - destruct s; reflexivity.
  - cbn [isinf andb]. unfold minus. cbn [SFsub]. rewrite Z.sub_diag. reflexivity.
Qed.
Lemma almost_equal_inf s x : isnan x = false -> isinf x = false -> almost_equal (S754_infinity s) x = true.
Proof. intros H1 H2. destruct x as [sx|sx| |sx mx ex]; try discriminate; destruct s; reflexivity. Qed.
(** ** Doubles *)
Lemma datum_usual d : is_double d -> dbl_finite d -> usual (datum d) /\ Uval (datum d) = (if dbl_sign d =? 1 then -1 else 1) * units (dbl_mantissa d) (dbl_scale d).
Proof.
  intros Hd Hf. unfold datum. unfold dbl_finite in Hf. replace (dbl_exp d =? 2047) with false by lia. pose proof (dbl_frac_range d) as F.
  assert (E0 : 0 <= dbl_exp d) by (unfold dbl_exp; apply Z.mod_pos_bound; lia). pose proof (eq_refl (dbl_mantissa d)) as Em. unfold dbl_mantissa in Em at 2. pose proof (eq_refl (dbl_scale d)) as Es. unfold dbl_scale in Es at 2.
  destruct (dbl_mantissa d) as [|m|m] eqn:E.
  - cbn [usual Uval]. unfold units. split; [exact I|lia].
  - cbn [usual Uval]. split; [split; [split; [|split]|]|].
    + destruct (dbl_exp d =? 0); lia.
    + destruct (dbl_exp d =? 0) eqn:Z0; lia.
    + intros L. destruct (dbl_exp d =? 0) eqn:Z0; lia.
    + destruct (dbl_exp d =? 0) eqn:Z0; lia.
    + destruct (dbl_sign d =? 1); cbn [cond_Zopp]; lia.
  - destruct (dbl_exp d =? 0); lia.
Qed.
Lemma datum_nan d : is_double d -> (isnan (datum d) = true <-> dbl_nan d).
Proof.
  intros Hd. unfold datum, dbl_nan. destruct (Z.eqb_spec (dbl_exp d) 2047) as [E|N].
  - destruct (Z.eqb_spec (dbl_frac d) 0); cbn; intuition congruence.
  - split; [|tauto]. destruct (dbl_mantissa d); discriminate.
Qed.
Lemma datum_inf d : is_double d -> dbl_inf d -> datum d = S754_infinity (dbl_sign d =? 1).
Proof. intros Hd (E & F). unfold datum. rewrite E, F. reflexivity. Qed.
Lemma datum_finite d : dbl_finite d -> isnan (datum d) = false /\ isinf (datum d) = false.
Proof. intros H. unfold dbl_finite in H. unfold datum. replace (dbl_exp d =? 2047) with false by lia. destruct (dbl_mantissa d); auto. Qed.
