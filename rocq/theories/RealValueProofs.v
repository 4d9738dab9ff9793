(** Proofs about REALs in generated objects: what value() of a Real is, by the meaning of its contents (ValueSpec.v). *)
From Coq Require Import List ZArith Bool Lia.
From Verif Require Import Base Ident View Prims RealModel RealDecimal Spec IdentProofs HeaderProofs PrimProofs RealProofs PropertiesReal PropertiesRealEq DecimalSpec RealDecimalProofs PropertiesRealDecimal ValueSpec.
From Verif Require Import Schema SchemaSpec Print EqualProofs RealEq.
Import ListNotations.
Local Open Scope Z_scope.

(** The double with a sign, a mantissa of 53 bits and a scale. *)
Lemma one_normal d d' : is_double d -> is_double d' -> dbl_sign d = dbl_sign d' -> dbl_mantissa d = dbl_mantissa d' -> dbl_scale d = dbl_scale d' -> 2^52 <= dbl_mantissa d -> d = d'.
Proof.
  intros Hd Hd' Hs Hm Hc Hn. destruct (double_fields d Hd) as (_ & P & _ & _ & A1 & A2). destruct (double_fields d' Hd') as (_ & P' & _ & _ & B1 & B2). apply same_pattern; auto.
  assert (F : forall p, 0 <= p mod 2^52 < 2^52) by (intros p; apply Z.mod_pos_bound; lia). pose proof (F (pattern_of d)) as F1. pose proof (F (pattern_of d')) as F2. rewrite <- A2 in F1. rewrite <- B2 in F2.
  unfold dbl_mantissa in *. unfold dbl_scale in Hc. assert (0 <= dbl_exp d) by (rewrite A1; apply Z.div_pos; lia). assert (0 <= dbl_exp d') by (rewrite B1; apply Z.div_pos; lia).
  destruct (Z.eqb_spec (dbl_exp d) 0) as [e | e]; [lia|]. destruct (Z.eqb_spec (dbl_exp d') 0) as [e' | e']; [lia|].
  rewrite (Z.div_mod (pattern_of d) (2^52)), (Z.div_mod (pattern_of d') (2^52)) by lia. rewrite <- A1, <- A2, <- B1, <- B2. lia.
Qed.
Lemma real_means_value fuel i data x d : wf_ident i -> small_rep i real_max data x -> bytes x -> real_means x d -> real_value decode_real_decimal fuel i data = Ok d /\ is_double d.
Proof.
  intros Hi Hr Hb Hm. assert (L : forall l, zlen l = 8 -> bytes l -> is_double l) by (split; assumption). destruct Hm as [| | | | |b t neg N E d Hb0 Ht Hd|s bb f e mant N d Hs Hbb Hf He Hl HN Hr53 Hlog scale Hd D1 D2 D3 Hrange].
  1-5: split; [rewrite (real_value_rep _ _ _ _ _ Hi Hr); reflexivity|apply L; [reflexivity|repeat constructor; lia]].
  - pose proof (small_content_rep _ _ _ _ (small_real_ok i Hi) Hr) as Hc. destruct (C133_value fuel i data b t neg N E Hc Hb0 Ht) as (d' & V & Hd'). rewrite V. split; [|exact (proj1 Hd)].
    f_equal. symmetry. eapply C133_one_double; eauto. eapply iso_nonneg; eauto.
  - split; [|exact Hd]. set (x := (128 + 64 * s + 16 * bb + 4 * f) :: e :: mant) in *. destruct (small_rep_len _ _ _ _ (small_real_ok i Hi) Hr) as [_ Hxl].
    assert (Hml : zlen mant <= 98) by (unfold x in Hxl; rewrite !zlen_cons in Hxl; unfold real_max in Hxl; lia).
    assert (Hmb : bytes mant) by (unfold x in Hb; inversion Hb as [|? ? _ Hb2]; inversion Hb2; assumption).
    pose proof (drb_short s bb f [e] mant Hs Hbb Hf ltac:(repeat constructor; lia) ltac:(rewrite zlen_1; lia) Hmb ltac:(lia) ltac:(rewrite zlen_1; lia) eq_refl) as K.
    unfold ctrl in K. rewrite zlen_1 in K. replace (128 + 64 * s + 16 * bb + 4 * f + (1 - 1)) with (128 + 64 * s + 16 * bb + 4 * f) in K by lia.
    cbn [app] in K. fold x in K. cbn [hd] in K.
    assert (Hsc : twos_value [e] * base_log (nth (Z.to_nat bb) [2; 8; 16] 0) + f = scale).
    { unfold scale. assert (bb = 0 \/ bb = 1 \/ bb = 2) as [->|[->| ->]] by lia.
      - change (base_log (nth (Z.to_nat 0) [2; 8; 16] 0)) with 1. change (nth (Z.to_nat 0) [1; 3; 4] 0) with 1. lia.
      - change (base_log (nth (Z.to_nat 1) [2; 8; 16] 0)) with 3. change (nth (Z.to_nat 1) [1; 3; 4] 0) with 3. lia.
      - change (base_log (nth (Z.to_nat 2) [2; 8; 16] 0)) with 4. change (nth (Z.to_nat 2) [1; 3; 4] 0) with 4. lia. }
    rewrite Hsc in K.
    assert (Hsb : -600 <= scale <= 600).
    { unfold scale. rewrite twos_value_1 by (split; lia).
      assert (Hk : 1 <= nth (Z.to_nat bb) [1; 3; 4] 0 <= 4) by (assert (bb = 0 \/ bb = 1 \/ bb = 2) as [->|[->| ->]] by lia; vm_compute; split; discriminate).
      destruct (Z.ltb_spec e 128); nia. }
    clearbody scale.
    destruct (assemble_normal fuel s scale mant N) as (d' & E & Hd' & E1 & E2 & E3); auto; try lia.
    assert (Hlg : 0 <= Z.log2 N <= 52) by (split; [apply Z.log2_nonneg|]; assert (Z.log2 N < 53) by (apply Z.log2_lt_pow2; lia); lia).
    rewrite (real_value_rep _ _ _ _ _ Hi Hr). change (decode_real decode_real_decimal fuel x) with (decode_real decode_real_decimal fuel ((128 + 64 * s + 16 * bb + 4 * f) :: e :: mant)). rewrite decode_real_bin by lia. fold x. rewrite K, E. cbn [bind]. f_equal.
    rewrite Z.shiftl_mul_pow2 in E3 by lia.
    assert (Hm : 2^52 <= dbl_mantissa d).
    { rewrite D2. replace (2^52) with (2 ^ Z.log2 N * 2 ^ (52 - Z.log2 N)) by (rewrite <- Z.pow_add_r by lia; f_equal; lia). apply Z.mul_le_mono_nonneg_r; [apply Z.pow_nonneg; lia|]. apply Z.log2_spec. lia. }
    assert (M' : dbl_mantissa d' = 2^52 + dbl_frac d') by (unfold dbl_mantissa; replace (dbl_exp d' =? 0) with false by lia; reflexivity). assert (S' : dbl_scale d' = dbl_exp d' - 1075) by (unfold dbl_scale; replace (dbl_exp d' =? 0) with false by lia; reflexivity).
    symmetry. apply one_normal; auto; lia.
Qed.

(** *** operator== of two objects with the same contents *)
Lemma leaf_same k i l1 l2 x m : wf_ty (TLeaf (erase_kind k) i) -> leaf_rep (erase_kind k) i l1 x -> leaf_rep (erase_kind k) i l2 x -> leaf_means k x m -> without_nan m ->
  leaf_equal k i l1 l2 = Ok (Some true).
Proof.
  intros Hw H1 H2 Hm Hn. assert (D : k = PReal \/ k <> PReal) by (destruct k; auto; right; discriminate). destruct D as [-> | Hk].
  - destruct Hw as (Hi & _). cbn [erase_kind] in H1, H2. destruct m; try contradiction. destruct H1 as ((Hb & _) & H1), H2 as (_ & H2). destruct l1 as [a| |], l2 as [b| |]; try contradiction.
    cbn [leaf_means without_nan] in Hm, Hn. destruct (real_means_value 0 i a x d Hi H1 Hb Hm) as (V1 & D1). destruct (real_means_value 0 i b x d Hi H2 Hb Hm) as (V2 & _). cbn [leaf_equal].
    rewrite (C132_same_value decode_real_decimal 0 i a b d d) by auto. reflexivity.
  - destruct (leaf_answers k i l1 l2 x x m m Hw H1 H2 Hm Hm Hk) as [(E & _) | (_ & E)]; [exact E|contradiction].
Qed.
Lemma equal_same :
  (forall t a b v m, wf_ty (erase t) -> rep (erase t) a v -> rep (erase t) b v -> means t v m -> without_nan m -> equal t a b = Ok (Some true)) /\
  (forall fs, (forall a b vs ms, wf_comps (erase_fields fs) -> rep_comps (erase_fields fs) a vs -> rep_comps (erase_fields fs) b vs -> fields_mean fs vs ms -> without_nan (MRec ms) ->
     equal_fields fs a b = Ok (Some true)) /\
   (forall k a b v m, wf_comps (erase_fields fs) -> rep_alt (erase_fields fs) k a v -> rep_alt (erase_fields fs) k b v -> alt_means fs k v m -> without_nan m ->
     equal_alt fs k a b = Ok (Some true))).
Proof.
  apply nty_mutind; cbn [erase erase_fields rep rep_comps rep_alt means fields_mean alt_means wf_ty wf_comps equal equal_fields equal_alt].
  - intros k i a b v m Hw Ha Hb Hm Hn. destruct a as [a| | |], v as [x| | |]; try contradiction. destruct b as [b| | |]; try contradiction. eapply leaf_same; eauto.
  - intros i t IH a b v m [_ Hw] Ha Hb Hm Hn. destruct a as [|a| |], v as [|v| |]; try contradiction. destruct b as [|b| |]; try contradiction. destruct m as [| | | | | | | |ms| |]; try contradiction.
    assert (El : length a = length b) by (apply same_length in Ha, Hb; congruence). rewrite El, Nat.eqb_refl. clear El.
    revert b Hb ms Hm Hn. induction Ha as [|a1 v1 a v H1 _ IHa]; intros b Hb ms Hm Hn; inversion Hb; subst; inversion Hm; subst; cbn [equal_lists]; [reflexivity|].
    cbn [without_nan fold_right] in Hn. destruct Hn as (Hn1 & Hn). rewrite (IH a1 x v1 y) by assumption. unfold oand, obind. cbn [bind]. eapply IHa; eauto.
  - intros i fs [IH _] a b v m [_ Hw] Ha Hb Hm Hn. destruct a as [| |a|], v as [| |v|]; try contradiction. destruct b as [| |b|]; try contradiction. destruct m as [| | | | | | | | |ms|]; try contradiction. eapply IH; eauto.
  - intros i ext fs [IH _] a b v m [_ Hw] Ha Hb Hm Hn. destruct a as [| |a|], v as [| |v|]; try contradiction. destruct b as [| |b|]; try contradiction. destruct m as [| | | | | | | | |ms|]; try contradiction. eapply IH; eauto.
  - intros g o fs [_ IH] a b v m (_ & _ & Hw) Ha Hb Hm Hn. destruct a as [| | |k1 a], v as [| | |k2 v]; try contradiction. destruct b as [| | |k3 b]; try contradiction. destruct m as [| | | | | | | | | |k5 m]; try contradiction.
    destruct Ha as [<- Ha], Hb as [<- Hb], Hm as [<- Hm]. rewrite Nat.eqb_refl. eapply IH; eauto.
  - split; [|intros k a b v m _ Ha; contradiction]. intros a b vs ms _ Ha Hb Hm _. destruct a, vs; try contradiction. destruct b; try contradiction. reflexivity.
  - intros name k ids t IHt fs [IHf IHa]. split.
    + intros a b vs ms [Hwt Hw] Ha Hb Hm Hn. destruct a as [|a1 a], vs as [|v1 vs]; try contradiction. destruct b as [|b1 b]; try contradiction. destruct ms as [|m1 ms]; [destruct v1; contradiction|].
      destruct Ha as [Ha1 Ha], Hb as [Hb1 Hb], Hm as [Hm1 Hm]. cbn [without_nan fold_right] in Hn. destruct Hn as (Hn1 & Hn).
      assert (E : match k with
                  | FMand => match a1, b1 with Some a, Some b => equal t a b | _, _ => UB end
                  | FOpt => match a1, b1 with Some a, Some b => equal t a b | None, None => Ok (Some true) | _, _ => Ok (Some false) end
                  | FDef d => equal t (default_get d a1) (default_get d b1)
                  end = Ok (Some true)).
      { destruct k as [| |d].
        - destruct a1 as [a1|], v1 as [v1|]; try contradiction; try (exfalso; apply Ha1; reflexivity). destruct b1 as [b1|]; try contradiction. destruct m1 as [m1|]; try contradiction. eapply IHt; eauto.
        - destruct a1 as [a1|], v1 as [v1|]; try contradiction; destruct b1 as [b1|]; try contradiction; destruct m1 as [m1|]; try contradiction; [eapply IHt; eauto|reflexivity].
        - destruct a1 as [a1|], v1 as [v1|]; try contradiction; destruct b1 as [b1|]; try contradiction; destruct m1 as [m1|]; try contradiction; cbn [default_get]; [eapply IHt; eauto|].
          destruct Hm1 as (x & ? & ?). eapply IHt; eauto. }
      unfold oand at 1, obind. rewrite E. cbn [bind]. eapply IHf; eauto.
    + intros n a b v m1 [Hwt Hw] Ha Hb Hm Hn. destruct n as [|n]; [eapply IHt; eauto|eapply IHa; eauto].
Qed.
