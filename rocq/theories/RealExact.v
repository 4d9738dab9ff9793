(** What the second half of decode_real_binary computes, for every mantissa and exponent. *)
From Verif Require Import Base Ident Spec IdentProofs HeaderProofs View ViewProofs Prims PrimProofs RealModel RealProofs.
Ltac Zify.zify_post_hook ::= Z.div_mod_to_equations.

(** [d] is (-1)^s * N * 2^e rounded towards zero to a double (N > 0): infinite from 2^1024 on, denormal below 2^-1022. *)
Definition trunc_double (s N e : Z) (d : list Z) : Prop :=
  is_double d /\ dbl_sign d = s /\
  (1024 <= Z.log2 N + e -> dbl_inf d) /\
  (Z.log2 N + e < 1024 -> dbl_finite d /\ dbl_mantissa d = Z.shiftl N (e - dbl_scale d) /\
     (2^52 <= dbl_mantissa d \/ dbl_scale d = -1074)).

(** ** the last steps: 358-432 *)
Definition finish (s X : Z) (db : list Z) : list Z :=
  if (X >=? 0x7FF) || (X <=? -55)
  then (if X >=? 0 then (if s =? 0 then plus_inf else minus_inf) else (if s =? 0 then plus_zero else minus_zero))
  else
    let '(exponent, db) :=
      if X <=? 0
      then let e := X - 1 in
           let shift := Z.shiftr (- e) 3 in
           let db := ztake 7 (zrep shift 0 ++ db) in
           (0, shift_right_bits 0 db (Z.land (- e) 0x07))
      else (X, db) in
    (u8 (Z.lor (s * 128) (Z.shiftr exponent 4))
        :: u8 (Z.lor (exponent * 16) (Z.land (hd 0 db) 0x0F)) :: tl db).
Lemma land_7 x : Z.land x 7 = x mod 8.
Proof. change 7 with (Z.ones 3). rewrite Z.land_ones by lia. reflexivity. Qed.
Lemma be_zeros k l : be_value (zrep k 0 ++ l) = be_value l.
Proof.
  rewrite be_value_app. assert (E0 : forall n, be_value (repeat 0 n) = 0).
  { induction n as [|n IH]; [reflexivity|]. cbn [repeat]. rewrite be_value_cons, IH. lia. }
  unfold zrep. rewrite E0. lia.
Qed.
Lemma bytes_zeros k : bytes (zrep k 0).
Proof. unfold zrep. apply Forall_forall. intros x H. apply repeat_spec in H. subst. split; lia. Qed.
Lemma finish_spec s X b t : s = 0 \/ s = 1 -> zlen t = 6 -> bytes (b :: t) -> b < 32 -> (1 <= X -> 16 <= b) ->
  let V := be_value (b :: t) in let d := finish s X (b :: t) in
  is_double d /\ dbl_sign d = s /\
  (2047 <= X -> dbl_inf d) /\
  (1 <= X < 2047 -> dbl_finite d /\ dbl_mantissa d = V /\ 2^52 <= V /\ dbl_scale d = X - 1075) /\
  (-55 < X <= 0 -> dbl_finite d /\ dbl_mantissa d = Z.shiftr V (1 - X) /\ dbl_scale d = -1074) /\
  (X <= -55 -> dbl_finite d /\ dbl_mantissa d = 0 /\ dbl_scale d = -1074).
Proof.
  intros Hs Ht Hb Hb32 Hb16. cbv zeta. set (V := be_value (b :: t)). unfold finish.
  assert (Hb2 := Hb). apply bytes_cons in Hb2 as [[Hb0 _] Htb].
  destruct (Z.geb_spec X 0x7FF) as [H1|H1]; cbn [orb].
  { replace (X >=? 0) with true by lia. destruct Hs as [-> | ->]; cbn [Z.eqb Pos.eqb].
    - split; [split; [reflexivity|bytes_lit]|]. split; [reflexivity|]. split; [intros _; split; vm_compute; reflexivity|]. lia.
    - split; [split; [reflexivity|bytes_lit]|]. split; [reflexivity|]. split; [intros _; split; vm_compute; reflexivity|]. lia. }
  destruct (Z.leb_spec X (-55)) as [H2|H2].
  { replace (X >=? 0) with false by lia. destruct Hs as [-> | ->]; cbn [Z.eqb Pos.eqb].
    - split; [split; [reflexivity|bytes_lit]|]. split; [reflexivity|]. split; [lia|]. split; [lia|]. split; [lia|].
      intros _. split; [vm_compute; reflexivity|]. split; vm_compute; reflexivity.
    - split; [split; [reflexivity|bytes_lit]|]. split; [reflexivity|]. split; [lia|]. split; [lia|]. split; [lia|].
      intros _. split; [vm_compute; reflexivity|]. split; vm_compute; reflexivity. }
  destruct (Z.leb_spec X 0) as [H3|H3].
  - (* denormal *)
    set (k := Z.shiftr (- (X - 1)) 3). assert (Hk : k = (1 - X) / 8) by (unfold k; rewrite shiftr_div by lia; f_equal; lia).
    assert (Hk6 : 0 <= k <= 6) by lia. rewrite land_7. set (lo := (- (X - 1)) mod 8). assert (Hlo : 0 <= lo <= 7) by (unfold lo; lia).
    set (l := ztake 7 (zrep k 0 ++ b :: t)).
    assert (Hll : zlen l = 7) by (unfold l; apply zlen_ztake; rewrite zlen_app, zlen_zrep, zlen_cons by lia; lia).
    assert (Hlb : bytes l) by (apply bytes_ztake, bytes_app; split; [apply bytes_zeros|exact Hb]).
    assert (Hlv : be_value l = V / 256 ^ k).
    { set (tail := zdrop 7 (zrep k 0 ++ b :: t)).
      assert (Ec : zrep k 0 ++ b :: t = l ++ tail) by (unfold l, tail; rewrite ztake_zdrop; reflexivity).
      assert (Htl : zlen tail = k) by (unfold tail; rewrite zlen_zdrop; rewrite zlen_app, zlen_zrep, zlen_cons by lia; lia).
      assert (Htb2 : bytes tail) by (apply bytes_zdrop, bytes_app; split; [apply bytes_zeros|exact Hb]).
      assert (Ev : V = be_value l * 256 ^ k + be_value tail).
      { unfold V. rewrite <- (be_zeros k (b :: t)), Ec, be_value_app, Htl. reflexivity. }
      pose proof (be_value_bound tail Htb2) as Hbd. rewrite Htl in Hbd. rewrite Ev, Z.div_add_l by lia. rewrite Z.div_small by lia. lia. }
    destruct (shift_right_bits_spec lo Hlo l 0 ltac:(split; lia) Hlb) as (S1 & S2 & S3). rewrite Hll in *.
    rewrite Z.mul_0_l, Z.add_0_l in S3. pose proof (be_value_bound l Hlb) as Hbd. rewrite Hll in Hbd.
    assert (Hp : 0 < 2 ^ lo) by (apply Z.pow_pos_nonneg; lia).
    rewrite Z.mod_small in S3 by (split; [apply Z.div_pos; lia|apply Z.div_lt_upper_bound; nia]).
    destruct (shift_right_bits 0 l lo) as [|b' t'] eqn:Esh; [rewrite zlen_nil in S1; lia|]. rewrite zlen_cons in S1.
    cbn [hd tl]. assert (Hvsh : be_value (b' :: t') = Z.shiftr V (1 - X)).
    { rewrite S3, Hlv. rewrite Z.shiftr_div_pow2 by lia. rewrite Z.div_div by (try (apply Z.pow_nonzero); lia). f_equal.
      replace 256 with (2^8) by reflexivity. rewrite <- Z.pow_mul_r, <- Z.pow_add_r by lia. f_equal. unfold lo. lia. }
    assert (HV : V < 2^53).
    { unfold V. rewrite be_value_cons, Ht. pose proof (be_value_bound t Htb) as Hbt. rewrite Ht in Hbt. change (256^6) with (2^48) in *. lia. }
    assert (HV0 : 0 <= V) by (unfold V; pose proof (be_value_bound (b :: t) Hb); lia).
    assert (Hlt : Z.shiftr V (1 - X) < 2^52).
    { rewrite Z.shiftr_div_pow2 by lia. apply Z.div_lt_upper_bound; [apply Z.pow_pos_nonneg; lia|].
      assert (2^1 <= 2^(1 - X)) by (apply Z.pow_le_mono_r; lia). lia. }
    assert (Hb'16 : 0 <= b' < 16).
    { apply bytes_cons in S2 as [[? _] St]. rewrite be_value_cons in Hvsh. replace (zlen t') with 6 in Hvsh by lia.
      pose proof (be_value_bound t' St) as Hbt. change (256^6) with (2^48) in *. lia. }
    assert (S2' := S2). apply bytes_cons in S2' as [_ St].
    destruct (fields_build s 0 b' t' Hs ltac:(lia) ltac:(lia) ltac:(lia) St) as (F1 & F2 & F3 & F4).
    split; [exact F1|]. split; [exact F2|]. split; [lia|]. split; [lia|]. split; [|lia]. intros _.
    unfold dbl_finite, dbl_mantissa, dbl_scale. rewrite F3. cbn [Z.eqb]. split; [lia|]. split; [|reflexivity].
    rewrite F4, Hvsh. replace (b' / 16) with 0 by lia. lia.
  - cbn [hd tl]. destruct (fields_build s X b t Hs ltac:(lia) ltac:(lia) Ht Htb) as (F1 & F2 & F3 & F4).
    split; [exact F1|]. split; [exact F2|]. split; [lia|]. split; [|lia]. intros _.
    unfold dbl_finite, dbl_mantissa, dbl_scale. rewrite F3. replace (X =? 0) with false by lia. split; [lia|].
    specialize (Hb16 ltac:(lia)). fold V in F4. replace (b / 16) with 1 in F4 by lia. change (256 ^ 6 * (16 * 1)) with (2^52) in F4.
    split; [lia|]. split; [|lia].
    unfold V. rewrite be_value_cons, Ht. pose proof (be_value_bound t Htb) as Hbt. change (256^6) with (2^48) in *. lia.
Qed.

(** ** assemble, exactly *)
Lemma assemble_exact s e mant N : s = 0 \/ s = 1 -> bytes mant -> be_value mant = N -> N <> 0 -> zlen mant < 2^27 -> Z.abs e < 2^20 ->
  (Z.log2 N mod 8 < 4 /\ 0 < e + 8 * (Z.log2 N / 8) + 1027 /\ forall fuel, assemble fuel s e mant = NoFuel) \/
  (~ (Z.log2 N mod 8 < 4 /\ 0 < e + 8 * (Z.log2 N / 8) + 1027) /\
   exists d, (forall fuel, assemble fuel s e mant = Ok d) /\ trunc_double s N e d).
Proof.
  intros Hs Hb EN Hn Hlen He. destruct (Z.lt_ge_cases (Z.log2 N mod 8) 4) as [Hlt|Hge]; [destruct (Z.lt_ge_cases 0 (e + 8 * (Z.log2 N / 8) + 1027)) as [Hpos|Hneg]|].
  { left. split; [auto|]. split; [auto|]. eapply assemble_hangs; eauto. }
  all: right; (split; [lia|]).
  all: assert (Hn2 := Hn); rewrite <- EN in Hn; destruct (skip_leading_spec mant Hb Hn) as (b & r & Esk & Hbr & Hr & Ev & Hl);
    assert (El : Z.log2 N = 8 * zlen r + Z.log2 b) by (rewrite <- EN, <- Ev; apply log2_be; auto);
    assert (Hlb : 0 <= Z.log2 b <= 7) by
     (split; [apply Z.log2_nonneg|]; destruct (Z.log2_spec b) as [L _]; [lia|]; destruct (Z.le_gt_cases (Z.log2 b) 7); [auto|];
      assert (2^8 <= 2 ^ Z.log2 b) by (apply Z.pow_le_mono_r; lia); lia);
    assert (Hbb : bytes (b :: r)) by (constructor; [split; lia|exact Hr]);
    destruct (first7 b r Hbb) as (t & Et & Htl & Htb & Hv); pose proof (zlen_nonneg r) as Hz;
    unfold assemble; rewrite Esk; cbv zeta; rewrite zlen_cons in *; rewrite to_i32_small by lia;
    set (db := ztake 8 ((b :: r) ++ zrep 8 0)) in *;
    assert (Hhd : hd 0 db = b) by (unfold db; cbn [app]; rewrite ztake_cons by lia; reflexivity); rewrite Hhd, Et;
    rewrite land_E0, (land_F0 b) by (split; lia); set (X := e + (1 + zlen r - 7) * 8 + 1075);
    rewrite Ev, EN in Hv.
  - (* small leading octet, exponent not positive *)
    assert (Hb4 : Z.log2 b < 4) by lia.
    assert (Hb16 : b < 16) by (apply Z.log2_lt_pow2 in Hb4; [exact Hb4|lia]).
    assert (HX : X <= 0) by (unfold X; lia). replace (b <? 32) with true by lia. replace (b <? 16) with true by lia.
    replace (X >? 0) with false by lia. cbn [negb andb bind].
    exists (finish s X (b :: t)). split.
    { intros fuel. unfold finish. destruct ((X >=? 2047) || (X <=? -55)); [reflexivity|]. destruct (X <=? 0); reflexivity. }
    destruct (finish_spec s X b t Hs Htl Htb ltac:(lia) ltac:(lia)) as (F1 & F2 & F3 & F4 & F5 & F6).
    split; [exact F1|]. split; [exact F2|]. split; [unfold X in *; lia|]. intros _.
    destruct (Z.le_gt_cases X (-55)) as [Hc|Hc].
    + destruct (F6 Hc) as (G1 & G2 & G3). split; [exact G1|]. rewrite G2, G3. split; [|right; reflexivity].
      symmetry. assert (Hsh : e - -1074 < 0) by (unfold X in *; lia). replace (e - -1074) with (- (- (e + 1074))) by lia.
      rewrite Z.shiftl_opp_r. apply Z.shiftr_eq_0; [rewrite <- EN; pose proof (be_value_bound mant Hb); lia|unfold X in *; lia].
    + destruct (F5 ltac:(lia)) as (G1 & G2 & G3). split; [exact G1|]. rewrite G2, G3. split; [|right; reflexivity].
      rewrite Hv, shiftr_shiftl by lia. f_equal. unfold X. lia.
  - (* leading octet at least 16 *)
    assert (Hb4 : 4 <= Z.log2 b) by lia.
    assert (Hb16 : 16 <= b < 256).
    { destruct (Z.log2_spec b) as [L _]; [lia|]. assert (2^4 <= 2 ^ Z.log2 b) by (apply Z.pow_le_mono_r; lia). lia. }
    destruct (over_spec b Hb16) as [Ho Hob]. assert (HN : 0 <= N) by (rewrite <- EN; pose proof (be_value_bound mant Hb); lia).
    replace (b <? 16) with false by lia. cbn [andb].
    assert (Hfin : forall X' b' t', (X' = X + over b \/ 2047 <= X' /\ 2047 <= X + over b) -> zlen t' = 6 -> bytes (b' :: t') ->
       (X' < 2047 -> be_value (b' :: t') = be_value (b :: t) / 2 ^ over b /\ 16 <= b' < 32) ->
       trunc_double s N e (finish s X' (b' :: t'))).
    { intros X' b' t' HX' Ht' Hbt' Hvt'. destruct (Z.le_gt_cases 2047 X') as [Hinf|Hfin].
      - assert (Hlog : 1024 <= Z.log2 N + e) by (unfold X, over in *; lia).
        assert (Hfi : finish s X' (b' :: t') = if s =? 0 then plus_inf else minus_inf).
        { unfold finish. replace (X' >=? 2047) with true by lia. replace (X' >=? 0) with true by lia. reflexivity. }
        rewrite Hfi. split; [|split; [|split; [intros _|lia]]].
        + destruct Hs as [-> | ->]; cbn [Z.eqb]; split; [reflexivity|bytes_lit|reflexivity|bytes_lit].
        + destruct Hs as [-> | ->]; reflexivity.
        + destruct Hs as [-> | ->]; split; vm_compute; reflexivity.
      - destruct HX' as [HX'|[? ?]]; [|lia]. destruct (Hvt' Hfin) as [Hval Hb']. clear Hvt'.
        assert (Hval2 : be_value (b' :: t') = Z.shiftl N (e - (X' - 1075))).
        { rewrite Hval, Hv. rewrite <- Z.shiftr_div_pow2 by lia. rewrite shiftr_shiftl by lia. f_equal. unfold X in *. lia. }
        destruct (finish_spec s X' b' t' Hs Ht' Hbt' ltac:(lia) ltac:(lia)) as (F1 & F2 & F3 & F4 & F5 & F6).
        split; [exact F1|]. split; [exact F2|]. split; [unfold X, over in *; lia|]. intros _.
        destruct (Z.le_gt_cases 1 X') as [Hc|Hc]; [|destruct (Z.le_gt_cases X' (-55)) as [Hc2|Hc2]].
        + destruct (F4 ltac:(lia)) as (G1 & G2 & G3 & G4). split; [exact G1|]. rewrite G2, G4. split; [exact Hval2|left; exact G3].
        + destruct (F6 Hc2) as (G1 & G2 & G3). split; [exact G1|]. rewrite G2, G3. split; [|right; reflexivity].
          symmetry. replace (e - -1074) with (- (- (e + 1074))) by lia.
          rewrite Z.shiftl_opp_r. apply Z.shiftr_eq_0; [exact HN|unfold X, over in *; lia].
        + destruct (F5 ltac:(lia)) as (G1 & G2 & G3). split; [exact G1|]. rewrite G2, G3. split; [|right; reflexivity].
          rewrite Hval2, shiftr_shiftl by lia. f_equal. lia. }
    destruct (Z.ltb_spec b 32) as [Hc|Hc]; cbn [negb andb].
    + assert (Hov : over b = 0) by (unfold over in *; assert (2^5 > 31) by lia; destruct (Z.log2_spec b) as [L1 L2]; [lia|];
        destruct (Z.le_gt_cases (Z.log2 b) 4); [lia|]; assert (2^5 <= 2 ^ Z.log2 b) by (apply Z.pow_le_mono_r; lia); lia).
      cbn [bind]. exists (finish s X (b :: t)). split.
      { intros fuel. unfold finish. destruct ((X >=? 2047) || (X <=? -55)); [reflexivity|]. destruct (X <=? 0); reflexivity. }
      apply Hfin; auto; [lia|]. intros _. rewrite Hov. change (2^0) with 1. rewrite Z.div_1_r. split; [reflexivity|lia].
    + destruct (Z.ltb_spec X 2047) as [HX|HX]; cbn [bind].
      * rewrite right_shift_count_eq by auto. set (sh := Z.min (over b) (Z.max 0 (2047 - X))).
        assert (Hsh : 0 <= sh <= 3) by (unfold sh; lia).
        destruct (shift_right_bits_spec sh ltac:(lia) (b :: t) 0 ltac:(split; lia) Htb) as (S1 & S2 & S3).
        rewrite zlen_cons, Htl in S1, S3. change (1 + 6) with 7 in S1, S3. rewrite Z.mul_0_l, Z.add_0_l in S3.
        pose proof (be_value_bound _ Htb) as Hbd. rewrite zlen_cons, Htl in Hbd. change (1 + 6) with 7 in Hbd.
        assert (Hp : 0 < 2 ^ sh) by (apply Z.pow_pos_nonneg; lia).
        rewrite Z.mod_small in S3 by (split; [apply Z.div_pos; lia|apply Z.div_lt_upper_bound; nia]).
        destruct (shift_right_bits 0 (b :: t) sh) as [|b' t'] eqn:Esh; [rewrite zlen_nil in S1; lia|].
        rewrite zlen_cons in S1.
        exists (finish s (X + sh) (b' :: t')). split.
        { intros fuel. unfold finish. destruct ((X + sh >=? 2047) || (X + sh <=? -55)); [reflexivity|]. destruct (X + sh <=? 0); reflexivity. }
        assert (Eb' : b' = b / 2 ^ sh).
        { cbn [shift_right_bits] in Esh. injection Esh as <- _. rewrite ?Z.mul_0_l, ?Z.lor_0_l, shiftr_div, u8_mod by lia.
          apply Z.mod_small. split; [apply Z.div_pos; lia|]. apply Z.div_lt_upper_bound; nia. }
        apply Hfin; auto; [unfold sh; lia|lia|]. intros Hx. assert (sh = over b) by (unfold sh in *; lia).
        split; [congruence|]. rewrite Eb'. replace sh with (over b). exact Hob.
      * exists (finish s X (b :: t)). split.
        { intros fuel. unfold finish. destruct ((X >=? 2047) || (X <=? -55)); [reflexivity|]. destruct (X <=? 0); reflexivity. }
        apply Hfin; auto; [right; lia|lia].
Qed.
