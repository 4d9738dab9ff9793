(** Lemmas about Real. *)
From Verif Require Import Base Ident Spec IdentProofs HeaderProofs View ViewProofs Prims PrimProofs IntProofs RealModel.
Ltac Zify.zify_post_hook ::= Z.div_mod_to_equations.

Lemma lor_mul k a b : 0 <= k -> 0 <= b < 2^k -> Z.lor (a * 2^k) b = a * 2^k + b.
Proof.
  intros Hk Hb. assert (Hl : Z.land (a * 2^k) b = 0).
  { apply Z.bits_inj'. intros n Hn. rewrite Z.land_spec, Z.bits_0. destruct (Z.ltb_spec n k).
    - rewrite Z.mul_pow2_bits_low by lia. reflexivity.
    - assert (b = b mod 2^k) as -> by (symmetry; apply Z.mod_small; lia). rewrite Z.mod_pow2_bits_high by lia. apply andb_false_r. }
  rewrite (Z.add_nocarry_lxor _ _ Hl), (Z.lxor_lor _ _ Hl). reflexivity.
Qed.
Lemma lor_256 a b : 0 <= b < 256 -> Z.lor (a * 256) b = a * 256 + b.
Proof. intros. apply (lor_mul 8 a b); [lia|exact H]. Qed.
Lemma shiftr_div a k : 0 <= k -> Z.shiftr a k = a / 2^k. Proof. intros; apply Z.shiftr_div_pow2; auto. Qed.
Lemma zget_ok l k : 0 <= k < zlen l -> exists b, zget l k = Ok b /\ (bytes l -> wf_byte b).
Proof.
  intros H. assert (E : l = ztake k l ++ zdrop k l) by (symmetry; apply ztake_zdrop).
  destruct (zdrop k l) as [|b m] eqn:Ed.
  { assert (zlen (zdrop k l) = 0) by (rewrite Ed; reflexivity). rewrite zlen_zdrop in *; lia. }
  exists b. rewrite E. split; [apply zget_mid; rewrite zlen_ztake; lia|].
  intros Hb. apply bytes_app in Hb as [_ Hb]. apply bytes_cons in Hb. tauto.
Qed.

(** ** the fields of a double in terms of its octets *)
Lemma land_0F b : Z.land b 0x0F = b mod 16. Proof. change 0x0F with (Z.ones 4). rewrite Z.land_ones by lia. reflexivity. Qed.
Ltac dbl_destruct d H :=
  let Hl := fresh "Hl" in let Hb := fresh "Hb" in
  destruct H as [Hl Hb];
  destruct d as [|b0 [|b1 [|b2 [|b3 [|b4 [|b5 [|b6 [|b7 [|? ?]]]]]]]]];
  rewrite ?zlen_cons, ?zlen_nil in Hl; try (exfalso; match type of Hl with context [zlen ?l] => pose proof (zlen_nonneg l) | _ => idtac end; lia);
  clear Hl; repeat (let H := fresh "B" in apply bytes_cons in Hb as [H Hb]); clear Hb.
Lemma double_fields b0 b1 b2 b3 b4 b5 b6 b7 (d := [b0; b1; b2; b3; b4; b5; b6; b7]) :
  bytes d -> dbl_sign d = b0 / 128 /\ dbl_exp d = b0 mod 128 * 16 + b1 / 16 /\
    dbl_frac d = be_value [b1 mod 16; b2; b3; b4; b5; b6; b7].
Proof.
  intros Hb. unfold d in *. repeat (let H := fresh "B" in apply bytes_cons in Hb as [H Hb]). clear Hb.
  unfold wf_byte in *. unfold dbl_sign, dbl_exp, dbl_frac, be_value. cbn [fold_left].
  change (2^63) with 9223372036854775808. change (2^52) with 4503599627370496. change (2^11) with 2048. lia.
Qed.

Lemma u8_mod x : u8 x = x mod 256. Proof. reflexivity. Qed.
Lemma shl1_byte b h : wf_byte b -> wf_byte h -> u8 (Z.shiftr (Z.lor (b * 256) h) 7) = (2 * b) mod 256 + h / 128.
Proof.
  intros [? ?] [? ?]. rewrite lor_256 by lia. rewrite shiftr_div by lia. rewrite u8_mod. change (2^7) with 128. lia.
Qed.
Lemma shift_left_1_spec m b2 b3 b4 b5 b6 b7 : 0 <= m < 16 -> bytes [b2; b3; b4; b5; b6; b7] ->
  let r := shift_left_1 [m; b2; b3; b4; b5; b6; b7] in
  zlen r = 7 /\ bytes r /\ be_value r = 2 * be_value [m; b2; b3; b4; b5; b6; b7] /\ 0 <= hd 0 r < 32.
Proof.
  intros Hm Hb. repeat (let H := fresh "B" in apply bytes_cons in Hb as [H Hb]). clear Hb.
  assert (Bm : wf_byte m) by (split; lia). assert (Bz : wf_byte 0) by (split; lia).
  cbn [shift_left_1 hd]. cbv zeta. rewrite !shl1_byte by assumption. unfold wf_byte in *.
  split; [reflexivity|]. split; [repeat (constructor; [unfold wf_byte; lia|]); constructor|].
  unfold be_value. cbn [fold_left]. lia.
Qed.
Lemma all_zero_spec l : bytes l -> all_zero l = (be_value l =? 0).
Proof.
  induction l as [|b l IH]; intros Hb; [reflexivity|]. apply bytes_cons in Hb as [[H1 H2] Hb].
  cbn [all_zero forallb]. fold (all_zero l). rewrite IH by auto. rewrite be_value_cons.
  pose proof (be_value_bound l Hb). pose proof (zlen_nonneg l). assert (0 < 256 ^ zlen l) by (apply Z.pow_pos_nonneg; lia).
  destruct (Z.eqb_spec b 0) as [->|]; cbn [andb]; [f_equal; lia|]. symmetry. apply Z.eqb_neq. nia.
Qed.
Lemma dbl_exp_range d : 0 <= dbl_exp d < 2048.
Proof. unfold dbl_exp. change (2^11) with 2048. apply Z.mod_pos_bound. lia. Qed.
Lemma dbl_frac_range d : 0 <= dbl_frac d < 2^52.
Proof. unfold dbl_frac. apply Z.mod_pos_bound. lia. Qed.

(** the octets of a binary encoding with sign s, exponent e and seven mantissa octets *)
Definition real_binary (s e : Z) (m : list Z) : list Z :=
  if (-128 <=? e) && (e <=? 127) then (128 + 64 * s) :: [e mod 256] ++ m
  else (129 + 64 * s) :: [(e / 256) mod 256; e mod 256] ++ m.
Lemma encode_real_spec d : is_double d ->
  (dbl_zero d /\ encode_real d = (if dbl_sign d =? 0 then [] else [0x43])) \/
  (dbl_inf d /\ encode_real d = (if dbl_sign d =? 0 then [0x40] else [0x41])) \/
  (dbl_nan d /\ encode_real d = [0x42]) \/
  (dbl_exp d = 0 /\ dbl_frac d <> 0 /\ exists m, zlen m = 7 /\ bytes m /\ be_value m = 2 * dbl_frac d /\ 0 <= hd 0 m < 32 /\
     encode_real d = real_binary (dbl_sign d) (-1075) m) \/
  (0 < dbl_exp d < 2047 /\ exists m, zlen m = 7 /\ bytes m /\ be_value m = 2^52 + dbl_frac d /\ 16 <= hd 0 m < 32 /\
     encode_real d = real_binary (dbl_sign d) (dbl_exp d - 1075) m).
Proof.
  intros Hd. dbl_destruct d Hd.
  set (d := [b0; b1; b2; b3; b4; b5; b6; b7]).
  assert (Hb : bytes d) by (unfold d; repeat (constructor; [assumption|]); constructor).
  destruct (double_fields b0 b1 b2 b3 b4 b5 b6 b7 Hb) as (Es & Ee & Ef). fold d in Es, Ee, Ef.
  pose proof (dbl_exp_range d) as Hre. pose proof (dbl_frac_range d) as Hrf.
  assert (H0 : 0 <= b0 < 256) by apply B. assert (H1 : 0 <= b1 < 256) by apply B0.
  remember (encode_real d) as R eqn:ER. unfold encode_real, d in ER. cbv zeta in ER. revert ER.
  rewrite (shiftr_div b0 7), (shiftr_div b1 4), land_7F, land_0F by lia. change (2^7) with 128. change (2^4) with 16.
  change (b0 mod 128 * 16) with (b0 mod 128 * 2^4). rewrite lor_mul by (change (2^4) with 16; lia). change (2^4) with 16.
  rewrite <- Es, <- Ee.
  set (s := dbl_sign d) in *. set (e := dbl_exp d) in *. set (fr := dbl_frac d) in *.
  assert (Hs : s = 0 \/ s = 1) by lia.
  assert (Hm : bytes [b1 mod 16; b2; b3; b4; b5; b6; b7]).
  { constructor; [split; lia|]. repeat (constructor; [assumption|]). constructor. }
  rewrite (all_zero_spec _ Hm), <- Ef.
  assert (Hc1 : u8 (Z.lor 0x80 (s * 64)) = 128 + 64 * s) by (destruct Hs as [-> | ->]; reflexivity).
  assert (Hc2 : u8 (Z.lor 0x81 (s * 64)) = 129 + 64 * s) by (destruct Hs as [-> | ->]; reflexivity).
  rewrite Hc1, Hc2. intros ->.
  assert (Hbin : forall e m, (if (-128 <=? e) && (e <=? 127) then [128 + 64 * s; u8 e] ++ m
            else [129 + 64 * s; u8 (Z.shiftr e 8); u8 (Z.land e 0xFF)] ++ m) = real_binary s e m).
  { intros e' m. unfold real_binary. rewrite land_FF, shiftr_div by lia. change (2^8) with 256.
    rewrite !u8_mod, Zmod_mod. reflexivity. }
  unfold dbl_zero, dbl_inf, dbl_nan. fold e fr.
  destruct (Z.eqb_spec e 2047) as [E1|E1].
  - destruct (Z.eqb_spec fr 0) as [E2|E2]; [right; left; auto | right; right; left; auto].
  - destruct (Z.eqb_spec e 0) as [E2|E2].
    + destruct (Z.eqb_spec fr 0) as [E3|E3]; [left; auto|]. right. right. right. left. split; [auto|]. split; [auto|].
      destruct (shift_left_1_spec (b1 mod 16) b2 b3 b4 b5 b6 b7) as (S1 & S2 & S3 & S4); [lia| |].
      { repeat (constructor; [assumption|]). constructor. }
      eexists. split; [exact S1|]. split; [exact S2|]. split; [rewrite S3, Ef; reflexivity|]. split; [exact S4|].
      rewrite Hbin, E2. reflexivity.
    + right. right. right. right. split; [lia|]. cbn [tl].
      assert (Hor : Z.lor (b1 mod 16) 0x10 = b1 mod 16 + 16).
      { rewrite Z.lor_comm. change 0x10 with (1 * 2^4). rewrite lor_mul by (change (2^4) with 16; lia). lia. }
      exists (b1 mod 16 + 16 :: [b2; b3; b4; b5; b6; b7]). split; [reflexivity|]. split.
      { constructor; [split; lia|]. inversion Hm; assumption. }
      split; [rewrite Ef, !be_value_cons; cbn [zlen length]; change (zlen [b2; b3; b4; b5; b6; b7]) with 6; change (2^52) with 4503599627370496; lia|].
      split; [cbn [hd]; lia|]. rewrite Hbin, Hor. reflexivity.
Qed.

(** ** decoding: the control octet *)
Lemma ctrl_bits c : wf_byte c -> Z.land c 0x03 = c mod 4 /\ (Z.land c 0x30 =? 0x30) = ((c / 16) mod 4 =? 3) /\
  Z.land (Z.shiftr (Z.land c 0x40) 6) 0x01 = (c / 64) mod 2 /\ Z.shiftr (Z.land c 0x30) 4 = (c / 16) mod 4 /\
  Z.shiftr (Z.land c 0x0C) 2 = (c / 4) mod 4 /\ negb (Z.shiftr (Z.land c 0x80) 7 =? 0) = (128 <=? c).
Proof.
  intros [Hc1 Hc2].
  sweep H (fun c => (Z.land c 0x03 =? c mod 4) && Bool.eqb (Z.land c 0x30 =? 0x30) ((c / 16) mod 4 =? 3) &&
    (Z.land (Z.shiftr (Z.land c 0x40) 6) 0x01 =? (c / 64) mod 2) && (Z.shiftr (Z.land c 0x30) 4 =? (c / 16) mod 4) &&
    (Z.shiftr (Z.land c 0x0C) 2 =? (c / 4) mod 4) && Bool.eqb (negb (Z.shiftr (Z.land c 0x80) 7 =? 0)) (128 <=? c)) c.
  repeat (apply andb_true_iff in H as [H ?]). repeat split; try (apply Z.eqb_eq; assumption); apply Bool.eqb_prop; assumption.
Qed.
Lemma mantissa_nonzero_spec l : bytes l -> mantissa_nonzero l = negb (be_value l =? 0).
Proof.
  intros Hb. rewrite <- all_zero_spec by auto. unfold mantissa_nonzero, all_zero.
  induction l as [|b l IH]; [reflexivity|]. inversion Hb; subst. cbn [existsb forallb]. rewrite IH by auto.
  destruct (b =? 0); reflexivity.
Qed.
Lemma skip_leading_spec l : bytes l -> be_value l <> 0 ->
  exists b r, skip_leading l = b :: r /\ 0 < b < 256 /\ bytes r /\ be_value (b :: r) = be_value l /\ zlen (b :: r) <= zlen l.
Proof.
  induction l as [|b l IH]; intros Hb Hv; [exfalso; apply Hv; reflexivity|].
  apply bytes_cons in Hb as [[H1 H2] Hb]. destruct (Z.eq_dec b 0) as [->|Hn].
  - assert (E : be_value (0 :: l) = be_value l) by (rewrite be_value_cons; lia). rewrite E in *.
    destruct l as [|c l]; [exfalso; apply Hv; reflexivity|]. change (skip_leading (0 :: c :: l)) with (skip_leading (c :: l)).
    destruct (IH Hb Hv) as (b & r & E1 & E2 & E3 & E4 & E5). exists b, r. rewrite (zlen_cons 0). repeat split; try assumption; lia.
  - exists b, l. split; [destruct b; try reflexivity; destruct l; lia|]. repeat split; try assumption; lia.
Qed.
Lemma log2_be b r : 0 < b < 256 -> bytes r -> Z.log2 (be_value (b :: r)) = 8 * zlen r + Z.log2 b.
Proof.
  intros Hb Hr. rewrite be_value_cons. pose proof (be_value_bound r Hr) as Hv. pose proof (zlen_nonneg r) as Hz.
  pose proof (Z.log2_nonneg b). destruct (Z.log2_spec b) as [L1 L2]; [lia|]. rewrite Z.pow_succ_r in L2 by lia.
  assert (Hp : 256 ^ zlen r = 2 ^ (8 * zlen r)) by (rewrite Z.pow_mul_r by lia; reflexivity). rewrite Hp in *.
  apply Z.log2_unique; [lia|]. rewrite Z.pow_succ_r, Z.pow_add_r by lia. set (P := 2 ^ (8 * zlen r)) in *. nia.
Qed.

(** ** shifting seven octets to the right by 0 to 7 bits *)
Lemma shift_right_bits_spec s : 0 <= s <= 7 -> forall l p, wf_byte p -> bytes l ->
  zlen (shift_right_bits p l s) = zlen l /\ bytes (shift_right_bits p l s) /\
  be_value (shift_right_bits p l s) = ((p * 256 ^ zlen l + be_value l) / 2^s) mod 256 ^ zlen l.
Proof.
  intros Hs. assert (H2 : 0 < 2^s) by (apply Z.pow_pos_nonneg; lia).
  assert (H256 : 256 = 2^s * 2^(8 - s)) by (rewrite <- Z.pow_add_r by lia; replace (s + (8 - s)) with 8 by lia; reflexivity).
  induction l as [|b l IH]; intros p Hp Hl.
  - cbn [shift_right_bits]. change (256 ^ zlen []) with 1. rewrite Z.mod_1_r. split; [reflexivity|]. split; [constructor|reflexivity].
  - apply bytes_cons in Hl as [Hb Hl]. destruct (IH b Hb Hl) as (L & Y & V). cbn [shift_right_bits].
    assert (Hb2 := Hb). destruct Hb2 as [Hb1 Hb2]. destruct Hp as [Hp1 Hp2].
    rewrite lor_256 by lia. rewrite shiftr_div, u8_mod by lia.
    rewrite !zlen_cons, L. split; [reflexivity|]. split; [constructor; [split; apply Z.mod_pos_bound; lia|exact Y]|].
    rewrite be_value_cons, L, V, be_value_cons. pose proof (zlen_nonneg l) as Hz. rewrite Z.pow_add_r by lia. change (256^1) with 256.
    set (P := 256 ^ zlen l) in *. assert (HP : 0 < P) by (apply Z.pow_pos_nonneg; lia).
    set (v := be_value l) in *. set (K := 2^s) in *. set (J := 2^(8-s)) in *.
    assert (E1 : p * (256 * P) + (b * P + v) = (p * 256 + b) * P + v) by ring. rewrite E1.
    set (q := p * 256 + b) in *.
    (* (q*P + v)/K mod (256 P) = ((q/K) mod 256) * P + ((b*P+v)/K) mod P *)
    assert (Hbq : b = q mod 256) by (unfold q; rewrite Z.add_comm, Z.mod_add, Z.mod_small by lia; reflexivity).
    assert (Hv : 0 <= v < P) by (apply be_value_bound; exact Hl).
    assert (Eq : (q * P + v) / K = (q / K) * P + ((q mod K) * P + v) / K).
    { rewrite (Z.div_mod q K) at 1 by lia. replace ((K * (q / K) + q mod K) * P + v) with ((q / K * P) * K + ((q mod K) * P + v)) by ring.
      rewrite Z.div_add_l by lia. reflexivity. }
    assert (Eb : (b * P + v) / K = (b / K) * P + ((b mod K) * P + v) / K).
    { rewrite (Z.div_mod b K) at 1 by lia. replace ((K * (b / K) + b mod K) * P + v) with ((b / K * P) * K + ((b mod K) * P + v)) by ring.
      rewrite Z.div_add_l by lia. reflexivity. }
    assert (Emod : b mod K = q mod K).
    { rewrite Hbq. symmetry. apply Znumtheory.Zmod_div_mod; try lia. exists J. rewrite H256. unfold K, J. ring. }
    rewrite Eq, Eb, Emod. set (w := (q mod K * P + v) / K).
    assert (Hw : 0 <= w < P).
    { unfold w. pose proof (Z.mod_pos_bound q K H2). split; [apply Z.div_pos; nia|]. apply Z.div_lt_upper_bound; nia. }
    assert (R1 : (b / K * P + w) mod P = w) by (rewrite Z.add_comm, Z.mod_add by lia; apply Z.mod_small; lia). rewrite R1.
    assert (R2 : (q / K * P + w) mod (256 * P) = ((q / K) mod 256) * P + w).
    { rewrite (Z.div_mod (q / K) 256) at 1 by lia.
      replace ((256 * (q / K / 256) + (q / K) mod 256) * P + w) with (((q / K) mod 256 * P + w) + (q / K / 256) * (256 * P)) by ring.
      rewrite Z.mod_add by lia. apply Z.mod_small. pose proof (Z.mod_pos_bound (q / K) 256). nia. }
    rewrite R2. reflexivity.
Qed.

(** ** assemble *)
Lemma land_E0 b : wf_byte b -> (Z.land b 0xE0 =? 0) = (b <? 32).
Proof. intros [H1 H2]. sweep H (fun b => Bool.eqb (Z.land b 0xE0 =? 0) (b <? 32)) b. apply Bool.eqb_prop; auto. Qed.
Lemma land_F0 b : wf_byte b -> (Z.land b 0xF0 =? 0) = (b <? 16).
Proof. intros [H1 H2]. sweep H (fun b => Bool.eqb (Z.land b 0xF0 =? 0) (b <? 16)) b. apply Bool.eqb_prop; auto. Qed.
Lemma to_i32_small x : -(2^31) <= x < 2^31 -> to_i32 x = x.
Proof.
  intros H. unfold to_i32. change (2^32) with 4294967296 in *. change (2^31) with 2147483648 in *. cbv zeta.
  destruct (Z.ltb_spec (x mod 4294967296) 2147483648); lia.
Qed.
(** the number of bits the first octet b >= 16 is above the hidden bit *)
Definition over (b : Z) : Z := Z.log2 b - 4.
Lemma over_spec b : 16 <= b < 256 -> 0 <= over b <= 3 /\ 16 <= b / 2 ^ over b < 32.
Proof.
  intros [H1 H2]. unfold over.
  sweep H (fun b => (b <? 16) || ((0 <=? Z.log2 b - 4) && (Z.log2 b - 4 <=? 3) && (16 <=? b / 2 ^ (Z.log2 b - 4)) && (b / 2 ^ (Z.log2 b - 4) <? 32))) b.
  apply orb_true_iff in H as [H|H]; [lia|]. repeat (apply andb_true_iff in H as [H ?]). lia.
Qed.
Lemma right_shift_count_eq b e : 16 <= b < 256 -> right_shift_count 8 b e 0 = Z.min (over b) (Z.max 0 (0x7FF - e)).
Proof.
  intros [H1 H2]. assert (Hb : forall x, 0 <= x < 256 -> (Z.land x 0xE0 =? 0) = (x <? 32)) by (intros x Hx; apply land_E0; split; lia).
  assert (Ho : over b = if b <? 32 then 0 else if b <? 64 then 1 else if b <? 128 then 2 else 3).
  { unfold over. sweep H (fun b => (b <? 16) || (Z.log2 b - 4 =? (if b <? 32 then 0 else if b <? 64 then 1 else if b <? 128 then 2 else 3))) b.
    apply orb_true_iff in H as [H|H]; lia. }
  rewrite Ho. clear Ho. cbn [right_shift_count]. rewrite !shiftr_div by lia. change (2^1) with 2.
  rewrite !Hb by lia. 
  destruct (Z.ltb_spec b 32); cbn [negb andb]; [lia|].
  destruct (Z.ltb_spec e (2047 - 0)); [|destruct (b <? 64); [|destruct (b <? 128)]; lia].
  destruct (Z.ltb_spec b 64).
  { replace (b / 2 <? 32) with true by lia. cbn [negb andb]. lia. }
  replace (b / 2 <? 32) with false by lia. cbn [negb andb].
  destruct (Z.ltb_spec e (2047 - (0 + 1))); [|destruct (b <? 128); lia].
  destruct (Z.ltb_spec b 128).
  { replace (b / 2 / 2 <? 32) with true by lia. cbn [negb andb]. lia. }
  replace (b / 2 / 2 <? 32) with false by lia. cbn [negb andb].
  destruct (Z.ltb_spec e (2047 - (0 + 1 + 1))); [|lia].
  replace (b / 2 / 2 / 2 <? 32) with true by lia. cbn [negb andb]. lia.
Qed.
Lemma first7 b r : bytes (b :: r) -> exists t, ztake 7 (ztake 8 ((b :: r) ++ zrep 8 0)) = b :: t /\ zlen t = 6 /\ bytes (b :: t) /\
  be_value (b :: t) = Z.shiftl (be_value (b :: r)) (8 * (7 - zlen (b :: r))).
Proof.
  intros Hb. rewrite ztake_ztake by lia. rewrite zlen_cons. pose proof (zlen_nonneg r) as Hz.
  assert (Hb8 : bytes (zrep 8 0)) by (vm_compute; repeat constructor; discriminate).
  exists (ztake 6 (r ++ zrep 8 0)). cbn [app]. rewrite ztake_cons by lia. change (7 - 1) with 6.
  assert (Hl : zlen (ztake 6 (r ++ zrep 8 0)) = 6) by (apply zlen_ztake; rewrite zlen_app; change (zlen (zrep 8 0)) with 8; lia).
  split; [reflexivity|]. split; [exact Hl|]. apply bytes_cons in Hb as [Hb Hr].
  split; [constructor; [exact Hb|apply bytes_ztake, bytes_app; auto]|].
  destruct (Z.le_gt_cases (zlen r) 6) as [Hc|Hc].
  - rewrite ztake_app_ge by lia. rewrite Z.shiftl_mul_pow2 by lia.
    assert (Ez : ztake (6 - zlen r) (zrep 8 0) = zrep (6 - zlen r) 0).
    { unfold ztake, zrep. assert (Hf : forall n k, (n <= k)%nat -> firstn n (repeat 0 k) = repeat 0 n).
      { induction n as [|n IHn]; intros [|k] Hk; try reflexivity; [lia|]. cbn [repeat firstn]. f_equal. apply IHn. lia. }
      apply Hf. lia. }
    rewrite Ez. change (b :: r ++ zrep (6 - zlen r) 0) with ((b :: r) ++ zrep (6 - zlen r) 0). rewrite be_value_app, zlen_zrep by lia.
    assert (E0 : forall n, be_value (repeat 0 n) = 0).
    { induction n as [|n IH]; [reflexivity|]. cbn [repeat]. rewrite be_value_cons, IH. lia. }
    unfold zrep. rewrite E0. replace (7 - (1 + zlen r)) with (6 - zlen r) by lia. rewrite Z.pow_mul_r by lia. change (2^8) with 256. lia.
  - rewrite ztake_app_le by lia. replace (8 * (7 - (1 + zlen r))) with (- (8 * (zlen r - 6))) by lia.
    rewrite Z.shiftl_opp_r, Z.shiftr_div_pow2 by lia.
    rewrite <- (ztake_zdrop 6 r) at 2. change (b :: ztake 6 r ++ zdrop 6 r) with ((b :: ztake 6 r) ++ zdrop 6 r).
    rewrite be_value_app, zlen_zdrop by lia. rewrite Z.pow_mul_r by lia. change (2^8) with 256.
    pose proof (be_value_bound (zdrop 6 r) (bytes_zdrop 6 r Hr)) as Hv. rewrite zlen_zdrop in Hv by lia.
    rewrite Z.div_add_l by lia. rewrite Z.div_small by lia. lia.
Qed.
Lemma fields_build s e b t : s = 0 \/ s = 1 -> 0 <= e < 2047 -> 0 <= b < 32 -> zlen t = 6 -> bytes t -> 
  let d := u8 (Z.lor (s * 128) (Z.shiftr e 4)) :: u8 (Z.lor (e * 16) (Z.land b 0x0F)) :: t in
  is_double d /\ dbl_sign d = s /\ dbl_exp d = e /\ dbl_frac d = be_value (b :: t) - 256 ^ 6 * (16 * (b / 16)).
Proof.
  intros Hs He Hb Ht Hy. cbv zeta. rewrite shiftr_div, land_0F by lia. change (2^4) with 16.
  change (s * 128) with (s * 2^7). rewrite lor_mul by (change (2^7) with 128; lia).
  change (e * 16) with (e * 2^4). rewrite lor_mul by (change (2^4) with 16; lia). change (2^7) with 128. change (2^4) with 16.
  rewrite !u8_mod. rewrite (Z.mod_small (s * 128 + e / 16)) by lia.
  destruct t as [|b2 [|b3 [|b4 [|b5 [|b6 [|b7 [|? ?]]]]]]]; rewrite ?zlen_cons, ?zlen_nil in Ht;
    try (exfalso; match type of Ht with context [zlen ?l] => pose proof (zlen_nonneg l) | _ => idtac end; lia).
  set (d := [_; _; _; _; _; _; _; _]). assert (Hd : bytes d).
  { unfold d. constructor; [split; lia|]. constructor; [split; lia|]. exact Hy. }
  split; [split; [reflexivity|exact Hd]|]. destruct (double_fields _ _ _ _ _ _ _ _ Hd) as (Es & Ee & Ef). fold d in Es, Ee, Ef.
  rewrite Es, Ee, Ef. split; [lia|]. split; [lia|]. rewrite !(be_value_cons _ [b2; b3; b4; b5; b6; b7]).
  change (zlen [b2; b3; b4; b5; b6; b7]) with 6. lia.
Qed.
Lemma shiftr_shiftl N k s : 0 <= s -> Z.shiftr (Z.shiftl N k) s = Z.shiftl N (k - s).
Proof.
  intros Hs. rewrite <- (Z.shiftl_opp_r _ s). destruct (Z.le_gt_cases 0 k).
  - rewrite Z.shiftl_opp_r. rewrite Z.shiftr_shiftl_l by lia. reflexivity.
  - replace k with (- (- k)) at 1 by lia. rewrite Z.shiftl_opp_r, Z.shiftl_opp_r, Z.shiftr_shiftr by lia.
    replace (k - s) with (- (- k + s)) by lia. rewrite Z.shiftl_opp_r. reflexivity.
Qed.
(** what comes out for a mantissa whose first significant octet is at least 16, in the range of normal doubles *)
Lemma assemble_normal fuel s e mant N : s = 0 \/ s = 1 -> bytes mant -> be_value mant = N -> N <> 0 -> zlen mant < 2^27 -> Z.abs e < 2^20 ->
  4 <= Z.log2 N mod 8 -> 1 <= Z.log2 N + e + 1023 <= 2046 ->
  exists d, assemble fuel s e mant = Ok d /\ is_double d /\ dbl_sign d = s /\ dbl_exp d = Z.log2 N + e + 1023 /\
    2^52 + dbl_frac d = Z.shiftl N (52 - Z.log2 N).
Proof.
  intros Hs Hb EN Hn Hlen He Hlog Hrange. rewrite <- EN in Hn.
  destruct (skip_leading_spec mant Hb Hn) as (b & r & Esk & Hbr & Hr & Ev & Hl).
  assert (El : Z.log2 N = 8 * zlen r + Z.log2 b) by (rewrite <- EN, <- Ev; apply log2_be; auto).
  assert (Hlb : 0 <= Z.log2 b <= 7).
  { split; [apply Z.log2_nonneg|]. destruct (Z.log2_spec b) as [L _]; [lia|]. destruct (Z.le_gt_cases (Z.log2 b) 7); [auto|].
    assert (2^8 <= 2 ^ Z.log2 b) by (apply Z.pow_le_mono_r; lia). lia. }
  assert (Hb4 : 4 <= Z.log2 b) by (rewrite El in Hlog; rewrite Z.add_comm, Z.mul_comm, Z.mod_add in Hlog by lia; rewrite Z.mod_small in Hlog; lia).
  assert (Hb16 : 16 <= b < 256).
  { destruct (Z.log2_spec b) as [L _]; [lia|]. assert (2^4 <= 2 ^ Z.log2 b) by (apply Z.pow_le_mono_r; lia). lia. }
  destruct (over_spec b Hb16) as [Ho Hob].
  assert (Hbb : bytes (b :: r)) by (constructor; [split; lia|exact Hr]).
  destruct (first7 b r Hbb) as (t & Et & Htl & Htb & Hv). pose proof (zlen_nonneg r) as Hz.
  unfold assemble. rewrite Esk. cbv zeta. rewrite zlen_cons in *.
  rewrite to_i32_small by lia.
  set (db := ztake 8 ((b :: r) ++ zrep 8 0)) in *.
  assert (Hhd : hd 0 db = b) by (unfold db; cbn [app]; rewrite ztake_cons by lia; reflexivity). rewrite Hhd, Et.
  rewrite land_E0, land_F0 by (split; lia). replace (b <? 16) with false by lia. cbn [andb].
  set (X := e + (1 + zlen r - 7) * 8 + 1075).
  assert (HX : X + over b = Z.log2 N + e + 1023) by (unfold X, over; lia).
  assert (HE : 52 - Z.log2 N = 8 * (7 - (1 + zlen r)) - over b) by (unfold over; lia).
  assert (Hfin : forall X' b' t', X' = X + over b -> zlen t' = 6 -> bytes (b' :: t') -> be_value (b' :: t') = be_value (b :: t) / 2 ^ over b ->
            16 <= b' < 32 ->
            exists d, (if (X' >=? 2047) || (X' <=? -55) then Ok (if X' >=? 0 then if s =? 0 then plus_inf else minus_inf else if s =? 0 then plus_zero else minus_zero)
              else let '(exponent, db0) := if X' <=? 0 then (0, shift_right_bits 0 (ztake 7 (zrep (Z.shiftr (- (X' - 1)) 3) 0 ++ b' :: t')) (Z.land (- (X' - 1)) 7)) else (X', b' :: t') in
                   Ok (u8 (Z.lor (s * 128) (Z.shiftr exponent 4)) :: u8 (Z.lor (exponent * 16) (Z.land (hd 0 db0) 15)) :: tl db0)) = Ok d /\
              is_double d /\ dbl_sign d = s /\ dbl_exp d = Z.log2 N + e + 1023 /\ 2 ^ 52 + dbl_frac d = Z.shiftl N (52 - Z.log2 N)).
  { intros X' b' t' EX Ht' Hbt' Hvt' Hb'. replace (X' >=? 2047) with false by lia. replace (X' <=? -55) with false by lia.
    replace (X' <=? 0) with false by lia. cbn [orb hd tl]. eexists. split; [reflexivity|].
    apply bytes_cons in Hbt' as [Hb1 Ht1].
    destruct (fields_build s X' b' t' Hs ltac:(lia) ltac:(lia) Ht' Ht1) as (F1 & F2 & F3 & F4).
    split; [exact F1|]. split; [exact F2|]. split; [lia|]. rewrite F4, Hvt', Hv, HE, Ev, EN.
    replace (b' / 16) with 1 by lia. rewrite <- shiftr_shiftl by lia. rewrite Z.shiftr_div_pow2 by lia.
    change (256 ^ 6 * (16 * 1)) with (2^52). lia. }
  destruct (Z.ltb_spec b 32) as [Hc|Hc]; cbn [negb andb].
  - assert (Hov : over b = 0) by (unfold over in *; assert (2^5 > 31) by lia; destruct (Z.log2_spec b) as [L1 L2]; [lia|];
      destruct (Z.le_gt_cases (Z.log2 b) 4); [lia|]; assert (2^5 <= 2 ^ Z.log2 b) by (apply Z.pow_le_mono_r; lia); lia).
    cbn [bind]. apply Hfin; auto; [lia|rewrite Hov; change (2^0) with 1; rewrite Z.div_1_r; reflexivity|lia].
  - replace (X <? 2047) with true by lia. cbn [bind]. rewrite right_shift_count_eq by auto.
    replace (Z.min (over b) (Z.max 0 (2047 - X))) with (over b) by lia.
    destruct (shift_right_bits_spec (over b) ltac:(lia) (b :: t) 0 ltac:(split; lia) Htb) as (S1 & S2 & S3).
    rewrite zlen_cons, Htl in S1, S3. change (1 + 6) with 7 in S1, S3. rewrite Z.mul_0_l, Z.add_0_l in S3.
    pose proof (be_value_bound _ Htb) as Hbd. rewrite zlen_cons, Htl in Hbd. change (1 + 6) with 7 in Hbd.
    assert (Hp : 0 < 2 ^ over b) by (apply Z.pow_pos_nonneg; lia).
    rewrite Z.mod_small in S3 by (split; [apply Z.div_pos; lia|apply Z.div_lt_upper_bound; nia]).
    destruct (shift_right_bits 0 (b :: t) (over b)) as [|b' t'] eqn:Esh; [rewrite zlen_nil in S1; lia|].
    rewrite zlen_cons in S1. apply Hfin; auto; [lia|].
    assert (Eb' : b' = b / 2 ^ over b).
    { cbn [shift_right_bits] in Esh. injection Esh as <- _. rewrite ?Z.mul_0_l, ?Z.lor_0_l, shiftr_div, u8_mod by lia.
      apply Z.mod_small. split; [apply Z.div_pos; lia|]. lia. }
    lia.
Qed.

(** ** when assemble terminates *)
Lemma left_shift_loop_hangs fuel b e : (Z.land b 0xF0 =? 0) = true -> e > 0 -> left_shift_loop fuel b e 8 = NoFuel.
Proof.
  intros Hb. revert e. induction fuel as [|fuel IH]; intros e He; [reflexivity|]. cbn [left_shift_loop]. rewrite Hb.
  replace (e >? 8 - 8) with true by lia. cbn [andb]. apply IH. lia.
Qed.
Lemma assemble_terminates s e mant N : bytes mant -> be_value mant = N -> N <> 0 ->
  (exists d, forall fuel, assemble fuel s e mant = Ok d) \/
  (Z.log2 N mod 8 < 4 /\ (forall fuel, assemble fuel s e mant = NoFuel)).
Proof.
  intros Hb EN Hn. rewrite <- EN in Hn. destruct (skip_leading_spec mant Hb Hn) as (b & r & Esk & Hbr & Hr & Ev & Hl).
  unfold assemble. rewrite Esk. cbv zeta.
  set (db := ztake 8 ((b :: r) ++ zrep 8 0)).
  assert (Hhd : hd 0 db = b) by (unfold db; cbn [app]; rewrite ztake_cons by lia; reflexivity). rewrite Hhd. clearbody db.
  set (X := to_i32 _). clearbody X. rewrite land_E0, land_F0 by (split; lia).
  destruct (negb (b <? 32) && (X <? 2047)) eqn:E1.
  { left. cbn [bind]. set (X2 := X + _). clearbody X2. set (sh := shift_right_bits _ _ _). clearbody sh.
    destruct ((X2 >=? 2047) || (X2 <=? -55)); [eexists; reflexivity|]. destruct (X2 <=? 0); eexists; reflexivity. }
  destruct ((b <? 16) && (X >? 0)) eqn:E2.
  - right. apply andb_true_iff in E2 as [E2 E3]. split.
    + rewrite <- EN, <- Ev, log2_be by auto. rewrite Z.add_comm, Z.mul_comm, Z.mod_add by lia.
      assert (Z.log2 b < 4) by (apply Z.log2_lt_pow2; [lia|]; change (2^4) with 16; lia).
      pose proof (Z.log2_nonneg b). rewrite Z.mod_small by lia. lia.
    + intros fuel. rewrite left_shift_loop_hangs; [reflexivity|rewrite land_F0 by (split; lia); exact E2|lia].
  - left. cbn [bind]. destruct ((X >=? 2047) || (X <=? -55)); [eexists; reflexivity|]. destruct (X <=? 0); eexists; reflexivity.
Qed.
Lemma assemble_hangs s e mant N : bytes mant -> be_value mant = N -> N <> 0 -> zlen mant < 2^27 -> Z.abs e < 2^20 ->
  Z.log2 N mod 8 < 4 -> 0 < e + 8 * (Z.log2 N / 8) + 1027 -> forall fuel, assemble fuel s e mant = NoFuel.
Proof.
  intros Hb EN Hn Hlen He Hlog HX fuel. rewrite <- EN in Hn.
  destruct (skip_leading_spec mant Hb Hn) as (b & r & Esk & Hbr & Hr & Ev & Hl). pose proof (zlen_nonneg r) as Hz.
  unfold assemble. rewrite Esk. cbv zeta. rewrite zlen_cons in *. rewrite to_i32_small by lia.
  set (db := ztake 8 ((b :: r) ++ zrep 8 0)).
  assert (Hhd : hd 0 db = b) by (unfold db; cbn [app]; rewrite ztake_cons by lia; reflexivity). rewrite Hhd. clearbody db.
  assert (El : Z.log2 N = 8 * zlen r + Z.log2 b) by (rewrite <- EN, <- Ev; apply log2_be; auto).
  assert (Hlb : 0 <= Z.log2 b <= 7).
  { split; [apply Z.log2_nonneg|]. destruct (Z.log2_spec b) as [L _]; [lia|]. destruct (Z.le_gt_cases (Z.log2 b) 7); [auto|].
    assert (2^8 <= 2 ^ Z.log2 b) by (apply Z.pow_le_mono_r; lia). lia. }
  assert (Hb4 : Z.log2 b < 4) by lia.
  assert (Hb16 : b < 16) by (apply Z.log2_lt_pow2 in Hb4; [exact Hb4|lia]).
  assert (HX2 : e + (1 + zlen r - 7) * 8 + 1075 > 0) by lia.
  rewrite land_E0, (land_F0 b) by (split; lia). replace (b <? 32) with true by lia. replace (b <? 16) with true by lia.
  cbn [negb andb]. replace (_ >? 0) with true by lia.
  rewrite left_shift_loop_hangs; [reflexivity|rewrite land_F0 by (split; lia); lia|lia].
Qed.

(** ** decode_real_binary *)
Definition base_log (base : Z) : Z := if base =? 8 then 3 else if base =? 16 then 4 else 1.
Lemma nine_identical_ok input k : 0 <= k -> k + 1 < zlen input -> exists b, nine_identical input k = Ok b.
Proof.
  intros H1 H2. destruct (zget_ok input k) as (a & Ea & _); [lia|]. destruct (zget_ok input (k + 1)) as (b & Eb & _); [lia|].
  unfold nine_identical. rewrite Ea, Eb. cbn [bind]. eauto.
Qed.
(** the exponent's first two octets are nine identical bits *)
Definition nine_bits (expo : list Z) : bool :=
  match expo with a :: b :: _ => ((a =? 255) && (128 <=? b)) || ((a =? 0) && (b <? 128)) | _ => false end.
Lemma zget_cons_0 a l : zget (a :: l) 0 = Ok a. Proof. apply (zget_mid [] a l 0). reflexivity. Qed.
Lemma zget_cons_1 a b l : zget (a :: b :: l) 1 = Ok b. Proof. apply (zget_mid [a] b l 1). reflexivity. Qed.
Lemma zget_cons_2 a b c l : zget (a :: b :: c :: l) 2 = Ok c. Proof. apply (zget_mid [a; b] c l 2). reflexivity. Qed.
Lemma zget_cons_3 a b c d l : zget (a :: b :: c :: d :: l) 3 = Ok d. Proof. apply (zget_mid [a; b; c] d l 3). reflexivity. Qed.

Definition drb_tail (fuel : nat) (c e0 : Z) (input : list Z) (exponent_len exponent_offset : Z) : res (option (list Z)) :=
  if exponent_len >? 4 then Ok None
  else let* exponent := read_exponent input exponent_offset (Z.to_nat exponent_offset) (if e0 <? 128 then 0 else -1) in
       let s := (c / 64) mod 2 in let bb := (c / 16) mod 4 in let f := (c / 4) mod 4 in
       let* d := assemble fuel s (exponent * base_log (nth (Z.to_nat bb) [2; 8; 16] 0) + f) (zdrop (exponent_len + exponent_offset) input) in
       Ok (Some d).
Lemma drb_unfold input c n off e0 : bytes input -> check_real_binary input = Ok true -> zget input 0 = Ok c -> wf_byte c ->
  (c / 16) mod 4 <> 3 -> exp_len_off input = Ok (n, off) -> off = 1 \/ off = 2 -> zget input off = Ok e0 -> wf_byte e0 -> off + off <= zlen input ->
  forall fuel, decode_real_binary fuel input = drb_tail fuel c e0 input n off.
Proof.
  intros Hb Hck Hc Hcw Hbb Hel Hoff He0 Hw0 Hz fuel. unfold decode_real_binary, drb_tail. rewrite Hck. cbn [bind negb]. rewrite Hel. cbn [bind].
  destruct (n >? 4); [reflexivity|]. rewrite He0, Hc. cbn [bind].
  destruct (ctrl_bits c Hcw) as (_ & _ & -> & -> & -> & _). rewrite land_80 by auto.
  set (bb := (c / 16) mod 4) in *. set (f := (c / 4) mod 4). set (s := (c / 64) mod 2).
  assert (Hf : 0 <= f < 4) by (unfold f; lia). assert (Hbb2 : bb = 0 \/ bb = 1 \/ bb = 2) by (unfold bb in *; lia).
  replace (if negb (e0 <? 128) then -1 else 0) with (if e0 <? 128 then 0 else -1) by (destruct (e0 <? 128); reflexivity).
  destruct (read_exponent input off (Z.to_nat off) (if e0 <? 128 then 0 else -1)) as [ex| |] eqn:Er; cbn [bind]; try reflexivity.
  assert (Hex : -65536 <= ex < 65536).
  { destruct Hw0 as [Hw1 Hw2]. destruct Hoff as [-> | ->].
    - change (Z.to_nat 1) with 1%nat in Er. cbn [read_exponent] in Er. rewrite He0 in Er. cbn [bind] in Er. rewrite lor_256 in Er by lia.
      injection Er as <-. destruct (e0 <? 128); lia.
    - change (Z.to_nat 2) with 2%nat in Er. cbn [read_exponent] in Er. rewrite He0 in Er. cbn [bind] in Er. rewrite lor_256 in Er by lia.
      destruct (zget_ok input (2 + 1)) as (b & Eb & Hbw); [lia|]. rewrite Eb in Er. cbn [bind] in Er. destruct (Hbw Hb).
      rewrite lor_256 in Er by lia. injection Er as <-. destruct (e0 <? 128); lia. }
  change (2^31 - 1) with 2147483647. change (-(2^31)) with (-2147483648).
  change (Z.quot 2147483647 3) with 715827882. change (Z.quot (-2147483648) 3) with (-715827882).
  change (Z.quot 2147483647 4) with 536870911. change (Z.quot (-2147483648) 4) with (-536870912).
  assert (Hsel : (if bb =? 1 then if (if ex >? 0 then ex <=? 715827882 else ex >=? -715827882) then Some (ex * 3) else None
                  else if bb =? 2 then if (if ex >? 0 then ex <=? 536870911 else ex >=? -536870912) then Some (ex * 4) else None
                  else Some ex) = Some (ex * base_log (nth (Z.to_nat bb) [2; 8; 16] 0)) /\
                 -300000 < ex * base_log (nth (Z.to_nat bb) [2; 8; 16] 0) < 300000).
  { destruct Hbb2 as [-> | [-> | ->]].
    - change (0 =? 1) with false. change (0 =? 2) with false. cbv iota. change (base_log (nth (Z.to_nat 0) [2; 8; 16] 0)) with 1. rewrite Z.mul_1_r. split; [reflexivity|lia].
    - change (1 =? 1) with true. cbv iota. change (base_log (nth (Z.to_nat 1) [2; 8; 16] 0)) with 3. replace (if ex >? 0 then ex <=? 715827882 else ex >=? -715827882) with true by (destruct (ex >? 0); lia).
      split; [reflexivity|lia].
    - change (2 =? 1) with false. change (2 =? 2) with true. cbv iota. change (base_log (nth (Z.to_nat 2) [2; 8; 16] 0)) with 4. replace (if ex >? 0 then ex <=? 536870911 else ex >=? -536870912) with true by (destruct (ex >? 0); lia).
      split; [reflexivity|lia]. }
  destruct Hsel as [-> Hr]. set (ek := ex * base_log (nth (Z.to_nat bb) [2; 8; 16] 0)) in *.
  replace (ek <=? 2147483647 - f) with true by lia. cbn [negb]. replace (ek + f <? -16777215) with false by lia.
  replace (ek + f >? 16777215) with false by lia. cbn [orb]. reflexivity.
Qed.

Lemma nine_identical_spec pre a b l : wf_byte b -> nine_identical (pre ++ a :: b :: l) (zlen pre) = Ok (nine_bits (a :: b :: l)).
Proof.
  intros Hb. unfold nine_identical. rewrite zget_mid by reflexivity.
  replace (pre ++ a :: b :: l) with ((pre ++ [a]) ++ b :: l) by (rewrite <- app_assoc; reflexivity).
  rewrite zget_mid by (rewrite zlen_app, zlen_1; reflexivity). cbn [bind nine_bits]. rewrite land_80 by auto.
  do 2 f_equal. f_equal. destruct (Z.ltb_spec b 128); destruct (Z.leb_spec 128 b); try reflexivity; lia.
Qed.
Definition ctrl (s bb f ee : Z) : Z := 128 + 64 * s + 16 * bb + 4 * f + ee.
Lemma ctrl_fields s bb f ee : 0 <= s <= 1 -> 0 <= bb <= 2 -> 0 <= f <= 3 -> 0 <= ee <= 3 -> let c := ctrl s bb f ee in
  wf_byte c /\ c mod 4 = ee /\ (c / 4) mod 4 = f /\ (c / 16) mod 4 = bb /\ (c / 64) mod 2 = s /\ 128 <= c.
Proof. intros. unfold c, ctrl, wf_byte. lia. Qed.
Lemma twos_value_1 x : wf_byte x -> twos_value [x] = if x <? 128 then x else x - 256.
Proof. intros [? ?]. unfold twos_value, be_value. cbn [fold_left zlen length]. change (256 ^ zlen [x]) with 256. destruct (x <? 128); lia. Qed.
(** an accepted binary encoding with the exponent in one, two or three octets *)
Lemma drb_short s bb f expo mant : 0 <= s <= 1 -> 0 <= bb <= 2 -> 0 <= f <= 3 -> bytes expo -> 1 <= zlen expo <= 3 -> bytes mant ->
  be_value mant <> 0 -> 3 <= zlen expo + zlen mant -> nine_bits expo = false ->
  forall fuel, decode_real_binary fuel (ctrl s bb f (zlen expo - 1) :: expo ++ mant) =
    let* d := assemble fuel s (twos_value [hd 0 expo] * base_log (nth (Z.to_nat bb) [2; 8; 16] 0) + f) mant in Ok (Some d).
Proof.
  intros Hs Hbb Hf He Hl Hm Hn Hz H9 fuel. destruct (ctrl_fields s bb f (zlen expo - 1)) as (C0 & C1 & C2 & C3 & C4 & C5); try lia.
  set (c := ctrl s bb f (zlen expo - 1)) in *. clearbody c.
  destruct expo as [|x expo]; [rewrite zlen_nil in Hl; lia|].
  set (input := c :: (x :: expo) ++ mant).
  assert (Hb : bytes input) by (unfold input; constructor; [exact C0|apply bytes_app; auto]).
  assert (Hzl : zlen input = 1 + zlen (x :: expo) + zlen mant) by (unfold input; rewrite zlen_cons, zlen_app; lia).
  assert (Hmz : 1 <= zlen mant).
  { destruct mant; [exfalso; apply Hn; reflexivity|]. rewrite zlen_cons. pose proof (zlen_nonneg mant). lia. }
  assert (E0 : zget input 0 = Ok c) by apply zget_cons_0. assert (E1 : zget input 1 = Ok x) by apply zget_cons_1.
  destruct (ctrl_bits c C0) as (L1 & L2 & _).
  assert (Eel : exp_len_off input = Ok (zlen (x :: expo), 1)).
  { unfold exp_len_off. rewrite E0. cbn [bind]. rewrite L1, C1. replace (zlen (x :: expo) - 1 + 1 =? 4) with false by lia. do 2 f_equal. lia. }
  assert (Hx : wf_byte x) by (apply bytes_cons in He; tauto).
  assert (Hck : check_real_binary input = Ok true).
  { unfold check_real_binary. replace (zlen input >? 3) with true by lia. cbn [negb]. rewrite E0. cbn [bind]. rewrite L2, C3.
    replace (bb =? 3) with false by lia. rewrite Eel. cbn [bind]. replace (zlen (x :: expo) =? 0) with false by lia.
    replace (zlen (x :: expo) + 1 >=? zlen input) with false by lia. cbn [orb].
    assert (Hd : zdrop (zlen (x :: expo) + 1) input = mant).
    { unfold input. change (c :: (x :: expo) ++ mant) with ((c :: x :: expo) ++ mant). apply zdrop_app_exact. rewrite !zlen_cons. lia. }
    rewrite Hd, mantissa_nonzero_spec by auto. replace (be_value mant =? 0) with false by (symmetry; apply Z.eqb_neq; auto). cbn [negb].
    destruct (Z.gtb_spec (zlen (x :: expo)) 1); [|reflexivity].
    destruct expo as [|y expo]; [rewrite zlen_1 in *; lia|].
    assert (Hy : wf_byte y) by (apply bytes_cons in He as [_ He]; apply bytes_cons in He; tauto).
    unfold input. cbn [app]. rewrite (nine_identical_spec [c] x y (expo ++ mant) Hy : nine_identical (c :: x :: y :: expo ++ mant) 1 = _).
    cbn [bind]. change (nine_bits (x :: y :: expo ++ mant)) with (nine_bits (x :: y :: expo)). rewrite H9. reflexivity. }
  rewrite (drb_unfold input c (zlen (x :: expo)) 1 x Hb Hck E0 C0 ltac:(lia) Eel ltac:(lia) E1 Hx ltac:(lia)).
  unfold drb_tail. replace (zlen (x :: expo) >? 4) with false by lia. change (Z.to_nat 1) with 1%nat. cbn [read_exponent]. rewrite E1.
  cbn [bind hd]. destruct Hx as [Hx1 Hx2]. rewrite lor_256 by lia. rewrite C2, C3, C4. rewrite twos_value_1 by (split; lia).
  assert (Hd : zdrop (zlen (x :: expo) + 1) input = mant).
  { unfold input. change (c :: (x :: expo) ++ mant) with ((c :: x :: expo) ++ mant). apply zdrop_app_exact. rewrite !zlen_cons. lia. }
  rewrite Hd. replace ((if x <? 128 then 0 else -1) * 256 + x) with (if x <? 128 then x else x - 256) by (destruct (x <? 128); lia). reflexivity.
Qed.
Lemma ctrl_of c : 128 <= c < 256 -> c = ctrl ((c / 64) mod 2) ((c / 16) mod 4) ((c / 4) mod 4) (c mod 4).
Proof. unfold ctrl. lia. Qed.
(** everything else: rejected, or of one of the two forms of X.690 *)
Lemma drb_inv c rest : bytes (c :: rest) -> 128 <= c ->
  (forall fuel, decode_real_binary fuel (c :: rest) = Ok None) \/
  exists s N f base E e mant, x690_real_binary (c :: rest) s N f base E /\ bytes mant /\ be_value mant = N /\ N <> 0 /\
    forall fuel, decode_real_binary fuel (c :: rest) = let* d := assemble fuel s e mant in Ok (Some d).
Proof.
  intros Hb Hc. set (input := c :: rest) in *. assert (Hcw : wf_byte c) by (apply bytes_cons in Hb; tauto).
  assert (E0 : zget input 0 = Ok c) by apply zget_cons_0.
  destruct (ctrl_bits c Hcw) as (L1 & L2 & _).
  assert (Hnone : check_real_binary input = Ok false -> forall fuel, decode_real_binary fuel input = Ok None).
  { intros E fuel. unfold decode_real_binary. rewrite E. reflexivity. }
  destruct (Z.gtb_spec (zlen input) 3) as [Hz|Hz].
  2: { left. apply Hnone. unfold check_real_binary. replace (zlen input >? 3) with false by lia. reflexivity. }
  destruct (Z.eqb_spec ((c / 16) mod 4) 3) as [Hbb|Hbb].
  { left. apply Hnone. unfold check_real_binary. replace (zlen input >? 3) with true by lia. cbn [negb]. rewrite E0. cbn [bind].
    rewrite L2. reflexivity. }
  destruct rest as [|r0 rest]; [unfold input in Hz; rewrite zlen_1 in Hz; lia|].
  assert (E1 : zget input 1 = Ok r0) by apply zget_cons_1.
  assert (Hr0 : wf_byte r0) by (apply bytes_cons in Hb as [_ Hb]; apply bytes_cons in Hb; tauto).
  assert (Hel : exists n off, exp_len_off input = Ok (n, off) /\ ((off = 1 /\ n = c mod 4 + 1 /\ c mod 4 < 3) \/ (off = 2 /\ n = r0 /\ c mod 4 = 3))).
  { unfold exp_len_off. rewrite E0. cbn [bind]. rewrite L1. destruct (Z.eqb_spec (c mod 4 + 1) 4).
    - rewrite E1. cbn [bind]. exists r0, 2. split; [reflexivity|]. right. lia.
    - exists (c mod 4 + 1), 1. split; [reflexivity|]. left. lia. }
  destruct Hel as (n & off & Eel & Hel).
  assert (Hn : 0 <= n) by (destruct Hr0; lia).
  destruct ((n =? 0) || (n + off >=? zlen input)) eqn:Eg.
  { left. apply Hnone. unfold check_real_binary. replace (zlen input >? 3) with true by lia. cbn [negb]. rewrite E0. cbn [bind].
    rewrite L2. rewrite Eel. cbn [bind]. rewrite Eg. reflexivity. }
  apply orb_false_iff in Eg as [Eg1 Eg2].
  assert (Hnine : exists bad, (if n >? 1 then nine_identical input off else Ok false) = Ok bad).
  { destruct (Z.gtb_spec n 1); [|eauto]. apply nine_identical_ok; lia. }
  destruct Hnine as [bad Eb].
  assert (Eck : check_real_binary input = Ok (if bad then false else mantissa_nonzero (zdrop (n + off) input))).
  { unfold check_real_binary. replace (zlen input >? 3) with true by lia. cbn [negb]. rewrite E0. cbn [bind]. rewrite L2.
    rewrite Eel. cbn [bind]. rewrite Eg1, Eg2. cbn [orb]. rewrite Eb. cbn [bind].
    destruct bad; reflexivity. }
  destruct bad; [left; apply Hnone; exact Eck|].
  destruct (mantissa_nonzero (zdrop (n + off) input)) eqn:Em; [|left; apply Hnone; exact Eck].
  set (mant := zdrop (n + off) input) in *. assert (Hmb : bytes mant) by (apply bytes_zdrop; auto).
  rewrite mantissa_nonzero_spec in Em by auto. apply negb_true_iff, Z.eqb_neq in Em.
  destruct (zget_ok input off) as (e0 & Ee0 & Hw0); [lia|]. specialize (Hw0 Hb).
  assert (Hdrb := drb_unfold input c n off e0 Hb Eck E0 Hcw Hbb Eel ltac:(lia) Ee0 Hw0 ltac:(lia)).
  destruct (Z.gtb_spec n 4) as [Hn4|Hn4].
  { left. intros fuel. rewrite Hdrb. unfold drb_tail. replace (n >? 4) with true by lia. reflexivity. }
  right. assert (Hre : exists ex, read_exponent input off (Z.to_nat off) (if e0 <? 128 then 0 else -1) = Ok ex).
  { destruct Hel as [(-> & _)|(-> & _)].
    - change (Z.to_nat 1) with 1%nat. cbn [read_exponent]. rewrite Ee0. cbn [bind]. eauto.
    - change (Z.to_nat 2) with 2%nat. cbn [read_exponent]. rewrite Ee0. cbn [bind].
      destruct (zget_ok input (2 + 1)) as (b & Eb2 & _); [lia|]. rewrite Eb2. cbn [bind]. eauto. }
  destruct Hre as [ex Ere]. assert (Hmnil : mant <> []) by (intros E; rewrite E in Em; apply Em; reflexivity).
  set (expo := ztake n (zdrop off input)).
  assert (Hexpo : bytes expo) by (apply bytes_ztake, bytes_zdrop; auto).
  assert (Hexl : zlen expo = n) by (apply zlen_ztake; rewrite zlen_zdrop by lia; lia).
  assert (Hsplit : zdrop off input = expo ++ mant).
  { unfold expo, mant. rewrite <- (ztake_zdrop n (zdrop off input)) at 1. f_equal. rewrite zdrop_zdrop by lia. f_equal. lia. }
  assert (Hcc : c = ctrl ((c / 64) mod 2) ((c / 16) mod 4) ((c / 4) mod 4) (c mod 4)) by (apply ctrl_of; destruct Hcw; lia).
  eexists ((c / 64) mod 2), (be_value mant), ((c / 4) mod 4), _, (twos_value expo), _, mant.
  split; [|split; [exact Hmb|split; [reflexivity|split; [exact Em|]]]].
  2: { intros fuel. rewrite Hdrb. unfold drb_tail. replace (n >? 4) with false by lia. rewrite Ere. cbn [bind]. reflexivity. }
  destruct Hel as [(-> & -> & Hlt)|(-> & -> & Heq)].
  - assert (Ei : input = c :: expo ++ mant) by (rewrite <- Hsplit; reflexivity). rewrite Ei, Hcc at 1. unfold ctrl.
    replace (c mod 4) with (zlen expo - 1) at 1 by lia. apply x690_real_short; auto; lia.
  - assert (Ei : input = c :: r0 :: expo ++ mant) by (rewrite <- Hsplit; reflexivity). rewrite Ei, Hcc at 1. unfold ctrl. rewrite Heq.
    rewrite <- Hexl at 1. destruct Hr0. apply x690_real_long; auto; lia.
Qed.
