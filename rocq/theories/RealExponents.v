(** Exponents of binary reals in several octets: which octets Real::decode takes for the exponent. *)
From Verif Require Import Base Ident Spec IdentProofs HeaderProofs View ViewProofs Prims PrimProofs IntProofs RealModel RealProofs.

Lemma be_snoc l b : be_value (l ++ [b]) = be_value l * 256 + b.
Proof. unfold be_value. rewrite fold_left_app. reflexivity. Qed.
Lemma twos_2 a b : wf_byte a -> wf_byte b -> twos_value [a; b] = 256 * twos_value [a] + b.
Proof. intros [? ?] [? ?]. rewrite twos_value_1 by (split; lia). unfold twos_value, be_value. cbn [fold_left]. change (256 ^ zlen [a; b]) with 65536. destruct (a <? 128); lia. Qed.
Lemma twos_more l b : l <> [] -> twos_value (l ++ [b]) = 256 * twos_value l + b.
Proof.
  intros H. destruct l as [|a l]; [contradiction|]. unfold twos_value. cbn [app]. change (a :: l ++ [b]) with ((a :: l) ++ [b]). rewrite be_snoc. 
  rewrite zlen_app. change (zlen [b]) with 1. pose proof (zlen_nonneg (a :: l)). rewrite Z.pow_add_r by lia. change (256 ^ 1) with 256. destruct (a <? 128); lia.
Qed.
Lemma two_octets (l : list Z) : 2 <= zlen l -> exists a b r, l = a :: b :: r.
Proof. destruct l as [|a [|b r]]; [cbn; lia|cbn; lia|eauto]. Qed.

(** an accepted binary encoding with a length octet for the exponent *)
Lemma drb_long s bb f expo mant : 0 <= s <= 1 -> 0 <= bb <= 2 -> 0 <= f <= 3 -> bytes expo -> 1 <= zlen expo <= 4 -> bytes mant ->
  be_value mant <> 0 -> nine_bits expo = false ->
  forall fuel, decode_real_binary fuel (ctrl s bb f 3 :: zlen expo :: expo ++ mant) =
    let* d := assemble fuel s (twos_value (ztake 2 (expo ++ mant)) * base_log (nth (Z.to_nat bb) [2; 8; 16] 0) + f) mant in Ok (Some d).
Proof.
  intros Hs Hbb Hf He Hl Hm Hn H9 fuel. destruct (ctrl_fields s bb f 3) as (C0 & C1 & C2 & C3 & C4 & C5); try lia.
  set (c := ctrl s bb f 3) in *. clearbody c.
  assert (Hmz : 1 <= zlen mant). { destruct mant; [exfalso; apply Hn; reflexivity|]. rewrite zlen_cons. pose proof (zlen_nonneg mant). lia. }
  set (n := zlen expo) in *.
  destruct (two_octets (expo ++ mant)) as (a & b & r & Er); [rewrite zlen_app; fold n; lia|].
  assert (Hem : bytes (expo ++ mant)) by (apply bytes_app; auto). 
  assert (Ha : wf_byte a) by (rewrite Er in Hem; apply bytes_cons in Hem; tauto).
  assert (Hb0 : wf_byte b) by (rewrite Er in Hem; apply bytes_cons in Hem as [_ Hem]; apply bytes_cons in Hem; tauto).
  set (input := c :: n :: expo ++ mant).
  assert (Hb : bytes input) by (unfold input; constructor; [exact C0|constructor; [split; lia|exact Hem]]).
  assert (Hzl : zlen input = 2 + n + zlen mant) by (unfold input; rewrite !zlen_cons, zlen_app; fold n; lia).
  assert (E0 : zget input 0 = Ok c) by apply zget_cons_0. assert (E1 : zget input 1 = Ok n) by apply zget_cons_1.
  assert (E2 : zget input 2 = Ok a) by (unfold input; rewrite Er; apply zget_cons_2). assert (E3 : zget input 3 = Ok b) by (unfold input; rewrite Er; apply zget_cons_3).
  destruct (ctrl_bits c C0) as (L1 & L2 & _).
  assert (Eel : exp_len_off input = Ok (n, 2)).
  { unfold exp_len_off. rewrite E0. cbn [bind]. rewrite L1, C1. change (3 + 1 =? 4) with true. cbv iota. rewrite E1. reflexivity. }
  assert (Hd : zdrop (n + 2) input = mant).
  { unfold input. change (c :: n :: expo ++ mant) with ((c :: n :: expo) ++ mant). apply zdrop_app_exact. rewrite !zlen_cons. fold n. lia. }
  assert (Hck : check_real_binary input = Ok true).
  { unfold check_real_binary. replace (zlen input >? 3) with true by lia. cbn [negb]. rewrite E0. cbn [bind]. rewrite L2, C3.
    replace (bb =? 3) with false by lia. rewrite Eel. cbn [bind]. replace (n =? 0) with false by lia.
    replace (n + 2 >=? zlen input) with false by lia. cbn [orb].
    rewrite Hd, mantissa_nonzero_spec by auto. replace (be_value mant =? 0) with false by (symmetry; apply Z.eqb_neq; auto). cbn [negb].
    destruct (Z.gtb_spec n 1) as [G|G]; [|reflexivity].
    destruct (two_octets expo) as (a' & b' & r' & Ee); [fold n; lia|]. rewrite Ee in Er. cbn [app] in Er. injection Er as -> -> _.
    unfold input. rewrite Ee. cbn [app]. rewrite (nine_identical_spec [c; n] a b (r' ++ mant) Hb0 : nine_identical (c :: n :: a :: b :: r' ++ mant) 2 = _).
    cbn [bind]. change (nine_bits (a :: b :: r' ++ mant)) with (nine_bits (a :: b :: r')). rewrite <- Ee, H9. reflexivity. }
  rewrite (drb_unfold input c n 2 a Hb Hck E0 C0 ltac:(lia) Eel ltac:(lia) E2 Ha ltac:(lia)).
  unfold drb_tail. replace (n >? 4) with false by lia. change (Z.to_nat 2) with 2%nat. cbn [read_exponent]. rewrite E2. cbn [bind]. change (2 + 1) with 3. rewrite E3.
  cbn [bind]. destruct Ha as [Ha1 Ha2], Hb0 as [Hb1 Hb2]. rewrite !lor_256 by lia. rewrite C2, C3, C4, Hd.
  rewrite Er. change (ztake 2 (a :: b :: r)) with [a; b]. rewrite twos_2, twos_value_1 by (split; lia).
  replace (((if a <? 128 then 0 else -1) * 256 + a) * 256 + b) with (256 * (if a <? 128 then a else a - 256) + b) by (destruct (a <? 128); lia). reflexivity.
Qed.

(** when the octets taken are those of the exponent, in value *)
Lemma nine_bits_far a b : wf_byte a -> wf_byte b -> nine_bits [a; b] = false -> twos_value [a; b] < -128 \/ 128 <= twos_value [a; b].
Proof.
  intros [? ?] [? ?] H9. rewrite twos_2, twos_value_1 by (split; lia). rename H9 into K. cbn [nine_bits] in K. apply orb_false_iff in K as [K1 K2]. apply andb_false_iff in K1, K2. destruct (Z.ltb_spec a 128); lia.
Qed.
Lemma nine_bits_2 a b r : nine_bits (a :: b :: r) = nine_bits [a; b]. Proof. reflexivity. Qed.
Lemma short_right expo : bytes expo -> 1 <= zlen expo <= 3 -> nine_bits expo = false -> twos_value (ztake 1 expo) = twos_value expo <-> zlen expo = 1.
Proof.
  intros He Hl H9. destruct expo as [|a [|b [|c [|d r]]]]; try (rewrite ?zlen_cons in Hl; pose proof (zlen_nonneg r); lia); [cbn in Hl; lia|split; reflexivity| |].
  all: apply bytes_cons in He as [Ha He]; apply bytes_cons in He as [Hb He]; rewrite ?nine_bits_2 in H9; pose proof (nine_bits_far a b Ha Hb H9) as F; pose proof (twos_2 a b Ha Hb) as T;
    assert (Ta : -128 <= twos_value [a] <= 127) by (rewrite twos_value_1 by exact Ha; destruct Ha; destruct (Z.ltb_spec a 128); lia).
  - change (ztake 1 [a; b]) with [a]. change (zlen [a; b]) with 2. destruct Hb. lia.
  - change (ztake 1 [a; b; c]) with [a]. change (zlen [a; b; c]) with 3. pose proof (twos_more [a; b] c ltac:(discriminate)) as M. cbn [app] in M. apply bytes_cons in He as [Hc _]. destruct Hc. lia.
Qed.
Lemma long_right expo mant : bytes expo -> 1 <= zlen expo <= 4 -> bytes mant -> mant <> [] -> nine_bits expo = false ->
  twos_value (ztake 2 (expo ++ mant)) = twos_value expo <-> zlen expo = 2 \/ exists r, (expo = [0] /\ mant = 0 :: r) \/ (expo = [255] /\ mant = 255 :: r).
Proof.
  intros He Hl Hm Hn H9. destruct expo as [|a [|b [|c [|d [|e r]]]]]; try (rewrite ?zlen_cons in Hl; pose proof (zlen_nonneg r); lia); [cbn in Hl; lia|..].
  - destruct mant as [|m r]; [contradiction|]. cbn [app]. change (ztake 2 (a :: m :: r)) with [a; m]. apply bytes_cons in He as [Ha _]. apply bytes_cons in Hm as [Hm _]. rewrite twos_2 by auto.
    rewrite twos_value_1 by auto. change (zlen [a]) with 1. destruct Ha, Hm. split.
    + intros Q. right. exists r. destruct (Z.ltb_spec a 128); [left|right]; split; f_equal; lia.
    + intros [Q|(r0 & [(Q1 & Q2)|(Q1 & Q2)])]; [lia| |]; injection Q1 as ->; injection Q2 as -> _; reflexivity.
  - change (ztake 2 ([a; b] ++ mant)) with [a; b]. change (zlen [a; b]) with 2. tauto.
  - change (ztake 2 ([a; b; c] ++ mant)) with [a; b]. change (zlen [a; b; c]) with 3. apply bytes_cons in He as [Ha He]; apply bytes_cons in He as [Hb He]. apply bytes_cons in He as [Hc _].
    pose proof (nine_bits_far a b Ha Hb H9) as F. pose proof (twos_more [a; b] c ltac:(discriminate)) as M. cbn [app] in M. destruct Hc. split; [lia|]. intros [Q1|(r0 & [(Q1 & _)|(Q1 & _)])]; [lia|discriminate|discriminate].
  - change (ztake 2 ([a; b; c; d] ++ mant)) with [a; b]. change (zlen [a; b; c; d]) with 4. apply bytes_cons in He as [Ha He]; apply bytes_cons in He as [Hb He]. apply bytes_cons in He as [Hc He]. apply bytes_cons in He as [Hd _].
    pose proof (nine_bits_far a b Ha Hb H9) as F. pose proof (twos_more [a; b] c ltac:(discriminate)) as M. pose proof (twos_more [a; b; c] d ltac:(discriminate)) as M2. cbn [app] in M, M2. destruct Hc, Hd. split; [lia|]. intros [Q1|(r0 & [(Q1 & _)|(Q1 & _)])]; [lia|discriminate|discriminate].
Qed.

(** ** Results outside the normal range *)
Lemma log2_parts b r : 0 < b < 256 -> bytes r -> Z.log2 (be_value (b :: r)) = 8 * zlen r + Z.log2 b /\ 0 <= Z.log2 b <= 7 /\
  Z.log2 (be_value (b :: r)) mod 8 = Z.log2 b /\ Z.log2 (be_value (b :: r)) / 8 = zlen r /\ (4 <= Z.log2 b <-> 16 <= b).
Proof.
  intros Hb Hr. assert (El := log2_be b r Hb Hr).
  assert (Hlb : 0 <= Z.log2 b <= 7).
  { split; [apply Z.log2_nonneg|]. destruct (Z.log2_spec b) as [L _]; [lia|]. destruct (Z.le_gt_cases (Z.log2 b) 7); [auto|].
    assert (2^8 <= 2 ^ Z.log2 b) by (apply Z.pow_le_mono_r; lia). lia. }
  split; [exact El|]. split; [exact Hlb|]. rewrite El. split; [lia|]. split; [lia|]. split; intros Q.
  - destruct (Z.log2_spec b) as [L _]; [lia|]. assert (2^4 <= 2 ^ Z.log2 b) by (apply Z.pow_le_mono_r; lia). lia.
  - apply (Z.log2_le_pow2 b 4); lia.
Qed.
(** too large: an infinity *)
Lemma assemble_overflow fuel s e mant N : bytes mant -> be_value mant = N -> N <> 0 -> zlen mant < 2^27 -> Z.abs e < 2^20 ->
  4 <= Z.log2 N mod 8 -> 2047 <= Z.log2 N + e + 1023 -> assemble fuel s e mant = Ok (if s =? 0 then plus_inf else minus_inf).
Proof.
  intros Hb EN Hn Hlen He Hlog Hrange. rewrite <- EN in *.
  destruct (skip_leading_spec mant Hb Hn) as (b & r & Esk & Hbr & Hr & Ev & Hl). rewrite <- Ev in *.
  destruct (log2_parts b r Hbr Hr) as (El & Hlb & E8 & Ed & E16). assert (Hb16 : 16 <= b < 256) by lia. destruct (over_spec b Hb16) as [Ho Hob]. pose proof (zlen_nonneg r) as Hz.
  unfold assemble. rewrite Esk. cbv zeta. rewrite zlen_cons in *. rewrite to_i32_small by lia.
  set (db := ztake 8 ((b :: r) ++ zrep 8 0)).
  assert (Hhd : hd 0 db = b) by (unfold db; cbn [app]; rewrite ztake_cons by lia; reflexivity). rewrite Hhd. clearbody db.
  rewrite land_E0, land_F0 by (split; lia). replace (b <? 16) with false by lia. cbn [andb].
  set (X := e + (1 + zlen r - 7) * 8 + 1075). assert (HX : X + over b = Z.log2 (be_value (b :: r)) + e + 1023) by (unfold X, over; lia).
  destruct (Z.ltb_spec b 32) as [Hc|Hc]; cbn [negb andb].
  - assert (Hov : over b = 0). { unfold over in *. assert (Z.log2 b < 5) by (apply Z.log2_lt_pow2; lia). lia. }
    cbn [bind]. replace (X >=? 2047) with true by lia. cbn [orb]. replace (X >=? 0) with true by lia. reflexivity.
  - destruct (Z.ltb_spec X 2047); cbn [bind].
    + rewrite right_shift_count_eq by auto. replace (X + Z.min (over b) (Z.max 0 (2047 - X))) with 2047 by lia. reflexivity.
    + replace (X >=? 2047) with true by lia. cbn [orb]. replace (X >=? 0) with true by lia. reflexivity.
Qed.
Lemma last_step s X l : s = 0 \/ s = 1 -> X <= 0 -> zlen l = 7 -> bytes l -> hd 0 l < 32 ->
  exists d, (if (X >=? 2047) || (X <=? -55) then Ok (if X >=? 0 then if s =? 0 then plus_inf else minus_inf else if s =? 0 then plus_zero else minus_zero)
    else let '(exponent, db0) := if X <=? 0 then (0, shift_right_bits 0 (ztake 7 (zrep (Z.shiftr (- (X - 1)) 3) 0 ++ l)) (Z.land (- (X - 1)) 7)) else (X, l) in
         Ok (u8 (Z.lor (s * 128) (Z.shiftr exponent 4)) :: u8 (Z.lor (exponent * 16) (Z.land (hd 0 db0) 15)) :: tl db0)) = Ok d /\
    is_double d /\ dbl_sign d = s /\ dbl_exp d = 0 /\ dbl_frac d = be_value l / 2 ^ (1 - X).
Proof.
  intros Hs HX Hl Hb Hh. pose proof (be_value_bound l Hb) as Hbd. rewrite Hl in Hbd.
  assert (H53 : be_value l < 2 ^ 53).
  { destruct l as [|b t]; [cbn in Hl; lia|]. rewrite be_value_cons in *. cbn [hd] in Hh. rewrite zlen_cons in Hl. assert (Hl6 : zlen t = 6) by lia. rewrite Hl6 in *. apply bytes_cons in Hb as [_ Hb]. pose proof (be_value_bound t Hb) as Hbt. rewrite Hl6 in Hbt.
    change (256 ^ 6) with (2^48) in *. change (2^53) with (32 * 2^48). nia. }
  replace (X >=? 2047) with false by lia. cbn [orb]. destruct (Z.leb_spec X (-55)) as [Q|Q].
  - replace (X >=? 0) with false by lia. assert (Z0 : be_value l / 2 ^ (1 - X) = 0).
    { apply Z.div_small. split; [lia|]. eapply Z.lt_le_trans; [exact H53|]. apply Z.pow_le_mono_r; lia. }
    rewrite Z0. eexists. split; [reflexivity|]. destruct Hs as [-> | ->]; (split; [split; [reflexivity|repeat constructor; discriminate]|]); repeat split.
  - replace (X <=? 0) with true by lia. set (sh := Z.shiftr (- (X - 1)) 3).
    assert (Esh : sh = (1 - X) / 8) by (unfold sh; rewrite Z.shiftr_div_pow2 by lia; change (2^3) with 8; f_equal; lia).
    assert (Ebits : Z.land (- (X - 1)) 7 = (1 - X) mod 8) by (change 7 with (Z.ones 3); rewrite Z.land_ones by lia; change (2^3) with 8; f_equal; lia).
    rewrite Ebits. assert (Hsh : 0 <= sh <= 6) by lia.
    assert (Eq : ztake 7 (zrep sh 0 ++ l) = zrep sh 0 ++ ztake (7 - sh) l) by (rewrite ztake_app_ge by (rewrite zlen_zrep; lia); rewrite zlen_zrep by lia; reflexivity).
    rewrite Eq. set (m := zrep sh 0 ++ ztake (7 - sh) l).
    assert (Hm : bytes m) by (apply bytes_app; split; [apply bytes_zrep|apply bytes_ztake; exact Hb]).
    assert (Hml : zlen m = 7) by (unfold m; rewrite zlen_app, zlen_zrep, zlen_ztake by lia; lia).
    assert (Hmv : be_value m = be_value l / 256 ^ sh).
    { unfold m. rewrite be_value_app. assert (Z0 : be_value (zrep sh 0) = 0).
      { unfold zrep. clear. induction (Z.to_nat sh) as [|k IH]; [reflexivity|]. cbn [repeat]. rewrite be_value_cons, IH. lia. }
      rewrite Z0, Z.mul_0_l, Z.add_0_l. rewrite <- (ztake_zdrop (7 - sh) l) at 2. rewrite be_value_app. pose proof (be_value_bound (zdrop (7 - sh) l) (bytes_zdrop _ _ Hb)) as Hd. rewrite zlen_zdrop in * by lia.
      replace (zlen l - (7 - sh)) with sh in * by lia. rewrite Z.div_add_l by lia. rewrite (Z.div_small _ (256 ^ sh)) by lia. lia. }
    destruct (shift_right_bits_spec ((1 - X) mod 8) ltac:(lia) m 0 ltac:(split; lia) Hm) as (S1 & S2 & S3).
    rewrite Hml in S1, S3. rewrite Z.mul_0_l, Z.add_0_l in S3.
    assert (Hv : be_value m / 2 ^ ((1 - X) mod 8) = be_value l / 2 ^ (1 - X)).
    { rewrite Hmv. rewrite Z.div_div by (try apply Z.pow_nonzero; try apply Z.pow_pos_nonneg; lia). f_equal. change 256 with (2^8). rewrite <- Z.pow_mul_r by lia. rewrite <- Z.pow_add_r by lia. f_equal. lia. }
    rewrite Hv in S3. assert (Hlt : 0 <= be_value l / 2 ^ (1 - X) < 2 ^ 52).
    { split; [apply Z.div_pos; [lia|apply Z.pow_pos_nonneg; lia]|]. apply Z.div_lt_upper_bound; [apply Z.pow_pos_nonneg; lia|]. assert (2 ^ 1 <= 2 ^ (1 - X)) by (apply Z.pow_le_mono_r; lia). change (2^53) with (2 * 2^52) in H53. change (2^1) with 2 in *. nia. }
    rewrite (Z.mod_small _ (256^7)) in S3 by (clear - Hlt; change (256^7) with 72057594037927936; change (2^52) with 4503599627370496 in Hlt; set (V := be_value l / _) in *; clearbody V; lia).
    destruct (shift_right_bits 0 m ((1 - X) mod 8)) as [|b t]; [cbn in S1; lia|]. rewrite zlen_cons in S1. cbn [hd tl].
    pose proof S2 as S2'. apply bytes_cons in S2 as [Hb0 Ht]. rewrite be_value_cons in S3. replace (zlen t) with 6 in S3 by lia. pose proof (be_value_bound t Ht) as Hbt. destruct Hb0 as [Hb0 Hb1].
    assert (Hb16 : b < 16) by (clear - S3 Hlt Hbt; change (256 ^ 6) with 281474976710656 in S3; change (2 ^ 52) with (16 * 281474976710656) in Hlt; set (V := be_value l / _) in *; clearbody V; lia).
    destruct (fields_build s 0 b t Hs ltac:(lia) ltac:(lia) ltac:(lia) Ht) as (F1 & F2 & F3 & F4). eexists. split; [reflexivity|]. split; [exact F1|]. split; [exact F2|]. split; [exact F3|].
    rewrite F4, be_value_cons. replace (zlen t) with 6 by lia. rewrite (Z.div_small b 16) by lia. lia.
Qed.
(** too small for a normal double: cut off at the least subnormal *)
Lemma assemble_underflow fuel s e mant N : s = 0 \/ s = 1 -> bytes mant -> be_value mant = N -> N <> 0 -> zlen mant < 2^27 -> Z.abs e < 2^20 ->
  Z.log2 N + e + 1023 <= 0 -> 4 <= Z.log2 N mod 8 \/ e + 8 * (Z.log2 N / 8) + 1027 <= 0 ->
  exists d, assemble fuel s e mant = Ok d /\ is_double d /\ dbl_sign d = s /\ dbl_exp d = 0 /\ dbl_frac d = Z.shiftl N (e + 1074).
Proof.
  intros Hs Hb EN Hn Hlen He Hrange Hlog. rewrite <- EN in *.
  destruct (skip_leading_spec mant Hb Hn) as (b & r & Esk & Hbr & Hr & Ev & Hl). rewrite <- Ev in *. clear EN N.
  destruct (log2_parts b r Hbr Hr) as (El & Hlb & E8 & Ed & E16). pose proof (zlen_nonneg r) as Hz.
  assert (Hbb : bytes (b :: r)) by (constructor; [split; lia|exact Hr]).
  destruct (first7 b r Hbb) as (t & Et & Htl & Htb & Hv).
  unfold assemble. rewrite Esk. cbv zeta. rewrite zlen_cons in *. rewrite to_i32_small by lia.
  set (db := ztake 8 ((b :: r) ++ zrep 8 0)) in *.
  assert (Hhd : hd 0 db = b) by (unfold db; cbn [app]; rewrite ztake_cons by lia; reflexivity). rewrite Hhd, Et.
  rewrite land_E0, land_F0 by (split; lia). set (N := be_value (b :: r)) in *.
  set (X := e + (1 + zlen r - 7) * 8 + 1075). assert (HX : X + over b = Z.log2 N + e + 1023) by (unfold X, over; lia).
  destruct (Z.ltb_spec b 32) as [Hc|Hc]; cbn [negb andb].
  - assert (Hov : over b <= 0). { unfold over in *. assert (Z.log2 b < 5) by (apply Z.log2_lt_pow2; lia). lia. }
    assert (X <= 0). { destruct Hlog as [Q|Q]; [|unfold X; lia]. assert (16 <= b) by lia. assert (0 <= over b) by (apply over_spec; lia). lia. }
    replace ((b <? 16) && (X >? 0)) with false by (replace (X >? 0) with false by lia; rewrite andb_false_r; reflexivity). cbn [bind].
    destruct (last_step s X (b :: t) Hs ltac:(lia) ltac:(rewrite zlen_cons; lia) Htb ltac:(cbn; lia)) as (d & D1 & D2 & D3 & D4 & D5).
    exists d. split; [exact D1|]. split; [exact D2|]. split; [exact D3|]. split; [exact D4|]. rewrite D5, Hv, <- Z.shiftr_div_pow2, shiftr_shiftl by lia. f_equal. unfold X. lia.
  - assert (Hb16 : 16 <= b < 256) by lia. destruct (over_spec b Hb16) as [Ho Hob]. replace (X <? 2047) with true by lia. cbn [bind]. rewrite right_shift_count_eq by auto.
    replace (Z.min (over b) (Z.max 0 (2047 - X))) with (over b) by lia.
    destruct (shift_right_bits_spec (over b) ltac:(lia) (b :: t) 0 ltac:(split; lia) Htb) as (S1 & S2 & S3).
    rewrite zlen_cons, Htl in S1, S3. change (1 + 6) with 7 in S1, S3. rewrite Z.mul_0_l, Z.add_0_l in S3.
    pose proof (be_value_bound _ Htb) as Hbd. rewrite zlen_cons, Htl in Hbd. change (1 + 6) with 7 in Hbd.
    assert (Hp : 0 < 2 ^ over b) by (apply Z.pow_pos_nonneg; lia).
    rewrite Z.mod_small in S3 by (split; [apply Z.div_pos; lia|apply Z.div_lt_upper_bound; nia]).
    assert (Hh : hd 0 (shift_right_bits 0 (b :: t) (over b)) < 32).
    { cbn [shift_right_bits hd]. rewrite ?Z.mul_0_l, ?Z.lor_0_l, shiftr_div, u8_mod by lia. rewrite Z.mod_small by (split; [apply Z.div_pos; lia|lia]). lia. }
    destruct (last_step s (X + over b) _ Hs ltac:(lia) S1 S2 Hh) as (d & D1 & D2 & D3 & D4 & D5).
    exists d. split; [exact D1|]. split; [exact D2|]. split; [exact D3|]. split; [exact D4|].
    rewrite D5, S3, Hv, <- !Z.shiftr_div_pow2, !shiftr_shiftl by lia. f_equal. unfold X. lia.
Qed.

(** ** Which binary encodings are accepted *)
Lemma check_exact (long : bool) s bb f expo mant :
  let x := ctrl s bb f (if long then 3 else zlen expo - 1) :: (if long then [zlen expo] else []) ++ expo ++ mant in
  0 <= s <= 1 -> 0 <= bb <= 2 -> 0 <= f <= 3 -> bytes expo -> 1 <= zlen expo <= (if long then 255 else 3) -> bytes mant -> mant <> [] -> 3 < zlen x ->
  check_real_binary x = Ok (negb (nine_bits expo) && negb (be_value mant =? 0)) /\ exp_len_off x = Ok (zlen expo, if long then 2 else 1).
Proof.
  intros x Hs Hbb Hf He Hl Hm Hmn Hx.
  destruct (ctrl_fields s bb f (if long then 3 else zlen expo - 1)) as (C0 & C1 & C2 & C3 & C4 & C5); try (destruct long; lia).
  set (n := zlen expo) in *. set (off := if long then 2 else 1).
  assert (Hmz : 1 <= zlen mant). { destruct mant; [contradiction|]. rewrite zlen_cons. pose proof (zlen_nonneg mant). lia. }
  set (c := ctrl s bb f (if long then 3 else n - 1)) in *. clearbody c.
  assert (Ex : exists pre, x = pre ++ expo ++ mant /\ zlen pre = off). { exists (c :: if long then [n] else []). unfold x, off. destruct long; split; reflexivity. }
  destruct Ex as (pre & Ex & Epre).
  assert (E0 : zget x 0 = Ok c) by apply zget_cons_0.
  destruct (ctrl_bits c C0) as (L1 & L2 & _).
  assert (Eel : exp_len_off x = Ok (n, off)).
  { unfold exp_len_off. rewrite E0. cbn [bind]. rewrite L1, C1. unfold off, x. destruct long.
    - change (3 + 1 =? 4) with true. cbv iota. cbn [app]. rewrite zget_cons_1. reflexivity.
    - replace (n - 1 + 1 =? 4) with false by lia. do 2 f_equal. lia. }
  split; [|exact Eel].
  assert (Hzl : zlen x = off + n + zlen mant) by (rewrite Ex, !zlen_app, Epre; fold n; lia).
  assert (Hd : zdrop (n + off) x = mant) by (rewrite Ex, app_assoc; apply zdrop_app_exact; rewrite zlen_app; fold n; lia).
  unfold check_real_binary. replace (zlen x >? 3) with true by lia. cbn [negb]. rewrite E0. cbn [bind]. rewrite L2, C3.
  replace (bb =? 3) with false by lia. rewrite Eel. cbn [bind]. replace (n =? 0) with false by lia.
  replace (n + off >=? zlen x) with false by lia. cbn [orb]. rewrite Hd, mantissa_nonzero_spec by auto.
  destruct (Z.gtb_spec n 1) as [G|G].
  - destruct (two_octets expo) as (a & b & r & Ee); [fold n; lia|]. assert (Hb : wf_byte b) by (rewrite Ee in He; apply bytes_cons in He as [_ He]; apply bytes_cons in He; tauto).
    rewrite Ex, Ee. cbn [app]. rewrite <- Epre, nine_identical_spec by exact Hb. cbn [bind]. change (nine_bits (a :: b :: r ++ mant)) with (nine_bits (a :: b :: r)). destruct (nine_bits (a :: b :: r)); reflexivity.
  - cbn [bind]. assert (H1 : nine_bits expo = false) by (destruct expo as [|a [|b r]]; try reflexivity; unfold n in G; rewrite !zlen_cons in G; pose proof (zlen_nonneg r); lia). rewrite H1. reflexivity.
Qed.
Lemma accepted_exact (long : bool) s bb f expo mant :
  let x := ctrl s bb f (if long then 3 else zlen expo - 1) :: (if long then [zlen expo] else []) ++ expo ++ mant in
  0 <= s <= 1 -> 0 <= bb <= 2 -> 0 <= f <= 3 -> bytes expo -> 1 <= zlen expo <= (if long then 255 else 3) -> bytes mant -> mant <> [] -> forall fuel,
  decode_real_binary fuel x = Ok None <-> zlen x <= 3 \/ nine_bits expo = true \/ be_value mant = 0 \/ 4 < zlen expo.
Proof.
  intros x Hs Hbb Hf He Hl Hm Hmn fuel.
  destruct (Z.le_gt_cases (zlen x) 3) as [H3|H3].
  { split; [auto|]. intros _. unfold decode_real_binary, check_real_binary. replace (zlen x >? 3) with false by lia. reflexivity. }
  destruct (check_exact long s bb f expo mant Hs Hbb Hf He Hl Hm Hmn H3) as [Eck Eel]. fold x in Eck, Eel.
  destruct (nine_bits expo) eqn:H9.
  { split; [auto|]. intros _. unfold decode_real_binary. rewrite Eck. reflexivity. }
  destruct (Z.eqb_spec (be_value mant) 0) as [H0|H0].
  { split; [auto|]. intros _. unfold decode_real_binary. rewrite Eck. reflexivity. }
  destruct (Z.gtb_spec (zlen expo) 4) as [H4|H4].
  { split; [auto|]. intros _. unfold decode_real_binary. rewrite Eck. cbn [bind negb andb]. rewrite Eel. cbn [bind]. replace (zlen expo >? 4) with true by lia. reflexivity. }
  split; [|intros [Q|[Q|[Q|Q]]]; [lia|discriminate|contradiction|lia]]. intros Q. exfalso.
  assert (K : exists e, decode_real_binary fuel x = let* d := assemble fuel s e mant in Ok (Some d)).
  { destruct long; eexists; unfold x; cbn [app].
    - apply drb_long; auto; lia.
    - apply drb_short; auto. unfold x in H3. cbn [app] in H3. rewrite zlen_cons, zlen_app in H3. lia. }
  destruct K as (e & K). rewrite K in Q. destruct (assemble fuel s e mant); discriminate.
Qed.
