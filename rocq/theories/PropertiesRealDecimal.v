(** C133: decimal encodings of REAL. *)
From Coq Require Import List ZArith Bool Lia.
From Verif Require Import Base Ident View Prims RealModel RealDecimal Spec IdentProofs PrimProofs PropertiesReal PropertiesRealEq DecimalSpec RealDecimalProofs.
Import ListNotations.
Local Open Scope Z_scope.

Lemma decimal_octet b : 0 <= b < 64 -> Z.land b 0x80 = 0 /\ Z.land b 0xC0 = 0.
Proof.
  intros H. assert (A : forallb (fun k => (Z.land (Z.of_nat k) 0x80 =? 0) && (Z.land (Z.of_nat k) 0xC0 =? 0)) (seq 0 64) = true) by (vm_compute; reflexivity).
  rewrite forallb_forall in A. specialize (A (Z.to_nat b)). rewrite Z2Nat.id in A by lia. rewrite in_seq in A. specialize (A ltac:(lia)). lia.
Qed.
Lemma decimal_content fuel i data b t : 0 <= b < 64 -> small_content i data = Ok (b :: t) ->
  real_value decode_real_decimal fuel i data = Ok (match decode_real_decimal (b :: t) with Some d => d | None => plus_zero end).
Proof. intros Hb H. destruct (decimal_octet b Hb) as (A & B). unfold real_value. rewrite H. cbn [bind decode_real]. rewrite A, B. reflexivity. Qed.

(** An object whose contents are a decimal encoding (two leading zero bits, then a text) has as its value() the double nearest to the number that the text
    denotes, for every text that is a number by ISO 6093, of any length and with any exponent. *)
Theorem C133_value : forall fuel i data b t neg N E, small_content i data = Ok (b :: t) -> 0 <= b < 64 -> iso_6093 t neg N E ->
  exists d, real_value decode_real_decimal fuel i data = Ok d /\ nearest_double neg N E d.
Proof.
  intros fuel i data b t neg N E H Hb Hi. destruct (decimal_accepts b t neg N E Hi) as (d & Ed & Hd). exists d. split; [|exact Hd]. rewrite (decimal_content fuel i data b t Hb H), Ed. reflexivity.
Qed.
(** Every other text gives 0. *)
Theorem C133_other_texts : forall fuel i data b t, small_content i data = Ok (b :: t) -> 0 <= b < 64 -> (forall neg N E, ~ iso_6093 t neg N E) ->
  real_value decode_real_decimal fuel i data = Ok plus_zero.
Proof. intros fuel i data b t H Hb Hi. rewrite (decimal_content fuel i data b t Hb H), (decimal_rejects b t Hi). reflexivity. Qed.
(** The number is determined by the text (so that the first theorem says one thing). *)
Theorem C133_one_number : forall t neg N E neg' N' E', iso_6093 t neg N E -> iso_6093 t neg' N' E' -> neg = neg' /\ N = N' /\ E = E'.
Proof. intros t neg N E neg' N' E' H H'. apply read_iso in H. apply read_iso in H'. rewrite H in H'. injection H' as -> -> ->. auto. Qed.
(** *** There is one nearest double *)
(** The value of the pattern without its sign, and the next pattern. *)
Definition magnitude (p : Z) : Z := if p / 2^52 =? 0 then p mod 2^52 else (2^52 + p mod 2^52) * 2 ^ (p / 2^52 - 1).
Lemma magnitude_step p : 0 <= p -> magnitude p < magnitude (p + 1).
Proof.
  intros Hp. unfold magnitude. set (b := p / 2^52). set (r := p mod 2^52). assert (Hb : 0 <= b) by (apply Z.div_pos; lia). assert (Hr : 0 <= r < 2^52) by (apply Z.mod_pos_bound; lia).
  assert (Hd : p = 2^52 * b + r) by (apply Z.div_mod; lia). destruct (Z.eq_dec r (2^52 - 1)) as [E | E].
  - assert (E1 : (p + 1) / 2^52 = b + 1) by (symmetry; apply (Z.div_unique _ _ _ 0); lia). assert (E2 : (p + 1) mod 2^52 = 0) by (symmetry; apply (Z.mod_unique _ _ (b + 1)); lia). rewrite E1, E2, E.
    replace (b + 1 =? 0) with false by lia. replace (b + 1 - 1) with b by lia. destruct (b =? 0) eqn:Eb; [apply Z.eqb_eq in Eb; rewrite Eb; lia|apply Z.eqb_neq in Eb].
    replace (2 ^ b) with (2 * 2 ^ (b - 1)) by (rewrite <- Z.pow_succ_r by lia; f_equal; lia). assert (0 < 2 ^ (b - 1)) by (apply Z.pow_pos_nonneg; lia). nia.
  - assert (E1 : (p + 1) / 2^52 = b) by (symmetry; apply (Z.div_unique _ _ _ (r + 1)); lia). assert (E2 : (p + 1) mod 2^52 = r + 1) by (symmetry; apply (Z.mod_unique _ _ b); lia). rewrite E1, E2.
    destruct (b =? 0) eqn:Eb; [lia|]. apply Z.eqb_neq in Eb. assert (0 < 2 ^ (b - 1)) by (apply Z.pow_pos_nonneg; lia). nia.
Qed.
Lemma magnitude_mono p k : 0 <= p -> 0 <= k -> magnitude p + k <= magnitude (p + k).
Proof.
  intros Hp Hk. revert k Hk. apply (natlike_ind (fun k => magnitude p + k <= magnitude (p + k))).
  - rewrite !Z.add_0_r. lia.
  - intros k Hk IH. pose proof (magnitude_step (p + k) ltac:(lia)). replace (p + Z.succ k) with (p + k + 1) by lia. lia.
Qed.
Definition pattern_of (d : list Z) : Z := be_value d mod 2^63.
Lemma double_fields d : is_double d -> 0 <= be_value d < 2^64 /\ 0 <= pattern_of d < 2^63 /\ be_value d = dbl_sign d * 2^63 + pattern_of d /\ (dbl_sign d = 0 \/ dbl_sign d = 1) /\
  dbl_exp d = pattern_of d / 2^52 /\ dbl_frac d = pattern_of d mod 2^52.
Proof.
  intros [Hl Hd]. pose proof (be_value_bound d Hd) as Hv. rewrite Hl in Hv. change (256^8) with (2^64) in Hv. unfold pattern_of, dbl_sign, dbl_exp, dbl_frac. set (x := be_value d) in *. clearbody x.
  assert (A : x / 2^52 = (x mod 2^63) / 2^52 + (x / 2^63) * 2^11) by (Z.div_mod_to_equations; lia). assert (B : 0 <= (x mod 2^63) / 2^52 < 2^11) by (Z.div_mod_to_equations; lia).
  split; [lia|]. split; [apply Z.mod_pos_bound; lia|]. split; [rewrite (Z.div_mod x (2^63)) at 1 by lia; lia|]. split; [Z.div_mod_to_equations; lia|]. split.
  - rewrite A, Z.mod_add by lia. apply Z.mod_small. exact B.
  - clear A B. Z.div_mod_to_equations. lia.
Qed.
Lemma in_units_magnitude d : is_double d -> in_units d = (if dbl_sign d =? 1 then -1 else 1) * magnitude (pattern_of d).
Proof.
  intros Hd. destruct (double_fields d Hd) as (_ & _ & _ & _ & E & F). unfold in_units, dbl_mantissa, dbl_scale, magnitude. rewrite E, F. destruct (pattern_of d / 2^52 =? 0) eqn:E0.
  - replace (1 - 1075 + 1074) with 0 by lia. lia.
  - replace (pattern_of d / 2^52 - 1075 + 1074) with (pattern_of d / 2^52 - 1) by lia. reflexivity.
Qed.
Lemma same_pattern d d' : is_double d -> is_double d' -> dbl_sign d = dbl_sign d' -> pattern_of d = pattern_of d' -> d = d'.
Proof.
  intros Hd Hd' Hs Hp. destruct (double_fields d Hd) as (_ & _ & E & _). destruct (double_fields d' Hd') as (_ & _ & E' & _). destruct Hd as [L B], Hd' as [L' B']. apply be_value_inj; auto; congruence.
Qed.
(** The double behind [d], if a greater finite one exists. *)
Lemma next_double d p : is_double d -> pattern_of d < p -> p / 2^52 < 2047 -> exists x, is_double x /\ dbl_sign x = dbl_sign d /\ pattern_of x = pattern_of d + 1 /\ dbl_finite x.
Proof.
  intros Hd Hp Hf. destruct (double_fields d Hd) as (B & P & E & S & _). assert (Hlt : p < 2047 * 2^52) by (apply Z.div_lt_upper_bound in Hf || (Z.div_mod_to_equations; lia); lia).
  destruct (octets_value 8 (be_value d + 1)) as (V & L & Y); [change (256 ^ Z.of_nat 8) with (2^64); destruct S as [S | S]; rewrite S in E; lia|].
  set (x := octets_of 8 (be_value d + 1)) in *. assert (Dx : is_double x) by (split; [rewrite L; reflexivity|exact Y]). exists x. destruct (double_fields x Dx) as (Bx & Px & Ex & Sx & Fx & _). rewrite V in Ex, Bx.
  assert (Hs : dbl_sign x = dbl_sign d) by (destruct S as [S | S], Sx as [Sx | Sx]; rewrite S in *; rewrite Sx in *; lia). assert (Hpx : pattern_of x = pattern_of d + 1) by (rewrite Hs in Ex; lia).
  split; [exact Dx|]. split; [exact Hs|]. split; [exact Hpx|]. unfold dbl_finite. rewrite Fx, Hpx. apply Z.div_lt_upper_bound; lia.
Qed.
Lemma sides A B u u' : 0 < B -> u < u' -> Z.abs (A - u * B) = Z.abs (A - u' * B) -> 2 * A = (u + u') * B.
Proof. intros HB Hu H. assert (u * B < u' * B) by (apply Z.mul_lt_mono_pos_r; lia). lia. Qed.
(** The nearest double is determined by the number. *)
Theorem C133_one_double : forall neg N E d d', 0 <= N -> nearest_double neg N E d -> nearest_double neg N E d' -> d = d'.
Proof.
  intros neg N E d d' HN H H'. unfold nearest_double in *. set (num := N * 10 ^ Z.max E 0) in *. set (den := 10 ^ Z.max (- E) 0) in *. assert (Hden : 0 < den) by (apply Z.pow_pos_nonneg; lia).
  cbv zeta in H, H'. destruct H as (D & S & I & F), H' as (D' & S' & I' & F'). destruct (Z.le_gt_cases ((2^54 - 1) * 2^970 * den) num) as [G | G].
  - specialize (I G). specialize (I' G). destruct I as (I1 & I2), I' as (I1' & I2'). apply same_pattern; auto; [congruence|].
    destruct (double_fields d D) as (_ & _ & _ & _ & A1 & A2). destruct (double_fields d' D') as (_ & _ & _ & _ & B1 & B2).
    rewrite (Z.div_mod (pattern_of d) (2^52)), (Z.div_mod (pattern_of d') (2^52)) by lia. congruence.
  - assert (nG : ~ (2^54 - 1) * 2^970 * den <= num) by lia. specialize (F nG). specialize (F' nG). clear I I' G nG. destruct F as (Fin & F), F' as (Fin' & F').
    set (sg := if neg then -1 else 1) in *. assert (Sg : sg = 1 \/ sg = -1) by (unfold sg; destruct neg; auto).
    assert (Off : forall x, is_double x -> dbl_sign x = (if neg then 1 else 0) -> Z.abs (sg * num * 2^1074 - in_units x * den) = Z.abs (num * 2^1074 - magnitude (pattern_of x) * den)).
    { intros x Dx Sx. rewrite (in_units_magnitude x Dx), Sx. unfold sg. destruct neg; cbn [Z.eqb Pos.eqb]; lia. }
    assert (Main : forall d d', is_double d -> is_double d' -> dbl_sign d = (if neg then 1 else 0) -> dbl_sign d' = (if neg then 1 else 0) -> dbl_finite d -> dbl_finite d' ->
      (forall x, is_double x -> dbl_finite x -> Z.abs (sg * num * 2^1074 - in_units d * den) <= Z.abs (sg * num * 2^1074 - in_units x * den) /\
         (Z.abs (sg * num * 2^1074 - in_units d * den) = Z.abs (sg * num * 2^1074 - in_units x * den) -> in_units x <> in_units d -> Z.even (dbl_frac d) = true)) ->
      (forall x, is_double x -> dbl_finite x -> Z.abs (sg * num * 2^1074 - in_units d' * den) <= Z.abs (sg * num * 2^1074 - in_units x * den) /\
         (Z.abs (sg * num * 2^1074 - in_units d' * den) = Z.abs (sg * num * 2^1074 - in_units x * den) -> in_units x <> in_units d' -> Z.even (dbl_frac d') = true)) ->
      pattern_of d < pattern_of d' -> False).
    { clear d d' D S F Fin D' S' F' Fin'. intros d d' D D' S S' Fin Fin' F F' Hlt.
      destruct (double_fields d D) as (_ & P & _ & _ & _ & Fr). destruct (double_fields d' D') as (_ & P' & _ & _ & Ex' & Fr'). unfold dbl_finite in Fin'. rewrite Ex' in Fin'.
      destruct (next_double d (pattern_of d') D Hlt Fin') as (x & Dx & Sx & Px & Fx).
      pose proof (magnitude_step (pattern_of d) ltac:(lia)) as M1. rewrite <- Px in M1. pose proof (magnitude_mono (pattern_of x) (pattern_of d' - pattern_of x) ltac:(lia) ltac:(lia)) as M2. replace (pattern_of x + (pattern_of d' - pattern_of x)) with (pattern_of d') in M2 by lia.
      destruct (F d' D') as (A1 & A2); [unfold dbl_finite; rewrite Ex'; exact Fin'|]. destruct (F' d D Fin) as (B1 & B2). destruct (F x Dx Fx) as (C1 & _).
      assert (Eq : Z.abs (sg * num * 2^1074 - in_units d * den) = Z.abs (sg * num * 2^1074 - in_units d' * den)) by lia.
      assert (Ne : in_units d' <> in_units d) by (rewrite (in_units_magnitude d' D'), (in_units_magnitude d D), S, S'; destruct neg; cbn [Z.eqb Pos.eqb]; lia).
      specialize (A2 Eq Ne). specialize (B2 (eq_sym Eq) (fun h => Ne (eq_sym h))). rewrite Off in Eq, C1 by assumption. rewrite (Off d' D' S') in Eq. rewrite (Off x Dx ltac:(congruence)) in C1.
      assert (Huw : magnitude (pattern_of d) < magnitude (pattern_of d')) by lia. pose proof (sides (num * 2^1074) den _ _ Hden Huw Eq) as Mid. set (u := magnitude (pattern_of d)) in *. set (v := magnitude (pattern_of x)) in *. set (w := magnitude (pattern_of d')) in *.
      assert (Hvw : v = w).
      { destruct (Z.eq_dec v w) as [h | h]; [exact h|exfalso]. assert (u * den < v * den) by (apply Z.mul_lt_mono_pos_r; lia). assert (v * den < w * den) by (apply Z.mul_lt_mono_pos_r; lia). rewrite Z.mul_add_distr_r in Mid. lia. }
      assert (Hpp : pattern_of d' = pattern_of d + 1) by lia. rewrite Fr in A2. rewrite Fr' in B2.
      assert (Ev : forall p, Z.even (p mod 2^52) = Z.even p) by (intros p; rewrite (Z.div_mod p (2^52)) at 2 by lia; rewrite Z.even_add, Z.even_mul; reflexivity || (change (Z.even (2^52)) with true; cbn [orb]; destruct (Z.even (p mod 2^52)); reflexivity)).
      rewrite Ev in A2, B2. rewrite Hpp, Z.even_add, A2 in B2. discriminate. }
    apply same_pattern; auto; [congruence|]. destruct (Z.lt_trichotomy (pattern_of d) (pattern_of d')) as [h | [h | h]]; [exfalso; eapply (Main d d'); eauto|exact h|exfalso; eapply (Main d' d); eauto].
Qed.
(** Refuted: that the first octet tells the form (X.690 8.5.8: 01 for NR1, 02 for NR2, 03 for NR3, nothing else allowed).  It is not looked at: with
    every one of the 64 the value is the same. *)
Theorem C133_form_refuted : forall fuel i data data' b b' t, small_content i data = Ok (b :: t) -> small_content i data' = Ok (b' :: t) -> 0 <= b < 64 -> 0 <= b' < 64 ->
  real_value decode_real_decimal fuel i data = real_value decode_real_decimal fuel i data'.
Proof. intros fuel i data data' b b' t H H' Hb Hb'. rewrite (decimal_content fuel i data b t Hb H), (decimal_content fuel i data' b' t Hb' H'). reflexivity. Qed.
(** The same for packets: a REAL of at most 100 content octets, decoded into any object, whatever follows it. *)
Theorem C133_packet : forall fuel i e p b t extra rest neg N E, real_reachable i e -> id_packet i primitive p (b :: t) extra -> zlen (b :: t) <= 100 -> zlen (p ++ rest) < 2^63 ->
  0 <= b < 64 -> iso_6093 t neg N E ->
  exists view e' d, v_make (p ++ rest) = Ok view /\ real_decode i e view = Ok (true, e') /\ real_value decode_real_decimal fuel i e' = Ok d /\ nearest_double neg N E d.
Proof.
  intros fuel i e p b t extra rest neg N E Hr Hp Hl Hz Hb Hi. destruct (real_reachable_rep _ _ Hr) as (Hw & y & Hrep & _).
  destruct (small_decode_packet i real_max e y p (b :: t) extra rest (small_real_ok i Hw) Hrep Hp Hz Hl) as (v & e' & V & D & R).
  destruct (C133_value fuel i e' b t neg N E (small_content_rep _ _ _ _ (small_real_ok i Hw) R) Hb Hi) as (d & Ed & Hd). exists v, e', d. auto.
Qed.
Definition decoded_value (packet : list Z) : res (bool * list Z) :=
  let* view := v_make packet in
  let* (ok, data) := real_decode (Id universal 9) (real_init (Id universal 9)) view in
  let* d := real_value decode_real_decimal 100 (Id universal 9) data in Ok (ok, d).
(** Packets: "0.1", " -1,5E+2", "9E9" (no decimal mark, so no NR3), "1.E400", ".000E-9", "1 " (a blank behind it) and "+012". *)
Example C133_example :
  decoded_value [9; 4; 2; 48; 46; 49] = Ok (true, [0x3f; 0xb9; 0x99; 0x99; 0x99; 0x99; 0x99; 0x9a]) /\
  decoded_value [9; 9; 3; 32; 45; 49; 44; 53; 69; 43; 50] = Ok (true, [0xc0; 0x62; 0xc0; 0; 0; 0; 0; 0]) /\
  decoded_value [9; 4; 3; 57; 69; 57] = Ok (true, plus_zero) /\
  decoded_value [9; 7; 3; 49; 46; 69; 52; 48; 48] = Ok (true, plus_inf) /\
  decoded_value [9; 8; 3; 46; 48; 48; 48; 69; 45; 57] = Ok (true, plus_zero) /\
  decoded_value [9; 3; 1; 49; 32] = Ok (true, plus_zero) /\
  decoded_value [9; 5; 0x3f; 43; 48; 49; 50] = Ok (true, [0x40; 0x28; 0; 0; 0; 0; 0; 0]) /\
  iso_6093 [32; 45; 49; 44; 53; 69; 43; 50] true 15 1.
Proof.
  repeat (split; [vm_compute; reflexivity|]). apply (form_3 1 [45] true [49; 44; 53] 15 1 69 [43] false [50]); [constructor| |auto|constructor|repeat constructor; lia|discriminate].
  apply (is_marked [49] 44 [53]); [repeat constructor; lia|repeat constructor; lia|discriminate|auto].
Qed.
