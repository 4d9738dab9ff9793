(** Property theorems C36-C39 and C70: Real. *)
From Verif Require Import Base Ident Spec IdentProofs HeaderProofs View ViewProofs Prims PrimProofs IntProofs RealModel RealProofs RealExponents.

(** The Real objects a program can hold. *)
Inductive real_reachable : ident -> list Z -> Prop :=
| rr_default i : wf_ident i -> real_reachable i (real_init i)
| rr_assign i data d data' : real_reachable i data -> is_double d -> real_assign i data d = Ok data' -> real_reachable i data'
| rr_copy i data j e x data' : real_reachable i data -> real_reachable j e -> small_content j e = Ok x ->
    small_assign_content i data x = Ok data' -> real_reachable i data'
| rr_decode i data input view ok data' : real_reachable i data -> bytes input -> tame input -> v_make input = Ok view ->
    real_decode i data view = Ok (ok, data') -> real_reachable i data'.

Lemma small_real_ok i : wf_ident i -> small_ok i real_max.
Proof.
  intros Hi. split; [exact Hi|]. unfold real_max. split; [lia|]. destruct i as [c t|oc ot ic it]; cbn [small_fits wf_ident] in *; [lia|].
  rewrite ehl1_small by lia. pose proof (etl_range it ltac:(lia)). lia.
Qed.
Lemma encode_real_bytes d : is_double d -> bytes (encode_real d) /\ zlen (encode_real d) <= 10.
Proof.
  intros Hd. assert (Hs : 0 <= dbl_sign d <= 1).
  { destruct Hd as [Hl Hb]. pose proof (be_value_bound d Hb) as Hv. rewrite Hl in Hv. change (256^8) with (2^64) in Hv. unfold dbl_sign.
    change (2^64) with (2 * 2^63) in Hv. Z.div_mod_to_equations. lia. }
  assert (Hbin : forall e m, zlen m = 7 -> bytes m -> bytes (real_binary (dbl_sign d) e m) /\ zlen (real_binary (dbl_sign d) e m) <= 10).
  { intros e m Hl Hm. unfold real_binary. destruct (_ && _); cbn [app]; rewrite !zlen_cons, Hl; (split; [|lia]);
      repeat (constructor; [unfold wf_byte; Z.div_mod_to_equations; lia|]); exact Hm. }
  destruct (encode_real_spec d Hd) as [(_ & ->)|[(_ & ->)|[(_ & ->)|[(_ & _ & m & H1 & H2 & _ & _ & ->)|(_ & m & H1 & H2 & _ & _ & ->)]]]]; auto;
    try (destruct (dbl_sign d =? 0)); (split; [repeat constructor; unfold wf_byte; lia|vm_compute; discriminate]).
Qed.
Lemma real_assign_rep i data y d : wf_ident i -> small_rep i real_max data y -> is_double d ->
  exists data', real_assign i data d = Ok data' /\ small_rep i real_max data' (encode_real d).
Proof.
  intros Hi Hr Hd. destruct (encode_real_bytes d Hd) as [_ Hl].
  destruct (small_store i real_max data y (encode_real d) (small_real_ok i Hi) Hr) as (d1 & d2 & E1 & E2 & Hr2); [unfold real_max; lia|].
  exists d2. split; [|exact Hr2]. unfold real_assign, small_resize. rewrite E1. cbn [bind]. exact E2.
Qed.
Lemma real_reachable_rep i data : real_reachable i data -> wf_ident i /\ exists x, small_rep i real_max data x /\ bytes x.
Proof.
  induction 1 as [i Hi | i data d data' _ IH Hd E | i data j e x data' _ IH1 _ IH2 Ex E | i data input view ok data' _ IH Hb Ht Ev E].
  - split; [auto|]. exists []. split; [apply small_init_rep, small_real_ok; auto|constructor].
  - destruct IH as (Hi & y & Hr & Hy). split; [auto|]. destruct (real_assign_rep i data y d Hi Hr Hd) as (d2 & E2 & Hr2).
    assert (d2 = data') by congruence. subst. exists (encode_real d). split; [auto|apply encode_real_bytes; auto].
  - destruct IH1 as (Hi & y & Hr & Hy). destruct IH2 as (Hj & w & Hw & Hwb). split; [auto|].
    rewrite (small_content_rep _ _ _ _ (small_real_ok j Hj) Hw) in Ex. assert (w = x) by congruence. subst w.
    destruct (small_rep_len _ _ _ _ (small_real_ok j Hj) Hw) as [_ Hl].
    destruct (small_assign_rep i real_max data y x (small_real_ok i Hi) Hr Hl) as (d2 & E2 & Hr2).
    assert (d2 = data') by congruence. subst. exists x. auto.
  - destruct IH as (Hi & y & Hr & Hy). split; [auto|]. unfold real_decode in E.
    destruct (small_decode_spec i real_max data y input (small_real_ok i Hi) Hr Hb Ht) as (v2 & Ev2 & [H|[E2 _]]).
    + destruct H as (p & x & extra & rest & d2 & Ein & Hp & Hl & E2 & Hr2). assert (v2 = view) by congruence. subst v2.
      assert (d2 = data') by congruence. subst d2. exists x. split; [auto|].
      assert (Hpb : bytes p) by (rewrite Ein in Hb; apply bytes_app in Hb; tauto).
      clear - Hp Hpb. destruct i as [c t|oc ot ic it]; cbn [id_packet] in Hp.
      * destruct Hp as [Hp _]. eapply (bytes_content _ _ _ _ _ []); eauto. rewrite app_nil_r; auto.
      * destruct Hp as (q & Hp & Hq). eapply (bytes_content _ _ _ _ _ extra); eauto.
        eapply (bytes_content _ _ _ _ _ []); eauto. rewrite app_nil_r; auto.
    + assert (v2 = view) by congruence. subst v2. assert (data' = data) by congruence. subst. eauto.
Qed.

(** ** What value() reads back from the octets of a double *)
Lemma be_value_inj l m : bytes l -> bytes m -> zlen l = zlen m -> be_value l = be_value m -> l = m.
Proof.
  revert m. induction l as [|b l IH]; intros [|c m] Hl Hm Hz Hv; rewrite ?zlen_cons, ?zlen_nil in Hz;
    try (pose proof (zlen_nonneg l)); try (pose proof (zlen_nonneg m)); try reflexivity; try lia.
  apply bytes_cons in Hl as [[B1 B2] Hl]. apply bytes_cons in Hm as [[C1 C2] Hm]. rewrite !be_value_cons in Hv.
  assert (Hz' : zlen l = zlen m) by lia. rewrite Hz' in Hv.
  pose proof (be_value_bound l Hl) as H1. pose proof (be_value_bound m Hm) as H2. rewrite Hz' in H1.
  set (P := 256 ^ zlen m) in *. assert (b = c) by nia. subst c. f_equal. apply IH; auto. lia.
Qed.
Lemma dbl_split d : is_double d -> be_value d = dbl_sign d * 2^63 + dbl_exp d * 2^52 + dbl_frac d /\ 0 <= dbl_sign d <= 1.
Proof.
  intros [Hl Hb]. pose proof (be_value_bound d Hb) as Hv. rewrite Hl in Hv. unfold dbl_sign, dbl_exp, dbl_frac.
  change (256^8) with 18446744073709551616 in Hv. change (2^63) with 9223372036854775808. change (2^52) with 4503599627370496.
  change (2^11) with 2048. lia.
Qed.
Lemma double_ext d e : is_double d -> is_double e -> dbl_sign d = dbl_sign e -> dbl_exp d = dbl_exp e -> dbl_frac d = dbl_frac e -> d = e.
Proof.
  intros Hd He E1 E2 E3. destruct (dbl_split d Hd) as [V1 _]. destruct (dbl_split e He) as [V2 _]. destruct Hd, He.
  apply be_value_inj; auto; congruence.
Qed.
Ltac dbl_lit := split; [reflexivity|]; repeat (constructor; [unfold wf_byte; lia|]); constructor.

Lemma log2_hidden f : 0 <= f < 2^52 -> Z.log2 (2^52 + f) = 52.
Proof. intros H. apply Z.log2_unique; [lia|]. change (2^52) with 4503599627370496 in *. change (2 ^ Z.succ 52) with 9007199254740992. lia. Qed.
Lemma decode_real_bin decimal fuel c rest : 128 <= c < 256 -> decode_real decimal fuel (c :: rest) = decode_real_binary fuel (c :: rest).
Proof.
  intros Hc. unfold decode_real. destruct (ctrl_bits c ltac:(split; lia)) as (_ & _ & _ & _ & _ & ->).
  replace (128 <=? c) with true by lia. reflexivity.
Qed.
(** the binary form with base 2 and factor 0 *)
Lemma decode_real_binary_form decimal fuel s e m : 0 <= s <= 1 -> -1075 <= e <= 972 -> zlen m = 7 -> bytes m -> be_value m <> 0 ->
  decode_real decimal fuel (real_binary s e m) =
    let* d := assemble fuel s (if (-128 <=? e) && (e <=? 127) then e else e / 256) m in Ok (Some d).
Proof.
  intros Hs He Hl Hm Hn. unfold real_binary.
  destruct ((-128 <=? e) && (e <=? 127)) eqn:Er.
  - apply andb_true_iff in Er as [H1 H2]. rewrite decode_real_bin by lia.
    pose proof (drb_short s 0 0 [e mod 256] m Hs ltac:(lia) ltac:(lia)) as K. rewrite zlen_1 in K.
    unfold ctrl in K. replace (128 + 64 * s + 16 * 0 + 4 * 0 + (1 - 1)) with (128 + 64 * s) in K by lia. rewrite K; clear K; auto; try lia.
    + cbn [hd]. rewrite twos_value_1 by (unfold wf_byte; lia). change (base_log (nth (Z.to_nat 0) [2; 8; 16] 0)) with 1.
      replace ((if e mod 256 <? 128 then e mod 256 else e mod 256 - 256) * 1 + 0) with e; [reflexivity|]. destruct (Z.ltb_spec (e mod 256) 128); lia.
    + constructor; [unfold wf_byte; lia|constructor].
  - rewrite decode_real_bin by lia.
    pose proof (drb_short s 0 0 [(e / 256) mod 256; e mod 256] m Hs ltac:(lia) ltac:(lia)) as K.
    change (zlen [(e / 256) mod 256; e mod 256]) with 2 in K.
    unfold ctrl in K. replace (128 + 64 * s + 16 * 0 + 4 * 0 + (2 - 1)) with (129 + 64 * s) in K by lia. rewrite K; clear K; auto; try lia.
    + cbn [hd]. rewrite twos_value_1 by (unfold wf_byte; lia). change (base_log (nth (Z.to_nat 0) [2; 8; 16] 0)) with 1.
      replace ((if (e / 256) mod 256 <? 128 then (e / 256) mod 256 else (e / 256) mod 256 - 256) * 1 + 0) with (e / 256); [reflexivity|].
      destruct (Z.ltb_spec ((e / 256) mod 256) 128); lia.
    + constructor; [unfold wf_byte; lia|constructor; [unfold wf_byte; lia|constructor]].
    + cbn [nine_bits]. lia.
Qed.
(** the doubles read back unchanged *)
Definition real_exact (d : list Z) : Prop := dbl_zero d \/ dbl_inf d \/ dbl_nan d \/ 947 <= dbl_exp d <= 1202.
Definition same_double (d d' : list Z) : Prop := is_double d' /\ (dbl_nan d /\ dbl_nan d' \/ d' = d).

Lemma decode_encode_exact decimal fuel d : is_double d -> real_exact d ->
  exists d', decode_real decimal fuel (encode_real d) = Ok (Some d') /\ same_double d d'.
Proof.
  intros Hd Hex. destruct (dbl_split d Hd) as [_ Hs]. pose proof (dbl_frac_range d) as Hf.
  destruct (encode_real_spec d Hd) as [(H & ->)|[(H & ->)|[(H & ->)|[(H0 & H & m & H1 & H2 & H3 & H4 & ->)|(H & m & H1 & H2 & H3 & H4 & ->)]]]].
  - exists d. split; [|split; auto]. destruct H as [E1 E2]. destruct (Z.eqb_spec (dbl_sign d) 0).
    + cbn [decode_real]. do 2 f_equal. apply double_ext; auto; [dbl_lit|..]; rewrite ?e, ?E1, ?E2; reflexivity.
    + change (decode_real decimal fuel [67]) with (Ok (Some minus_zero)). do 2 f_equal.
      apply double_ext; auto; [dbl_lit|..]; rewrite ?E1, ?E2; try reflexivity. replace (dbl_sign d) with 1 by lia. reflexivity.
  - exists d. split; [|split; auto]. destruct H as [E1 E2]. destruct (Z.eqb_spec (dbl_sign d) 0).
    + change (decode_real decimal fuel [64]) with (Ok (Some plus_inf)). do 2 f_equal.
      apply double_ext; auto; [dbl_lit|..]; rewrite ?e, ?E1, ?E2; reflexivity.
    + change (decode_real decimal fuel [65]) with (Ok (Some minus_inf)). do 2 f_equal.
      apply double_ext; auto; [dbl_lit|..]; rewrite ?E1, ?E2; try reflexivity. replace (dbl_sign d) with 1 by lia. reflexivity.
  - exists quiet_nan. split; [reflexivity|]. split; [dbl_lit|]. left. split; [auto|]. vm_compute. split; [reflexivity|discriminate].
  - exfalso. unfold real_exact, dbl_zero, dbl_inf, dbl_nan in Hex. lia.
  - unfold real_exact, dbl_zero, dbl_inf, dbl_nan in Hex. assert (Hr : 947 <= dbl_exp d <= 1202) by lia.
    rewrite decode_real_binary_form by (auto; lia). replace ((-128 <=? dbl_exp d - 1075) && (dbl_exp d - 1075 <=? 127)) with true by lia.
    destruct (assemble_normal fuel (dbl_sign d) (dbl_exp d - 1075) m (2^52 + dbl_frac d)) as (d' & E & Hd' & E1 & E2 & E3);
      auto; try (rewrite ?log2_hidden by auto); try lia.
    rewrite log2_hidden in * by auto. rewrite E. exists d'. split; [reflexivity|]. split; [exact Hd'|]. right.
    change (52 - 52) with 0 in E3. rewrite Z.shiftl_0_r in E3. apply double_ext; auto; lia.
Qed.
(** every other double is read back as another number, or reading does not end *)
Lemma decode_encode_inexact decimal fuel d : is_double d -> ~ real_exact d ->
  decode_real decimal fuel (encode_real d) = NoFuel \/
  exists d', decode_real decimal fuel (encode_real d) = Ok (Some d') /\ is_double d' /\ 1018 <= dbl_exp d' <= 1078 /\ dbl_exp d' <> dbl_exp d.
Proof.
  intros Hd Hex. destruct (dbl_split d Hd) as [_ Hs]. pose proof (dbl_frac_range d) as Hf. unfold real_exact in Hex.
  destruct (encode_real_spec d Hd) as [(H & ->)|[(H & ->)|[(H & ->)|[(H0 & H & m & H1 & H2 & H3 & H4 & ->)|(H & m & H1 & H2 & H3 & H4 & ->)]]]];
    try (exfalso; tauto).
  - rewrite decode_real_binary_form by (auto; lia). change ((-128 <=? -1075) && (-1075 <=? 127)) with false. cbv iota.
    change (-1075 / 256) with (-5). assert (HN : be_value m <> 0) by lia.
    assert (Hlog : 0 <= Z.log2 (be_value m) <= 52).
    { split; [apply Z.log2_nonneg|]. apply Z.lt_succ_r. apply Z.log2_lt_pow2; [lia|].
      change (2^52) with 4503599627370496 in *. change (2 ^ Z.succ 52) with 9007199254740992. lia. }
    destruct (Z.lt_ge_cases (Z.log2 (be_value m) mod 8) 4) as [Hm|Hm].
    + left. rewrite (assemble_hangs (dbl_sign d) (-5) m (be_value m)); auto; try lia.
    + right. destruct (assemble_normal fuel (dbl_sign d) (-5) m (be_value m)) as (d' & E & Hd' & E1 & E2 & E3); auto; try lia.
      rewrite E. exists d'. split; [reflexivity|]. split; [exact Hd'|]. lia.
  - right. rewrite decode_real_binary_form by (auto; lia). replace ((-128 <=? dbl_exp d - 1075) && (dbl_exp d - 1075 <=? 127)) with false by lia.
    destruct (assemble_normal fuel (dbl_sign d) ((dbl_exp d - 1075) / 256) m (2^52 + dbl_frac d)) as (d' & E & Hd' & E1 & E2 & E3);
      auto; try (rewrite ?log2_hidden by auto); try lia.
    rewrite log2_hidden in * by auto. rewrite E. exists d'. split; [reflexivity|]. split; [exact Hd'|]. lia.
Qed.
Lemma real_value_rep decimal fuel i data x : wf_ident i -> small_rep i real_max data x ->
  real_value decimal fuel i data = let* o := decode_real decimal fuel x in Ok (match o with Some d => d | None => plus_zero end).
Proof. intros Hi Hr. unfold real_value. rewrite (small_content_rep _ _ _ _ (small_real_ok i Hi) Hr). reflexivity. Qed.

(** C36.  The statement wanted is this one with no condition [real_exact d]; the next theorem shows that it fails for
    every double left out here.  Zeros, infinities, NaN and the numbers with magnitude from 2^-76 below 2^180 are read
    back, also after a transfer into any other Real with the same identifier, whatever follows in the buffer. *)
Theorem C36_real_round_trip_partial : forall i data d decimal fuel, real_reachable i data -> is_double d -> real_exact d ->
  exists data' d' p, real_assign i data d = Ok data' /\ real_value decimal fuel i data' = Ok d' /\ same_double d d' /\
    writes (real_encode i data') p /\ real_encoded_length i data' = Ok (zlen p) /\
    forall e rest, real_reachable i e -> zlen (p ++ rest) < 2^63 ->
      exists view e' d2, v_make (p ++ rest) = Ok view /\ real_decode i e view = Ok (true, e') /\
        real_value decimal fuel i e' = Ok d2 /\ same_double d d2.
Proof.
  intros i data d decimal fuel Hr Hd Hex. destruct (real_reachable_rep _ _ Hr) as (Hi & y & Hrep & _).
  destruct (real_assign_rep i data y d Hi Hrep Hd) as (data' & E & Hrep'). destruct (encode_real_bytes d Hd) as [Hxb Hxl].
  destruct (decode_encode_exact decimal fuel d Hd Hex) as (d' & Ed & Hsame).
  assert (Hval : forall e, small_rep i real_max e (encode_real d) -> real_value decimal fuel i e = Ok d').
  { intros e He. rewrite (real_value_rep _ _ _ _ _ Hi He), Ed. reflexivity. }
  exists data', d', (hdr_of i (zlen (encode_real d)) primitive ++ encode_real d).
  split; [exact E|]. split; [auto|]. split; [exact Hsame|].
  split; [eapply small_encode_writes; eauto using small_real_ok|]. split; [eapply small_ber_length_rep; eauto using small_real_ok|].
  intros e rest He Hz. destruct (real_reachable_rep _ _ He) as (_ & w & Hw & _).
  destruct (small_decode_packet i real_max e w _ (encode_real d) [] rest (small_real_ok i Hi) Hw
              (hdr_of_packet i primitive (encode_real d) Hi ltac:(lia)) Hz ltac:(unfold real_max; lia)) as (v & e' & E1 & E2 & Hr').
  exists v, e', d'. repeat split; auto; apply Hsame.
Qed.
(** Every other double: value() never returns it, however long one waits. *)
Theorem C36_real_round_trip_refuted : forall i data d decimal fuel, real_reachable i data -> is_double d -> ~ real_exact d ->
  exists data', real_assign i data d = Ok data' /\ forall d', same_double d d' -> real_value decimal fuel i data' <> Ok d'.
Proof.
  intros i data d decimal fuel Hr Hd Hex. destruct (real_reachable_rep _ _ Hr) as (Hi & y & Hrep & _).
  destruct (real_assign_rep i data y d Hi Hrep Hd) as (data' & E & Hrep'). exists data'. split; [exact E|].
  intros d' [_ Hs] Hv. rewrite (real_value_rep _ _ _ _ _ Hi Hrep') in Hv.
  destruct Hs as [[Hn _]| ->]; [apply Hex; unfold real_exact; auto|].
  destruct (decode_encode_inexact decimal fuel d Hd Hex) as [En|(d2 & Ed & _ & _ & Hne)].
  - rewrite En in Hv. discriminate.
  - rewrite Ed in Hv. cbn [bind] in Hv. congruence.
Qed.
Definition dbl_1_5 := [0x3F; 0xF8; 0; 0; 0; 0; 0; 0].
Definition dbl_1e100 := [0x54; 0xB2; 0x49; 0xAD; 0x25; 0x94; 0xC3; 0x7D].
Example C36_examples : real_reachable (Id universal 9) (real_init (Id universal 9)) /\ is_double dbl_1_5 /\ real_exact dbl_1_5 /\
  is_double dbl_1e100 /\ ~ real_exact dbl_1e100.
Proof.
  split; [constructor; cbn; lia|]. split; [dbl_lit|]. split; [right; right; right; vm_compute; split; discriminate|].
  split; [dbl_lit|]. unfold real_exact, dbl_zero, dbl_inf, dbl_nan.
  change (dbl_exp dbl_1e100) with 1355. lia.
Qed.

(** C37.  The contents of a Real that was assigned a double. *)
Theorem C37_real_contents : forall i data d, real_reachable i data -> is_double d ->
  exists data' x, real_assign i data d = Ok data' /\ small_content i data' = Ok x /\
    (dbl_zero d -> x = if dbl_sign d =? 0 then [] else [0x43]) /\
    (dbl_inf d -> x = if dbl_sign d =? 0 then [0x40] else [0x41]) /\
    (dbl_nan d -> x = [0x42]) /\
    (dbl_finite d -> ~ dbl_zero d -> exists N E, x690_real_binary x (dbl_sign d) N 0 2 E /\ N <> 0 /\
       same_scaled N E (dbl_mantissa d) (dbl_scale d)).
Proof.
  intros i data d Hr Hd. destruct (real_reachable_rep _ _ Hr) as (Hi & y & Hrep & _).
  destruct (real_assign_rep i data y d Hi Hrep Hd) as (data' & E & Hrep'). exists data', (encode_real d). split; [exact E|].
  split; [apply (small_content_rep _ _ _ _ (small_real_ok i Hi) Hrep')|].
  destruct (dbl_split d Hd) as [_ Hs].
  assert (Hx : forall e m, -1075 <= e <= 972 -> zlen m = 7 -> bytes m -> x690_real_binary (real_binary (dbl_sign d) e m) (dbl_sign d) (be_value m) 0 2 e).
  { intros e m He Hl Hm. assert (Hne : m <> []) by (intros ->; discriminate Hl). unfold real_binary.
    destruct ((-128 <=? e) && (e <=? 127)) eqn:Er.
    - assert (B : wf_byte (e mod 256)) by (unfold wf_byte; lia).
      pose proof (x690_real_short (dbl_sign d) 0 0 [e mod 256] m Hs ltac:(lia) ltac:(lia) ltac:(repeat constructor; apply B) ltac:(rewrite zlen_1; lia) Hm Hne) as K.
      rewrite zlen_1, twos_value_1 in K by exact B.
      replace (128 + 64 * dbl_sign d + 16 * 0 + 4 * 0 + (1 - 1)) with (128 + 64 * dbl_sign d) in K by lia.
      replace (if e mod 256 <? 128 then e mod 256 else e mod 256 - 256) with e in K; [exact K|]. destruct (Z.ltb_spec (e mod 256) 128); lia.
    - pose proof (x690_real_short (dbl_sign d) 0 0 [(e / 256) mod 256; e mod 256] m Hs ltac:(lia) ltac:(lia)
        ltac:(constructor; [unfold wf_byte; lia|constructor; [unfold wf_byte; lia|constructor]]) ltac:(vm_compute; split; discriminate) Hm Hne) as K.
      change (zlen [(e / 256) mod 256; e mod 256]) with 2 in K.
      replace (128 + 64 * dbl_sign d + 16 * 0 + 4 * 0 + (2 - 1)) with (129 + 64 * dbl_sign d) in K by lia.
      replace (twos_value [(e / 256) mod 256; e mod 256]) with e in K; [exact K|].
      unfold twos_value, be_value. cbn [fold_left]. change (256 ^ zlen [(e / 256) mod 256; e mod 256]) with 65536.
      destruct (Z.ltb_spec ((e / 256) mod 256) 128); lia. }
  pose proof (dbl_exp_range d) as Hre. pose proof (dbl_frac_range d) as Hf.
  unfold dbl_finite, dbl_zero, dbl_inf, dbl_nan.
  destruct (encode_real_spec d Hd) as [((K1 & K2) & ->)|[((K1 & K2) & ->)|[((K1 & K2) & ->)|[(K1 & K2 & m & H1 & H2 & H3 & H4 & ->)|(K1 & m & H1 & H2 & H3 & H4 & ->)]]]].
  - split; [auto|]. split; [intros; lia|]. split; [intros; lia|]. intros; lia.
  - split; [intros; lia|]. split; [auto|]. split; [intros; lia|]. intros; lia.
  - split; [intros; lia|]. split; [intros; lia|]. split; [auto|]. intros; lia.
  - split; [intros; lia|]. split; [intros; lia|]. split; [intros; lia|]. intros _ _.
    exists (be_value m), (-1075). split; [apply Hx; auto; lia|]. split; [lia|].
    unfold same_scaled, dbl_mantissa, dbl_scale. rewrite K1. cbn [Z.eqb]. rewrite H3. change (2 ^ (1 - 1075 - Z.min (-1075) (1 - 1075))) with 2.
    change (2 ^ (-1075 - Z.min (-1075) (1 - 1075))) with 1. lia.
  - split; [intros; lia|]. split; [intros; lia|]. split; [intros; lia|]. intros _ _.
    exists (be_value m), (dbl_exp d - 1075). split; [apply Hx; auto; lia|]. split; [lia|].
    unfold same_scaled, dbl_mantissa, dbl_scale. replace (dbl_exp d =? 0) with false by lia. rewrite H3. reflexivity.
Qed.
Example C37_example : exists data', real_assign (Id universal 9) (real_init (Id universal 9)) dbl_1_5 = Ok data' /\
  small_content (Id universal 9) data' = Ok [0x80; 0xCC; 0x18; 0; 0; 0; 0; 0; 0].
Proof. eexists. split; [vm_compute; reflexivity|]. vm_compute. reflexivity. Qed.

(** C38.  Real::decode accepts the contents 80 00 00 01, and value() then never returns: for no amount of steps is
    there a result. *)
Definition real_loop_packet := [9; 4; 0x80; 0; 0; 1].
Theorem C38_real_value_terminates_refuted : exists view data, v_make real_loop_packet = Ok view /\
  real_decode (Id universal 9) (real_init (Id universal 9)) view = Ok (true, data) /\
  forall decimal fuel, real_value decimal fuel (Id universal 9) data = NoFuel.
Proof.
  eexists. eexists. split; [vm_compute; reflexivity|]. split; [vm_compute; reflexivity|].
  intros decimal fuel. set (data := [9; 4; 128; 0; 0; 1] ++ zrep 96 0).
  match goal with |- real_value _ _ _ ?D = _ => change D with data end.
  unfold real_value. change (small_content (Id universal 9) data) with (Ok [128; 0; 0; 1]). cbn [bind].
  rewrite decode_real_bin by lia.
  rewrite (drb_short 0 0 0 [0] [0; 1] ltac:(lia) ltac:(lia) ltac:(lia)); try (vm_compute; split; discriminate); try (vm_compute; discriminate).
  2: bytes_lit. 2: bytes_lit.
  change (twos_value [hd 0 [0]] * base_log (nth (Z.to_nat 0) [2; 8; 16] 0) + 0) with 0.
  rewrite (assemble_hangs 0 0 [0; 1] 1); try reflexivity; try lia; try bytes_lit; try (vm_compute; reflexivity).
Qed.
(** It never returns for a denormal that was assigned either: the least positive double. *)
Theorem C38_assigned_denormal_terminates_refuted : forall decimal fuel, exists data,
  real_assign (Id universal 9) (real_init (Id universal 9)) [0; 0; 0; 0; 0; 0; 0; 1] = Ok data /\
  real_value decimal fuel (Id universal 9) data = NoFuel.
Proof.
  intros decimal fuel. eexists. split; [vm_compute; reflexivity|].
  match goal with |- real_value _ _ _ ?D = _ => set (data := D) end.
  unfold real_value. change (small_content (Id universal 9) data) with (Ok (real_binary 0 (-1075) [0; 0; 0; 0; 0; 0; 2])). cbn [bind].
  rewrite decode_real_binary_form; try lia; try reflexivity; [|bytes_lit|vm_compute; discriminate].
  change (if (-128 <=? -1075) && (-1075 <=? 127) then -1075 else -1075 / 256) with (-5).
  rewrite (assemble_hangs 0 (-5) [0; 0; 0; 0; 0; 0; 2] 2); try reflexivity; try lia; try bytes_lit; try (vm_compute; reflexivity).
Qed.
(** Missing from C38: only the contents named in the second alternative loop; on every other Real, value() returns and
    its result does not depend on the fuel.  No content makes it read outside the object. *)
Theorem C38_real_value_terminates_partial : forall i data decimal, real_reachable i data ->
  (exists d, forall fuel, real_value decimal fuel i data = Ok d) \/
  (exists x s N f base E, small_content i data = Ok x /\ x690_real_binary x s N f base E /\ N <> 0 /\ Z.log2 N mod 8 < 4 /\
     forall fuel, real_value decimal fuel i data = NoFuel).
Proof.
  intros i data decimal Hr. destruct (real_reachable_rep _ _ Hr) as (Hi & x & Hrep & Hb).
  assert (Hv : forall fuel, real_value decimal fuel i data = let* o := decode_real decimal fuel x in Ok (match o with Some d => d | None => plus_zero end))
    by (intros; apply real_value_rep; auto).
  destruct x as [|c rest].
  - left. exists plus_zero. intros fuel. rewrite Hv. reflexivity.
  - assert (Hcw : wf_byte c) by (apply bytes_cons in Hb; tauto). destruct Hcw as [Hc1 Hc2].
    destruct (Z.lt_ge_cases c 128) as [Hc|Hc].
    + left. unfold decode_real in Hv. destruct (ctrl_bits c ltac:(split; lia)) as (_ & _ & _ & _ & _ & Ec). rewrite Ec in Hv.
      replace (128 <=? c) with false in Hv by lia. cbv iota in Hv.
      destruct (Z.shiftr (Z.land c 192) 6 =? 0); [cbn [bind] in Hv; eauto|].
      destruct (Z.shiftr (Z.land c 192) 6 =? 1); cbn [bind] in Hv; eauto.
    + destruct (drb_inv c rest Hb Hc) as [Hn|(s & N & f & base & E & e & mant & Hx & Hm & HN & Hn & Hdec)].
      * left. exists plus_zero. intros fuel. rewrite Hv, decode_real_bin, Hn by lia. reflexivity.
      * destruct (assemble_terminates s e mant N Hm HN Hn) as [(d & Hd)|[Hlog Hloop]].
        -- left. exists d. intros fuel. rewrite Hv, decode_real_bin, Hdec, Hd by lia. reflexivity.
        -- right. exists (c :: rest), s, N, f, base, E. split; [apply (small_content_rep _ _ _ _ (small_real_ok i Hi) Hrep)|].
           split; [exact Hx|]. split; [exact Hn|]. split; [exact Hlog|].
           intros fuel. rewrite Hv, decode_real_bin, Hdec, Hloop by lia. reflexivity.
Qed.
Example C38_example : exists data, real_assign (Id universal 9) (real_init (Id universal 9)) dbl_1_5 = Ok data /\
  real_value (fun _ => None) 0 (Id universal 9) data = Ok dbl_1_5.
Proof. eexists. split; [vm_compute; reflexivity|]. vm_compute. reflexivity. Qed.

(** C39.  Every three-octet binary encoding is rejected, among them 80 00 01 (the value 1) and 80 FF 03 (1.5). *)
Theorem C39_real_short_accepted_refuted :
  x690_real_binary [0x80; 0; 1] 0 1 0 2 0 /\
  forall c e m fuel, 128 <= c < 256 -> decode_real_binary fuel [c; e; m] = Ok None.
Proof.
  split; [|intros; reflexivity].
  apply (x690_real_short 0 0 0 [0] [1]); try lia; try bytes_lit; try discriminate. vm_compute. split; discriminate.
Qed.
(** Missing: encodings of three octets; the form with a length octet for the exponent; exponents of two or three octets
    that start with nine identical bits (rejected; X.690 8.5.7.4 forbids them only in the form with a length octet). *)
Theorem C39_real_short_accepted_partial : forall s bb f expo mant fuel,
  0 <= s <= 1 -> 0 <= bb <= 2 -> 0 <= f <= 3 -> bytes expo -> 1 <= zlen expo <= 3 -> bytes mant -> be_value mant <> 0 ->
  4 <= 1 + zlen expo + zlen mant ->
  (forall a b r, expo = a :: b :: r -> ~ (a = 0 /\ b < 128) /\ ~ (a = 255 /\ 128 <= b)) ->
  decode_real_binary fuel ((128 + 64 * s + 16 * bb + 4 * f + (zlen expo - 1)) :: expo ++ mant) <> Ok None.
Proof.
  intros s bb f expo mant fuel Hs Hbb Hf He Hl Hm Hn Hz H9 Hbad.
  pose proof (drb_short s bb f expo mant Hs Hbb Hf He Hl Hm Hn ltac:(lia)) as K. unfold ctrl in K. rewrite K in Hbad.
  - destruct (assemble _ _ _ _); discriminate.
  - destruct expo as [|a [|b r]]; try reflexivity. cbn [nine_bits]. destruct (H9 a b r eq_refl). lia.
Qed.
(** Exactly which encodings of X.690 8.5.7, in both forms, are rejected: those of three octets; those with an exponent that starts with nine identical bits or
    has more than four octets; and those of the number 0 (X.690 8.5.2: 0 has no octets). *)
Theorem C39_accepted_exactly_partial : forall (long : bool) s bb f expo mant fuel,
  let x := (128 + 64 * s + 16 * bb + 4 * f + (if long then 3 else zlen expo - 1)) :: (if long then [zlen expo] else []) ++ expo ++ mant in
  0 <= s <= 1 -> 0 <= bb <= 2 -> 0 <= f <= 3 -> bytes expo -> 1 <= zlen expo <= (if long then 255 else 3) -> bytes mant -> mant <> [] ->
  decode_real_binary fuel x = Ok None <->
    zlen x <= 3 \/ (exists a b r, expo = a :: b :: r /\ (a = 0 /\ b < 128 \/ a = 255 /\ 128 <= b)) \/ be_value mant = 0 \/ 4 < zlen expo.
Proof.
  intros long s bb f expo mant fuel x Hs Hbb Hf He Hl Hm Hmn. rewrite (accepted_exact long s bb f expo mant Hs Hbb Hf He Hl Hm Hmn fuel : decode_real_binary fuel x = Ok None <-> _).
  assert (G : nine_bits expo = true <-> exists a b r, expo = a :: b :: r /\ (a = 0 /\ b < 128 \/ a = 255 /\ 128 <= b)).
  { split.
    - intros Q. destruct expo as [|a [|b r]]; try discriminate. cbn [nine_bits] in Q. exists a, b, r. split; [reflexivity|]. lia.
    - intros (a & b & r & -> & Q). cbn [nine_bits]. lia. }
  rewrite G. reflexivity.
Qed.
Example C39_example : decode_real_binary 1 [0x80; 0xFF; 0; 0x18] = Ok (Some [0x40; 0x28; 0; 0; 0; 0; 0; 0]).
Proof. vm_compute. reflexivity. Qed.
(** An exponent with a length octet; with nine identical bits in front. *)
Example C39_accepted_example : decode_real_binary 1 [0x83; 2; 0; 0x80; 0x12; 0x34] <> Ok None /\ decode_real_binary 1 [0x81; 0; 0x7F; 0x18] = Ok None /\ decode_real_binary 1 [0x80; 0; 0; 0] = Ok None.
Proof. vm_compute. repeat split; discriminate. Qed.

(** C70.  What is read from a binary encoding is not always the value X.690 gives it: 81 01 00 10 is 16 * 2^256 and
    is read as 16 * 2^1. *)
Theorem C70_real_value_by_x690_refuted : exists x s N E d,
  x690_real_binary x s N 0 2 E /\ (forall fuel, decode_real_binary fuel x = Ok (Some d)) /\ is_double d /\ dbl_finite d /\
  ~ same_scaled N E (dbl_mantissa d) (dbl_scale d).
Proof.
  exists [0x81; 1; 0; 0x10], 0, 16, 256, [0x40; 0x40; 0; 0; 0; 0; 0; 0].
  split; [|split; [intros fuel; vm_compute; reflexivity|split; [dbl_lit|split; [vm_compute; reflexivity|vm_compute; discriminate]]]].
  apply (x690_real_short 0 0 0 [1; 0] [16]); try lia; try bytes_lit; try discriminate. vm_compute. split; discriminate.
Qed.
(** Missing here: exponents in more than one octet (C70_exponents_partial), mantissas whose leading octet is below 16 (C38), results outside the
    normal range (C70_results_partial).  Here the double read is the encoded number N * 2^(f + e * log2 base), truncated to 53 bits. *)
Theorem C70_real_value_by_x690_partial : forall s bb f e mant decimal fuel i data,
  let x := (128 + 64 * s + 16 * bb + 4 * f) :: e :: mant in
  let N := be_value mant in
  let scale := f + twos_value [e] * nth (Z.to_nat bb) [1; 3; 4] 0 in
  0 <= s <= 1 -> 0 <= bb <= 2 -> 0 <= f <= 3 -> wf_byte e -> bytes mant -> 2 <= zlen mant ->
  N <> 0 -> 4 <= Z.log2 N mod 8 -> 1 <= Z.log2 N + scale + 1023 <= 2046 ->
  real_reachable i data -> small_content i data = Ok x ->
  exists d, real_value decimal fuel i data = Ok d /\ is_double d /\ dbl_sign d = s /\
    dbl_mantissa d = Z.shiftl N (52 - Z.log2 N) /\ dbl_scale d = scale - (52 - Z.log2 N).
Proof.
  intros s bb f e mant decimal fuel i data x N scale Hs Hbb Hf He Hm Hz Hn Hlog Hrange Hr Hx.
  destruct (real_reachable_rep _ _ Hr) as (Hi & y & Hrep & Hb). pose proof (small_content_rep _ _ _ _ (small_real_ok i Hi) Hrep) as Hc.
  assert (y = x) by congruence. subst y. destruct (small_rep_len _ _ _ _ (small_real_ok i Hi) Hrep) as [_ Hxl].
  assert (Hml : zlen mant <= 98) by (unfold x in Hxl; rewrite !zlen_cons in Hxl; unfold real_max in Hxl; lia).
  pose proof (drb_short s bb f [e] mant Hs Hbb Hf ltac:(repeat constructor; apply He) ltac:(rewrite zlen_1; lia) Hm Hn ltac:(rewrite zlen_1; lia) eq_refl) as K.
  unfold ctrl in K. rewrite zlen_1 in K. replace (128 + 64 * s + 16 * bb + 4 * f + (1 - 1)) with (128 + 64 * s + 16 * bb + 4 * f) in K by lia.
  cbn [app] in K. fold x in K. cbn [hd] in K.
  assert (Hsc : twos_value [e] * base_log (nth (Z.to_nat bb) [2; 8; 16] 0) + f = scale).
  { unfold scale. assert (bb = 0 \/ bb = 1 \/ bb = 2) as [->|[->| ->]] by lia.
    - change (base_log (nth (Z.to_nat 0) [2; 8; 16] 0)) with 1. change (nth (Z.to_nat 0) [1; 3; 4] 0) with 1. lia.
    - change (base_log (nth (Z.to_nat 1) [2; 8; 16] 0)) with 3. change (nth (Z.to_nat 1) [1; 3; 4] 0) with 3. lia.
    - change (base_log (nth (Z.to_nat 2) [2; 8; 16] 0)) with 4. change (nth (Z.to_nat 2) [1; 3; 4] 0) with 4. lia. }
  rewrite Hsc in K.
  assert (Hsb : -600 <= scale <= 600).
  { unfold scale. rewrite twos_value_1 by exact He. destruct He as [? ?].
    assert (Hk : 1 <= nth (Z.to_nat bb) [1; 3; 4] 0 <= 4) by (assert (bb = 0 \/ bb = 1 \/ bb = 2) as [->|[->| ->]] by lia; vm_compute; split; discriminate).
    destruct (Z.ltb_spec e 128); nia. }
  destruct (assemble_normal fuel s scale mant N) as (d & E & Hd & E1 & E2 & E3); auto; try lia.
  exists d. rewrite (real_value_rep _ _ _ _ _ Hi Hrep). change (decode_real decimal fuel x) with (decode_real decimal fuel ((128 + 64 * s + 16 * bb + 4 * f) :: e :: mant)); rewrite decode_real_bin by lia; fold x. rewrite K, E.
  split; [reflexivity|]. split; [exact Hd|]. split; [exact E1|].
  unfold dbl_mantissa, dbl_scale. replace (dbl_exp d =? 0) with false by lia. split; [exact E3|lia].
Qed.
Lemma exponent_taken (long : bool) s bb f expo mant i data :
  let x := (128 + 64 * s + 16 * bb + 4 * f + (if long then 3 else zlen expo - 1)) :: (if long then [zlen expo] else []) ++ expo ++ mant in
  let taken := if long then twos_value (ztake 2 (expo ++ mant)) else twos_value (ztake 1 expo) in
  let scale := f + taken * nth (Z.to_nat bb) [1; 3; 4] 0 in
  0 <= s <= 1 -> 0 <= bb <= 2 -> 0 <= f <= 3 -> bytes expo -> 1 <= zlen expo <= (if long then 4 else 3) -> bytes mant -> 4 <= zlen x ->
  (forall a b r, expo = a :: b :: r -> ~ (a = 0 /\ b < 128) /\ ~ (a = 255 /\ 128 <= b)) -> be_value mant <> 0 ->
  real_reachable i data -> small_content i data = Ok x ->
  zlen mant < 2^27 /\ Z.abs scale < 2^20 /\ nine_bits expo = false /\ mant <> [] /\
  forall decimal fuel, real_value decimal fuel i data = let* d := assemble fuel s scale mant in Ok d.
Proof.
  intros x taken scale Hs Hbb Hf He Hl Hm Hx4 H9' Hn Hr Hx.
  assert (H9 : nine_bits expo = false). { destruct expo as [|a [|b r]]; try reflexivity. cbn [nine_bits]. destruct (H9' a b r eq_refl). lia. }
  assert (Hmn : mant <> []) by (intros ->; apply Hn; reflexivity).
  destruct (real_reachable_rep _ _ Hr) as (Hi & y & Hrep & Hb). pose proof (small_content_rep _ _ _ _ (small_real_ok i Hi) Hrep) as Hc.
  assert (y = x) by congruence. subst y. destruct (small_rep_len _ _ _ _ (small_real_ok i Hi) Hrep) as [_ Hxl].
  assert (Hml : zlen mant <= 98).
  { unfold x in Hxl. rewrite zlen_cons, !zlen_app in Hxl. unfold real_max in Hxl. pose proof (zlen_nonneg expo). pose proof (zlen_nonneg (if long then [zlen expo] else [])). lia. }
  assert (Hz1 : zlen expo - 1 >= 0 /\ zlen expo - 1 <= 3) by (destruct long; lia).
  assert (Htk : -65536 <= taken <= 65536).
  { unfold taken. destruct long.
    - destruct (two_octets (expo ++ mant)) as (a & b & r & Er). { rewrite zlen_app. destruct mant; [contradiction|]. rewrite (zlen_cons _ mant). pose proof (zlen_nonneg mant). lia. }
      assert (Hem : bytes (expo ++ mant)) by (apply bytes_app; auto). rewrite Er in *. change (ztake 2 (a :: b :: r)) with [a; b]. apply bytes_cons in Hem as [Ha Hem]. apply bytes_cons in Hem as [Hb0 _].
      rewrite twos_2, twos_value_1 by auto. destruct Ha, Hb0. destruct (a <? 128); lia.
    - destruct expo as [|a r]; [cbn in Hl; lia|]. change (ztake 1 (a :: r)) with [a]. apply bytes_cons in He as [Ha _]. rewrite twos_value_1 by auto. destruct Ha. destruct (a <? 128); lia. }
  assert (Hsc : taken * base_log (nth (Z.to_nat bb) [2; 8; 16] 0) + f = scale /\ Z.abs scale < 2^20).
  { unfold scale. assert (bb = 0 \/ bb = 1 \/ bb = 2) as [->|[->| ->]] by lia.
    - change (base_log (nth (Z.to_nat 0) [2; 8; 16] 0)) with 1. change (nth (Z.to_nat 0) [1; 3; 4] 0) with 1. lia.
    - change (base_log (nth (Z.to_nat 1) [2; 8; 16] 0)) with 3. change (nth (Z.to_nat 1) [1; 3; 4] 0) with 3. lia.
    - change (base_log (nth (Z.to_nat 2) [2; 8; 16] 0)) with 4. change (nth (Z.to_nat 2) [1; 3; 4] 0) with 4. lia. }
  destruct Hsc as [Hsc Hsa].
  split; [lia|]. split; [exact Hsa|]. split; [exact H9|]. split; [exact Hmn|]. intros decimal fuel.
  assert (K : decode_real_binary fuel x = let* d := assemble fuel s scale mant in Ok (Some d)).
  { rewrite <- Hsc. unfold x, taken. destruct long; cbn [app].
    - apply (drb_long s bb f expo mant); auto.
    - assert (T : ztake 1 expo = [hd 0 expo]) by (destruct expo; [cbn in Hl; lia|reflexivity]). rewrite T. apply (drb_short s bb f expo mant); auto. unfold x in Hx4. cbn [app] in Hx4. rewrite zlen_cons, zlen_app in Hx4. lia. }
  rewrite (real_value_rep _ _ _ _ _ Hi Hrep). unfold x at 1. rewrite decode_real_bin by (destruct long; lia). fold x. rewrite K. destruct (assemble _ _ _ _); reflexivity.
Qed.
(** Which octets are taken for the exponent, whatever its length.  In the form without a length octet it is the first octet of the exponent alone,
    in the form with one it is the two octets behind the length octet, be they all of the exponent or not.  So the number that is encoded is read in the
    former from exponents of one octet and no others, in the latter from those of two octets (and where the octet that follows only extends the sign). *)
Theorem C70_exponents_partial : forall (long : bool) s bb f expo mant decimal fuel i data,
  let x := (128 + 64 * s + 16 * bb + 4 * f + (if long then 3 else zlen expo - 1)) :: (if long then [zlen expo] else []) ++ expo ++ mant in
  let N := be_value mant in
  let taken := if long then twos_value (ztake 2 (expo ++ mant)) else twos_value (ztake 1 expo) in
  let scale := f + taken * nth (Z.to_nat bb) [1; 3; 4] 0 in
  0 <= s <= 1 -> 0 <= bb <= 2 -> 0 <= f <= 3 -> bytes expo -> 1 <= zlen expo <= (if long then 4 else 3) -> bytes mant -> 4 <= zlen x ->
  (forall a b r, expo = a :: b :: r -> ~ (a = 0 /\ b < 128) /\ ~ (a = 255 /\ 128 <= b)) ->
  N <> 0 -> 4 <= Z.log2 N mod 8 -> 1 <= Z.log2 N + scale + 1023 <= 2046 ->
  real_reachable i data -> small_content i data = Ok x ->
  (exists d, real_value decimal fuel i data = Ok d /\ is_double d /\ dbl_sign d = s /\
    dbl_mantissa d = Z.shiftl N (52 - Z.log2 N) /\ dbl_scale d = scale - (52 - Z.log2 N)) /\
  (taken = twos_value expo <->
    if long then zlen expo = 2 \/ exists r, (expo = [0] /\ mant = 0 :: r) \/ (expo = [255] /\ mant = 255 :: r) else zlen expo = 1).
Proof.
  intros long s bb f expo mant decimal fuel i data x N taken scale Hs Hbb Hf He Hl Hm Hx4 H9 Hn Hlog Hrange Hr Hx.
  destruct (exponent_taken long s bb f expo mant i data Hs Hbb Hf He Hl Hm Hx4 H9 Hn Hr Hx) as (Hml & Hsa & Hnb & Hmn & K). fold taken in Hsa, K. fold scale in Hsa, K. split.
  - destruct (assemble_normal fuel s scale mant N) as (d & E & Hd & E1 & E2 & E3); auto; try lia.
    exists d. rewrite K, E. split; [reflexivity|]. split; [exact Hd|]. split; [exact E1|].
    unfold dbl_mantissa, dbl_scale. replace (dbl_exp d =? 0) with false by lia. split; [exact E3|lia].
  - unfold taken. destruct long; [apply long_right; auto|apply short_right; auto].
Qed.
(** 83 02 00 80 12 34 is read as 0x1234 * 2^128. *)
Example C70_exponents_example : exists data view, v_make [9; 6; 0x83; 2; 0; 0x80; 0x12; 0x34] = Ok view /\
  real_decode (Id universal 9) (real_init (Id universal 9)) view = Ok (true, data) /\
  small_content (Id universal 9) data = Ok [0x83; 2; 0; 0x80; 0x12; 0x34] /\
  exists d, real_value (fun _ => None) 0 (Id universal 9) data = Ok d /\ dbl_scale d = 128 - 40 /\ dbl_mantissa d = 0x1234 * 2^40.
Proof. eexists. eexists. split; [vm_compute; reflexivity|]. split; [vm_compute; reflexivity|]. split; [vm_compute; reflexivity|]. eexists. split; [vm_compute; reflexivity|]. split; vm_compute; reflexivity. Qed.
(** All results.  With the exponent taken as above, N * 2^scale is read cut off to 53 bits if it is in the range of the normal doubles, as an infinity
    if it is beyond, and cut off to a multiple of 2^-1074 if it is below; or value() does not return (C38): if the leading octet of N is below 16, but for
    the least numbers. *)
Theorem C70_results_partial : forall (long : bool) s bb f expo mant decimal i data,
  let x := (128 + 64 * s + 16 * bb + 4 * f + (if long then 3 else zlen expo - 1)) :: (if long then [zlen expo] else []) ++ expo ++ mant in
  let N := be_value mant in
  let taken := if long then twos_value (ztake 2 (expo ++ mant)) else twos_value (ztake 1 expo) in
  let scale := f + taken * nth (Z.to_nat bb) [1; 3; 4] 0 in
  0 <= s <= 1 -> 0 <= bb <= 2 -> 0 <= f <= 3 -> bytes expo -> 1 <= zlen expo <= (if long then 4 else 3) -> bytes mant -> 4 <= zlen x ->
  (forall a b r, expo = a :: b :: r -> ~ (a = 0 /\ b < 128) /\ ~ (a = 255 /\ 128 <= b)) ->
  N <> 0 -> real_reachable i data -> small_content i data = Ok x ->
  if (Z.log2 N mod 8 <? 4) && (- 1026 <=? 8 * (Z.log2 N / 8) + scale) then forall fuel, real_value decimal fuel i data = NoFuel
  else exists d, (forall fuel, real_value decimal fuel i data = Ok d) /\ is_double d /\ dbl_sign d = s /\
    if 1024 <=? Z.log2 N + scale then dbl_exp d = 2047 /\ dbl_frac d = 0
    else if - 1022 <=? Z.log2 N + scale then dbl_finite d /\ dbl_mantissa d = Z.shiftl N (52 - Z.log2 N) /\ dbl_scale d = scale - (52 - Z.log2 N)
    else dbl_finite d /\ dbl_mantissa d = Z.shiftl N (scale + 1074) /\ dbl_scale d = -1074.
Proof.
  intros long s bb f expo mant decimal i data x N taken scale Hs Hbb Hf He Hl Hm Hx4 H9 Hn Hr Hx.
  destruct (exponent_taken long s bb f expo mant i data Hs Hbb Hf He Hl Hm Hx4 H9 Hn Hr Hx) as (Hml & Hsa & Hnb & Hmn & K). fold taken in Hsa, K. fold scale in Hsa, K.
  assert (Hs2 : s = 0 \/ s = 1) by lia. pose proof (Z.div_mod (Z.log2 N) 8 ltac:(lia)) as Hdm. pose proof (Z.mod_pos_bound (Z.log2 N) 8 ltac:(lia)) as Hmb.
  destruct (Z.ltb_spec (Z.log2 N mod 8) 4) as [H4|H4]; [destruct (Z.leb_spec (- 1026) (8 * (Z.log2 N / 8) + scale)) as [H5|H5]|]; cbn [andb].
  - intros fuel. rewrite K, (assemble_hangs s scale mant N Hm eq_refl Hn Hml Hsa H4) by lia. reflexivity.
  - destruct (assemble_underflow 0 s scale mant N Hs2 Hm eq_refl Hn Hml Hsa ltac:(lia) ltac:(lia)) as (d & D1 & D2 & D3 & D4 & D5). exists d.
    split; [intros fuel; destruct (assemble_underflow fuel s scale mant N Hs2 Hm eq_refl Hn Hml Hsa ltac:(lia) ltac:(lia)) as (d' & D1' & D2' & D3' & D4' & D5'); rewrite K, D1'; cbn [bind]; f_equal; apply double_ext; auto; congruence|].
    split; [exact D2|]. split; [exact D3|]. replace (1024 <=? Z.log2 N + scale) with false by lia. replace (- 1022 <=? Z.log2 N + scale) with false by lia.
    unfold dbl_finite, dbl_mantissa, dbl_scale. rewrite D4. split; [reflexivity|]. cbn [Z.eqb]. split; [exact D5|reflexivity].
  - destruct (Z.leb_spec 1024 (Z.log2 N + scale)) as [H5|H5].
    + exists (if s =? 0 then plus_inf else minus_inf). split; [intros fuel; rewrite K, (assemble_overflow fuel s scale mant N Hm eq_refl Hn Hml Hsa H4) by lia; reflexivity|].
      destruct Hs2 as [-> | ->]; (split; [split; [reflexivity|repeat constructor; discriminate]|]); repeat split.
    + destruct (Z.leb_spec (- 1022) (Z.log2 N + scale)) as [H6|H6].
      * destruct (assemble_normal 0 s scale mant N Hs2 Hm eq_refl Hn Hml Hsa H4 ltac:(lia)) as (d & D1 & D2 & D3 & D4 & D5). exists d.
        split; [intros fuel; destruct (assemble_normal fuel s scale mant N Hs2 Hm eq_refl Hn Hml Hsa H4 ltac:(lia)) as (d' & D1' & D2' & D3' & D4' & D5'); rewrite K, D1'; cbn [bind]; f_equal; apply double_ext; auto; lia|].
        split; [exact D2|]. split; [exact D3|]. unfold dbl_finite, dbl_mantissa, dbl_scale. replace (dbl_exp d =? 0) with false by lia. repeat split; [lia|exact D5|lia].
      * destruct (assemble_underflow 0 s scale mant N Hs2 Hm eq_refl Hn Hml Hsa ltac:(lia) ltac:(lia)) as (d & D1 & D2 & D3 & D4 & D5). exists d.
        split; [intros fuel; destruct (assemble_underflow fuel s scale mant N Hs2 Hm eq_refl Hn Hml Hsa ltac:(lia) ltac:(lia)) as (d' & D1' & D2' & D3' & D4' & D5'); rewrite K, D1'; cbn [bind]; f_equal; apply double_ext; auto; congruence|].
        split; [exact D2|]. split; [exact D3|]. unfold dbl_finite, dbl_mantissa, dbl_scale. rewrite D4. split; [reflexivity|]. cbn [Z.eqb]. split; [exact D5|reflexivity].
Qed.
(** 83 02 FB CE 10 01 is read as 0x1001 * 2^-1074, a subnormal; 83 02 04 00 10 as infinity. *)
Example C70_results_example : exists data view data2 view2, v_make [9; 6; 0x83; 2; 0xFB; 0xCE; 0x10; 0x01] = Ok view /\ v_make [9; 5; 0x83; 2; 4; 0; 0x10] = Ok view2 /\
  real_decode (Id universal 9) (real_init (Id universal 9)) view = Ok (true, data) /\ real_decode (Id universal 9) (real_init (Id universal 9)) view2 = Ok (true, data2) /\
  real_value (fun _ => None) 0 (Id universal 9) data = Ok [0; 0; 0; 0; 0; 0; 0x10; 0x01] /\ real_value (fun _ => None) 0 (Id universal 9) data2 = Ok [0x7F; 0xF0; 0; 0; 0; 0; 0; 0].
Proof. do 4 eexists. split; [vm_compute; reflexivity|]. split; [vm_compute; reflexivity|]. split; [vm_compute; reflexivity|]. split; [vm_compute; reflexivity|]. split; vm_compute; reflexivity. Qed.
(** The other contents that X.690 8.5.2, 8.5.3 and 8.5.9 give a meaning: no octets are plus zero, 40 plus infinity, 41 minus infinity, 42 not a number, 43
    minus zero.  All others that begin with the bits 01 are read as plus zero. *)
Theorem C70_special_values : forall decimal fuel i data x, real_reachable i data -> small_content i data = Ok x ->
  match x with [] => True | c :: _ => 64 <= c < 128 end ->
  exists d, real_value decimal fuel i data = Ok d /\ is_double d /\
    (x = [0x40] -> dbl_sign d = 0 /\ dbl_exp d = 2047 /\ dbl_frac d = 0) /\ (x = [0x41] -> dbl_sign d = 1 /\ dbl_exp d = 2047 /\ dbl_frac d = 0) /\
    (x = [0x42] -> dbl_exp d = 2047 /\ dbl_frac d <> 0) /\ (x = [0x43] -> dbl_sign d = 1 /\ dbl_exp d = 0 /\ dbl_frac d = 0) /\
    (~ In x [[0x40]; [0x41]; [0x42]; [0x43]] -> dbl_sign d = 0 /\ dbl_exp d = 0 /\ dbl_frac d = 0).
Proof.
  intros decimal fuel i data x Hr Hx Hc. destruct (real_reachable_rep _ _ Hr) as (Hi & y & Hrep & Hb).
  assert (y = x) by (pose proof (small_content_rep _ _ _ _ (small_real_ok i Hi) Hrep); congruence). subst y.
  assert (V : real_value decimal fuel i data = Ok (match decode_real_special x with Some d => d | None => plus_zero end)).
  { rewrite (real_value_rep _ _ _ _ _ Hi Hrep). destruct x as [|c r]; [reflexivity|]. unfold decode_real. destruct (ctrl_bits c ltac:(split; lia)) as (_ & _ & _ & _ & _ & Ec). rewrite Ec.
    replace (128 <=? c) with false by lia. cbv iota. change 192 with (Z.lor 128 64). assert (E : Z.shiftr (Z.land c (Z.lor 128 64)) 6 = 1).
    { change (Z.lor 128 64) with 192. sweep H (fun c => negb ((64 <=? c) && (c <? 128)) || (Z.shiftr (Z.land c 192) 6 =? 1)) c. apply orb_true_iff in H as [H|H]; [|lia]. apply negb_true_iff, andb_false_iff in H. lia. }
    rewrite E. reflexivity. }
  rewrite V. assert (P : is_double plus_zero /\ is_double plus_inf /\ is_double minus_inf /\ is_double quiet_nan /\ is_double minus_zero) by (repeat split; repeat constructor; discriminate).
  destruct P as (P & P1 & P2 & P3 & P4).
  assert (Z0 : forall y : list Z, (forall v, In v [0x40; 0x41; 0x42; 0x43] -> y <> [v]) -> (y = [0x40] -> False) /\ (y = [0x41] -> False) /\ (y = [0x42] -> False) /\ (y = [0x43] -> False)).
  { intros y Hy. repeat split; intros Q; revert Q; apply Hy; cbn; tauto. }
  assert (Zero : (forall v, In v [0x40; 0x41; 0x42; 0x43] -> x <> [v]) -> decode_real_special x = None -> exists d, Ok (match decode_real_special x with Some d => d | None => plus_zero end) = Ok d /\ is_double d /\
    (x = [0x40] -> dbl_sign d = 0 /\ dbl_exp d = 2047 /\ dbl_frac d = 0) /\ (x = [0x41] -> dbl_sign d = 1 /\ dbl_exp d = 2047 /\ dbl_frac d = 0) /\
    (x = [0x42] -> dbl_exp d = 2047 /\ dbl_frac d <> 0) /\ (x = [0x43] -> dbl_sign d = 1 /\ dbl_exp d = 0 /\ dbl_frac d = 0) /\
    (~ In x [[0x40]; [0x41]; [0x42]; [0x43]] -> dbl_sign d = 0 /\ dbl_exp d = 0 /\ dbl_frac d = 0)).
  { intros Hn ->. destruct (Z0 x Hn) as (A & B & C & D). exists plus_zero. split; [reflexivity|]. split; [exact P|]. split; [intros Q; destruct (A Q)|]. split; [intros Q; destruct (B Q)|]. split; [intros Q; destruct (C Q)|]. split; [intros Q; destruct (D Q)|].
    intros _. repeat split; reflexivity. }
  destruct x as [|c [|c2 r]].
  - apply Zero; [intros v _; discriminate|reflexivity].
  - destruct (Z.eqb_spec c 64) as [->|N1]; [exists plus_inf|destruct (Z.eqb_spec c 65) as [->|N2]; [exists minus_inf|destruct (Z.eqb_spec c 66) as [->|N3]; [exists quiet_nan|destruct (Z.eqb_spec c 67) as [->|N4]; [exists minus_zero|]]]].
    5: { apply Zero; [intros v Hv [= ->]; cbn in Hv; lia|]. cbn [decode_real_special]. repeat match goal with |- context [?a =? ?b] => replace (a =? b) with false by lia end. reflexivity. }
    all: split; [reflexivity|]; split; [assumption|]; repeat (split; [intros Q; try discriminate Q; vm_compute; repeat split; discriminate|]); intros Q; exfalso; apply Q; cbn; tauto.
  - apply Zero; [intros v _; discriminate|reflexivity].
Qed.
Example C70_special_example : exists data view, v_make [9; 1; 0x41] = Ok view /\ real_decode (Id universal 9) (real_init (Id universal 9)) view = Ok (true, data) /\
  small_content (Id universal 9) data = Ok [0x41] /\ real_value (fun _ => None) 0 (Id universal 9) data = Ok [0xFF; 0xF0; 0; 0; 0; 0; 0; 0].
Proof. do 2 eexists. split; [vm_compute; reflexivity|]. split; [vm_compute; reflexivity|]. split; vm_compute; reflexivity. Qed.
Example C70_example : exists data view, v_make [9; 4; 0x94; 0xFF; 0x12; 0x34] = Ok view /\
  real_decode (Id universal 9) (real_init (Id universal 9)) view = Ok (true, data) /\
  real_value (fun _ => None) 0 (Id universal 9) data = Ok [0x40; 0x92; 0x34; 0; 0; 0; 0; 0].
Proof. eexists. eexists. split; [vm_compute; reflexivity|]. split; [vm_compute; reflexivity|]. vm_compute. reflexivity. Qed.
