(** Lemmas about tags, identifiers and whole headers (Ident.v). *)
From Verif Require Import Base Ident Spec IdentProofs.
Ltac Zify.zify_post_hook ::= Z.div_mod_to_equations.

(** * Tag octets *)
Fixpoint hi_digits (k : nat) (t : Z) : list Z :=
  match k with O => [] | S k => hi_digits k (t / 128) ++ [t mod 128 + 128] end.
Definition ntag (t : Z) : Z := encoded_tag_length t - 1.
Definition id_octets (c : class) (con : construction) (t : Z) : list Z :=
  if t <=? 30 then [lead c con + t]
  else (lead c con + 31) :: hi_digits (Z.to_nat (ntag t - 1)) (t / 128) ++ [t mod 128].

Lemma hi_digits_len k t : zlen (hi_digits k t) = Z.of_nat k.
Proof. revert t; induction k; intros; [reflexivity|]. cbn [hi_digits]. rewrite zlen_app, IHk, zlen_cons, zlen_nil. lia. Qed.
Lemma hi_digits_hi k t : Forall (fun b => 128 <= b < 256) (hi_digits k t).
Proof.
  revert t; induction k; intros; [constructor|]. cbn [hi_digits]. apply Forall_app; split; auto.
  constructor; [|constructor]. lia.
Qed.
Lemma b128_value_snoc l b : b128_value (l ++ [b]) = b128_value l * 128 + b mod 128.
Proof. unfold b128_value; rewrite fold_left_app; reflexivity. Qed.
Lemma hi_digits_value k t : 0 <= t -> b128_value (hi_digits k t) = t mod 128 ^ (Z.of_nat k).
Proof.
  revert t; induction k as [|k IH]; intros t Ht.
  - cbn. rewrite Z.mod_1_r. reflexivity.
  - cbn [hi_digits]. rewrite b128_value_snoc, IH by (apply Z.div_pos; lia).
    rewrite Nat2Z.inj_succ, Z.pow_succ_r by lia.
    assert (0 < 128 ^ Z.of_nat k) by (apply Z.pow_pos_nonneg; lia).
    rewrite Z.rem_mul_r by lia.
    replace ((t mod 128 + 128) mod 128) with (t mod 128) by lia. ring.
Qed.

Ltac etl_cases := unfold ntag, encoded_tag_length in *;
  repeat match goal with
  | |- context [if ?c then _ else _] => destruct c eqn:?
  | H : context [if ?c then _ else _] |- _ => destruct c eqn:?
  end.
Lemma etl_range t : 0 <= t -> 1 <= encoded_tag_length t <= 10.
Proof. intros; etl_cases; lia. Qed.
Lemma etl_neg t : t < 0 -> encoded_tag_length t = 0.
Proof. intros; etl_cases; lia. Qed.
Lemma etl_short t : 0 <= t <= 30 -> encoded_tag_length t = 1.
Proof. intros; etl_cases; lia. Qed.
Lemma ntag_bounds t : 31 <= t < 2^63 ->
  1 <= ntag t <= 9 /\ t < 128 ^ ntag t /\ (t >= 128 -> 128 ^ (ntag t - 1) <= t) /\ (ntag t > 1 -> t >= 128).
Proof.
  intros; etl_cases;
  repeat match goal with |- context [128 ^ ?e] => let v := eval vm_compute in (128 ^ e) in change (128 ^ e) with v end;
  lia.
Qed.

Lemma id_octets_len c con t : 0 <= t < 2^63 -> zlen (id_octets c con t) = encoded_tag_length t.
Proof.
  intros; unfold id_octets. destruct (Z.leb_spec t 30).
  - rewrite etl_short by lia. reflexivity.
  - pose proof (ntag_bounds t ltac:(lia)). rewrite zlen_cons, zlen_app, hi_digits_len, zlen_cons, zlen_nil.
    unfold ntag in *. lia.
Qed.
Lemma lead_byte c con t : 0 <= t <= 31 -> wf_byte (lead c con + t).
Proof. pose proof (lead_range c con). unfold wf_byte. lia. Qed.
Lemma Forall_hi_bytes l : Forall (fun b => 128 <= b < 256) l -> bytes l.
Proof. apply Forall_impl. unfold wf_byte. lia. Qed.
Lemma id_octets_bytes c con t : 0 <= t -> bytes (id_octets c con t).
Proof.
  intros; unfold id_octets. destruct (Z.leb_spec t 30).
  - constructor; [apply lead_byte; lia | constructor].
  - constructor; [apply lead_byte; lia|]. apply bytes_app; split.
    + apply Forall_hi_bytes, hi_digits_hi.
    + constructor; [|constructor]. unfold wf_byte; lia.
Qed.
Lemma hi_digits_cons k t : hi_digits (S k) t = (t / 128 ^ Z.of_nat k) mod 128 + 128 :: hi_digits k t.
Proof.
  revert t; induction k as [|k IH]; intros t.
  - cbn. rewrite Z.div_1_r. reflexivity.
  - change (hi_digits (S (S k)) t) with (hi_digits (S k) (t / 128) ++ [t mod 128 + 128]).
    rewrite IH. cbn [app hi_digits]. f_equal. rewrite Z.div_div by (try apply Z.pow_pos_nonneg; lia).
    rewrite Nat2Z.inj_succ, Z.pow_succ_r by lia. reflexivity.
Qed.
Lemma id_octets_x690 c con t : 0 <= t < 2^63 -> x690_ident_strict (id_octets c con t) c con t.
Proof.
  intros Ht. split; [|split].
  - unfold id_octets. destruct (Z.leb_spec t 30).
    + apply x690_low; lia.
    + pose proof (ntag_bounds t ltac:(lia)) as (Hn & Hub & _).
      assert (Hv : b128_value (hi_digits (Z.to_nat (ntag t - 1)) (t / 128) ++ [t mod 128]) = t).
      { rewrite b128_value_snoc, hi_digits_value, Z2Nat.id by (try apply Z.div_pos; lia).
        rewrite (Z.mod_small (t / 128)).
        - rewrite Z.mod_mod by lia. lia.
        - split; [apply Z.div_pos; lia|]. apply Z.div_lt_upper_bound; [lia|].
          rewrite <- Z.pow_succ_r by lia. replace (Z.succ (ntag t - 1)) with (ntag t) by lia. lia. }
      rewrite <- Hv at 4. apply x690_high.
      exists (hi_digits (Z.to_nat (ntag t - 1)) (t / 128)), (t mod 128). repeat split; try lia.
      apply hi_digits_hi.
  - intros; rewrite id_octets_len, etl_short by lia; reflexivity.
  - intros b ds H. unfold id_octets in H. destruct (Z.leb_spec t 30); [inversion H|].
    pose proof (ntag_bounds t ltac:(lia)) as (Hn & Hub & Hlb & _).
    inversion H as [[H1 H2]]; clear H.
    destruct (Z.to_nat (ntag t - 1)) as [|k] eqn:Ek.
    + cbn in H2. inversion H2. lia.
    + rewrite hi_digits_cons in H2. inversion H2 as [[H3 H4]]; clear H2 H4.
      assert (Hk : Z.of_nat k = ntag t - 2) by lia. rewrite Hk in H3.
      assert (0 < 128 ^ (ntag t - 2)) by (apply Z.pow_pos_nonneg; lia).
      rewrite Z.div_div in H3 by lia.
      replace (128 * 128 ^ (ntag t - 2)) with (128 ^ (ntag t - 1)) in H3
        by (rewrite <- Z.pow_succ_r by lia; f_equal; lia).
      assert (128 ^ 1 <= 128 ^ (ntag t - 1)) by (apply Z.pow_le_mono_r; lia).
      pose proof (ntag_bounds t ltac:(lia)) as (_ & _ & _ & Hlb2).
      specialize (Hlb2 ltac:(lia)). specialize (Hlb Hlb2).
      assert (1 <= t / 128 ^ (ntag t - 1) < 128).
      { split; [apply Z.div_le_lower_bound; lia|]. apply Z.div_lt_upper_bound; [lia|].
        rewrite Z.mul_comm, <- Z.pow_succ_r by lia. replace (Z.succ (ntag t - 1)) with (ntag t) by lia. lia. }
      rewrite Z.mod_small in H3 by lia. lia.
Qed.

(** * encode_tag *)
Lemma encode_tag_loop_ok k : forall done rest tag i,
  (1 <= k)%nat -> 128 ^ (Z.of_nat k - 1) <= tag < 128 ^ Z.of_nat k -> 2 <= i -> Z.of_nat k <= zlen rest ->
  encode_tag_loop done rest tag i = (hi_digits k tag ++ done ++ zdrop (Z.of_nat k) rest, i + Z.of_nat k).
Proof.
  induction k as [|k IH]; intros done rest tag i Hk Ht Hi Hr; [lia|].
  destruct rest as [|r rest]; [rewrite zlen_nil in Hr; lia|]. rewrite zlen_cons in Hr.
  assert (Hpos : 0 < tag). { eapply Z.lt_le_trans; [|apply Ht]. apply Z.pow_pos_nonneg; lia. }
  cbn [encode_tag_loop]. replace (negb (i =? 1)) with true by lia.
  rewrite Z.rem_mod_nonneg, Z.quot_div_nonneg by lia.
  rewrite u8_small, lor_80 by lia.
  rewrite Nat2Z.inj_succ, Z.pow_succ_r in Ht by lia.
  destruct k as [|k].
  - change (128 ^ Z.of_nat 0) with 1 in Ht. replace (tag / 128 =? 0) with true by lia.
    cbn [hi_digits app]. rewrite zdrop_cons by lia. change (Z.of_nat 1 - 1) with 0. rewrite zdrop_0. do 2 f_equal.
  - assert (Hp : 1 <= 128 ^ Z.of_nat k) by (assert (0 < 128 ^ Z.of_nat k) by (apply Z.pow_pos_nonneg; lia); lia).
    replace (Z.succ (Z.of_nat (S k)) - 1) with (Z.succ (Z.of_nat k)) in Ht by lia.
    rewrite Z.pow_succ_r in Ht by lia.
    rewrite Nat2Z.inj_succ, Z.pow_succ_r in Ht by lia.
    replace (tag / 128 =? 0) with false by lia.
    rewrite IH; try lia.
    + change (hi_digits (S (S k)) tag) with (hi_digits (S k) (tag / 128) ++ [tag mod 128 + 128]).
      rewrite <- ?app_assoc. cbn [app]. rewrite zdrop_cons by lia.
      replace (Z.of_nat (S (S k)) - 1) with (Z.of_nat (S k)) by lia. f_equal. lia.
    + rewrite Nat2Z.inj_succ, Z.pow_succ_r by lia.
      replace (Z.succ (Z.of_nat k) - 1) with (Z.of_nat k) by lia.
      split; [apply Z.div_le_lower_bound | apply Z.div_lt_upper_bound]; lia.
Qed.
Lemma encode_tag_loop_fail k : forall done rest tag i,
  (1 <= k)%nat -> 128 ^ (Z.of_nat k - 1) <= tag < 128 ^ Z.of_nat k -> zlen rest < Z.of_nat k ->
  exists out, encode_tag_loop done rest tag i = (out, 0) /\ zlen out = zlen done + zlen rest.
Proof.
  induction k as [|k IH]; intros done rest tag i Hk Ht Hr; [lia|].
  destruct rest as [|r rest].
  { exists (rev done). split; [reflexivity | rewrite zlen_rev, zlen_nil; lia]. }
  rewrite zlen_cons in Hr. pose proof (zlen_nonneg rest).
  assert (Hpos : 0 < tag). { eapply Z.lt_le_trans; [|apply Ht]. apply Z.pow_pos_nonneg; lia. }
  cbn [encode_tag_loop].
  rewrite Z.rem_mod_nonneg, Z.quot_div_nonneg by lia.
  rewrite Nat2Z.inj_succ, Z.pow_succ_r in Ht by lia.
  destruct k as [|k]; [lia|].
  assert (Hp : 1 <= 128 ^ Z.of_nat k) by (assert (0 < 128 ^ Z.of_nat k) by (apply Z.pow_pos_nonneg; lia); lia).
  replace (Z.succ (Z.of_nat (S k)) - 1) with (Z.succ (Z.of_nat k)) in Ht by lia.
  rewrite Z.pow_succ_r in Ht by lia.
  rewrite Nat2Z.inj_succ, Z.pow_succ_r in Ht by lia.
  replace (tag / 128 =? 0) with false by lia.
  match goal with |- context [encode_tag_loop ?d _ _ _] => destruct (IH d rest (tag / 128) (i + 1)) as (out & E & Hl) end;
    try lia.
  - rewrite Nat2Z.inj_succ, Z.pow_succ_r by lia.
    replace (Z.succ (Z.of_nat k) - 1) with (Z.of_nat k) by lia.
    split; [apply Z.div_le_lower_bound | apply Z.div_lt_upper_bound]; lia.
  - exists out. split; [exact E|]. rewrite Hl, !zlen_cons. lia.
Qed.

Lemma zlen_tl_drop {A} (x : A) l : zdrop 1 (x :: l) = l.
Proof. reflexivity. Qed.

Lemma encode_identifier_ok out con c t :
  0 <= t < 2^63 -> encoded_tag_length t <= zlen out ->
  encode_identifier out con c t = (id_octets c con t ++ zdrop (encoded_tag_length t) out, encoded_tag_length t).
Proof.
  intros Ht Hl. pose proof (etl_range t ltac:(lia)) as Hr.
  destruct out as [|b0 rest]; [rewrite zlen_nil in Hl; lia|].
  unfold encode_identifier; rewrite lead_spec. unfold encode_tag, id_octets.
  replace (t <? 0) with false by lia. destruct (Z.leb_spec t 30).
  - rewrite short_tag_spec, etl_short by lia. reflexivity.
  - pose proof (ntag_bounds t ltac:(lia)) as (Hn & Hub & Hlb & Hlb2).
    assert (Hetl : encoded_tag_length t = ntag t + 1) by (unfold ntag; lia).
    rewrite zlen_cons, Hetl in Hl. rewrite Hetl.
    destruct rest as [|b1 rest]; [rewrite zlen_nil in Hl; lia|]. rewrite zlen_cons in Hl.
    cbn [encode_tag_loop]. change (negb (1 =? 1)) with false. cbn match.
    rewrite Z.rem_mod_nonneg, Z.quot_div_nonneg, u8_small, long_lead_spec by lia.
    destruct (Z.eqb_spec (t / 128) 0) as [E|E].
    + assert (ntag t = 1) by lia. rewrite H0. cbn [hi_digits app Z.to_nat Z.sub]. reflexivity.
    + assert (Hge : t >= 128) by lia. specialize (Hlb Hge).
      assert (2 <= ntag t). { destruct (Z.eq_dec (ntag t) 1) as [e|]; [|lia]. rewrite e in Hub. change (128^1) with 128 in Hub. lia. }
      rewrite (encode_tag_loop_ok (Z.to_nat (ntag t - 1))); try lia.
      * rewrite Z2Nat.id by lia. cbn [app]. rewrite <- ?app_assoc. cbn [app].
        rewrite !zdrop_cons by lia. replace (ntag t + 1 - 1 - 1) with (ntag t - 1) by lia. f_equal; lia.
      * rewrite Z2Nat.id by lia.
        assert (0 < 128 ^ (ntag t - 1 - 1)) by (apply Z.pow_pos_nonneg; lia).
        split.
        -- apply Z.div_le_lower_bound; [lia|]. rewrite <- Z.pow_succ_r by lia.
           replace (Z.succ (ntag t - 1 - 1)) with (ntag t - 1) by lia. lia.
        -- apply Z.div_lt_upper_bound; [lia|]. rewrite <- Z.pow_succ_r by lia.
           replace (Z.succ (ntag t - 1)) with (ntag t) by lia. lia.
Qed.
Lemma encode_identifier_fail out con c t :
  0 <= t < 2^63 -> zlen out < encoded_tag_length t ->
  exists out', encode_identifier out con c t = (out', 0) /\ zlen out' = zlen out.
Proof.
  intros Ht Hl.
  destruct out as [|b0 rest]; [exists []; split; reflexivity|].
  unfold encode_identifier; rewrite lead_spec. unfold encode_tag. rewrite zlen_cons in Hl. pose proof (zlen_nonneg rest).
  replace (t <? 0) with false by lia. destruct (Z.leb_spec t 30).
  - rewrite etl_short in Hl by lia. lia.
  - pose proof (ntag_bounds t ltac:(lia)) as (Hn & Hub & Hlb & Hlb2).
    assert (Hetl : encoded_tag_length t = ntag t + 1) by (unfold ntag; lia).
    rewrite Hetl in Hl.
    destruct rest as [|b1 rest]; [eexists; split; [reflexivity|]; reflexivity|]. rewrite !zlen_cons in *.
    cbn [encode_tag_loop]. change (negb (1 =? 1)) with false. cbn match.
    rewrite Z.rem_mod_nonneg, Z.quot_div_nonneg by lia.
    pose proof (zlen_nonneg rest).
    specialize (Hlb2 ltac:(lia)). specialize (Hlb ltac:(lia)).
    replace (t / 128 =? 0) with false by lia.
    match goal with |- context [encode_tag_loop ?d _ _ _] =>
      destruct (encode_tag_loop_fail (Z.to_nat (ntag t - 1)) d rest (t / 128) (1 + 1)) as (out & E & Hlen) end; try lia.
    + rewrite Z2Nat.id by lia.
      assert (0 < 128 ^ (ntag t - 1 - 1)) by (apply Z.pow_pos_nonneg; lia).
      split.
      * apply Z.div_le_lower_bound; [lia|]. rewrite <- Z.pow_succ_r by lia.
        replace (Z.succ (ntag t - 1 - 1)) with (ntag t - 1) by lia. lia.
      * apply Z.div_lt_upper_bound; [lia|]. rewrite <- Z.pow_succ_r by lia.
        replace (Z.succ (ntag t - 1)) with (ntag t) by lia. lia.
    + rewrite E. eexists; split; [reflexivity|]. rewrite !zlen_cons in *. rewrite zlen_nil in *. lia.
Qed.
Lemma encode_identifier_neg out con c t : t < 0 ->
  exists out', encode_identifier out con c t = (out', 0) /\ zlen out' = zlen out.
Proof.
  intros Ht. destruct out as [|b0 rest]; [exists []; split; reflexivity|].
  cbn [encode_identifier encode_tag]. replace (t <? 0) with true by lia.
  eexists; split; [reflexivity|]. reflexivity.
Qed.

(** * Whole headers *)
Definition hdr (c : class) (con : construction) (t n : Z) : list Z := id_octets c con t ++ len_octets n.
Lemma hdr_len c con t n : 0 <= t < 2^63 -> zlen (hdr c con t n) = encoded_header_length1 t n.
Proof. intros; unfold hdr; rewrite zlen_app, id_octets_len, len_octets_len by auto; reflexivity. Qed.
Lemma hdr_bytes c con t n : 0 <= t -> 0 <= n -> bytes (hdr c con t n).
Proof. intros; apply bytes_app; auto using id_octets_bytes, len_octets_bytes. Qed.
Lemma ehl1_range t n : 0 <= t -> 2 <= encoded_header_length1 t n <= 19.
Proof.
  intros; unfold encoded_header_length1, encoded_identifier_length.
  pose proof (etl_range t). pose proof (ell_range n). lia.
Qed.

Lemma encode_header_raw_ok out con c t n :
  0 <= t < 2^63 -> in_u64 n -> encoded_header_length1 t n <= zlen out ->
  encode_header_raw out con c t n =
    (hdr c con t n ++ zdrop (encoded_header_length1 t n) out, encoded_header_length1 t n).
Proof.
  intros Ht Hn Hl. pose proof (ehl1_range t n ltac:(lia)) as Hr.
  unfold encode_header_raw. replace (zlen out <? 2) with false by lia.
  unfold encoded_header_length1, encoded_identifier_length in *.
  pose proof (etl_range t ltac:(lia)) as Hr1. pose proof (ell_range n) as Hr2.
  rewrite encode_identifier_ok by lia.
  assert (Hil : zlen (id_octets c con t) = encoded_tag_length t) by (apply id_octets_len; lia).
  rewrite zdrop_app_exact, ztake_app_exact by lia.
  rewrite encode_length_ok by (auto; rewrite zlen_zdrop by lia; lia).
  replace (_ || _) with false by lia. unfold hdr. rewrite <- app_assoc. rewrite zdrop_zdrop by lia. reflexivity.
Qed.
Lemma encode_header_raw_fail out con c t n :
  t < 2^63 -> in_u64 n -> t < 0 \/ zlen out < encoded_header_length1 t n ->
  exists out', encode_header_raw out con c t n = (out', 0) /\ zlen out' = zlen out.
Proof.
  intros Ht Hn Hl. unfold encode_header_raw. destruct (Z.ltb_spec (zlen out) 2) as [|H2]; [eauto|].
  assert (Hc : (t < 0 \/ zlen out < encoded_tag_length t) \/
               (0 <= t /\ encoded_tag_length t <= zlen out < encoded_tag_length t + encoded_length_length n)).
  { unfold encoded_header_length1, encoded_identifier_length in Hl. lia. }
  destruct Hc as [Hc | [Ht0 Hc]].
  - assert (exists out', encode_identifier out con c t = (out', 0) /\ zlen out' = zlen out) as (out' & E & Hlen).
    { destruct (Z.ltb_spec t 0); [apply encode_identifier_neg; lia|]. apply encode_identifier_fail; lia. }
    rewrite E. rewrite zdrop_0, ztake_0.
    destruct (encode_length out' n) as [r k] eqn:E2. cbn [Z.eqb orb]. eexists; split; [reflexivity|].
    cbn [app]. destruct (Z.leb_spec (encoded_length_length n) (zlen out')).
    + rewrite encode_length_ok in E2 by (auto; lia). inversion E2; subst.
      rewrite zlen_app, len_octets_len, zlen_zdrop by (pose proof (ell_range n); lia). lia.
    + rewrite encode_length_fail in E2 by (auto; lia). inversion E2; subst. lia.
  - pose proof (etl_range t ltac:(lia)). rewrite encode_identifier_ok by lia.
    assert (Hil : zlen (id_octets c con t) = encoded_tag_length t) by (apply id_octets_len; lia).
    rewrite zdrop_app_exact, ztake_app_exact by lia.
    rewrite encode_length_fail by (auto; rewrite zlen_zdrop by lia; lia).
    replace (_ || _) with true by lia. eexists; split; [reflexivity|].
    rewrite zlen_app, zlen_zdrop by lia. lia.
Qed.

(** * Reading tags *)
Lemma b128_fold_app l a : fold_left (fun a b => a * 128 + b mod 128) l a = a * 128 ^ zlen l + b128_value l.
Proof.
  revert a; induction l as [|b l IH] using rev_ind; intros a.
  - cbn. lia.
  - rewrite fold_left_app, b128_value_snoc; cbn [fold_left]. rewrite IH, zlen_app, zlen_cons, zlen_nil.
    pose proof (zlen_nonneg l). replace (zlen l + (1 + 0)) with (Z.succ (zlen l)) by lia.
    rewrite Z.pow_succ_r by lia. ring.
Qed.
Lemma b128_value_cons b l : b128_value (b :: l) = (b mod 128) * 128 ^ zlen l + b128_value l.
Proof. unfold b128_value at 1; cbn [fold_left]. rewrite b128_fold_app. f_equal. Qed.
Lemma b128_value_nonneg l : 0 <= b128_value l < 128 ^ zlen l.
Proof.
  induction l as [|b l IH]; [cbn; lia|].
  rewrite b128_value_cons, zlen_cons. pose proof (zlen_nonneg l). rewrite Z.pow_add_r by lia.
  assert (0 <= b mod 128 < 128) by lia. nia.
Qed.
Lemma in_i64b_true x : in_i64 x -> in_i64b x = true.
Proof. unfold in_i64, in_i64b; lia. Qed.

Lemma extract_tag_loop_spec ds : forall rest i tag,
  b128_octets ds -> 0 <= tag -> tag * 128 ^ (zlen ds - 1) + b128_value ds < 2^63 -> tag mod 128 = 0 ->
  extract_tag_loop (ds ++ rest) i tag = Ok (i + zlen ds, tag * 128 ^ (zlen ds - 1) + b128_value ds).
Proof.
  induction ds as [|d ds IH]; intros rest i tag (pre & lst & E & Hpre & Hlst) Ht Hb Hm.
  { destruct pre; discriminate. }
  destruct pre as [|p pre].
  - cbn in E. inversion E; subst. cbn [app extract_tag_loop]. rewrite land_7F.
    change (zlen [lst]) with 1 in *. cbn in Hb. change (128 ^ (1 - 1)) with 1 in *.
    assert (b128_value [lst] = lst) as Hv by (cbn; rewrite Z.mod_small; lia).
    rewrite Hv in *. rewrite Z.mod_small in * by lia.
    rewrite in_i64b_true by (unfold in_i64; change (2^63) with 9223372036854775808; lia).
    rewrite land_80 by (split; lia). replace (lst <? 128) with true by lia. cbn [negb]. f_equal. f_equal. lia.
  - cbn in E. inversion E; subst p ds. clear E. inversion Hpre as [|? ? Hd Hpre']; subst.
    set (ds := pre ++ [lst]) in *.
    assert (Hds : b128_octets ds) by (exists pre, lst; auto).
    cbn [app extract_tag_loop]. rewrite land_7F, land_80 by (split; lia). replace (d <? 128) with false by lia.
    rewrite zlen_cons in *. replace (1 + zlen ds - 1) with (zlen ds) in * by lia. rewrite b128_value_cons in *.
    assert (Hl1 : 1 <= zlen ds) by (unfold ds; rewrite zlen_app, zlen_cons, zlen_nil; pose proof (zlen_nonneg pre); lia).
    assert (Hpw : 128 ^ zlen ds = 128 * 128 ^ (zlen ds - 1))
      by (rewrite <- Z.pow_succ_r by lia; f_equal; lia).
    assert (Hp1 : 1 <= 128 ^ (zlen ds - 1)) by (assert (0 < 128 ^ (zlen ds - 1)) by (apply Z.pow_pos_nonneg; lia); lia).
    pose proof (b128_value_nonneg ds) as Hv.
    assert (Hdm : 0 <= d mod 128 < 128) by lia.
    set (t1 := tag + d mod 128) in *.
    assert (Ht1 : tag * 128 ^ zlen ds + d mod 128 * 128 ^ zlen ds + b128_value ds
                  = (t1 * 128) * 128 ^ (zlen ds - 1) + b128_value ds) by (rewrite Hpw; unfold t1; ring).
    assert (0 <= t1) by (unfold t1; lia).
    assert (Hlt : t1 * 128 < 2^63) by nia.
    rewrite !in_i64b_true by (unfold in_i64; lia). cbn [negb].
    rewrite Z.add_assoc in Hb. rewrite Ht1 in Hb.
    rewrite IH; auto; try lia.
    f_equal. f_equal; [lia|]. rewrite Z.add_assoc, Ht1. reflexivity.
Qed.
Lemma b128_octets_len ds : b128_octets ds -> 1 <= zlen ds.
Proof. intros (pre & lst & -> & _). rewrite zlen_app, zlen_cons, zlen_nil. pose proof (zlen_nonneg pre). lia. Qed.

Lemma extract_tag_x690 octets c con t rest t0 :
  x690_ident octets c con t -> t < 2^63 -> extract_tag (octets ++ rest) t0 = Ok (zlen octets, t).
Proof.
  intros H Ht. destruct H as [c con t Hr | c con ds Hds].
  - cbn [app extract_tag]. fold (lead c con). rewrite lead_low_bits by lia.
    replace (t =? 31) with false by lia. cbn [negb]. reflexivity.
  - cbn [app extract_tag]. fold (lead c con). rewrite lead_low_bits by lia. cbn [Z.eqb negb Pos.eqb].
    rewrite extract_tag_loop_spec by (auto; lia). rewrite zlen_cons. reflexivity.
Qed.
Lemma extract_class_x690 octets c con t rest : x690_ident octets c con t -> extract_class (octets ++ rest) = Some c.
Proof.
  destruct 1; cbn [app extract_class]; fold (lead c con); rewrite get_class_lead by lia; reflexivity.
Qed.
Lemma extract_construction_x690 octets c con t rest :
  x690_ident octets c con t -> extract_construction (octets ++ rest) = Some con.
Proof.
  destruct 1; cbn [app extract_construction]; fold (lead c con); rewrite get_construction_lead by lia; reflexivity.
Qed.

Lemma extract_tag_loop_inv input : forall i tag k t,
  bytes input -> 0 <= tag -> 1 <= i -> extract_tag_loop input i tag = Ok (k, t) -> k <> 0 ->
  exists ds rest, input = ds ++ rest /\ b128_octets ds /\ k = i + zlen ds
    /\ t = tag * 128 ^ (zlen ds - 1) + b128_value ds /\ t < 2^63.
Proof.
  induction input as [|b l IH]; intros i tag k t Hb Ht Hi H Hk; cbn [extract_tag_loop] in H; [congruence|].
  apply bytes_cons in Hb; destruct Hb as [Hb Hl].
  rewrite land_7F, land_80 in H by auto. unfold wf_byte in Hb.
  destruct (in_i64b (tag + b mod 128)) eqn:E1; cbn [negb] in H; [|discriminate].
  destruct (Z.ltb_spec b 128) as [Hlt|Hge].
  - inversion H; subst. exists [b], l. unfold in_i64b in E1.
    assert (b128_value [b] = b mod 128) as Hv by reflexivity. rewrite Hv.
    change (zlen [b]) with 1. change (128 ^ (1 - 1)) with 1.
    repeat split; try lia. exists [], b. cbn. repeat split; auto; lia.
  - destruct (in_i64b ((tag + b mod 128) * 128)) eqn:E2; cbn [negb] in H; [|discriminate].
    apply IH in H; auto; try lia. destruct H as (ds & rest & -> & Hds & -> & -> & Hub).
    exists (b :: ds), rest. pose proof (b128_octets_len ds Hds) as Hl1.
    rewrite zlen_cons, b128_value_cons. replace (1 + zlen ds - 1) with (zlen ds) by lia.
    assert (Hpw : 128 ^ zlen ds = 128 * 128 ^ (zlen ds - 1))
      by (rewrite <- Z.pow_succ_r by lia; f_equal; lia).
    assert ((tag + b mod 128) * 128 * 128 ^ (zlen ds - 1) + b128_value ds
            = tag * 128 ^ zlen ds + (b mod 128 * 128 ^ zlen ds + b128_value ds)) as <- by (rewrite Hpw; ring).
    repeat split; try lia.
    destruct Hds as (pre & lst & -> & Hpre & Hlst). exists (b :: pre), lst. repeat split; try lia.
    constructor; auto; lia.
Qed.
Lemma extract_tag_inv input t0 k t :
  bytes input -> extract_tag input t0 = Ok (k, t) -> k <> 0 ->
  exists octets rest c con, input = octets ++ rest /\ x690_ident octets c con t /\ zlen octets = k
     /\ 0 <= t < 2^63 /\ extract_class input = Some c /\ extract_construction input = Some con.
Proof.
  intros Hb H Hk. destruct input as [|b0 l]; cbn [extract_tag] in H; [congruence|].
  apply bytes_cons in Hb; destruct Hb as [Hb Hl]. pose proof (byte_decompose b0 Hb) as Hd. unfold lead in Hd.
  rewrite land_1F in H. destruct (Z.eqb_spec (b0 mod 32) 31) as [E|E]; cbn [negb] in H.
  - apply extract_tag_loop_inv in H; auto; try lia.
    destruct H as (ds & rest & -> & Hds & -> & -> & Hub).
    exists (b0 :: ds), rest, (get_class b0), (get_construction b0).
    pose proof (b128_value_nonneg ds).
    repeat split; try (cbn [zlen length]; rewrite ?zlen_cons; lia).
    rewrite Z.mul_0_l, Z.add_0_l. rewrite E in Hd.
    rewrite Hd at 1. apply x690_high; auto.
  - inversion H; subst. exists [b0], l, (get_class b0), (get_construction b0).
    assert (b0 mod 32 < 31) by lia. change (2^63) with 9223372036854775808.
    repeat split; try lia. rewrite Hd at 1. apply x690_low. lia.
Qed.
Lemma x690_ident_len octets c con t : x690_ident octets c con t -> 1 <= zlen octets.
Proof. destruct 1; rewrite ?zlen_cons; [cbn; lia|]. pose proof (zlen_nonneg ds). lia. Qed.
Lemma x690_ident_nonneg octets c con t : x690_ident octets c con t -> 0 <= t.
Proof. destruct 1; [lia|]. apply b128_value_nonneg. Qed.
Lemma x690_ident_bytes octets c con t : x690_ident octets c con t -> bytes octets.
Proof.
  destruct 1 as [c con t Ht | c con ds (pre & lst & -> & Hpre & Hl)].
  - constructor; [|constructor]. apply (lead_byte c con t). lia.
  - constructor; [apply (lead_byte c con 31); lia|]. apply bytes_app; split.
    + apply Forall_hi_bytes; auto.
    + constructor; [|constructor]. unfold wf_byte; lia.
Qed.
Lemma x690_ident_min octets c con t :
  x690_ident octets c con t -> t < 2^63 -> encoded_tag_length t <= zlen octets.
Proof.
  intros H Ht; destruct H as [c con t Hr | c con ds Hds].
  - rewrite etl_short by lia. cbn; lia.
  - set (t := b128_value ds) in *. rewrite zlen_cons.
    pose proof (b128_value_nonneg ds) as Hv. fold t in Hv.
    destruct (Z.leb_spec t 30) as [|H30]; [rewrite etl_short by lia; pose proof (zlen_nonneg ds); lia|].
    pose proof (ntag_bounds t ltac:(lia)) as (Hn & Hub & Hlb & Hlb2).
    assert (Hetl : encoded_tag_length t = ntag t + 1) by (unfold ntag; lia). rewrite Hetl.
    pose proof (b128_octets_len ds Hds).
    destruct (Z.leb_spec (ntag t) (zlen ds)) as [|Hlt]; [lia|exfalso].
    specialize (Hlb2 ltac:(lia)). specialize (Hlb Hlb2).
    assert (128 ^ zlen ds <= 128 ^ (ntag t - 1)) by (apply Z.pow_le_mono_r; lia). lia.
Qed.

(** extract_tag_length agrees with extract_tag *)
Lemma extract_tag_loop_len l : forall i tag k t,
  extract_tag_loop l i tag = Ok (k, t) -> extract_tag_length_loop l i = k.
Proof.
  induction l as [|b l IH]; intros i tag k t H; cbn in *; [congruence|].
  destruct (negb (in_i64b (tag + Z.land b 127))); [discriminate|].
  destruct (Z.land b 128 =? 0); [congruence|].
  destruct (negb (in_i64b ((tag + Z.land b 127) * 128))); [discriminate|]. eauto.
Qed.
Lemma extract_tag_len_eq input t0 k t : extract_tag input t0 = Ok (k, t) -> extract_tag_length input = k.
Proof.
  destruct input as [|b l]; cbn; [congruence|]. destruct (negb _); [congruence|]. apply extract_tag_loop_len.
Qed.

(** * Self-delimitation *)
Lemma x690_length_det o1 o2 n1 n2 r1 r2 :
  x690_length o1 n1 -> x690_length o2 n2 -> o1 ++ r1 = o2 ++ r2 -> o1 = o2 /\ n1 = n2 /\ r1 = r2.
Proof.
  intros H1 H2 E; destruct H1 as [n1 Hn1|d1 Hd1 Hk1], H2 as [n2 Hn2|d2 Hd2 Hk2]; cbn [app] in E;
    apply cons_inj in E; destruct E as [E1 E2].
  - subst; auto.
  - exfalso; lia.
  - exfalso; lia.
  - assert (Hz : zlen d1 = zlen d2) by lia.
    assert (d1 = d2) as ->.
    { rewrite <- (ztake_len_eq d1 r1), <- (ztake_len_eq d2 r2). congruence. }
    split; [reflexivity|]. split; [reflexivity|]. eapply app_inv_head; eauto.
Qed.
Lemma b128_octets_det d1 : forall d2 r1 r2,
  b128_octets d1 -> b128_octets d2 -> d1 ++ r1 = d2 ++ r2 -> d1 = d2 /\ r1 = r2.
Proof.
  induction d1 as [|a d1 IH]; intros d2 r1 r2 (p1 & l1 & E1 & H1 & L1) (p2 & l2 & E2 & H2 & L2) E.
  { destruct p1; discriminate. }
  destruct p1 as [|x1 p1], p2 as [|x2 p2]; cbn in *; inversion E1; subst; cbn in E; inversion E; subst.
  - auto.
  - inversion H2; lia.
  - inversion H1; lia.
  - inversion H1; inversion H2; subst.
    destruct (IH (p2 ++ [l2]) r1 r2) as [-> ->]; auto; [exists p1, l1; auto | exists p2, l2; auto].
Qed.
Lemma x690_ident_det o1 o2 c1 c2 k1 k2 t1 t2 r1 r2 :
  x690_ident o1 c1 k1 t1 -> x690_ident o2 c2 k2 t2 -> o1 ++ r1 = o2 ++ r2 ->
  o1 = o2 /\ c1 = c2 /\ k1 = k2 /\ t1 = t2 /\ r1 = r2.
Proof.
  intros H1 H2 E.
  assert (Hc : c1 = c2).
  { apply extract_class_x690 with (rest := r1) in H1. apply extract_class_x690 with (rest := r2) in H2. congruence. }
  assert (Hk : k1 = k2).
  { apply extract_construction_x690 with (rest := r1) in H1. apply extract_construction_x690 with (rest := r2) in H2. congruence. }
  subst. destruct H1 as [c k t1 Hr1 | c k d1 Hd1]; inversion H2; subst; cbn [app] in E; inversion E; subst; try lia.
  - assert (t1 = t2) by lia. subst; auto.
  - destruct (b128_octets_det d1 ds r1 r2) as [-> ->]; auto.
Qed.
Lemma tlv_det p1 p2 c1 c2 k1 k2 t1 t2 x1 x2 r1 r2 :
  tlv p1 c1 k1 t1 x1 -> tlv p2 c2 k2 t2 x2 -> p1 ++ r1 = p2 ++ r2 ->
  p1 = p2 /\ c1 = c2 /\ k1 = k2 /\ t1 = t2 /\ x1 = x2 /\ r1 = r2.
Proof.
  intros (i1 & l1 & Hi1 & Hl1 & ->) (i2 & l2 & Hi2 & Hl2 & ->) E. rewrite <- !app_assoc in E.
  destruct (x690_ident_det _ _ _ _ _ _ _ _ _ _ Hi1 Hi2 E) as (-> & -> & -> & -> & E').
  destruct (x690_length_det _ _ _ _ _ _ Hl1 Hl2 E') as (-> & Hn & E'').
  assert (x1 = x2) as ->.
  { rewrite <- (ztake_len_eq x1 r1), <- (ztake_len_eq x2 r2). congruence. }
  apply app_inv_head in E''. auto 10.
Qed.

(** * Headers of compile-time identifiers *)
Definition wf_ident (i : ident) : Prop :=
  match i with
  | Id _ t => 0 <= t < 2^63
  | DoubleId _ ot _ it => 0 <= ot < 2^63 /\ 0 <= it < 2^63
  end.
Definition hdr_of (i : ident) (n : Z) (con : construction) : list Z :=
  match i with
  | Id c t => hdr c con t n
  | DoubleId oc ot ic it => hdr oc constructed ot (encoded_header_length1 it n + n) ++ hdr ic con it n
  end.
Lemma encoded_length1_nowrap t n : 0 <= t -> 0 <= n < 2^63 + 2^62 -> encoded_length1 t n = encoded_header_length1 t n + n.
Proof.
  intros; unfold encoded_length1. pose proof (ehl1_range t n ltac:(lia)). apply u64_small. lia.
Qed.
Lemma ehl_range i n : wf_ident i -> 2 <= encoded_header_length n i <= 38.
Proof.
  destruct i as [c t|oc ot ic it]; cbn [wf_ident encoded_header_length]; intros.
  - pose proof (ehl1_range t n ltac:(lia)). lia.
  - pose proof (ehl1_range it n ltac:(lia)). pose proof (ehl1_range ot (encoded_length1 it n) ltac:(lia)). lia.
Qed.
Lemma encoded_length_nowrap i n : wf_ident i -> 0 <= n < 2^63 -> encoded_length n i = encoded_header_length n i + n.
Proof.
  destruct i as [c t|oc ot ic it]; cbn [wf_ident encoded_header_length encoded_length]; intros.
  - apply encoded_length1_nowrap; lia.
  - pose proof (ehl1_range it n ltac:(lia)).
    rewrite (encoded_length1_nowrap it n), (encoded_length1_nowrap ot) by lia. lia.
Qed.
Lemma hdr_of_len i n con : wf_ident i -> 0 <= n < 2^63 -> zlen (hdr_of i n con) = encoded_header_length n i.
Proof.
  destruct i as [c t|oc ot ic it]; cbn [wf_ident encoded_header_length hdr_of]; intros.
  - apply hdr_len; lia.
  - rewrite zlen_app, !hdr_len, encoded_length1_nowrap by lia. reflexivity.
Qed.
Lemma hdr_of_bytes i n con : wf_ident i -> 0 <= n -> bytes (hdr_of i n con).
Proof.
  destruct i as [c t|oc ot ic it]; cbn [wf_ident hdr_of]; intros.
  - apply hdr_bytes; lia.
  - pose proof (ehl1_range it n ltac:(lia)). apply bytes_app; split; apply hdr_bytes; lia.
Qed.
Lemma encode_header1_ok buf n c t con :
  0 <= t < 2^63 -> 0 <= n < 2^63 + 2^62 -> encoded_header_length1 t n <= zlen buf ->
  encode_header1 buf n c t con =
    EncResult (hdr c con t n ++ zdrop (encoded_header_length1 t n) buf) true (encoded_header_length1 t n + n).
Proof.
  intros Ht Hn Hl; unfold encode_header1. pose proof (ehl1_range t n ltac:(lia)).
  rewrite encode_header_raw_ok by (auto; unfold in_u64; lia).
  replace (encoded_header_length1 t n =? 0) with false by lia. rewrite u64_small by lia. reflexivity.
Qed.
Lemma encode_header1_fail buf n c t con :
  t < 2^63 -> in_u64 n -> t < 0 \/ zlen buf < encoded_header_length1 t n ->
  exists out, encode_header1 buf n c t con = EncResult out false 0 /\ zlen out = zlen buf.
Proof.
  intros Ht Hn Hl; unfold encode_header1.
  destruct (encode_header_raw_fail buf con c t n Ht Hn Hl) as (out & E & Hlen). rewrite E. cbn. eauto.
Qed.
(** octets that encode_header needs: a double identifier also checks the room for the content *)
Definition header_room (i : ident) (n : Z) : Z :=
  match i with Id _ _ => encoded_header_length n i | DoubleId _ _ _ _ => encoded_header_length n i + n end.
Lemma encode_header_ok buf n i con :
  wf_ident i -> 0 <= n < 2^63 -> header_room i n <= zlen buf ->
  encode_header buf n i con =
    EncResult (hdr_of i n con ++ zdrop (encoded_header_length n i) buf) true (encoded_header_length n i + n).
Proof.
  destruct i as [c t|oc ot ic it]; cbn [wf_ident encoded_header_length hdr_of encode_header header_room]; intros Hi Hn Hl.
  - apply encode_header1_ok; lia.
  - pose proof (ehl1_range it n ltac:(lia)) as Hri.
    rewrite (encoded_length1_nowrap it n) in * by lia.
    rewrite (u64_small (encoded_header_length1 it n + n)) by lia.
    pose proof (ehl1_range ot (encoded_header_length1 it n + n) ltac:(lia)) as Hro.
    rewrite u64_small by lia.
    replace (zlen buf <? _) with false by lia.
    rewrite (encode_header1_ok (zdrop _ _)) by (rewrite ?zlen_zdrop by lia; lia). cbn [er_buf].
    rewrite zdrop_zdrop by lia.
    assert (Hh : zlen (hdr ic con it n) = encoded_header_length1 it n) by (apply hdr_len; lia).
    rewrite encode_header1_ok; try lia.
    + rewrite zdrop_app_exact by (rewrite zlen_ztake; lia).
      rewrite <- app_assoc. f_equal. lia.
    + rewrite zlen_app, zlen_ztake by lia. pose proof (zlen_nonneg (hdr ic con it n ++ zdrop (encoded_header_length1 ot (encoded_header_length1 it n + n) + encoded_header_length1 it n) buf)). lia.
Qed.
Lemma encode_header_fail buf n i con :
  wf_ident i -> 0 <= n < 2^63 -> zlen buf < header_room i n ->
  exists out, encode_header buf n i con = EncResult out false 0 /\ zlen out = zlen buf.
Proof.
  destruct i as [c t|oc ot ic it]; cbn [wf_ident encoded_header_length hdr_of encode_header header_room]; intros Hi Hn Hl.
  - apply encode_header1_fail; [lia | unfold in_u64; lia | auto].
  - pose proof (ehl1_range it n ltac:(lia)) as Hri.
    rewrite (encoded_length1_nowrap it n) in * by lia.
    rewrite (u64_small (encoded_header_length1 it n + n)) by lia.
    pose proof (ehl1_range ot (encoded_header_length1 it n + n) ltac:(lia)) as Hro.
    rewrite u64_small by lia.
    replace (zlen buf <? _) with true by lia. eauto.
Qed.

(** wrap_with_ber_header: header, then the [n] octets that stood at [off], then the old rest. *)
Lemma wrap_ok buf n i off con :
  wf_ident i -> 0 <= n < 2^63 -> 0 <= off -> off + n <= zlen buf -> zlen buf < 2^63 ->
  encoded_header_length n i + n <= zlen buf ->
  wrap_with_ber_header buf n i off con =
    Ok (EncResult (hdr_of i n con ++ ztake n (zdrop off buf) ++ zdrop (encoded_header_length n i + n) buf) true
          (encoded_header_length n i + n)).
Proof.
  intros Hi Hn Ho Hb Hbb Hl. pose proof (ehl_range i n Hi) as Hr.
  assert (Hroom : header_room i n <= zlen buf) by (destruct i; cbn [header_room] in *; lia).
  unfold wrap_with_ber_header. rewrite u64_small by lia. replace (_ >? zlen buf) with false by lia.
  destruct (Z.eqb_spec off (encoded_header_length n i)) as [->|Hne]; cbn [bind].
  - rewrite encode_header_ok by auto. do 2 f_equal. f_equal.
    rewrite <- (ztake_zdrop n (zdrop (encoded_header_length n i) buf)) at 1. f_equal.
    rewrite zdrop_zdrop by lia. reflexivity.
  - rewrite mem_read_ok by lia. cbn [bind].
    assert (Hz : zlen (ztake n (zdrop off buf)) = n) by (rewrite zlen_ztake; [lia|]; rewrite zlen_zdrop; lia).
    rewrite mem_write_ok by lia. cbn [bind]. rewrite encode_header_ok; auto; [|rewrite zlen_poke; lia].
    do 2 f_equal. f_equal. unfold poke. rewrite zdrop_app_exact by (rewrite zlen_ztake; lia). rewrite Hz. reflexivity.
Qed.
Lemma wrap_fail buf n i off con :
  wf_ident i -> 0 <= n < 2^63 -> zlen buf < encoded_header_length n i + n ->
  wrap_with_ber_header buf n i off con = Ok (EncResult buf false 0).
Proof.
  intros Hi Hn Hl. pose proof (ehl_range i n Hi) as Hr.
  unfold wrap_with_ber_header. rewrite u64_small by lia. replace (_ >? zlen buf) with true by lia. reflexivity.
Qed.
Lemma encoded_header_eq i n : wf_ident i -> 0 <= n < 2^62 ->
  encoded_header i n = hdr_of i n primitive ++ zrep n 0.
Proof.
  intros Hi Hn. pose proof (ehl_range i n Hi) as Hr. unfold encoded_header.
  rewrite encoded_length_nowrap by (auto; lia).
  rewrite encode_header_ok; auto; try lia.
  - cbn [er_buf]. f_equal. unfold zdrop, zrep.
    replace (Z.to_nat (encoded_header_length n i + n)) with (Z.to_nat (encoded_header_length n i) + Z.to_nat n)%nat by lia.
    rewrite repeat_app, skipn_app, skipn_all2, repeat_length by (rewrite repeat_length; lia).
    replace (_ - _)%nat with 0%nat by lia. reflexivity.
  - rewrite zlen_zrep by lia. destruct i; cbn [header_room] in *; lia.
Qed.

(** the packet octets produced for content [x] *)
Lemma hdr_tlv c con t x : 0 <= t < 2^63 -> zlen x < 2^64 -> tlv (hdr c con t (zlen x) ++ x) c con t x.
Proof.
  intros Ht Hx. exists (id_octets c con t), (len_octets (zlen x)).
  split; [apply id_octets_x690; auto|]. split; [apply len_octets_x690; split; [apply zlen_nonneg | lia]|].
  unfold hdr. rewrite <- app_assoc. reflexivity.
Qed.
