(** Lemmas about encode_integer, decode_integer and Integer objects. *)
From Verif Require Import Base Ident Spec IdentProofs HeaderProofs View ViewProofs Prims PrimProofs.
Ltac Zify.zify_post_hook ::= Z.div_mod_to_equations.

Lemma be_value_nil : be_value [] = 0. Proof. reflexivity. Qed.
Lemma pow256_S n : 0 <= n -> 256 ^ (1 + n) = 256 * 256 ^ n.
Proof. intros. rewrite Z.pow_add_r by lia. reflexivity. Qed.
Lemma pow256_pos n : 0 < 256 ^ n \/ n < 0.
Proof. destruct (Z.ltb_spec n 0); [auto|left; apply Z.pow_pos_nonneg; lia]. Qed.

(** Two's complement values *)
Lemma twos_cons_pos b l : bytes l -> 0 <= b < 128 -> twos_value (b :: l) = b * 256 ^ zlen l + be_value l.
Proof. intros; unfold twos_value. replace (b <? 128) with true by lia. apply be_value_cons. Qed.
Lemma twos_cons_neg b l : bytes l -> 128 <= b < 256 -> twos_value (b :: l) = (b - 256) * 256 ^ zlen l + be_value l.
Proof.
  intros; unfold twos_value. replace (b <? 128) with false by lia. rewrite be_value_cons, zlen_cons, pow256_S by apply zlen_nonneg.
  lia.
Qed.
Lemma twos_extend_0 b l : bytes (b :: l) -> b < 128 -> twos_value (0 :: b :: l) = twos_value (b :: l).
Proof.
  intros Hb Hl. rewrite twos_cons_pos by (auto; lia). apply bytes_cons in Hb as [[? ?] ?].
  rewrite (twos_cons_pos b l), be_value_cons by (auto; lia). lia.
Qed.
Lemma twos_extend_1 b l : bytes (b :: l) -> 128 <= b -> twos_value (255 :: b :: l) = twos_value (b :: l).
Proof.
  intros Hb Hl. rewrite twos_cons_neg by (auto; lia). apply bytes_cons in Hb as [[? ?] ?].
  rewrite (twos_cons_neg b l), be_value_cons, zlen_cons, pow256_S by (auto using zlen_nonneg; lia). lia.
Qed.
(** range: [2 * v] against [256 ^ len] *)
Lemma twos_range l : bytes l -> l <> [] -> - 256 ^ zlen l <= 2 * twos_value l < 256 ^ zlen l.
Proof.
  intros Hb Hn. destruct l as [|b l]; [congruence|]. apply bytes_cons in Hb as [[? ?] Hl].
  pose proof (be_value_bound l Hl). rewrite zlen_cons, pow256_S by apply zlen_nonneg.
  destruct (pow256_pos (zlen l)) as [Hp|Hp]; [|pose proof (zlen_nonneg l); lia].
  destruct (Z.ltb_spec b 128); [rewrite twos_cons_pos by (auto; lia) | rewrite twos_cons_neg by (auto; lia)]; nia.
Qed.
Lemma twos_sign b l : bytes (b :: l) -> (twos_value (b :: l) <? 0) = (128 <=? b).
Proof.
  intros Hb. apply bytes_cons in Hb as [[? ?] Hl]. pose proof (be_value_bound l Hl).
  destruct (pow256_pos (zlen l)) as [Hp|Hp]; [|pose proof (zlen_nonneg l); lia].
  destruct (Z.ltb_spec b 128); [rewrite twos_cons_pos by (auto; lia) | rewrite twos_cons_neg by (auto; lia)]; nia.
Qed.
(** the first two octets are not a redundant sign extension *)
Definition no_redundant (l : list Z) : Prop :=
  match l with a :: b :: _ => ~ (a = 0 /\ b < 128) /\ ~ (a = 255 /\ 128 <= b) | _ => True end.
Lemma no_redundant_minimal l m : bytes l -> no_redundant l -> bytes m -> m <> [] -> twos_value m = twos_value l ->
  zlen l <= zlen m.
Proof.
  intros Hl Hr Hm Hn E. destruct (Z.leb_spec (zlen l) (zlen m)) as [|Hlt]; [auto|exfalso].
  pose proof (twos_range m Hm Hn) as Hrm. rewrite E in Hrm.
  assert (1 <= zlen m). { destruct m; [congruence|]. rewrite zlen_cons. pose proof (zlen_nonneg m). lia. }
  destruct l as [|a [|b l]]; [cbn in *; lia | change (zlen [a]) with 1 in *; lia |].
  rewrite !zlen_cons in Hlt. pose proof (zlen_nonneg l).
  assert (Hp : 256 ^ zlen m <= 256 ^ (1 + zlen l)) by (apply Z.pow_le_mono_r; lia).
  apply bytes_cons in Hl as [[Ha1 Ha2] Hl]. pose proof Hl as Hbl. apply bytes_cons in Hl as [[Hb1 Hb2] Hl].
  pose proof (be_value_bound l Hl). cbn [no_redundant] in Hr.
  destruct (pow256_pos (zlen l)) as [Hq|Hq]; [|lia].
  rewrite pow256_S in Hp by lia.
  destruct (Z.ltb_spec a 128) as [Ha|Ha].
  - rewrite twos_cons_pos, be_value_cons, zlen_cons, pow256_S in Hrm by (auto; lia).
    destruct (Z.eqb_spec a 0) as [->|].
    + assert (128 <= b) by lia. nia.
    + nia.
  - rewrite twos_cons_neg, be_value_cons, zlen_cons, pow256_S in Hrm by (auto; lia).
    destruct (Z.eqb_spec a 255) as [->|].
    + assert (b < 128) by lia. nia.
    + nia.
Qed.

(** the eight octets of an int64_t *)
Lemma i64_bytes_digits x : i64_bytes x = be_digits 8 (u64 x).
Proof. reflexivity. Qed.
Lemma i64_bytes_len x : zlen (i64_bytes x) = 8. Proof. reflexivity. Qed.
Lemma i64_bytes_bytes x : bytes (i64_bytes x).
Proof. rewrite i64_bytes_digits. apply be_digits_bytes. Qed.
Lemma i64_of_bytes_twos l : bytes l -> zlen l = 8 -> i64_of_bytes l = twos_value l.
Proof.
  intros Hb Hl. destruct l as [|b l]; [discriminate|]. unfold i64_of_bytes. change (fold_left _ (b :: l) 0) with (be_value (b :: l)).
  unfold twos_value. rewrite Hl. change (256 ^ 8) with (2 ^ 64).
  rewrite zlen_cons in Hl. apply bytes_cons in Hb as [[? ?] Hb]. rewrite be_value_cons. pose proof (be_value_bound l Hb) as Hbb.
  replace (zlen l) with 7 in * by lia. change (256 ^ 7) with 72057594037927936 in *.
  destruct (Z.ltb_spec b 128), (Z.ltb_spec (b * 72057594037927936 + be_value l) (2^63)); lia.
Qed.
Lemma i64_bytes_twos x : in_i64 x -> twos_value (i64_bytes x) = x.
Proof.
  intros [H1 H2]. rewrite <- i64_of_bytes_twos by (auto using i64_bytes_bytes).
  unfold i64_of_bytes. fold (be_value (i64_bytes x)). rewrite i64_bytes_digits, be_digits_value.
  - change (256 ^ Z.of_nat 8) with (2 ^ 64). unfold u64. rewrite Z.mod_mod by lia.
    destruct (Z.ltb_spec (x mod 2 ^ 64) (2 ^ 63)); lia.
  - unfold u64. lia.
Qed.

Lemma skip_zeros_spec l : bytes l -> l <> [] ->
  0 <= skip_zeros l < zlen l /\ twos_value (zdrop (skip_zeros l) l) = twos_value l /\
  match zdrop (skip_zeros l) l with
  | a :: b :: _ => ~ (a = 0 /\ b < 128) | _ => True end /\
  (0 < skip_zeros l -> hd 0 l = 0 /\ hd 0 (zdrop (skip_zeros l) l) < 128).
Proof.
  induction l as [|a [|b l] IH]; intros Hb Hn; [congruence| |].
  - change (skip_zeros [a]) with 0. rewrite zdrop_0, zlen_1. repeat split; try lia; intros; lia.
  - pose proof Hb as Hb'. apply bytes_cons in Hb' as [Ha Hbl]. pose proof Hbl as Hbl'. apply bytes_cons in Hbl' as [Hbb Hl].
    assert (Es : skip_zeros (a :: b :: l) = if (a =? 0) && (Z.land b 128 =? 0) then 1 + skip_zeros (b :: l) else 0) by reflexivity.
    rewrite land_80 in Es by auto.
    destruct (Z.eqb_spec a 0) as [->|Hna]; [destruct (Z.ltb_spec b 128) as [Hlt|Hge]|]; cbn [andb] in Es.
    + destruct (IH Hbl ltac:(discriminate)) as ((I1 & I2) & I3 & I4 & I5). rewrite Es, zlen_cons.
      rewrite zdrop_cons by lia. replace (1 + skip_zeros (b :: l) - 1) with (skip_zeros (b :: l)) by lia.
      split; [lia|]. split; [rewrite I3; symmetry; apply twos_extend_0; auto|]. split; [auto|].
      intros _. split; [reflexivity|]. destruct (Z.ltb_spec 0 (skip_zeros (b :: l))) as [Hp|Hp]; [tauto|].
      replace (skip_zeros (b :: l)) with 0 by lia. exact Hlt.
    + rewrite Es, zdrop_0, !zlen_cons. pose proof (zlen_nonneg l). repeat split; try lia; intros; lia.
    + rewrite Es, zdrop_0, !zlen_cons. pose proof (zlen_nonneg l). repeat split; try lia; intros; lia.
Qed.
Lemma skip_ones_spec l : bytes l -> l <> [] ->
  0 <= skip_ones l < zlen l /\ twos_value (zdrop (skip_ones l) l) = twos_value l /\
  match zdrop (skip_ones l) l with
  | a :: b :: _ => ~ (a = 255 /\ 128 <= b) | _ => True end /\
  (0 < skip_ones l -> hd 0 l = 255 /\ 128 <= hd 0 (zdrop (skip_ones l) l)).
Proof.
  induction l as [|a [|b l] IH]; intros Hb Hn; [congruence| |].
  - change (skip_ones [a]) with 0. rewrite zdrop_0, zlen_1. repeat split; try lia; intros; lia.
  - pose proof Hb as Hb'. apply bytes_cons in Hb' as [Ha Hbl]. pose proof Hbl as Hbl'. apply bytes_cons in Hbl' as [Hbb Hl].
    assert (Es : skip_ones (a :: b :: l) = if (a =? 255) && negb (Z.land b 128 =? 0) then 1 + skip_ones (b :: l) else 0) by reflexivity.
    rewrite land_80 in Es by auto.
    destruct (Z.eqb_spec a 255) as [->|Hna]; [destruct (Z.ltb_spec b 128) as [Hlt|Hge]|]; cbn [andb negb] in Es.
    + rewrite Es, zdrop_0, !zlen_cons. pose proof (zlen_nonneg l). repeat split; try lia; intros; lia.
    + destruct (IH Hbl ltac:(discriminate)) as ((I1 & I2) & I3 & I4 & I5). rewrite Es, zlen_cons.
      rewrite zdrop_cons by lia. replace (1 + skip_ones (b :: l) - 1) with (skip_ones (b :: l)) by lia.
      split; [lia|]. split; [rewrite I3; symmetry; apply twos_extend_1; auto|]. split; [auto|].
      intros _. split; [reflexivity|]. destruct (Z.ltb_spec 0 (skip_ones (b :: l))) as [Hp|Hp]; [tauto|].
      replace (skip_ones (b :: l)) with 0 by lia. exact Hge.
    + rewrite Es, zdrop_0, !zlen_cons. pose proof (zlen_nonneg l). repeat split; try lia; intros; lia.
Qed.

(** The content octets encode_integer writes. *)
Definition int_octets (x : Z) : list Z := let b := i64_bytes x in zdrop (skip_zeros b + skip_ones b) b.
Lemma int_octets_spec x : in_i64 x ->
  bytes (int_octets x) /\ 1 <= zlen (int_octets x) <= 8 /\ twos_value (int_octets x) = x /\ no_redundant (int_octets x) /\
  zlen (int_octets x) = 8 - (skip_zeros (i64_bytes x) + skip_ones (i64_bytes x)).
Proof.
  intros Hx. unfold int_octets. pose proof (i64_bytes_bytes x) as Hb. pose proof (i64_bytes_len x) as Hl.
  pose proof (i64_bytes_twos x Hx) as Hv. cbv zeta. generalize dependent (i64_bytes x). intros l Hb Hl Hv.
  assert (Hn : l <> []) by (intros ->; discriminate).
  destruct (skip_zeros_spec l Hb Hn) as ((A1 & A2) & A3 & A4 & A5).
  destruct (skip_ones_spec l Hb Hn) as ((B1 & B2) & B3 & B4 & B5).
  assert (Hbd : forall k, bytes (zdrop k l)) by (intros; apply bytes_zdrop; auto).
  destruct (Z.eqb_spec (skip_zeros l) 0) as [Hz|Hz].
  - rewrite Hz in *. rewrite zdrop_0 in *. replace (0 + skip_ones l) with (skip_ones l) by lia.
    rewrite zlen_zdrop by lia. split; [auto|]. split; [lia|]. split; [lia|]. split; [|lia].
    destruct (Z.eqb_spec (skip_ones l) 0) as [Ho|Ho].
    + rewrite Ho in *. rewrite zdrop_0 in *. destruct l as [|a [|b l']]; cbn [no_redundant]; auto.
    + destruct B5 as [_ B5]; [lia|]. unfold no_redundant.
      destruct (zdrop (skip_ones l) l) as [|a [|b l']]; auto. cbn [hd] in B5. split; [lia|auto].
  - destruct A5 as [A5 A6]; [lia|].
    assert (Ho : skip_ones l = 0). { destruct (Z.eqb_spec (skip_ones l) 0); auto. destruct B5 as [B5 _]; lia. }
    rewrite Ho. replace (skip_zeros l + 0) with (skip_zeros l) by lia.
    rewrite zlen_zdrop by lia. split; [auto|]. split; [lia|]. split; [lia|]. split; [|lia].
    unfold no_redundant. destruct (zdrop (skip_zeros l) l) as [|a [|b l']]; auto. cbn [hd] in A6. split; [auto|lia].
Qed.
Lemma encode_integer_eq out x : in_i64 x ->
  encode_integer out x = if zlen out <? zlen (int_octets x) then (out, 0)
                         else (poke out 0 (int_octets x), zlen (int_octets x)).
Proof.
  intros Hx. destruct (int_octets_spec x Hx) as (_ & _ & _ & _ & Hl). unfold encode_integer. rewrite <- Hl. reflexivity.
Qed.

(** decode_integer *)
Lemma twos_pad_0 k b l : bytes (b :: l) -> b < 128 -> twos_value (repeat 0 k ++ b :: l) = twos_value (b :: l).
Proof.
  intros Hb Hl. induction k as [|k IH]; [reflexivity|]. cbn [repeat app].
  destruct k as [|k]; cbn [repeat app] in *; [apply twos_extend_0; auto|].
  rewrite twos_extend_0; [exact IH| |lia]. apply bytes_cons. split; [split; lia|]. apply bytes_app; split; auto.
  apply Forall_forall; intros y Hy; apply repeat_spec in Hy; subst; split; lia.
Qed.
Lemma twos_pad_1 k b l : bytes (b :: l) -> 128 <= b -> twos_value (repeat 255 k ++ b :: l) = twos_value (b :: l).
Proof.
  intros Hb Hl. induction k as [|k IH]; [reflexivity|]. cbn [repeat app].
  destruct k as [|k]; cbn [repeat app] in *; [apply twos_extend_1; auto|].
  rewrite twos_extend_1; [exact IH| |lia]. apply bytes_cons. split; [split; lia|]. apply bytes_app; split; auto.
  apply Forall_forall; intros y Hy; apply repeat_spec in Hy; subst; split; lia.
Qed.
Lemma decode_integer_eq l out0 : bytes l ->
  decode_integer l out0 = if (1 <=? zlen l) && (zlen l <=? 8) then (true, twos_value l) else (false, out0).
Proof.
  intros Hb. destruct l as [|b l]; [reflexivity|]. unfold decode_integer. pose proof (zlen_cons b l). pose proof (zlen_nonneg l).
  replace (1 <=? zlen (b :: l)) with true by lia. cbn [andb].
  destruct (Z.gtb_spec (zlen (b :: l)) 8); [replace (_ <=? 8) with false by lia; reflexivity|].
  replace (_ <=? 8) with true by lia. f_equal.
  assert (Hby : wf_byte b) by (apply bytes_cons in Hb; tauto). rewrite land_80 by auto.
  rewrite i64_of_bytes_twos.
  - unfold zrep. destruct (Z.ltb_spec b 128); cbn [negb]; [apply twos_pad_0 | apply twos_pad_1]; auto.
  - apply bytes_app; split; auto. apply Forall_forall; intros y Hy; apply repeat_spec in Hy; subst.
    destruct (negb _); split; lia.
  - rewrite zlen_app, zlen_zrep; lia.
Qed.
Lemma twos_in_i64 l : bytes l -> zlen l <= 8 -> in_i64 (twos_value l).
Proof.
  intros Hb Hl. destruct l as [|b l]; [cbn; unfold in_i64; lia|].
  pose proof (twos_range (b :: l) Hb ltac:(discriminate)) as Hr. unfold in_i64.
  assert (256 ^ zlen (b :: l) <= 256 ^ 8) by (apply Z.pow_le_mono_r; lia).
  change (256 ^ 8) with (2 * 2 ^ 63) in *. lia.
Qed.

(** * Integer objects *)
Lemma small_int_ok i : wf_ident i -> small_ok i int_max.
Proof.
  intros Hi. repeat split; auto; unfold int_max; [lia|]. destruct i as [|? ? ? it]; cbn [small_fits wf_ident] in *; [lia|].
  pose proof (ehl1_range it 0 ltac:(lia)). lia.
Qed.
Lemma int_init_rep i : wf_ident i -> exists d, int_init i = Ok d /\ small_rep i int_max d [0].
Proof.
  intros Hi. pose proof (small_int_ok i Hi) as Hok. unfold int_init.
  apply (small_assign_rep i int_max _ [] [0] Hok); [apply small_init_rep; auto|]. unfold int_max; cbn; lia.
Qed.
Lemma int_assign_rep i data y x : wf_ident i -> small_rep i int_max data y -> in_i64 x ->
  exists d, int_assign i data x = Ok d /\ small_rep i int_max d (int_octets x).
Proof.
  intros Hi Hr Hx. pose proof (small_int_ok i Hi) as Hok.
  destruct (small_rep_len _ _ _ _ Hok Hr) as [Hlen Hy]. pose proof (ehl_range i 0 Hi) as Hh. fold (small_hl i) in Hh.
  unfold int_max in *.
  destruct (int_octets_spec x Hx) as (Ob & Ol & Ov & Onr & _). pose proof (zlen_nonneg y).
  unfold int_assign. rewrite mem_read_ok by lia. cbn [bind]. rewrite encode_integer_eq by exact Hx.
  rewrite zlen_ztake by (rewrite zlen_zdrop; lia). replace (8 <? _) with false by lia.
  destruct Hr as (junk & -> & Hj). clear Hlen.
  assert (Hfy : small_fits i (zlen y)) by (destruct Hok as (_ & _ & Hf); apply (small_fits_le _ _ _ Hf); unfold int_max; lia).
  assert (Hfo : small_fits i (zlen (int_octets x))) by (destruct Hok as (_ & _ & Hf); apply (small_fits_le _ _ _ Hf); unfold int_max; lia).
  pose proof (hdr_of_small_len i (zlen y) Hi ltac:(lia) Hfy) as Hhl.
  rewrite zdrop_app_exact by lia. rewrite (ztake_all 8 (y ++ junk)) by (rewrite zlen_app; lia).
  set (room := poke (y ++ junk) 0 (int_octets x)).
  assert (Hroom : room = int_octets x ++ zdrop (zlen (int_octets x)) (y ++ junk)) by apply poke_0.
  assert (Hrl : zlen room = 8) by (unfold room; rewrite zlen_poke; rewrite ?zlen_app; lia).
  rewrite mem_write_ok by (rewrite ?zlen_app; lia). cbn [bind]. unfold poke at 1. rewrite ztake_app_exact by lia.
  rewrite zdrop_all by (rewrite !zlen_app; lia). rewrite app_nil_r. unfold small_resize.
  rewrite small_set_length_ok by first [exact Hi | exact Hfy | exact Hfo | lia]. eexists; split; [reflexivity|].
  exists (zdrop (zlen (int_octets x)) (y ++ junk)). rewrite Hroom. split; [reflexivity|].
  rewrite zlen_zdrop; rewrite zlen_app; lia.
Qed.
Lemma int_of_rep i x : wf_ident i -> in_i64 x -> exists d, int_of i x = Ok d /\ small_rep i int_max d (int_octets x).
Proof.
  intros Hi Hx. apply (int_assign_rep i _ []); auto. apply small_init_rep, small_int_ok; auto.
Qed.
Lemma int_value_rep i data x : wf_ident i -> small_rep i int_max data x -> bytes x ->
  int_value i data = Ok (twos_value x).
Proof.
  intros Hi Hr Hb. pose proof (small_int_ok i Hi) as Hok. destruct (small_rep_len _ _ _ _ Hok Hr) as [_ Hl].
  unfold int_value, int_max in *. rewrite (small_content_rep _ _ _ _ Hok Hr). cbn [bind].
  rewrite decode_integer_eq by auto. pose proof (zlen_nonneg x).
  destruct (Z.leb_spec 1 (zlen x)).
  - replace (_ && _) with true by lia. reflexivity.
  - assert (zlen x = 0) by lia. rewrite (zlen_0_nil x) by lia. reflexivity.
Qed.
