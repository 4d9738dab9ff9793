(** Lemmas about the header model (Ident.v). *)
From Verif Require Import Base Ident Spec.
Ltac Zify.zify_post_hook ::= Z.div_mod_to_equations.

(** * Bit operations on bytes *)
Ltac sweep H f d := assert (H : f d = true)
  by (refine (byte_sweep f _ d _);
      [ repeat match goal with c : class |- _ => destruct c | c : construction |- _ => destruct c end;
        vm_compute; reflexivity | unfold wf_byte; lia ]); cbn beta in H.

Lemma land_80 b : wf_byte b -> (Z.land b 0x80 =? 0) = (b <? 128).
Proof.
  intros Hb.
  assert (H : Bool.eqb (Z.land b 0x80 =? 0) (b <? 128) = true).
  { revert b Hb. apply byte_sweep. vm_compute. reflexivity. }
  apply Bool.eqb_prop in H. exact H.
Qed.
Lemma land_7F b : Z.land b 0x7F = b mod 128.
Proof. change 0x7F with (Z.ones 7). rewrite Z.land_ones by lia. reflexivity. Qed.
Lemma land_1F b : Z.land b 0x1F = b mod 32.
Proof. change 0x1F with (Z.ones 5). rewrite Z.land_ones by lia. reflexivity. Qed.
Lemma land_FF b : Z.land b 0xFF = b mod 256.
Proof. change 0xFF with (Z.ones 8). rewrite Z.land_ones by lia. reflexivity. Qed.
Lemma byte_at_spec n k : 0 <= k -> byte_at n k = (n / 2^k) mod 256.
Proof. intros; unfold byte_at; rewrite land_FF, Z.shiftr_div_pow2 by lia; reflexivity. Qed.
Lemma wf_byte_at n k : wf_byte (byte_at n k).
Proof. unfold byte_at, wf_byte; rewrite land_FF; apply Z.mod_pos_bound; lia. Qed.
Lemma lor_80 d : 0 <= d < 128 -> Z.lor d 0x80 = d + 128.
Proof.
  intros Hd. sweep H (fun d => if d <? 128 then Z.lor d 0x80 =? d + 128 else true) d. destruct (Z.ltb_spec d 128); lia.
Qed.
Lemma u8_small x : 0 <= x < 256 -> u8 x = x.
Proof. intros; unfold u8; apply Z.mod_small; lia. Qed.
Lemma u64_small x : 0 <= x < 2^64 -> u64 x = x.
Proof. intros; unfold u64; apply Z.mod_small; lia. Qed.

Definition lead (c : class) (con : construction) : Z := class_num c * 64 + construction_num con * 32.
Lemma lead_spec c con : add_class (add_construction 0 con) c = lead c con.
Proof. destruct c, con; reflexivity. Qed.
Lemma lead_range c con : 0 <= lead c con <= 224 /\ lead c con mod 32 = 0.
Proof. destruct c, con; vm_compute; intuition congruence. Qed.
Lemma short_tag_spec c con t : 0 <= t <= 30 -> add_short_tag (lead c con) t = lead c con + t.
Proof.
  intros Ht.
  sweep H (fun t => if t <=? 30 then add_short_tag (lead c con) t =? lead c con + t else true) t. destruct (Z.leb_spec t 30); lia.
Qed.
Lemma long_lead_spec c con : Z.lor (lead c con) 0x1F = lead c con + 31.
Proof. destruct c, con; reflexivity. Qed.
Lemma get_class_lead c con t : 0 <= t <= 31 -> get_class (lead c con + t) = c.
Proof.
  intros Ht.
  sweep H (fun t => if t <=? 31 then class_eqb (get_class (lead c con + t)) c else true) t. destruct (Z.leb_spec t 31); [|lia].
  destruct (get_class _), c; cbn in H; congruence.
Qed.
Lemma get_construction_lead c con t : 0 <= t <= 31 -> get_construction (lead c con + t) = con.
Proof.
  intros Ht.
  sweep H (fun t => if t <=? 31 then construction_eqb (get_construction (lead c con + t)) con else true) t. destruct (Z.leb_spec t 31); [|lia].
  destruct (get_construction _), con; cbn in H; congruence.
Qed.
Lemma lead_low_bits c con t : 0 <= t <= 31 -> Z.land (lead c con + t) 0x1F = t.
Proof. intros; rewrite land_1F. pose proof (lead_range c con). lia. Qed.
Lemma class_eqb_eq a b : class_eqb a b = true <-> a = b.
Proof. destruct a, b; cbn; intuition congruence. Qed.
Lemma class_eqb_refl a : class_eqb a a = true. Proof. destruct a; reflexivity. Qed.
Lemma construction_eqb_refl a : construction_eqb a a = true. Proof. destruct a; reflexivity. Qed.
Lemma construction_eqb_eq a b : construction_eqb a b = true <-> a = b.
Proof. destruct a, b; cbn; intuition congruence. Qed.
(** every byte is a lead octet plus its low five bits *)
Lemma byte_decompose b : wf_byte b -> b = lead (get_class b) (get_construction b) + b mod 32.
Proof.
  intros Hb. unfold wf_byte in Hb.
  sweep H (fun b => b =? lead (get_class b) (get_construction b) + b mod 32) b. lia.
Qed.

(** * Positional values *)
Lemma be_value_snoc l b : be_value (l ++ [b]) = be_value l * 256 + b.
Proof. unfold be_value; rewrite fold_left_app; reflexivity. Qed.
Lemma be_fold_app l a : fold_left (fun a b => a * 256 + b) l a = a * 256 ^ zlen l + be_value l.
Proof.
  revert a; induction l as [|b l IH] using rev_ind; intros a.
  - cbn. lia.
  - rewrite fold_left_app, be_value_snoc; cbn [fold_left]. rewrite IH, zlen_app, zlen_cons, zlen_nil.
    pose proof (zlen_nonneg l). replace (zlen l + (1 + 0)) with (Z.succ (zlen l)) by lia.
    rewrite Z.pow_succ_r by lia. ring.
Qed.
Lemma be_value_cons b l : be_value (b :: l) = b * 256 ^ zlen l + be_value l.
Proof. unfold be_value at 1; cbn [fold_left]. rewrite be_fold_app. f_equal. Qed.
Lemma be_value_app l m : be_value (l ++ m) = be_value l * 256 ^ zlen m + be_value m.
Proof. unfold be_value at 1; rewrite fold_left_app. rewrite be_fold_app. reflexivity. Qed.
Lemma be_value_bound l : bytes l -> 0 <= be_value l < 256 ^ zlen l.
Proof.
  induction l as [|b l IH]; intros H; [cbn; lia|].
  apply bytes_cons in H; destruct H as [[Hb Hb'] Hl]; specialize (IH Hl).
  rewrite be_value_cons, zlen_cons. pose proof (zlen_nonneg l).
  rewrite Z.pow_add_r by lia. nia.
Qed.

(** * Length octets *)
Definition nlen (n : Z) : Z := encoded_length_length n - 1.
Fixpoint be_digits (k : nat) (v : Z) : list Z :=
  match k with O => [] | S k => byte_at v (8 * Z.of_nat k) :: be_digits k v end.
Definition len_octets (n : Z) : list Z :=
  if n <? 128 then [n] else (128 + nlen n) :: be_digits (Z.to_nat (nlen n)) n.

Lemma be_digits_bytes k v : bytes (be_digits k v).
Proof. induction k; cbn; constructor; auto using wf_byte_at. Qed.
Lemma be_digits_len k v : zlen (be_digits k v) = Z.of_nat k.
Proof. induction k; [reflexivity|]. cbn [be_digits]. rewrite zlen_cons, IHk. lia. Qed.
Lemma be_digits_value k v : 0 <= v -> be_value (be_digits k v) = v mod 256 ^ (Z.of_nat k).
Proof.
  intros Hv; induction k as [|k IH].
  - cbn. rewrite Z.mod_1_r. reflexivity.
  - cbn [be_digits]. rewrite be_value_cons, IH, be_digits_len, byte_at_spec by lia.
    rewrite Nat2Z.inj_succ, Z.pow_succ_r by lia.
    replace (2 ^ (8 * Z.of_nat k)) with (256 ^ Z.of_nat k) by (rewrite Z.pow_mul_r by lia; reflexivity).
    assert (0 < 256 ^ Z.of_nat k) by (apply Z.pow_pos_nonneg; lia).
    rewrite (Z.mul_comm 256), Z.rem_mul_r by lia. ring.
Qed.

Lemma nlen_bounds n : 128 <= n < 2^64 -> 1 <= nlen n <= 8 /\ n < 256 ^ nlen n /\ (n >= 256 -> 256 ^ (nlen n - 1) <= n).
Proof.
  intros Hn; unfold nlen, encoded_length_length.
  repeat match goal with |- context [if ?c then _ else _] => destruct c eqn:? end;
  match goal with |- context [256 ^ ?e] => let v := eval vm_compute in e in idtac end;
  repeat match goal with |- context [256 ^ ?e] => let v := eval vm_compute in (256 ^ e) in change (256 ^ e) with v end;
  lia.
Qed.
Lemma ell_range n : 1 <= encoded_length_length n <= 9.
Proof.
  unfold encoded_length_length.
  repeat match goal with |- context [if ?c then _ else _] => destruct c eqn:? end; lia.
Qed.
Lemma ell_short n : n < 128 -> encoded_length_length n = 1.
Proof. unfold encoded_length_length; intros. destruct (n <? 0x80) eqn:?; lia. Qed.
Lemma ell_long n : 128 <= n -> 2 <= encoded_length_length n.
Proof.
  unfold encoded_length_length; intros.
  repeat match goal with |- context [if ?c then _ else _] => destruct c eqn:? end; lia.
Qed.
Lemma ell_mono m n : m <= n -> encoded_length_length m <= encoded_length_length n.
Proof.
  unfold encoded_length_length; intros.
  repeat match goal with |- context [if ?c then _ else _] => destruct c eqn:? end; lia.
Qed.
Lemma len_octets_len n : zlen (len_octets n) = encoded_length_length n.
Proof.
  unfold len_octets. destruct (Z.ltb_spec n 128).
  - rewrite ell_short by lia. reflexivity.
  - rewrite zlen_cons, be_digits_len. unfold nlen. pose proof (ell_long n). lia.
Qed.
Lemma len_octets_bytes n : 0 <= n -> bytes (len_octets n).
Proof.
  intros; unfold len_octets. destruct (Z.ltb_spec n 128).
  - constructor; [split; lia | constructor].
  - constructor; [|apply be_digits_bytes]. unfold wf_byte, nlen. pose proof (ell_range n). lia.
Qed.
Lemma len_octets_x690 n : in_u64 n -> x690_length (len_octets n) n.
Proof.
  intros Hn; unfold in_u64 in Hn; unfold len_octets. destruct (Z.ltb_spec n 128).
  - constructor; lia.
  - pose proof (nlen_bounds n ltac:(lia)) as (Hk & Hub & _).
    pose proof (be_digits_len (Z.to_nat (nlen n)) n) as Hl.
    pose proof (be_digits_value (Z.to_nat (nlen n)) n ltac:(lia)) as Hv.
    rewrite Z2Nat.id in * by lia. rewrite Z.mod_small in Hv by lia.
    pose proof (x690_long (be_digits (Z.to_nat (nlen n)) n) (be_digits_bytes _ _) ltac:(lia)) as HX.
    rewrite Hv, Hl in HX. exact HX.
Qed.

Lemma put_len bs out : zlen bs <= zlen out -> zlen (put bs out) = zlen out.
Proof. intros; unfold put; rewrite zlen_app, zlen_zdrop; pose proof (zlen_nonneg bs); lia. Qed.

Lemma encode_length_ok out n :
  in_u64 n -> encoded_length_length n <= zlen out ->
  encode_length out n = (len_octets n ++ zdrop (encoded_length_length n) out, encoded_length_length n).
Proof.
  intros Hn Hl; unfold in_u64 in Hn; unfold encode_length, len_octets, nlen.
  unfold encoded_length_length in *.
  destruct (n <? 0x80) eqn:E0.
  { replace (zlen out >? 0) with true by lia. cbn [andb]. unfold put. do 2 f_equal.
    change (byte_at n 0 = n) || idtac. rewrite byte_at_spec by lia. change (2^0) with 1. cbn [app]. f_equal. lia. }
  repeat match goal with
  | |- context [if (n <=? ?c) then _ else _] => destruct (n <=? c) eqn:?
  end;
  repeat match goal with
  | |- context [?a && (zlen out >? ?k)] =>
      first [ replace (zlen out >? k) with true by lia | replace a with false by lia ]
  end; cbn [andb];
  try (replace (zlen out >? 8) with true by lia); reflexivity.
Qed.
Lemma encode_length_fail out n :
  in_u64 n -> zlen out < encoded_length_length n -> encode_length out n = (out, 0).
Proof.
  intros Hn Hl; unfold in_u64 in Hn; unfold encode_length. pose proof (zlen_nonneg out).
  unfold encoded_length_length in *.
  repeat match goal with
  | H : context [if ?c then _ else _] |- _ => destruct c eqn:?
  end;
  repeat match goal with
  | |- context [?a && (zlen out >? ?k)] => replace (a && (zlen out >? k)) with false by lia
  end;
  replace (zlen out >? 8) with false by lia; reflexivity.
Qed.

Lemma accumulate_length_spec l : bytes l -> zlen l <= 8 -> accumulate_length l = be_value l.
Proof.
  unfold accumulate_length. induction l as [|b l IH] using rev_ind; intros Hb Hl; [reflexivity|].
  rewrite fold_left_app, be_value_snoc; cbn [fold_left].
  apply bytes_app in Hb; destruct Hb as [Hl' Hb]. rewrite zlen_app, zlen_cons, zlen_nil in Hl.
  rewrite IH by (auto; lia). apply bytes_cons in Hb; destruct Hb as [[? ?] _].
  pose proof (be_value_bound l Hl') as Hbd. pose proof (zlen_nonneg l).
  assert (256 ^ zlen l <= 256 ^ 7) by (apply Z.pow_le_mono_r; lia).
  change (256 ^ 7) with 72057594037927936 in *.
  rewrite !u64_small; change (2^64) with 18446744073709551616; rewrite ?u64_small; try lia;
  change (2^64) with 18446744073709551616; lia.
Qed.

(** Reading a length field written anywhere in a buffer. *)
Lemma extract_length_x690 octets n rest l0 :
  x690_length octets n -> zlen octets <= 9 -> extract_length (octets ++ rest) l0 0 = (zlen octets, n).
Proof.
  intros H Hl; unfold extract_length; rewrite zdrop_0; destruct H as [n Hn | ds Hds Hk].
  - cbn [app]. rewrite land_80 by (split; lia). replace (n <? 128) with true by lia. reflexivity.
  - cbn [app]. rewrite zlen_cons in Hl. rewrite land_80 by (split; lia).
    replace (128 + zlen ds <? 128) with false by lia. rewrite land_7F.
    replace ((128 + zlen ds) mod 128) with (zlen ds) by lia.
    replace (_ || _ || _) with false by (rewrite !zlen_cons, zlen_app; pose proof (zlen_nonneg rest); lia).
    rewrite ztake_len_eq, accumulate_length_spec by (auto; lia). rewrite zlen_cons. f_equal; lia.
Qed.
Lemma extract_length_drop input l0 k : 0 <= k -> extract_length input l0 k = extract_length (zdrop k input) l0 0.
Proof. intros; unfold extract_length; rewrite zdrop_0; reflexivity. Qed.

(** Conversely, whatever extract_length accepts is a length field of at most nine octets. *)
Lemma extract_length_inv input l0 k n :
  bytes input -> extract_length input l0 0 = (k, n) -> k <> 0 ->
  exists octets rest, input = octets ++ rest /\ x690_length octets n /\ zlen octets = k /\ 1 <= k <= 9.
Proof.
  intros Hb H Hk; unfold extract_length in H; rewrite zdrop_0 in H.
  destruct input as [|b0 rest]; [inversion H; lia|].
  apply bytes_cons in Hb; destruct Hb as [Hb0 Hrest].
  rewrite land_80 in H by auto.
  destruct (Z.ltb_spec b0 128) as [Hlt|Hge].
  - inversion H; subst. exists [n], rest. unfold wf_byte in Hb0. repeat split; try lia. constructor; lia.
  - rewrite land_7F in H. unfold wf_byte in Hb0.
    destruct (_ || _ || _) eqn:E; [inversion H; lia|].
    rewrite zlen_cons in E.
    inversion H as [[H1 H2]]; subst k n; clear H.
    set (m := b0 mod 128) in *. assert (Hm : 1 <= m <= 8 /\ m <= zlen rest) by lia.
    exists (b0 :: ztake m rest), (zdrop m rest). cbn [app]. rewrite ztake_zdrop.
    rewrite zlen_cons, zlen_ztake by lia. repeat split; try lia.
    replace b0 with (128 + zlen (ztake m rest)) by (rewrite zlen_ztake; unfold m; lia).
    rewrite accumulate_length_spec by (rewrite ?zlen_ztake; auto using bytes_ztake; lia).
    apply x690_long; [auto using bytes_ztake | rewrite zlen_ztake; lia].
Qed.
Lemma x690_length_nonneg l n : x690_length l n -> 0 <= n.
Proof. destruct 1 as [|ds Hds]; [lia|]. apply be_value_bound in Hds. lia. Qed.
Lemma x690_length_min l n : x690_length l n -> zlen l <= 9 -> encoded_length_length n <= zlen l.
Proof.
  destruct 1 as [n Hn|ds Hds Hk]; intros Hl.
  - rewrite ell_short by lia. cbn. lia.
  - rewrite zlen_cons in *. pose proof (be_value_bound ds Hds) as Hb.
    assert (zlen ds = 1 \/ zlen ds = 2 \/ zlen ds = 3 \/ zlen ds = 4 \/ zlen ds = 5 \/ zlen ds = 6 \/ zlen ds = 7
            \/ zlen ds = 8) as Hc by lia.
    repeat (destruct Hc as [Hc|Hc]; [rewrite Hc in *; match goal with H : _ <= _ < 256 ^ ?e |- _ =>
      let v := eval vm_compute in (256 ^ e) in change (256 ^ e) with v in H end;
      unfold encoded_length_length; repeat match goal with |- context [if ?c then _ else _] => destruct c eqn:? end; lia |]).
    rewrite Hc in *. match goal with H : _ <= _ < 256 ^ ?e |- _ =>
      let v := eval vm_compute in (256 ^ e) in change (256 ^ e) with v in H end;
      unfold encoded_length_length; repeat match goal with |- context [if ?c then _ else _] => destruct c eqn:? end; lia.
Qed.
