(** Property theorems C01-C06: identifier and length octets. *)
From Verif Require Import Base Ident Spec IdentProofs HeaderProofs.

(** C01.  Whatever length is written into a large enough buffer is read back, with the same number of octets, whatever
    precedes and follows; and the octets are X.690 length octets. *)
Theorem C01_length_octets_roundtrip : forall buf n,
  0 <= n < 2^64 -> 9 <= zlen buf ->
  let '(out, k) := encode_length buf n in
  1 <= k <= 9 /\ x690_length (ztake k out) n /\
  forall before after len0, extract_length (before ++ ztake k out ++ after) len0 (zlen before) = (k, n).
Proof.
  intros buf n Hn Hb. pose proof (ell_range n) as Hr. rewrite encode_length_ok by (auto; lia).
  assert (Hl : zlen (len_octets n) = encoded_length_length n) by apply len_octets_len.
  rewrite ztake_app_exact by lia. split; [lia|]. split; [apply len_octets_x690; auto|].
  intros. rewrite extract_length_drop by apply zlen_nonneg. rewrite zdrop_len_eq.
  rewrite (extract_length_x690 _ n) by (try apply len_octets_x690; auto; lia). rewrite Hl; reflexivity.
Qed.
(** C01, for any buffer: an encode that reports success (non-zero) is read back. *)
Theorem C01_length_octets_roundtrip_any_buffer : forall buf n out k,
  0 <= n < 2^64 -> encode_length buf n = (out, k) -> k <> 0 ->
  forall after len0, extract_length (ztake k out ++ after) len0 0 = (k, n).
Proof.
  intros buf n out k Hn E Hk after len0.
  destruct (Z.leb_spec (encoded_length_length n) (zlen buf)) as [Hle|Hlt].
  - rewrite encode_length_ok in E by auto. inversion E; subst.
    rewrite ztake_app_exact by (rewrite len_octets_len; reflexivity).
    rewrite (extract_length_x690 _ n) by (try apply len_octets_x690; auto; rewrite len_octets_len; apply ell_range).
    rewrite len_octets_len; reflexivity.
  - rewrite encode_length_fail in E by auto. congruence.
Qed.
Example C01_example : encode_length [1;2;3;4] 1000 = ([130;3;232;4], 3)
                      /\ extract_length ([130;3;232] ++ [7;7]) 55 0 = (3, 1000).
Proof. split; reflexivity. Qed.

(** C02.  Class, construction and tag written into a large enough buffer are read back. *)
Theorem C02_identifier_roundtrip : forall buf con c t,
  0 <= t < 2^63 -> 10 <= zlen buf ->
  let '(out, k) := encode_identifier buf con c t in
  1 <= k <= 10 /\ x690_ident_strict (ztake k out) c con t /\
  forall after tag0,
    extract_class (ztake k out ++ after) = Some c /\
    extract_construction (ztake k out ++ after) = Some con /\
    extract_tag (ztake k out ++ after) tag0 = Ok (k, t) /\
    extract_tag_length (ztake k out ++ after) = k.
Proof.
  intros buf con c t Ht Hb. pose proof (etl_range t ltac:(lia)) as Hr.
  rewrite encode_identifier_ok by (auto; lia).
  assert (Hl : zlen (id_octets c con t) = encoded_tag_length t) by (apply id_octets_len; auto).
  rewrite ztake_app_exact by lia. split; [lia|]. pose proof (id_octets_x690 c con t Ht) as HX.
  split; [exact HX|]. destruct HX as [HX _]. intros.
  assert (E : extract_tag (id_octets c con t ++ after) tag0 = Ok (encoded_tag_length t, t))
    by (rewrite <- Hl; eapply extract_tag_x690; eauto; lia).
  repeat split; [eapply extract_class_x690; eauto | eapply extract_construction_x690; eauto | exact E
    | eapply extract_tag_len_eq; eauto].
Qed.
Theorem C02_identifier_roundtrip_any_buffer : forall buf con c t out k,
  0 <= t < 2^63 -> encode_identifier buf con c t = (out, k) -> k <> 0 ->
  forall after tag0,
    extract_class (ztake k out ++ after) = Some c /\
    extract_construction (ztake k out ++ after) = Some con /\
    extract_tag (ztake k out ++ after) tag0 = Ok (k, t).
Proof.
  intros buf con c t out k Ht E Hk after tag0.
  destruct (Z.leb_spec (encoded_tag_length t) (zlen buf)) as [Hle|Hlt].
  - rewrite encode_identifier_ok in E by auto. inversion E; subst.
    assert (Hl : zlen (id_octets c con t) = encoded_tag_length t) by (apply id_octets_len; auto).
    rewrite ztake_app_exact by lia. pose proof (id_octets_x690 c con t Ht) as [HX _].
    repeat split; [eapply extract_class_x690; eauto | eapply extract_construction_x690; eauto |].
    rewrite <- Hl; eapply extract_tag_x690; eauto; lia.
  - destruct (encode_identifier_fail buf con c t Ht Hlt) as (o & E2 & _). congruence.
Qed.
Example C02_example : encode_identifier [0;0;0;0] constructed private_ 1000 = ([255;135;104;0], 3)
                      /\ extract_tag ([255;135;104] ++ [9]) 3 = Ok (3, 1000).
Proof. split; reflexivity. Qed.

(** C03.  The predicted sizes are the sizes written. *)
Theorem C03_predicted_tag_length : forall buf con c t,
  0 <= t < 2^63 -> encoded_tag_length t <= zlen buf ->
  snd (encode_identifier buf con c t) = encoded_tag_length t.
Proof. intros; rewrite encode_identifier_ok by auto; reflexivity. Qed.
Theorem C03_predicted_length_length : forall buf n,
  0 <= n < 2^64 -> encoded_length_length n <= zlen buf -> snd (encode_length buf n) = encoded_length_length n.
Proof. intros; rewrite encode_length_ok by auto; reflexivity. Qed.
(** The header of any identifier (one or two tags) for a content of [n] octets: a header of exactly the predicted
    size, which is the concatenation of X.690 identifier and length octets, and the reported total. *)
Theorem C03_predicted_header_length : forall buf n i con,
  wf_ident i -> 0 <= n < 2^63 -> encoded_header_length n i + n <= zlen buf ->
  let r := encode_header buf n i con in
  er_ok r = true /\ er_len r = encoded_header_length n i + n /\ encoded_length n i = er_len r /\
  (forall k, encoded_header_length n i <= k -> zdrop k (er_buf r) = zdrop k buf) /\
  match i with
  | Id c t => exists ids ls, ztake (encoded_header_length n i) (er_buf r) = ids ++ ls /\
      x690_ident_strict ids c con t /\ x690_length ls n
  | DoubleId oc ot ic it => exists ids1 ls1 ids2 ls2,
      ztake (encoded_header_length n i) (er_buf r) = (ids1 ++ ls1) ++ (ids2 ++ ls2) /\
      x690_ident_strict ids1 oc constructed ot /\ x690_length ls1 (zlen (ids2 ++ ls2) + n) /\
      x690_ident_strict ids2 ic con it /\ x690_length ls2 n
  end.
Proof.
  intros buf n i con Hi Hn Hb. pose proof (ehl_range i n Hi) as Hr. cbn zeta.
  rewrite encode_header_ok; auto; [|destruct i; cbn [header_room]; lia]. cbn [er_ok er_len er_buf].
  rewrite encoded_length_nowrap by auto.
  assert (Hl : zlen (hdr_of i n con) = encoded_header_length n i) by (apply hdr_of_len; auto).
  repeat split; auto.
  - intros k Hk. rewrite zdrop_app_ge by lia. rewrite zdrop_zdrop by lia. f_equal. lia.
  - rewrite ztake_app_exact by lia. destruct i as [c t|oc ot ic it]; cbn [hdr_of wf_ident] in *.
    + exists (id_octets c con t), (len_octets n). split; [reflexivity|].
      split; [apply id_octets_x690; lia | apply len_octets_x690; unfold in_u64; lia].
    + exists (id_octets oc constructed ot), (len_octets (encoded_header_length1 it n + n)),
             (id_octets ic con it), (len_octets n). unfold hdr.
      pose proof (ehl1_range it n ltac:(lia)).
      replace (zlen (id_octets ic con it ++ len_octets n)) with (encoded_header_length1 it n)
        by (symmetry; apply hdr_len; lia).
      split; [reflexivity|].
      split; [apply id_octets_x690; lia|]. split; [apply len_octets_x690; unfold in_u64; lia|].
      split; [apply id_octets_x690; lia | apply len_octets_x690; unfold in_u64; lia].
Qed.
Example C03_example :
  encode_header (zrep 300 7) 200 (DoubleId context_specific 3 universal 4) primitive
  = EncResult ([0xA3; 0x81; 203; 4; 0x81; 200] ++ zrep 294 7) true 206.
Proof. reflexivity. Qed.

(** C04.  Exactly when do the encoders fail, and what do they touch? *)
Theorem C04_encode_length_bounds : forall buf n,
  0 <= n < 2^64 ->
  let '(out, k) := encode_length buf n in
  zlen out = zlen buf /\
  (k = 0 <-> zlen buf < encoded_length_length n) /\
  (k = 0 -> out = buf) /\
  (k <> 0 -> zdrop k out = zdrop k buf).
Proof.
  intros buf n Hn. pose proof (ell_range n) as Hr.
  destruct (Z.leb_spec (encoded_length_length n) (zlen buf)) as [Hle|Hlt].
  - rewrite encode_length_ok by auto.
    pose proof (len_octets_len n) as Hl.
    rewrite zlen_app, zlen_zdrop, zdrop_app_exact by lia. intuition lia.
  - rewrite encode_length_fail by auto. intuition lia.
Qed.
Theorem C04_encode_identifier_bounds : forall buf con c t,
  t < 2^63 ->
  let '(out, k) := encode_identifier buf con c t in
  zlen out = zlen buf /\
  (k = 0 <-> t < 0 \/ zlen buf < encoded_tag_length t) /\
  (k <> 0 -> zdrop k out = zdrop k buf).
Proof.
  intros buf con c t Ht.
  destruct (Z.ltb_spec t 0) as [Hneg|Hpos].
  - destruct (encode_identifier_neg buf con c t Hneg) as (o & E & Hl). rewrite E. intuition lia.
  - pose proof (etl_range t Hpos) as Hr.
    destruct (Z.leb_spec (encoded_tag_length t) (zlen buf)) as [Hle|Hlt].
    + rewrite encode_identifier_ok by auto.
      pose proof (id_octets_len c con t ltac:(lia)) as Hl.
      rewrite zlen_app, zlen_zdrop, zdrop_app_exact by lia. intuition lia.
    + destruct (encode_identifier_fail buf con c t) as (o & E & Hl); auto. rewrite E. intuition lia.
Qed.
(** encode_header(span, construction, class, tag, length): fails exactly when the octets do not fit. *)
Theorem C04_encode_header_bounds : forall buf con c t n,
  t < 2^63 -> 0 <= n < 2^64 ->
  let '(out, k) := encode_header_raw buf con c t n in
  zlen out = zlen buf /\
  (k = 0 <-> t < 0 \/ zlen buf < encoded_tag_length t + encoded_length_length n) /\
  (k <> 0 -> k = encoded_tag_length t + encoded_length_length n /\ zdrop k out = zdrop k buf).
Proof.
  intros buf con c t n Ht Hn.
  assert (Hd : encoded_header_length1 t n = encoded_tag_length t + encoded_length_length n) by reflexivity.
  destruct (Z.ltb_spec t 0) as [Hneg|Hpos].
  - destruct (encode_header_raw_fail buf con c t n) as (o & E & Hl); auto. rewrite E. intuition lia.
  - pose proof (ehl1_range t n Hpos) as Hr.
    destruct (Z.leb_spec (encoded_header_length1 t n) (zlen buf)) as [Hle|Hlt].
    + rewrite encode_header_raw_ok by (auto; lia).
      pose proof (hdr_len c con t n ltac:(lia)) as Hl.
      rewrite zlen_app, zlen_zdrop, zdrop_app_exact by lia. intuition lia.
    + destruct (encode_header_raw_fail buf con c t n) as (o & E & Hl); auto. rewrite E. intuition lia.
Qed.
(** encode_header for one- and two-tag identifiers.  (With a single tag only the header has to fit; with two tags the
    code also checks the room for the content.) *)
Theorem C04_encode_header_id_bounds : forall buf n i con,
  wf_ident i -> 0 <= n < 2^63 ->
  let r := encode_header buf n i con in
  let room := match i with Id _ _ => 0 | DoubleId _ _ _ _ => n end in
  zlen (er_buf r) = zlen buf /\
  (er_ok r = true <-> encoded_header_length n i + room <= zlen buf) /\
  (er_ok r = false -> er_len r = 0) /\
  (er_ok r = true -> zdrop (encoded_header_length n i) (er_buf r) = zdrop (encoded_header_length n i) buf).
Proof.
  intros buf n i con Hi Hn. cbn zeta. pose proof (ehl_range i n Hi) as Hr.
  destruct (Z.leb_spec (header_room i n) (zlen buf)) as [Hle|Hlt].
  - rewrite encode_header_ok by auto. cbn [er_ok er_len er_buf].
    pose proof (hdr_of_len i n con Hi Hn) as Hl.
    rewrite zlen_app, zlen_zdrop, zdrop_app_exact by (destruct i; cbn [header_room] in *; lia).
    destruct i; cbn [header_room] in *; intuition (try lia; congruence).
  - destruct (encode_header_fail buf n i con Hi Hn Hlt) as (o & E & Hl). rewrite E. cbn [er_ok er_len er_buf].
    destruct i; cbn [header_room] in *; intuition (try lia; congruence).
Qed.
Example C04_example : encode_header_raw [1;2;3] primitive universal 1000 5 = ([31;135;104], 0)
  /\ encode_length [] 5 = ([], 0) /\ encode_header_raw [9;9;9] primitive universal (-4) 5 = ([5;9;9], 0).
Proof. repeat split. Qed.

(** C05.  Any octets that are read as this length (tag) are at least as many as the encoder writes. *)
Theorem C05_length_octets_shortest : forall input len0 k n buf,
  bytes input -> extract_length input len0 0 = (k, n) -> k <> 0 -> snd (encode_length buf n) <= k.
Proof.
  intros input len0 k n buf Hb E Hk.
  destruct (extract_length_inv input len0 k n Hb E Hk) as (oct & rest & -> & HX & Hl & Hr).
  assert (Hn : in_u64 n).
  { split; [eapply x690_length_nonneg; eauto|]. destruct HX as [|ds Hds Hd]; [lia|].
    rewrite zlen_cons in Hl. pose proof (be_value_bound ds Hds).
    assert (256 ^ zlen ds <= 256 ^ 8) by (apply Z.pow_le_mono_r; lia). change (256^8) with (2^64) in *. lia. }
  pose proof (x690_length_min _ _ HX ltac:(lia)).
  destruct (Z.leb_spec (encoded_length_length n) (zlen buf)).
  - rewrite encode_length_ok by auto. cbn; lia.
  - rewrite encode_length_fail by auto. cbn; lia.
Qed.
Theorem C05_tag_octets_shortest : forall input tag0 k t buf con c,
  bytes input -> extract_tag input tag0 = Ok (k, t) -> k <> 0 -> snd (encode_identifier buf con c t) <= k.
Proof.
  intros input tag0 k t buf con c Hb E Hk.
  destruct (extract_tag_inv input tag0 k t Hb E Hk) as (oct & rest & c' & con' & -> & HX & Hl & Ht & _).
  pose proof (x690_ident_min _ _ _ _ HX ltac:(lia)). pose proof (x690_ident_len _ _ _ _ HX).
  destruct (Z.leb_spec (encoded_tag_length t) (zlen buf)).
  - rewrite encode_identifier_ok by auto. cbn; lia.
  - destruct (encode_identifier_fail buf con c t) as (o & E2 & _); auto. rewrite E2. cbn; lia.
Qed.
Example C05_example : extract_length [131;0;3;232] 0 0 = (4, 1000) /\ snd (encode_length (zrep 9 0) 1000) = 3.
Proof. split; reflexivity. Qed.

(** C06.  Two successfully encoded headers, followed by anything, are equal only if they encode the same thing. *)
Theorem C06_headers_self_delimiting : forall b1 b2 con1 con2 c1 c2 t1 t2 n1 n2 o1 o2 k1 k2 rest1 rest2,
  0 <= t1 < 2^63 -> 0 <= t2 < 2^63 -> 0 <= n1 < 2^64 -> 0 <= n2 < 2^64 ->
  encode_header_raw b1 con1 c1 t1 n1 = (o1, k1) -> k1 <> 0 ->
  encode_header_raw b2 con2 c2 t2 n2 = (o2, k2) -> k2 <> 0 ->
  ztake k1 o1 ++ rest1 = ztake k2 o2 ++ rest2 ->
  c1 = c2 /\ con1 = con2 /\ t1 = t2 /\ n1 = n2 /\ k1 = k2 /\ rest1 = rest2.
Proof.
  assert (Hraw : forall b con c t n o k, 0 <= t < 2^63 -> 0 <= n < 2^64 -> encode_header_raw b con c t n = (o, k) ->
     k <> 0 -> ztake k o = hdr c con t n /\ k = zlen (hdr c con t n)).
  { intros b con c t n o k Ht Hn E Hk.
    destruct (Z.leb_spec (encoded_header_length1 t n) (zlen b)).
    - rewrite encode_header_raw_ok in E by auto. inversion E; subst.
      pose proof (hdr_len c con t n Ht). rewrite ztake_app_exact by lia. auto.
    - destruct (encode_header_raw_fail b con c t n) as (o' & E2 & _); auto; [lia|congruence]. }
  intros * Ht1 Ht2 Hn1 Hn2 E1 Hk1 E2 Hk2 E.
  apply Hraw in E1; auto. apply Hraw in E2; auto. destruct E1 as [E1 Hz1], E2 as [E2 Hz2].
  rewrite E1, E2 in E. unfold hdr in E. rewrite <- !app_assoc in E.
  destruct (x690_ident_det _ _ _ _ _ _ _ _ _ _ (proj1 (id_octets_x690 c1 con1 t1 Ht1)) (proj1 (id_octets_x690 c2 con2 t2 Ht2)) E)
    as (_ & -> & -> & -> & E').
  destruct (x690_length_det _ _ _ _ _ _ (len_octets_x690 n1 Hn1) (len_octets_x690 n2 Hn2) E') as (_ & -> & ->).
  subst; auto 10.
Qed.
Example C06_example : exists o1 o2, encode_header_raw (zrep 4 0) primitive universal 4 5 = (o1, 2) /\
   encode_header_raw (zrep 9 1) primitive universal 4 5 = (o2, 2) /\ ztake 2 o1 ++ [1] = ztake 2 o2 ++ [1].
Proof. do 2 eexists. repeat split. Qed.

Print Assumptions C01_length_octets_roundtrip.
Print Assumptions C02_identifier_roundtrip.
Print Assumptions C03_predicted_header_length.
Print Assumptions C04_encode_header_id_bounds.
Print Assumptions C05_tag_octets_shortest.
Print Assumptions C06_headers_self_delimiting.
