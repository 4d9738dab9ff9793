(** Property theorems C07-C13 and C67: views and iteration. *)
From Verif Require Import Base Ident Spec IdentProofs HeaderProofs View ViewProofs.

(** C07, refuted: the ten octets 04 88 FF FF FF FF FF FF FF FF form a view that reports is_valid(), but whose
    content (2^64-1 octets) lies outside the span: the size_t addition wraps. *)
Theorem C07_valid_view_in_bounds_refuted :
  exists input v, bytes input /\ zlen input = 10 /\ v_make input = Ok v /\ is_valid v = true /\
    v_hl v + v_cl v > zlen input /\ v_content v = UB.
Proof.
  exists [4; 0x88; 255; 255; 255; 255; 255; 255; 255; 255]. eexists.
  split; [bytes_lit|]. split; [reflexivity|]. split; [vm_compute; reflexivity|].
  split; [reflexivity|]. split; [vm_compute; reflexivity | vm_compute; reflexivity].
Qed.
(** C07, partial: it holds for every input whose length field is below 2^63 (every real buffer is shorter). *)
Theorem C07_valid_view_in_bounds_partial : forall input v,
  bytes input -> zlen input < 2^63 -> v_make input = Ok v -> is_valid v = true -> v_cl v < 2^63 ->
  2 <= v_hl v /\ 0 <= v_cl v /\ v_hl v + v_cl v <= zlen input /\
  v_content v = Ok (ztake (v_cl v) (zdrop (v_hl v) input)) /\
  v_ber v = Ok (ztake (v_hl v + v_cl v) input) /\
  exists c con, v_class v = Ok c /\ v_construction v = Ok con.
Proof.
  intros input v Hb Hz E Hv Hcl.
  destruct (v_assign_inv 0 input v Hb Hz E Hv Hcl) as (p & c & con & t & x & rest & -> & HP & ->).
  cbn [pview v_tag v_hl v_cl] in *.
  pose proof (ber_packet_len _ _ _ _ _ HP). pose proof (zlen_nonneg x). pose proof (zlen_nonneg rest).
  assert (Hzp := Hz). rewrite zlen_app in Hzp.
  split; [lia|]. split; [lia|]. split; [rewrite zlen_app; lia|].
  rewrite (pview_content _ _ _ _ _ rest HP), (pview_ber _ _ _ _ _ rest HP) by lia.
  destruct (pview_byte0 _ _ _ _ _ rest HP) as [Hy1 Hy2].
  split; [|split; [f_equal; symmetry; apply ztake_app_exact; lia | eauto]].
  destruct HP as (id & len & Hi & Ht & Hl & Hl9 & ->). rewrite !zlen_app in *.
  f_equal. rewrite <- !app_assoc, (app_assoc id len (x ++ rest)).
  rewrite zdrop_app_exact by (rewrite ?zlen_app; lia). symmetry. apply ztake_len_eq.
Qed.
(** The only way out of bounds is that header length + length field wraps around. *)
Theorem C07_out_of_bounds_only_by_wrap_partial : forall input v,
  bytes input -> zlen input < 2^63 -> v_make input = Ok v -> is_valid v = true ->
  v_hl v + v_cl v <= zlen input \/ 2^64 <= v_hl v + v_cl v.
Proof.
  intros input v Hb Hz E Hv. destruct (Z.ltb_spec (v_cl v) (2^63)) as [H|H].
  - left. eapply C07_valid_view_in_bounds_partial; eauto.
  - unfold v_make, v_assign in E.
    destruct (extract_tag input 0) as [[tl tag]| |] eqn:Et; cbn [bind] in E; try discriminate.
    destruct (extract_length input 0 tl) as [ll cl] eqn:El.
    destruct (_ || _ || _) eqn:Ec; [inversion E; subst; discriminate|]. inversion E; subst v; cbn [v_hl v_cl] in *.
    destruct (extract_tag_inv input 0 tl tag Hb Et ltac:(lia)) as (id & r1 & c & con & -> & Hi & <- & Ht & _).
    rewrite extract_length_drop in El by apply zlen_nonneg. rewrite zdrop_len_eq in El.
    apply bytes_app in Hb; destruct Hb as [Hb1 Hb2].
    destruct (extract_length_inv r1 0 ll cl Hb2 El ltac:(lia)) as (len & r2 & -> & Hl & <- & Hl9).
    rewrite !zlen_app in *. pose proof (zlen_nonneg r2). pose proof (x690_ident_len _ _ _ _ Hi).
    rewrite (u64_small (zlen id + zlen len)) in * by lia.
    destruct (Z.leb_spec (2^64) (zlen id + zlen len + cl)) as [Hw|Hw]; [lia|].
    rewrite u64_small in Ec by lia. lia.
Qed.
Example C07_example : exists v, v_make [4; 2; 8; 9; 1] = Ok v /\ is_valid v = true /\ v_cl v < 2^63
   /\ v_content v = Ok [8; 9].
Proof. eexists; repeat split. Qed.

(** C08.  The view of header + content + anything reports exactly what was encoded (single identifier). *)
Theorem C08_views_recover_encoded : forall buf c t con content after r,
  0 <= t < 2^63 -> zlen (content ++ after) < 2^62 ->
  encode_header buf (zlen content) (Id c t) con = r -> er_ok r = true ->
  let header := ztake (er_len r - zlen content) (er_buf r) in
  exists v, v_make (header ++ content ++ after) = Ok v /\ is_valid v = true /\
    v_class v = Ok c /\ v_tag v = t /\ v_construction v = Ok con /\ v_hl v = zlen header /\
    v_content v = Ok content /\ v_ber v = Ok (header ++ content).
Proof.
  intros buf c t con content after r Ht Hz E Hok.
  rewrite zlen_app in Hz. pose proof (zlen_nonneg content). pose proof (zlen_nonneg after).
  destruct (Z.leb_spec (header_room (Id c t) (zlen content)) (zlen buf)) as [Hle|Hlt].
  2:{ destruct (encode_header_fail buf (zlen content) (Id c t) con) as (o & E2 & _); auto; [lia|].
      rewrite E2 in E; subst; discriminate. }
  rewrite encode_header_ok in E by (auto; lia). subst r. cbn [er_len er_buf]. cbn zeta.
  pose proof (hdr_of_len (Id c t) (zlen content) con Ht ltac:(lia)) as Hl.
  replace (encoded_header_length (zlen content) (Id c t) + zlen content - zlen content)
     with (encoded_header_length (zlen content) (Id c t)) by lia.
  rewrite ztake_app_exact by lia. cbn [hdr_of] in *.
  pose proof (hdr_packet c con t content Ht ltac:(lia)) as HP.
  pose proof (ehl_range (Id c t) (zlen content) Ht).
  exists (pview (hdr c con t (zlen content) ++ content) t content after).
  split; [rewrite app_assoc; apply (v_assign_packet _ _ _ _ _ after 0 HP); rewrite !zlen_app; lia|].
  destruct (pview_byte0 _ _ _ _ _ after HP) as [Hy1 Hy2].
  repeat split; auto.
  - cbn [pview v_hl]. rewrite zlen_app. lia.
  - eapply pview_content; eauto.
  - eapply pview_ber; eauto. rewrite zlen_app; lia.
Qed.
Example C08_example : exists r, encode_header (zrep 12 0) 3 (Id private_ 300) constructed = r /\ er_ok r = true
  /\ ztake (er_len r - 3) (er_buf r) = [255; 130; 44; 3].
Proof. eexists; repeat split. Qed.
(** C08 for double identifiers: the outer view's first child is the inner packet. *)
Theorem C08_views_recover_encoded_double : forall buf oc ot ic it con content after r,
  0 <= ot < 2^63 -> 0 <= it < 2^63 -> zlen (content ++ after) < 2^62 ->
  encode_header buf (zlen content) (DoubleId oc ot ic it) con = r -> er_ok r = true ->
  let header := ztake (er_len r - zlen content) (er_buf r) in
  exists v iter w, v_make (header ++ content ++ after) = Ok v /\ is_valid v = true /\
    v_class v = Ok oc /\ v_tag v = ot /\ v_construction v = Ok constructed /\
    v_ber v = Ok (header ++ content) /\
    v_begin v = Ok iter /\ w = it_view iter /\
    is_valid w = true /\ v_class w = Ok ic /\ v_tag w = it /\ v_construction w = Ok con /\
    v_content w = Ok content.
Proof.
  intros buf oc ot ic it con content after r Ho Hi Hz E Hok.
  rewrite zlen_app in Hz. pose proof (zlen_nonneg content). pose proof (zlen_nonneg after).
  set (i := DoubleId oc ot ic it) in *. assert (Hwf : wf_ident i) by (cbn; auto).
  destruct (Z.leb_spec (header_room i (zlen content)) (zlen buf)) as [Hle|Hlt].
  2:{ destruct (encode_header_fail buf (zlen content) i con) as (o & E2 & _); auto; [lia|].
      rewrite E2 in E; subst; discriminate. }
  rewrite encode_header_ok in E by (auto; lia). subst r. cbn [er_len er_buf]. cbn zeta.
  pose proof (hdr_of_len i (zlen content) con Hwf ltac:(lia)) as Hl.
  replace (encoded_header_length (zlen content) i + zlen content - zlen content)
     with (encoded_header_length (zlen content) i) by lia.
  rewrite ztake_app_exact by lia. unfold i at 1 2; cbn [hdr_of] in *.
  pose proof (ehl1_range it (zlen content) ltac:(lia)) as Hri.
  pose proof (hdr_packet ic con it content Hi ltac:(lia)) as HPi.
  set (inner := hdr ic con it (zlen content) ++ content) in *.
  assert (Hin : zlen inner = encoded_header_length1 it (zlen content) + zlen content)
    by (unfold inner; rewrite zlen_app, hdr_len by auto; reflexivity).
  pose proof (hdr_packet oc constructed ot inner Ho ltac:(lia)) as HPo.
  rewrite Hin in HPo. set (outer := hdr oc constructed ot (encoded_header_length1 it (zlen content) + zlen content)) in *.
  pose proof (ehl1_range ot (encoded_header_length1 it (zlen content) + zlen content) ltac:(lia)) as Hro.
  assert (Hout : zlen outer = encoded_header_length1 ot (encoded_header_length1 it (zlen content) + zlen content))
    by (apply hdr_len; auto).
  assert (Eq : (outer ++ hdr ic con it (zlen content)) ++ content = outer ++ inner)
    by (unfold inner; rewrite <- app_assoc; reflexivity).
  exists (pview (outer ++ inner) ot inner after), (Iter inner (pview inner it content [])), (pview inner it content []).
  split; [rewrite app_assoc, Eq; apply (v_assign_packet _ _ _ _ _ after 0 HPo); rewrite !zlen_app; lia|].
  destruct (pview_byte0 _ _ _ _ _ after HPo) as [Hy1 Hy2].
  destruct (pview_byte0 _ _ _ _ _ [] HPi) as [Hy3 Hy4].
  repeat split; auto.
  - rewrite Eq. eapply pview_ber; eauto. rewrite zlen_app; lia.
  - unfold v_begin. rewrite (pview_content _ _ _ _ _ after HPo). cbn [bind]. unfold it_make, v_make.
    pose proof (v_assign_packet _ _ _ _ _ [] 0 HPi) as Hv. rewrite app_nil_r in Hv. rewrite Hv by lia.
    cbn [bind]. unfold pview. rewrite app_nil_r. reflexivity.
  - eapply pview_content; eauto.
Qed.

(** C09.  Cutting a packet anywhere makes the view invalid (and reading it is never UB). *)
Theorem C09_truncation_rejected : forall p c con t content k,
  ber_packet p c con t content -> bytes content -> zlen p < 2^63 -> k < zlen p ->
  exists v, v_make (ztake k p) = Ok v /\ is_valid v = false.
Proof. intros. eapply v_assign_prefix; eauto. Qed.
(** ... in particular the packets the encoder produces. *)
Theorem C09_truncation_of_encoder_output_rejected : forall c t con content k,
  0 <= t < 2^63 -> bytes content -> zlen content < 2^62 ->
  let packet := er_buf (encode_header (zrep 19 0 ++ content) (zlen content) (Id c t) con) in
  forall header_and_content, header_and_content = ztake (encoded_length (zlen content) (Id c t) - zlen content) packet ++ content ->
  k < zlen header_and_content ->
  exists v, v_make (ztake k header_and_content) = Ok v /\ is_valid v = false.
Proof.
  intros c t con content k Ht Hb Hz packet hc -> Hk. pose proof (zlen_nonneg content).
  pose proof (ehl_range (Id c t) (zlen content) Ht) as Hr.
  assert (Hr19 : encoded_header_length (zlen content) (Id c t) <= 19) by (cbn; apply ehl1_range; lia).
  assert (HP : ber_packet (ztake (encoded_length (zlen content) (Id c t) - zlen content) packet ++ content) c con t content).
  { unfold packet. rewrite encode_header_ok; auto; try lia.
    - cbn [er_buf]. rewrite encoded_length_nowrap by (auto; lia).
      rewrite ztake_app_exact by (rewrite hdr_of_len by (auto; lia); lia). cbn [hdr_of]. apply hdr_packet; auto; lia.
    - cbn [header_room]. rewrite zlen_app, zlen_zrep by lia. lia. }
  eapply C09_truncation_rejected; eauto.
  rewrite zlen_app. rewrite encoded_length_nowrap by (auto; lia). rewrite zlen_ztake_min by lia. lia.
Qed.
Example C09_example : ber_packet [4; 0x81; 3; 1; 2; 3] universal primitive 4 [1;2;3] /\
  exists v, v_make [4; 0x81; 3; 1; 2] = Ok v /\ is_valid v = false.
Proof.
  split.
  - exists [4], [0x81; 3]. split; [apply (x690_low universal primitive 4); lia|]. split; [lia|].
    split; [apply (x690_long [3]); [bytes_lit | cbn; lia]|]. split; [cbn; lia | reflexivity].
  - eexists; split; reflexivity.
Qed.

(** C10.  A view is valid exactly if the input starts with identifier octets and a definite length field of at most
    nine octets (1 + 8) whose value fits (modulo 2^64) in the input; its content length is the field's value. *)
Theorem C10_valid_iff_well_formed_header : forall input,
  bytes input -> zlen input < 2^63 -> extract_tag input 0 <> UB ->
  forall v, v_make input = Ok v ->
  (is_valid v = true <->
   exists id len rest c con t n, input = id ++ len ++ rest /\ x690_ident id c con t /\ t < 2^63 /\
     x690_length len n /\ zlen len <= 9 /\ (zlen id + zlen len + n) mod 2^64 <= zlen input) /\
  (is_valid v = true -> forall id len rest c con t n, input = id ++ len ++ rest -> x690_ident id c con t ->
     x690_length len n -> v_tag v = t /\ v_hl v = zlen id + zlen len /\ v_cl v = n).
Proof.
  intros input Hb Hz Hub v E. unfold v_make, v_assign in E.
  destruct (extract_tag input 0) as [[tl tag]| |] eqn:Et; cbn [bind] in E; try discriminate.
  destruct (extract_length input 0 tl) as [ll cl] eqn:El.
  destruct ((tl =? 0) || (ll =? 0)) eqn:E0.
  { (* tag or length unreadable *)
    cbn [orb] in E. inversion E; subst v; clear E. cbn. split; [|discriminate].
    split; [discriminate|]. intros (id & len & rest & c & con & t & n & -> & Hi & Ht & Hl & Hl9 & Hfit). exfalso.
    rewrite (extract_tag_x690 id c con t) in Et by auto. inversion Et; subst tl tag.
    rewrite extract_length_drop in El by apply zlen_nonneg. rewrite zdrop_len_eq in El.
    rewrite (extract_length_x690 _ n) in El by auto. inversion El; subst.
    pose proof (x690_ident_len _ _ _ _ Hi). pose proof (x690_length_len _ _ Hl). lia. }
  cbn [orb] in E.
  destruct (extract_tag_inv input 0 tl tag Hb Et ltac:(lia)) as (id & r1 & c & con & -> & Hi & <- & Ht & _).
  rewrite extract_length_drop in El by apply zlen_nonneg. rewrite zdrop_len_eq in El.
  apply bytes_app in Hb; destruct Hb as [Hb1 Hb2].
  destruct (extract_length_inv r1 0 ll cl Hb2 El ltac:(lia)) as (len & r2 & -> & Hl & <- & Hl9).
  rewrite !zlen_app in *. pose proof (zlen_nonneg r2). pose proof (x690_ident_len _ _ _ _ Hi).
  rewrite (u64_small (zlen id + zlen len)) in E by lia. unfold u64 in E.
  assert (Hdet : forall id' len' rest' c' con' t' n', id ++ len ++ r2 = id' ++ len' ++ rest' -> x690_ident id' c' con' t' ->
     x690_length len' n' -> tag = t' /\ zlen id + zlen len = zlen id' + zlen len' /\ cl = n').
  { intros id' len' rest' c' con' t' n' Eq Hi' Hl'.
    destruct (x690_ident_det _ _ _ _ _ _ _ _ _ _ Hi Hi' Eq) as (-> & -> & -> & -> & Eq').
    destruct (x690_length_det _ _ _ _ _ _ Hl Hl' Eq') as (-> & -> & ->). auto. }
  destruct (Z.gtb_spec ((zlen id + zlen len + cl) mod 2^64) (zlen id + (zlen len + zlen r2))) as [Hgt|Hle];
    inversion E; subst v; clear E; cbn.
  - split; [|discriminate]. split; [discriminate|].
    intros (id' & len' & rest' & c' & con' & t' & n' & Eq & Hi' & Ht' & Hl' & Hl9' & Hfit). exfalso.
    destruct (Hdet _ _ _ _ _ _ _ Eq Hi' Hl') as (-> & E2 & ->). rewrite <- E2 in Hfit. lia.
  - split; [split; auto|].
    + intros _. exists id, len, r2, c, con, tag, cl. repeat split; auto; lia.
    + intros _ id' len' rest' c' con' t' n' Eq Hi' Hl'.
      destruct (Hdet _ _ _ _ _ _ _ Eq Hi' Hl') as (-> & -> & ->). auto.
Qed.
(** The indefinite form and more than eight length octets are always rejected. *)
Theorem C10_unsupported_lengths_rejected : forall id c con t b rest v,
  x690_ident id c con t -> t < 2^63 -> b = 0x80 \/ 0x89 <= b < 256 ->
  v_make (id ++ b :: rest) = Ok v -> is_valid v = false.
Proof.
  intros id c con t b rest v Hi Ht Hb E. unfold v_make, v_assign in E.
  rewrite (extract_tag_x690 id c con t) in E by auto. cbn [bind] in E.
  rewrite extract_length_drop, zdrop_len_eq in E by apply zlen_nonneg.
  assert (El : extract_length (b :: rest) 0 0 = (0, 0)).
  { unfold extract_length. rewrite zdrop_0. rewrite land_80 by (unfold wf_byte; lia).
    replace (b <? 128) with false by lia. rewrite land_7F.
    destruct Hb as [->|Hb]; [reflexivity|].
    assert (Hm : b mod 128 = b - 128) by (symmetry; apply Z.mod_unique with (q := 1); lia).
    rewrite Hm. replace (b - 128 >? 8) with true by lia. reflexivity. }
  rewrite El in E. rewrite orb_true_r in E. cbn in E. inversion E; reflexivity.
Qed.
Example C10_example : (exists v, v_make [0x30; 0x80; 0; 0] = Ok v /\ is_valid v = false) /\
   (exists v, v_make [0x30; 0x81; 2; 5; 0; 9] = Ok v /\ is_valid v = true /\ v_cl v = 2).
Proof. split; eexists; repeat split. Qed.

(** C11, refuted: the ten octets 04 88 FF FF FF FF FF FF FF F6 are a child whose ber_length() wraps to 0; iterating
    over them never ends. *)
Theorem C11_iteration_terminates_refuted :
  exists content it, bytes content /\ zlen content = 10 /\ it_make content = Ok it /\
    forall fuel, it_loop fuel it = NoFuel.
Proof.
  exists [4; 0x88; 255; 255; 255; 255; 255; 255; 255; 0xF6]. eexists.
  split; [bytes_lit|]. split; [reflexivity|]. split; [vm_compute; reflexivity|].
  set (it := Iter _ _). assert (Hnext : it_next it = Ok it) by (vm_compute; reflexivity).
  induction fuel as [|fuel IH]; [reflexivity|]. cbn [it_loop].
  change (it_at_end it) with false. rewrite Hnext. cbn [bind]. rewrite IH. reflexivity.
Qed.
(** C11, partial: for content in which no length field reaches 2^63 and no tag overflows ([tame]), iteration ends after
    at most half the content's octets, and the children are packets that, in order, make up a prefix of the content;
    the rest does not start with a packet. *)
Theorem C11_iteration_partitions_partial : forall v content,
  v_content v = Ok content -> bytes content -> tame content ->
  exists ks tail vs,
    content = concat (map pk_ber ks) ++ tail /\ Forall pkt_ok ks /\
    (forall fuel, (length content < fuel)%nat -> children fuel v = Ok (vs, tail)) /\ Forall2 shows vs ks /\
    (forall p c con t x rest, ber_packet p c con t x -> tail <> p ++ rest).
Proof.
  intros v content Ec Hb Ht.
  destruct (partition_packets (length content) content (le_n _) Hb Ht) as (ks & tail & E & Hks & Htl & Hlen).
  assert (Hz : zlen (concat (map pk_ber ks) ++ tail) < 2^63) by (rewrite <- E; apply Ht).
  destruct (it_loop_packets ks tail 0 (S (length ks)) Hks Hz Htl ltac:(lia)) as (v0 & vs & E0 & El & HF).
  exists ks, tail, vs. split; [auto|]. split; [auto|]. split.
  - intros fuel Hf. unfold children, v_begin. rewrite Ec. cbn [bind]. unfold it_make, v_make.
    destruct (it_loop_packets ks tail 0 fuel Hks Hz Htl ltac:(lia)) as (v1 & vs1 & E1 & El1 & HF1).
    rewrite E, E1. cbn [bind]. rewrite El1. do 2 f_equal.
    assert (Hfuel : forall f it r, it_loop f it = Ok r -> forall g r', it_loop g it = Ok r' -> r = r').
    { induction f as [|f IH]; intros it r H g r' H'; [discriminate|]. destruct g as [|g]; [discriminate|].
      cbn [it_loop] in *. destruct (it_at_end it); [congruence|].
      destruct (it_next it) as [it'| |]; cbn [bind] in *; try discriminate.
      destruct (it_loop f it') as [[a b]| |] eqn:Ef; cbn [bind] in *; try discriminate.
      destruct (it_loop g it') as [[a' b']| |] eqn:Eg; cbn [bind] in *; try discriminate.
      assert ((a, b) = (a', b')) by (eapply IH; eauto). congruence. }
    rewrite E0 in E1. inversion E1; subst v1.
    pose proof (Hfuel _ _ _ El1 _ _ El). congruence.
  - split; auto. apply no_packet_spec; auto. rewrite zlen_app in Hz. pose proof (zlen_nonneg (concat (map pk_ber ks))). lia.
Qed.
Example C11_example : tame [2; 1; 5; 4; 2; 9; 9; 0x30; 7] /\
  children 10 (View (Some [2; 1; 5; 4; 2; 9; 9; 0x30; 7]) 16 0 9) =
    Ok ([View (Some [2; 1; 5; 4; 2; 9; 9; 0x30; 7]) 2 2 1; View (Some [4; 2; 9; 9; 0x30; 7]) 4 2 2], [0x30; 7]).
Proof. split; [apply tame_check_sound; vm_compute; reflexivity | vm_compute; reflexivity]. Qed.

(** C12.  Iterating over concatenated packets yields exactly these packets. *)
Theorem C12_iteration_recovers_concatenation : forall v ks fuel,
  Forall pkt_ok ks -> zlen (concat (map pk_ber ks)) < 2^63 ->
  v_content v = Ok (concat (map pk_ber ks)) -> (length ks < fuel)%nat ->
  exists vs, children fuel v = Ok (vs, []) /\ Forall2 shows vs ks.
Proof.
  intros v ks fuel Hks Hz Ec Hf. rewrite <- (app_nil_r (concat _)) in Hz, Ec.
  destruct (it_loop_packets ks [] 0 fuel Hks Hz no_packet_nil Hf) as (v0 & vs & E0 & El & HF).
  exists vs. split; auto. unfold children, v_begin. rewrite Ec. cbn [bind]. unfold it_make, v_make. rewrite E0.
  cbn [bind]. exact El.
Qed.
Example C12_example : pkt_ok (Pkt [2; 1; 5] universal primitive 2 [5]) /\
  children 3 (View (Some [0x30; 6; 2; 1; 5; 2; 1; 5]) 16 2 6) =
    Ok ([View (Some [2; 1; 5; 2; 1; 5]) 2 2 1; View (Some [2; 1; 5]) 2 2 1], []).
Proof.
  split; [|vm_compute; reflexivity].
  exists [2], [1]. split; [apply (x690_low universal primitive 2); lia|]. split; [cbn; lia|].
  split; [apply (x690_short 1); lia|]. split; [cbn; lia | reflexivity].
Qed.

(** C13.  Re-encoding a valid view copies the packet. *)
Theorem C13_view_encode_copies : forall input v buf,
  bytes input -> zlen input < 2^63 -> v_make input = Ok v -> is_valid v = true -> v_cl v < 2^63 ->
  let packet := ztake (v_hl v + v_cl v) input in
  exists r, v_encode v buf = Ok r /\
    (er_ok r = true <-> zlen packet <= zlen buf) /\
    (er_ok r = true -> er_len r = zlen packet /\ er_buf r = packet ++ zdrop (zlen packet) buf) /\
    (er_ok r = false -> er_len r = 0 /\ er_buf r = buf).
Proof.
  intros input v buf Hb Hz E Hv Hcl packet.
  destruct (v_assign_inv 0 input v Hb Hz E Hv Hcl) as (p & c & con & t & x & rest & -> & HP & ->).
  cbn [pview v_tag v_hl v_cl] in *. rewrite zlen_app in Hz. pose proof (zlen_nonneg p). pose proof (zlen_nonneg rest).
  assert (Hp : packet = p) by (unfold packet; cbn [pview v_hl v_cl v_tag]; apply ztake_app_exact; lia). rewrite Hp. clear packet Hp.
  unfold v_encode. rewrite (pview_ber_length _ _ _ _ _ rest HP), (pview_ber _ _ _ _ _ rest HP) by lia.
  destruct (Z.gtb_spec (zlen p) (zlen buf)).
  - eexists; split; [reflexivity|]. cbn. intuition (try lia; congruence).
  - cbn [bind]. rewrite mem_write_ok by lia. cbn [bind]. eexists; split; [reflexivity|]. cbn [er_ok er_len er_buf].
    rewrite poke_0. intuition (try lia; congruence).
Qed.
Example C13_example : exists v, v_make [4; 2; 8; 9; 1] = Ok v /\
   v_encode v [0; 0; 0; 0; 77] = Ok (EncResult [4; 2; 8; 9; 77] true 4) /\
   v_encode v [0; 0; 0] = Ok (EncResult [0; 0; 0] false 0).
Proof. eexists; repeat split. Qed.

(** C67, refuted: building a view of 1F FF FF FF FF FF FF FF FF FF 01 00 overflows the signed tag (undefined
    behaviour). *)
Theorem C67_view_construction_defined_refuted : exists input, bytes input /\ zlen input = 12 /\ v_make input = UB.
Proof.
  exists ([0x1F] ++ zrep 9 0xFF ++ [1; 0]). split; [bytes_lit|]. split; [reflexivity | vm_compute; reflexivity].
Qed.
(** C67, partial: with at most nine tag octets (63 bits) after the first it is always defined. *)
Theorem C67_view_construction_defined_partial : forall input tag0,
  bytes input ->
  (forall b ds rest, input = b :: ds ++ rest -> Forall (fun d => 128 <= d) ds -> zlen ds <= 8) ->
  exists v, v_assign tag0 input = Ok v.
Proof.
  intros input tag0 Hb Hrun.
  assert (Hx : exists r, extract_tag input tag0 = Ok r).
  { destruct input as [|b0 l]; [cbn; eauto|]. cbn [extract_tag]. destruct (negb _); [eauto|].
    apply bytes_cons in Hb. destruct Hb as [_ Hb].
    assert (Hgen : forall l' done i tag, bytes l' -> 0 <= tag <= 128 ^ zlen done * 128 - 128 -> zlen done <= 8 ->
       Forall (fun d => 128 <= d) done -> l = done ++ l' -> exists r, extract_tag_loop l' i tag = Ok r).
    { induction l' as [|b l' IH]; intros done i tag Hb' Ht Hd Hdone El; cbn [extract_tag_loop]; [eauto|].
      apply bytes_cons in Hb'. destruct Hb' as [Hbb Hb'].
      rewrite land_7F, land_80 by auto. assert (Hm : 0 <= b mod 128 < 128) by (apply Z.mod_pos_bound; lia).
      pose proof (zlen_nonneg done).
      assert (Hp : 128 ^ zlen done <= 128 ^ 8) by (apply Z.pow_le_mono_r; lia).
      change (128 ^ 8) with 72057594037927936 in Hp.
      rewrite (in_i64b_true (tag + b mod 128)) by (unfold in_i64; lia). cbn [negb].
      destruct (Z.ltb_spec b 128) as [|Hge]; [eauto|].
      assert (Hd' : zlen (done ++ [b]) <= 8).
      { apply (Hrun b0 (done ++ [b]) l'); [rewrite <- app_assoc; cbn; rewrite El; reflexivity|].
        apply Forall_app; split; auto. }
      assert (Hz : zlen (done ++ [b]) = zlen done + 1) by (rewrite zlen_app; reflexivity).
      assert (Hp' : 128 ^ (zlen done + 1) = 128 * 128 ^ zlen done) by (rewrite Z.pow_add_r by lia; lia).
      assert (Hp2 : 128 ^ (zlen done + 1) <= 128 ^ 8) by (apply Z.pow_le_mono_r; lia).
      change (128 ^ 8) with 72057594037927936 in Hp2.
      rewrite in_i64b_true by (unfold in_i64; lia). cbn [negb].
      apply (IH (done ++ [b])); auto.
      - rewrite Hz, Hp'. lia.
      - apply Forall_app; split; auto.
      - rewrite <- app_assoc; exact El. }
    apply (Hgen l [] 1 0); auto; cbn; lia. }
  destruct Hx as [[tl tag] Hx]. unfold v_assign. rewrite Hx. cbn [bind].
  destruct (extract_length input 0 tl). destruct (_ || _ || _); eauto.
Qed.
Example C67_example : exists v, v_make ([0x1F] ++ zrep 8 0xFF ++ [1; 0]) = Ok v /\ is_valid v = true.
Proof. eexists; split; vm_compute; reflexivity. Qed.

Print Assumptions C07_valid_view_in_bounds_partial.
Print Assumptions C08_views_recover_encoded_double.
Print Assumptions C09_truncation_rejected.
Print Assumptions C10_valid_iff_well_formed_header.
Print Assumptions C11_iteration_partitions_partial.
Print Assumptions C12_iteration_recovers_concatenation.
Print Assumptions C13_view_encode_copies.
Print Assumptions C67_view_construction_defined_partial.
