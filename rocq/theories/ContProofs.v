(** Lemmas about Boolean, Null, FixedIdBerContainer and BerContainer. *)
From Verif Require Import Base Ident Spec IdentProofs HeaderProofs View ViewProofs Prims PrimProofs.
Ltac Zify.zify_post_hook ::= Z.div_mod_to_equations.

(** * Boolean *)
Definition bool_rep (i : ident) (data : list Z) (b : Z) : Prop := data = hdr_of i 1 primitive ++ [b].
Lemma set_back_app h b c : set_back (h ++ [b]) c = h ++ [c].
Proof. unfold set_back. rewrite zlen_app, zlen_1. rewrite ztake_app_exact by lia. reflexivity. Qed.
Lemma bool_init_rep i : wf_ident i -> bool_rep i (bool_init i) 0.
Proof. intros Hi. unfold bool_init. rewrite encoded_header_eq by (auto; lia). reflexivity. Qed.
Lemma bool_set_rep i d b c : bool_rep i d b -> bool_rep i (set_back d c) c.
Proof. intros ->. rewrite set_back_app. reflexivity. Qed.
Lemma bool_last i d b : bool_rep i d b -> last d 0 = b.
Proof. intros ->. apply last_last. Qed.
Lemma v_content_1 q c k t b rest : ber_packet q c k t [b] -> v_read_content (pview q t [b] rest) 1 = Ok [b].
Proof. intros H. apply (v_read_content_pview _ _ _ _ _ rest) in H. exact H. Qed.
Lemma zlen_1_inv {A} (l : list A) : zlen l = 1 -> exists b, l = [b].
Proof.
  destruct l as [|b [|c l]]; rewrite ?zlen_cons; intros H; [discriminate|eauto|]. pose proof (zlen_nonneg l). lia.
Qed.
Lemma bool_decode_packet i d b p x extra rest : id_packet i primitive p x extra -> zlen (p ++ rest) < 2^63 -> bool_rep i d b ->
  exists v, v_make (p ++ rest) = Ok v /\
    (forall c, x = [c] -> exists d', bool_decode i d v = Ok (true, d') /\ bool_rep i d' c) /\
    (zlen x <> 1 -> bool_decode i d v = Ok (false, d)).
Proof.
  intros Hp Hz Hr. destruct (header_packet i primitive p x extra rest Hp Hz) as (v & Ev & _ & Hh & _ & Hc).
  exists v. split; [exact Ev|]. unfold bool_decode. rewrite Hh. cbn [bind negb].
  destruct i as [c t|oc ot ic it]; cbn [depth].
  - change (1 =? 1) with true. cbn match. subst v. change (v_cl (pview p t x rest)) with (zlen x).
    destruct Hp as [HP _]. split.
    + intros c' ->. change (zlen [c'] =? 1) with true. cbn match. rewrite (v_content_1 _ _ _ _ _ _ HP). cbn [bind hd].
      eexists; split; [reflexivity|]. eapply bool_set_rep; eauto.
    + intros Hx. replace (zlen x =? 1) with false by lia. reflexivity.
  - change (2 =? 1) with false. cbn match. destruct Hc as (q & -> & Hb & HQ). rewrite Hb. cbn [bind it_view].
    change (v_cl (pview q it x extra)) with (zlen x). split.
    + intros c' ->. change (zlen [c'] =? 1) with true. cbn match. rewrite (v_content_1 _ _ _ _ _ _ HQ). cbn [bind hd].
      eexists; split; [reflexivity|]. eapply bool_set_rep; eauto.
    + intros Hx. replace (zlen x =? 1) with false by lia. reflexivity.
Qed.
Lemma bool_decode_spec i d b input : bytes input -> tame input -> bool_rep i d b ->
  exists v, v_make input = Ok v /\
    ((exists p c extra rest d', input = p ++ rest /\ id_packet i primitive p [c] extra /\
        bool_decode i d v = Ok (true, d') /\ bool_rep i d' c) \/
     (bool_decode i d v = Ok (false, d) /\ forall p c extra rest, id_packet i primitive p [c] extra -> input <> p ++ rest)).
Proof.
  intros Hb Ht Hr. destruct (header_spec i primitive input Hb Ht) as (v & Ev & [H|H]).
  - destruct H as (p & x & extra & rest & -> & Hp & _). exists v. split; [auto|].
    destruct (bool_decode_packet i d b p x extra rest Hp (proj1 Ht) Hr) as (v' & Ev' & H1 & H2).
    assert (v' = v) by congruence; subst v'.
    destruct (Z.eqb_spec (zlen x) 1) as [E|E].
    + destruct (zlen_1_inv _ E) as (c & ->). destruct (H1 c eq_refl) as (d' & E1 & E2). left. exists p, c, extra, rest, d'. auto.
    + right. split; [auto|]. intros p' c' e' r' Hp' Eq.
      destruct (id_packet_det _ _ _ _ _ _ _ _ _ _ _ Hp Hp' Eq) as (_ & -> & _). apply E. reflexivity.
  - destruct H as [Hh Hno]. exists v. split; [auto|]. right. split; [unfold bool_decode; rewrite Hh; reflexivity|]. eauto.
Qed.

(** * Null *)
Lemma null_data_eq i : wf_ident i -> null_data i = hdr_of i 0 primitive.
Proof. intros. unfold null_data. rewrite encoded_header_eq by (auto; lia). apply app_nil_r. Qed.
Lemma null_decode_packet i p x extra rest : id_packet i primitive p x extra -> zlen (p ++ rest) < 2^63 ->
  exists v, v_make (p ++ rest) = Ok v /\ null_decode i v = Ok (zlen x =? 0).
Proof.
  intros Hp Hz. destruct (header_packet i primitive p x extra rest Hp Hz) as (v & Ev & _ & Hh & _ & Hc).
  exists v. split; [exact Ev|]. unfold null_decode. rewrite Hh. cbn [bind negb].
  destruct i as [c t|oc ot ic it]; cbn [depth].
  - subst v. reflexivity.
  - destruct Hc as (q & -> & Hb & HQ). rewrite Hb. reflexivity.
Qed.

(** * FixedIdBerContainer *)
Lemma id_packet_suffix i con p x : id_packet i con p x [] -> exists h, p = h ++ x.
Proof.
  destruct i as [c t|oc ot ic it]; cbn [id_packet].
  - intros [H _]. destruct (packet_content_sub _ _ _ _ _ H) as (h & E & _). eauto.
  - intros (q & H1 & H2). rewrite app_nil_r in H1.
    destruct (packet_content_sub _ _ _ _ _ H1) as (h & E1 & _). destruct (packet_content_sub _ _ _ _ _ H2) as (h2 & E2 & _).
    exists (h ++ h2). rewrite <- app_assoc, <- E2. exact E1.
Qed.
Definition fixed_rep (i : ident) (f : fixed) (x : list Z) : Prop :=
  id_packet i primitive (f_data f) x [] /\ f_len f = zlen x.
Lemma fixed_content_suffix f h x : f_data f = h ++ x -> f_len f = zlen x -> fixed_content f = Ok x.
Proof.
  intros E El. unfold fixed_content. rewrite E, El, zlen_app. pose proof (zlen_nonneg h). pose proof (zlen_nonneg x).
  rewrite mem_read_ok by (rewrite ?zlen_app; lia). rewrite zdrop_app_exact by lia. rewrite ztake_all by lia. reflexivity.
Qed.
Lemma fixed_content_rep i f x : fixed_rep i f x -> fixed_content f = Ok x.
Proof. intros [Hp El]. destruct (id_packet_suffix _ _ _ _ Hp) as (h & E). eapply fixed_content_suffix; eauto. Qed.
Lemma vec_resize_len v n : 0 <= n -> zlen (vd (vec_resize v n)) = n.
Proof.
  intros. unfold vec_resize. pose proof (zlen_nonneg (vd v)). destruct (Z.leb_spec n (zlen (vd v))); cbn [vd].
  - apply zlen_ztake; lia.
  - rewrite zlen_app, zlen_zrep; lia.
Qed.
Lemma vec_resize_storage v n : exists tail, vd (vec_resize v n) ++ vspare (vec_resize v n) = vd v ++ tail.
Proof.
  unfold vec_resize. destruct (Z.leb_spec n (zlen (vd v))); cbn [vd vspare].
  - exists (vspare v). rewrite app_assoc, ztake_zdrop. reflexivity.
  - exists (zrep (n - zlen (vd v)) 0). rewrite app_nil_r. reflexivity.
Qed.
Lemma header_room_le i n m : 0 <= n -> wf_ident i -> encoded_header_length n i + n <= m -> header_room i n <= m.
Proof. intros. destruct i; cbn [header_room]; lia. Qed.
Lemma fixed_assign_eq i f x : wf_ident i -> zlen x < 2^62 -> exists spare,
  fixed_assign_content i f x = Ok (Fixed (Vec (hdr_of i (zlen x) primitive ++ x) spare) (zlen x)).
Proof.
  intros Hi Hx. pose proof (zlen_nonneg x). pose proof (ehl_range i (zlen x) Hi) as Hr. unfold fixed_assign_content.
  rewrite encoded_length_nowrap by (auto; lia).
  replace (encoded_header_length (zlen x) i + zlen x - zlen x) with (encoded_header_length (zlen x) i) by lia.
  rewrite u64_small by lia. set (hl := encoded_header_length (zlen x) i) in *.
  pose proof (vec_resize_len (f_vec f) (hl + zlen x) ltac:(lia)) as Hl. set (v := vec_resize (f_vec f) (hl + zlen x)) in *.
  unfold vec_write. rewrite mem_write_ok by lia. cbn [bind vd vspare].
  assert (Hp : poke (vd v) hl x = ztake hl (vd v) ++ x) by (unfold poke; rewrite zdrop_all, app_nil_r by lia; reflexivity).
  assert (Ht : zlen (ztake hl (vd v)) = hl) by (apply zlen_ztake; lia).
  rewrite Hp, encode_header_ok; auto; [|lia|apply header_room_le; auto; rewrite zlen_app; subst hl; lia].
  cbn [er_buf]. fold hl. rewrite zdrop_app_exact by lia. eexists. reflexivity.
Qed.
Lemma fixed_assign_rep i f x : wf_ident i -> zlen x < 2^62 -> exists f', fixed_assign_content i f x = Ok f' /\ fixed_rep i f' x.
Proof.
  intros Hi Hx. destruct (fixed_assign_eq i f x Hi Hx) as (sp & E). eexists; split; [exact E|].
  split; [apply hdr_of_packet; auto | reflexivity].
Qed.
Lemma fixed_init_rep i : wf_ident i -> fixed_rep i (fixed_init i) [].
Proof.
  intros Hi. unfold fixed_init. fold (encoded_header i 0). rewrite encoded_header_eq by (auto; lia).
  change (zrep 0 0) with (@nil Z). split; [apply (hdr_of_packet i primitive []); auto; reflexivity | reflexivity].
Qed.
(** resize_content, from any state whose content lies inside the vector *)
Lemma fixed_resize_gen i f h x n : wf_ident i -> f_data f = h ++ x -> f_len f = zlen x -> zlen (f_data f) < 2^63 -> 0 <= n < 2^62 ->
  exists f' y, fixed_resize i f n = Ok f' /\ f_data f' = hdr_of i n primitive ++ y /\ f_len f' = n /\ zlen y = n /\
    ztake (Z.min (zlen x) n) y = ztake (Z.min (zlen x) n) x.
Proof.
  intros Hi E El Hz Hn. pose proof (zlen_nonneg x). pose proof (zlen_nonneg h).
  unfold fixed_resize. cbv zeta. rewrite El. replace (zlen (f_data f)) with (zlen h + zlen x) by (rewrite E, zlen_app; reflexivity).
  assert (Hzz := Hz). rewrite E, zlen_app in Hzz. rewrite u64_small by lia.
  replace (zlen h + zlen x - zlen x) with (zlen h) by lia.
  pose proof (ehl_range i n Hi) as Hr. set (hl := encoded_header_length n i) in *.
  pose proof (vec_resize_len (f_vec f) (hl + n) ltac:(lia)) as Hl.
  destruct (vec_resize_storage (f_vec f) (hl + n)) as (tail & Es). set (v := vec_resize (f_vec f) (hl + n)) in *.
  unfold vec_read. rewrite Es. fold (f_data f). rewrite E. set (m := Z.min (zlen x) n).
  assert (Hm : 0 <= m <= zlen x /\ m <= n) by lia.
  rewrite mem_read_ok by (rewrite ?zlen_app; pose proof (zlen_nonneg tail); lia). cbn [bind].
  rewrite <- app_assoc, zdrop_app_exact by reflexivity. rewrite ztake_app_le by lia.
  assert (Hm2 : zlen (ztake m x) = m) by (apply zlen_ztake; lia).
  unfold vec_write. rewrite mem_write_ok by lia. cbn [bind vd vspare].
  set (D := poke (vd v) hl (ztake m x)).
  assert (HD : zlen D = hl + n) by (unfold D; rewrite zlen_poke; lia).
  rewrite encode_header_ok; auto; [|lia|apply header_room_le; auto; subst hl; lia].
  cbn [er_buf]. fold hl.
  assert (HDd : zdrop hl D = ztake m x ++ zdrop (hl + m) (vd v)).
  { unfold D, poke. rewrite Hm2. apply zdrop_app_exact. rewrite zlen_ztake; lia. }
  set (y := zdrop hl D) in *.
  assert (Hy : zlen y = n) by (unfold y; rewrite zlen_zdrop; lia).
  exists (Fixed (Vec (hdr_of i n primitive ++ y) (vspare v)) n), y. split; [reflexivity|].
  split; [reflexivity|]. split; [reflexivity|]. split; [exact Hy|]. rewrite HDd. apply ztake_app_exact. lia.
Qed.
Lemma fixed_resize_rep i f x n : wf_ident i -> fixed_rep i f x -> zlen (f_data f) < 2^63 -> 0 <= n < 2^62 ->
  exists f' y, fixed_resize i f n = Ok f' /\ fixed_rep i f' y /\ zlen y = n /\
    ztake (Z.min (zlen x) n) y = ztake (Z.min (zlen x) n) x /\ zlen (f_data f') < 2^63.
Proof.
  intros Hi [Hp El] Hz Hn. destruct (id_packet_suffix _ _ _ _ Hp) as (h & E).
  destruct (fixed_resize_gen i f h x n Hi E El Hz Hn) as (f' & y & E1 & E2 & E3 & E4 & E5).
  exists f', y. split; [auto|]. split; [|split; [auto|split; [auto|]]].
  - split; [rewrite E2, <- E4; apply hdr_of_packet; auto; lia | lia].
  - rewrite E2, zlen_app, hdr_of_len by (auto; lia). pose proof (ehl_range i n Hi). lia.
Qed.
Lemma fixed_decode_packet i f p x extra rest : id_packet i primitive p x extra -> zlen (p ++ rest) < 2^63 ->
  exists v, v_make (p ++ rest) = Ok v /\ fixed_decode i f v = Ok (true, Fixed (vec_assign p) (zlen x)).
Proof.
  intros Hp Hz. destruct (header_packet i primitive p x extra rest Hp Hz) as (v & Ev & _ & Hh & Hber & Hc).
  exists v. split; [exact Ev|]. unfold fixed_decode. rewrite Hh. cbn [bind negb]. rewrite Hber. cbn [bind].
  destruct i as [c t|oc ot ic it]; [subst v; reflexivity|].
  destruct Hc as (q & -> & Hb & HQ). rewrite Hb. reflexivity.
Qed.
Lemma fixed_decode_spec i f input : bytes input -> tame input ->
  exists v, v_make input = Ok v /\
    ((exists p x extra rest, input = p ++ rest /\ id_packet i primitive p x extra /\
        fixed_decode i f v = Ok (true, Fixed (vec_assign p) (zlen x))) \/
     (fixed_decode i f v = Ok (false, f) /\ forall p x extra rest, id_packet i primitive p x extra -> input <> p ++ rest)).
Proof.
  intros Hb Ht. destruct (header_spec i primitive input Hb Ht) as (v & Ev & [H|H]); exists v; (split; [auto|]).
  - destruct H as (p & x & extra & rest & -> & Hp & _). left. exists p, x, extra, rest. split; [auto|]. split; [auto|].
    destruct (fixed_decode_packet i f p x extra rest Hp (proj1 Ht)) as (v' & Ev' & E'). congruence.
  - destruct H as [Hh Hno]. right. split; [|auto]. unfold fixed_decode. rewrite Hh. cbn [bind negb].
    destruct i as [c t|oc ot ic it]; [reflexivity|]. destruct (is_valid v) eqn:Hv; [|reflexivity].
    unfold v_make in Ev.
    destruct (v_make_cases 0 input Hb Ht) as [(w & Ew & Hw & _)|(p & c & con & t & x & rest & -> & HP & Ew)].
    + assert (w = v) by congruence; subst; congruence.
    + assert (Hvp : v = pview p t x rest) by congruence; subst v.
      destruct (pview_begin_any _ _ _ _ _ rest HP Ht) as (iter & Eb). rewrite Eb. reflexivity.
Qed.

(** * BerContainer *)
Definition berc_rep (b : berc) (p : list Z) (c : class) (con : construction) (t : Z) (x : list Z) : Prop :=
  ber_packet p c con t x /\ b_data b = p /\ b_view b = pview p t x [].
Lemma berc_decode_packet b p c con t x rest : ber_packet p c con t x -> zlen (p ++ rest) < 2^63 ->
  exists v b', v_make (p ++ rest) = Ok v /\ berc_decode b v = Ok (true, b') /\ berc_rep b' p c con t x.
Proof.
  intros HP Hz. assert (Hz2 := Hz). rewrite zlen_app in Hz2. pose proof (zlen_nonneg rest).
  exists (pview p t x rest), (Berc (vec_assign p) true t (zlen p - zlen x) (zlen x)).
  split; [apply (v_assign_packet _ _ _ _ _ rest 0 HP Hz)|]. unfold berc_decode. rewrite pview_valid. cbn [negb].
  rewrite (pview_ber _ _ _ _ _ rest HP) by lia. cbn [bind]. split; [reflexivity|].
  split; [exact HP|]. split; [reflexivity|]. unfold b_view, pview. cbn. rewrite app_nil_r. reflexivity.
Qed.
Lemma berc_view_facts b p c con t x : berc_rep b p c con t x -> zlen p < 2^63 ->
  is_valid (b_view b) = true /\ v_class (b_view b) = Ok c /\ v_construction (b_view b) = Ok con /\ v_tag (b_view b) = t /\
  berc_content b = Ok x /\ berc_ber b = Ok p /\ writes (berc_encode b) p.
Proof.
  intros (HP & Hd & Hv) Hz. unfold berc_content, berc_ber, berc_encode. rewrite Hv.
  destruct (pview_byte0 _ _ _ _ _ [] HP) as [Hc Hk]. split; [reflexivity|]. split; [exact Hc|]. split; [exact Hk|].
  split; [reflexivity|]. split; [eapply pview_content; eauto|]. split; [eapply pview_ber; eauto|].
  intros buf. unfold v_encode. rewrite (pview_ber_length _ _ _ _ _ [] HP Hz), (pview_ber _ _ _ _ _ [] HP Hz).
  destruct (Z.gtb_spec (zlen p) (zlen buf)).
  - replace (_ <=? _) with false by lia. reflexivity.
  - replace (_ <=? _) with true by lia. cbn [bind]. rewrite mem_write_ok by lia. cbn [bind]. rewrite poke_0. reflexivity.
Qed.
Lemma berc_assign_rep b con c t x : 0 <= t < 2^63 -> zlen x < 2^62 ->
  exists b', berc_assign b con c t x = Ok b' /\ berc_rep b' (hdr c con t (zlen x) ++ x) c con t x.
Proof.
  intros Ht Hx. pose proof (zlen_nonneg x). pose proof (ehl1_range t (zlen x) ltac:(lia)) as Hr.
  pose proof (vec_resize_len (b_vec b) (30 + zlen x) ltac:(lia)) as Hl. unfold berc_assign.
  set (v := vec_resize (b_vec b) (30 + zlen x)) in *.
  rewrite encode_header_raw_ok by (auto; unfold in_u64; lia). set (hl := encoded_header_length1 t (zlen x)) in *.
  pose proof (hdr_len c con t (zlen x) Ht) as Hh. fold hl in Hh. set (h := hdr c con t (zlen x)) in *.
  unfold vec_write.
  set (D := Vec (h ++ zdrop hl (vd v)) (vspare v)).
  assert (Er : vd (vec_resize D (hl + zlen x)) = h ++ ztake (zlen x) (zdrop hl (vd v))).
  { unfold vec_resize. cbn [vd D]. rewrite zlen_app, zlen_zdrop by lia. replace (_ <=? _) with true by lia. cbn [vd].
    rewrite ztake_app_ge by lia. do 2 f_equal. lia. }
  rewrite Er. assert (Hrest : zlen (ztake (zlen x) (zdrop hl (vd v))) = zlen x).
  { rewrite zlen_ztake; [reflexivity|]. rewrite zlen_zdrop; lia. }
  rewrite mem_write_ok by (rewrite ?zlen_app; lia). cbn [bind vd]. unfold poke. rewrite ztake_app_exact by lia.
  rewrite (zdrop_all (hl + zlen x)) by (rewrite zlen_app; lia). rewrite app_nil_r.
  assert (Hid : extract_tag (h ++ x) (b_tag b) = Ok (zlen (id_octets c con t), t)).
  { unfold h, hdr. rewrite <- app_assoc. eapply extract_tag_x690; [apply id_octets_x690; lia | lia]. }
  rewrite Hid. cbn [bind]. eexists; split; [reflexivity|].
  split; [apply hdr_packet; lia|]. split; [reflexivity|]. unfold b_view, pview; cbn [b_valid b_tag b_hl b_cl b_data b_vec vd].
  rewrite app_nil_r. f_equal. rewrite zlen_app. lia.
Qed.
Lemma berc_assign_content_rep b x : zlen x < 2^62 ->
  exists b', berc_assign_content b x = Ok b' /\ berc_rep b' (hdr universal primitive 0 (zlen x) ++ x) universal primitive 0 x.
Proof.
  intros Hx. pose proof (zlen_nonneg x). pose proof (ell_range (zlen x)) as Hr.
  pose proof (vec_resize_len (b_vec b) (15 + zlen x) ltac:(lia)) as Hl. unfold berc_assign_content.
  set (v := vec_resize (b_vec b) (15 + zlen x)) in *. unfold vec_write at 1.
  rewrite mem_write_ok by (rewrite ?zlen_1; lia). cbn [bind vd vspare]. rewrite poke_0. rewrite zlen_1.
  change (zdrop 1 ([0] ++ zdrop 1 (vd v))) with (zdrop 1 (vd v)).
  change (ztake 1 ([0] ++ zdrop 1 (vd v))) with [0].
  rewrite encode_length_ok by (unfold in_u64; rewrite ?zlen_zdrop; lia).
  set (n := encoded_length_length (zlen x)) in *.
  pose proof (len_octets_len (zlen x)) as Hn. fold n in Hn.
  rewrite app_assoc. set (h := [0] ++ len_octets (zlen x)).
  assert (Hh : zlen h = 1 + n) by (unfold h; rewrite zlen_app, zlen_1, Hn; lia).
  assert (Eh : h = hdr universal primitive 0 (zlen x)) by reflexivity.
  set (R := zdrop n (zdrop 1 (vd v))).
  assert (HR : zlen R = 14 + zlen x - n) by (unfold R; rewrite !zlen_zdrop; rewrite ?zlen_zdrop; lia).
  assert (Er : vd (vec_resize (Vec (h ++ R) (vspare v)) (1 + n + zlen x)) = h ++ ztake (zlen x) R).
  { unfold vec_resize. cbn [vd]. rewrite zlen_app. replace (_ <=? _) with true by lia. cbn [vd].
    rewrite ztake_app_ge by lia. do 2 f_equal. lia. }
  unfold vec_write. rewrite Er.
  assert (Hrest : zlen (ztake (zlen x) R) = zlen x) by (rewrite zlen_ztake; lia).
  rewrite mem_write_ok by (rewrite ?zlen_app; lia). cbn [bind vd]. unfold poke. rewrite ztake_app_exact by lia.
  rewrite (zdrop_all (1 + n + zlen x)) by (rewrite zlen_app; lia). rewrite app_nil_r.
  eexists; split; [reflexivity|]. rewrite <- Eh.
  split; [rewrite Eh; apply hdr_packet; lia|]. split; [reflexivity|].
  unfold b_view, pview; cbn [b_valid b_tag b_hl b_cl b_data b_vec vd].
  rewrite app_nil_r. f_equal. rewrite zlen_app. lia.
Qed.
(** resize of a container whose identifier octets have the minimal length *)
Lemma berc_resize_rep b id len c con t x n : x690_ident id c con t -> t < 2^63 -> zlen id = encoded_tag_length t ->
  x690_length len (zlen x) -> zlen len <= 9 -> berc_rep b (id ++ len ++ x) c con t x -> zlen (id ++ len ++ x) < 2^63 ->
  0 <= n < 2^62 ->
  exists b' y, berc_resize b n = Ok b' /\ berc_rep b' (id ++ len_octets n ++ y) c con t y /\ zlen y = n /\
    ztake (Z.min (zlen x) n) y = ztake (Z.min (zlen x) n) x.
Proof.
  intros Hid Ht Hil Hlen Hl9 (HP & Hd & Hv) Hz Hn. pose proof (zlen_nonneg x). pose proof (ell_range n) as Hr.
  assert (Ht0 : 0 <= t) by (eapply x690_ident_nonneg; eauto). pose proof (etl_range t Ht0) as Hrt.
  pose proof (x690_length_len _ _ Hlen). rewrite !zlen_app in Hz.
  assert (Hbt : b_tag b = t) by (apply (f_equal v_tag) in Hv; exact Hv).
  assert (Hbh : b_hl b = zlen id + zlen len) by (apply (f_equal v_hl) in Hv; cbn [pview b_view v_hl] in Hv; rewrite !zlen_app in Hv; lia).
  assert (Hbc : b_cl b = zlen x) by (apply (f_equal v_cl) in Hv; exact Hv).
  unfold berc_resize. rewrite Hbt, Hbh, Hbc.
  rewrite encode_length_ok by (unfold in_u64; rewrite ?zlen_zrep; lia).
  set (ln := encoded_length_length n) in *. pose proof (len_octets_len n) as Hln. fold ln in Hln.
  set (no := encoded_tag_length t) in *.
  pose proof (vec_resize_len (b_vec b) (no + ln + n) ltac:(lia)) as Hl.
  destruct (vec_resize_storage (b_vec b) (no + ln + n)) as (tail & Es). set (v := vec_resize (b_vec b) (no + ln + n)) in *.
  unfold vec_read. rewrite Es. fold (b_data b). rewrite Hd. set (m := Z.min (zlen x) n).
  assert (Hm : 0 <= m <= zlen x /\ m <= n) by lia.
  rewrite mem_read_ok by (rewrite ?zlen_app; pose proof (zlen_nonneg tail); lia). cbn [bind].
  replace ((id ++ len ++ x) ++ tail) with ((id ++ len) ++ x ++ tail) by (rewrite <- !app_assoc; reflexivity).
  rewrite zdrop_app_exact by (rewrite zlen_app; lia). rewrite ztake_app_le by lia.
  assert (Hm2 : zlen (ztake m x) = m) by (apply zlen_ztake; lia).
  unfold vec_write at 1. rewrite mem_write_ok by lia. cbn [bind vd vspare].
  unfold vec_write at 1. rewrite (ztake_app_exact ln (len_octets n)) by lia.
  set (D := poke (vd v) (no + ln) (ztake m x)).
  assert (HD : zlen D = no + ln + n) by (unfold D; rewrite zlen_poke; lia).
  cbn [vd vspare]. rewrite mem_write_ok by lia. cbn [bind vd vspare].
  (* the identifier octets are still in front *)
  assert (Hfront : ztake no (vd v) = id).
  { assert (E1 : ztake no (vd v ++ vspare v) = id).
    { rewrite Es. fold (b_data b). rewrite Hd, <- app_assoc. apply ztake_app_exact. lia. }
    rewrite ztake_app_le in E1 by lia. exact E1. }
  assert (HDt : ztake no D = id).
  { unfold D, poke. rewrite ztake_app_le by (rewrite zlen_ztake; lia). rewrite ztake_ztake by lia. exact Hfront. }
  set (y := zdrop (no + ln) D).
  assert (Hy : zlen y = n) by (unfold y; rewrite zlen_zdrop; lia).
  assert (HD2 : poke D no (len_octets n) = id ++ len_octets n ++ y) by (unfold poke; rewrite HDt, Hln; reflexivity).
  rewrite HD2.
  rewrite (extract_tag_x690 id c con t _ _ Hid Ht). cbn [bind].
  exists (Berc (Vec (id ++ len_octets n ++ y) (vspare v)) true t (no + ln) n), y. split; [reflexivity|].
  split; [|split; [exact Hy|]].
  - split.
    + exists id, (len_octets n). split; [exact Hid|]. split; [exact Ht|].
      rewrite Hy. split; [apply len_octets_x690; unfold in_u64; lia|]. split; [rewrite Hln; lia|]. reflexivity.
    + split; [reflexivity|]. unfold b_view, pview; cbn [b_valid b_tag b_hl b_cl b_data b_vec vd].
      rewrite app_nil_r, !zlen_app, Hln, Hy. f_equal. lia.
  - unfold y, D, poke. rewrite Hm2. rewrite zdrop_app_exact by (rewrite zlen_ztake; lia). apply ztake_app_exact. lia.
Qed.
