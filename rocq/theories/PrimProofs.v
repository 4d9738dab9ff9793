(** Lemmas about the primitive types and containers. *)
From Verif Require Import Base Ident Spec IdentProofs HeaderProofs View ViewProofs Prims.
Ltac Zify.zify_post_hook ::= Z.div_mod_to_equations.

Lemma zlen_1 {A} (x : A) : zlen [x] = 1. Proof. reflexivity. Qed.
(** Views of tame inputs *)
Lemma v_make_cases t0 input : bytes input -> tame input ->
  (exists v, v_assign t0 input = Ok v /\ is_valid v = false /\ v_mem v = None /\ v_hl v = 0 /\ v_cl v = 0 /\
     forall p c con t x rest, ber_packet p c con t x -> input <> p ++ rest) \/
  (exists p c con t x rest, input = p ++ rest /\ ber_packet p c con t x /\ v_assign t0 input = Ok (pview p t x rest)).
Proof.
  intros Hb Ht. destruct (tame_v_assign input t0 Ht) as (v & E & Hcl). destruct (is_valid v) eqn:Hv.
  - right. destruct (v_assign_inv t0 input v Hb (proj1 Ht) E Hv Hcl) as (p & c & con & t & x & rest & -> & HP & ->).
    exists p, c, con, t, x, rest. auto.
  - left. exists v. destruct (v_assign_invalid _ _ _ E Hv) as (H1 & H2 & H3). repeat split; auto.
    intros p c con t x rest HP ->. rewrite (v_assign_packet _ _ _ _ _ rest t0 HP (proj1 Ht)) in E.
    inversion E; subst; discriminate.
Qed.
Lemma bytes_content p c con t x rest : ber_packet p c con t x -> bytes (p ++ rest) -> bytes x.
Proof.
  intros HP. destruct (packet_content_sub _ _ _ _ _ HP) as (h & -> & _). rewrite !bytes_app. tauto.
Qed.
Lemma pview_begin p c t x rest : ber_packet p c constructed t x -> bytes (p ++ rest) -> tame (p ++ rest) ->
  exists it, v_begin (pview p t x rest) = Ok it /\ it_buf it = x /\
   ((is_valid (it_view it) = false /\ v_mem (it_view it) = None /\ v_hl (it_view it) = 0 /\ v_cl (it_view it) = 0 /\
     forall p c con t y rest, ber_packet p c con t y -> x <> p ++ rest) \/
    (exists q c2 k2 t2 y rest2, x = q ++ rest2 /\ ber_packet q c2 k2 t2 y /\ it_view it = pview q t2 y rest2)).
Proof.
  intros HP Hb Ht. unfold v_begin. rewrite (pview_content _ _ _ _ _ rest HP). cbn [bind]. unfold it_make, v_make.
  destruct (v_make_cases 0 x (bytes_content _ _ _ _ _ rest HP Hb) (tame_content _ _ _ _ rest HP Ht))
    as [(w & E & H1 & H2 & H3 & H4 & H5) | (q & c2 & k2 & t2 & y & rest2 & Ex & HQ & E)].
  - rewrite E. cbn [bind]. eexists; split; [reflexivity|]. split; [reflexivity|]. left. auto.
  - rewrite E. cbn [bind]. eexists; split; [reflexivity|]. split; [reflexivity|]. right.
    exists q, c2, k2, t2, y, rest2. auto.
Qed.
Lemma pview_begin_any p c con t x rest : ber_packet p c con t x -> tame (p ++ rest) -> exists it, v_begin (pview p t x rest) = Ok it.
Proof.
  intros HP (_ & _ & Ht). unfold v_begin. rewrite (pview_content _ _ _ _ _ rest HP). cbn [bind]. unfold it_make, v_make.
  destruct (v_assign_defined x 0 (Ht _ _ _ _ _ _ (within_start _) HP)) as (w & ->). eexists. reflexivity.
Qed.
Lemma pview_begin_packet p c con t q c2 k2 t2 y extra rest :
  ber_packet p c con t (q ++ extra) -> ber_packet q c2 k2 t2 y -> zlen p < 2^63 ->
  v_begin (pview p t (q ++ extra) rest) = Ok (Iter (q ++ extra) (pview q t2 y extra)).
Proof.
  intros HP HQ Hz. unfold v_begin. rewrite (pview_content _ _ _ _ _ rest HP). cbn [bind]. unfold it_make, v_make.
  pose proof (ber_packet_len _ _ _ _ _ HP).
  rewrite (v_assign_packet _ _ _ _ _ extra 0 HQ) by lia. reflexivity.
Qed.

(** * has_correct_header *)
Lemma id_eqb_true a b c d : id_eqb (a, b) (c, d) = true <-> a = c /\ b = d.
Proof.
  unfold id_eqb; cbn [fst snd]. rewrite andb_true_iff, class_eqb_eq, Z.eqb_eq. tauto.
Qed.
(** The explicit identifier check on any tame input. *)
Lemma header_spec i con input : bytes input -> tame input ->
  exists v, v_make input = Ok v /\
   ((exists p x extra rest, input = p ++ rest /\ id_packet i con p x extra /\ has_correct_header v i con = Ok true /\
       (match i with Id _ t => v = pview p t x rest
        | DoubleId _ ot _ it => exists q, v = pview p ot (q ++ extra) rest /\
            v_begin v = Ok (Iter (q ++ extra) (pview q it x extra)) end)) \/
    (has_correct_header v i con = Ok false /\
       forall p x extra rest, id_packet i con p x extra -> input <> p ++ rest)).
Proof.
  intros Hb Ht. destruct (v_make_cases 0 input Hb Ht)
    as [(v & E & H1 & H2 & H3 & H4 & H5) | (p & c & k & t & x & rest & -> & HP & E)].
  - exists v. split; [exact E|]. right. unfold has_correct_header. rewrite H1. split; [reflexivity|].
    intros p x extra rest Hi. destruct i as [c t|oc ot ic it]; cbn in Hi.
    + eapply H5; apply Hi.
    + destruct Hi as (q & HP & _). eapply H5; eauto.
  - exists (pview p t x rest). split; [exact E|].
    destruct (pview_byte0 _ _ _ _ _ rest HP) as [Hc Hk].
    unfold has_correct_header. rewrite pview_valid. cbn [negb]. rewrite Hc, Hk. cbn [bind].
    destruct i as [ic it|oc ot ic it].
    + cbn [pview v_tag].
      destruct (class_eqb c ic && (t =? it) && construction_eqb k con) eqn:Em.
      * left. apply andb_prop in Em; destruct Em as [Em Ek]. apply andb_prop in Em; destruct Em as [Ec Et].
        apply class_eqb_eq in Ec. apply Z.eqb_eq in Et. apply construction_eqb_eq in Ek. subst.
        exists p, x, [], rest. cbn. auto 10.
      * right. split; [reflexivity|]. intros p' x' extra' rest' [HP' _] Eq.
        destruct (ber_packet_det _ _ _ _ _ _ _ _ _ _ _ _ HP HP' Eq) as (-> & -> & -> & -> & -> & ->).
        rewrite class_eqb_refl, Z.eqb_refl, construction_eqb_refl in Em. discriminate.
    + cbn [pview v_tag]. fold (pview p t x rest).
      destruct (id_eqb (c, t) (oc, ot) && construction_eqb k constructed) eqn:Em; cbn [negb].
      2:{ right. split; [reflexivity|]. intros p' x' extra' rest' (q & HP' & _) Eq.
          destruct (ber_packet_det _ _ _ _ _ _ _ _ _ _ _ _ HP HP' Eq) as (-> & -> & -> & -> & -> & ->).
          rewrite (proj2 (id_eqb_true oc ot oc ot)) in Em by auto. discriminate. }
      apply andb_prop in Em; destruct Em as [Em Ek]. apply id_eqb_true in Em. destruct Em as [-> ->].
      apply construction_eqb_eq in Ek. subst k.
      destruct (pview_begin _ _ _ _ rest HP Hb Ht) as (iter & Eb & Ebuf & Hcase). rewrite Eb. cbn [bind].
      destruct Hcase as [(N1 & N2 & N3 & N4 & N5) | (q & c2 & k2 & t2 & y & rest2 & Ex & HQ & Ev)].
      { rewrite N1. cbn [negb]. right. split; [reflexivity|]. intros p' x' extra' rest' (q & HP' & HQ') Eq.
        destruct (ber_packet_det _ _ _ _ _ _ _ _ _ _ _ _ HP HP' Eq) as (-> & _ & _ & _ & -> & ->).
        eapply N5; eauto. }
      rewrite Ev, pview_valid. cbn [negb].
      destruct (pview_byte0 _ _ _ _ _ rest2 HQ) as [Hc2 Hk2]. rewrite Hc2, Hk2. cbn [bind].
      change (v_tag (pview q t2 y rest2)) with t2.
      destruct (id_eqb (c2, t2) (ic, it) && construction_eqb k2 con) eqn:Em2.
      * apply andb_prop in Em2; destruct Em2 as [Em2 Ek2]. apply id_eqb_true in Em2. destruct Em2 as [-> ->].
        apply construction_eqb_eq in Ek2. subst k2. left.
        exists p, y, rest2, rest. split; [reflexivity|]. split.
        { exists q. rewrite <- Ex. split; [exact HP | exact HQ]. }
        split; [reflexivity|]. exists q. rewrite <- Ex. split; [reflexivity|]. f_equal.
        destruct iter; cbn in *; subst; reflexivity.
      * right. split; [reflexivity|]. intros p' x' extra' rest' (q' & HP' & HQ') Eq.
        destruct (ber_packet_det _ _ _ _ _ _ _ _ _ _ _ _ HP HP' Eq) as (-> & _ & _ & _ & -> & ->).
        destruct (ber_packet_det _ _ _ _ _ _ _ _ _ _ _ _ HQ HQ' (eq_sym Ex)) as (-> & -> & -> & -> & -> & ->).
        rewrite (proj2 (id_eqb_true ic it ic it)), construction_eqb_refl in Em2 by auto. discriminate.
Qed.

(** what the encoder's header and a content make is such a packet, without extra octets *)
Lemma hdr_of_packet i con x : wf_ident i -> zlen x < 2^62 -> id_packet i con (hdr_of i (zlen x) con ++ x) x [].
Proof.
  intros Hi Hz. pose proof (zlen_nonneg x). destruct i as [c t|oc ot ic it]; cbn [wf_ident hdr_of id_packet] in *.
  - split; auto. apply hdr_packet; auto; lia.
  - exists (hdr ic con it (zlen x) ++ x). rewrite app_nil_r.
    pose proof (ehl1_range it (zlen x) ltac:(lia)).
    assert (Hl : zlen (hdr ic con it (zlen x) ++ x) = encoded_header_length1 it (zlen x) + zlen x)
      by (rewrite zlen_app, hdr_len by lia; reflexivity).
    split; [|apply hdr_packet; lia].
    rewrite <- app_assoc, <- Hl. apply hdr_packet; lia.
Qed.
Lemma id_packet_bytes i con p x extra : id_packet i con p x extra -> bytes x -> bytes extra -> bytes p.
Proof.
  destruct i as [c t|oc ot ic it]; cbn [id_packet].
  - intros [H _] ? ?. eapply ber_packet_bytes; eauto.
  - intros (q & HP & HQ) Hx He. eapply ber_packet_bytes; eauto. apply bytes_app. split; auto.
    eapply ber_packet_bytes; eauto.
Qed.
Lemma id_packet_len i con p x extra : id_packet i con p x extra -> 2 + zlen x <= zlen p.
Proof.
  destruct i as [c t|oc ot ic it]; cbn [id_packet].
  - intros [H _]. eapply ber_packet_len; eauto.
  - intros (q & HP & HQ). apply ber_packet_len in HP. apply ber_packet_len in HQ. rewrite zlen_app in HP.
    pose proof (zlen_nonneg extra). lia.
Qed.
Lemma id_packet_det i k1 k2 p1 p2 x1 x2 e1 e2 r1 r2 :
  id_packet i k1 p1 x1 e1 -> id_packet i k2 p2 x2 e2 -> p1 ++ r1 = p2 ++ r2 ->
  p1 = p2 /\ x1 = x2 /\ e1 = e2 /\ r1 = r2 /\ k1 = k2.
Proof.
  destruct i as [c t|oc ot ic it]; cbn [id_packet].
  - intros [H1 ->] [H2 ->] E. destruct (ber_packet_det _ _ _ _ _ _ _ _ _ _ _ _ H1 H2 E) as (-> & _ & -> & _ & -> & ->). auto.
  - intros (q1 & H1 & Q1) (q2 & H2 & Q2) E.
    destruct (ber_packet_det _ _ _ _ _ _ _ _ _ _ _ _ H1 H2 E) as (-> & _ & _ & _ & E2 & ->).
    destruct (ber_packet_det _ _ _ _ _ _ _ _ _ _ _ _ Q1 Q2 E2) as (-> & _ & -> & _ & -> & ->). auto.
Qed.

(** has_correct_header on a known packet (no tameness needed) *)
Lemma header_packet i con p x extra rest : id_packet i con p x extra -> zlen (p ++ rest) < 2^63 ->
  exists v, v_make (p ++ rest) = Ok v /\ is_valid v = true /\ has_correct_header v i con = Ok true /\
    v_ber v = Ok p /\
    (match i with Id _ t => v = pview p t x rest
     | DoubleId _ ot _ it => exists q, v = pview p ot (q ++ extra) rest /\
         v_begin v = Ok (Iter (q ++ extra) (pview q it x extra)) /\ ber_packet q (match i with DoubleId _ _ c _ => c | Id c _ => c end) con it x end).
Proof.
  intros Hp Hz. assert (Hzp := Hz). rewrite zlen_app in Hzp. pose proof (zlen_nonneg rest).
  destruct i as [c t|oc ot ic it]; cbn in Hp.
  - destruct Hp as [HP ->]. exists (pview p t x rest). split; [apply (v_assign_packet _ _ _ _ _ rest 0 HP Hz)|].
    destruct (pview_byte0 _ _ _ _ _ rest HP) as [Hc Hk].
    split; [reflexivity|]. split; [|split; [eapply pview_ber; eauto; lia | reflexivity]].
    unfold has_correct_header. rewrite pview_valid. cbn [negb]. rewrite Hc, Hk. cbn [bind pview v_tag].
    rewrite class_eqb_refl, Z.eqb_refl, construction_eqb_refl. reflexivity.
  - destruct Hp as (q & HP & HQ). exists (pview p ot (q ++ extra) rest).
    split; [apply (v_assign_packet _ _ _ _ _ rest 0 HP Hz)|].
    destruct (pview_byte0 _ _ _ _ _ rest HP) as [Hc Hk].
    destruct (pview_byte0 _ _ _ _ _ extra HQ) as [Hc2 Hk2].
    pose proof (pview_begin_packet _ _ _ _ _ _ _ _ _ extra rest HP HQ ltac:(lia)) as Hb.
    split; [reflexivity|]. split; [|split; [eapply pview_ber; eauto; lia | exists q; auto]].
    unfold has_correct_header. rewrite pview_valid. cbn [negb]. rewrite Hc, Hk. cbn [bind].
    change (v_tag (pview p ot (q ++ extra) rest)) with ot.
    rewrite (proj2 (id_eqb_true oc ot oc ot)) by auto. cbn [andb construction_eqb construction_num Z.eqb negb Pos.eqb].
    rewrite Hb. cbn [bind it_view]. rewrite pview_valid. cbn [negb]. rewrite Hc2, Hk2. cbn [bind].
    change (v_tag (pview q it x extra)) with it.
    rewrite (proj2 (id_eqb_true ic it ic it)), construction_eqb_refl by auto. reflexivity.
Qed.
Lemma v_read_content_pview p c con t x rest : ber_packet p c con t x -> v_read_content (pview p t x rest) (zlen x) = Ok x.
Proof.
  intros HP. unfold v_read_content. destruct (Z.eqb_spec (zlen x) 0) as [E|E].
  - apply zlen_0_nil in E. subst; reflexivity.
  - apply (pview_content _ _ _ _ _ rest) in HP. exact HP.
Qed.

(** * Small containers *)
Definition small_fits (i : ident) (n : Z) : Prop :=
  match i with Id _ _ => n <= 127 | DoubleId _ _ _ it => encoded_header_length1 it 0 + n <= 127 end.
Lemma ehl1_small t n : n <= 127 -> encoded_header_length1 t n = encoded_tag_length t + 1.
Proof. intros; unfold encoded_header_length1, encoded_identifier_length. rewrite ell_short by lia. reflexivity. Qed.
Lemma len_octets_small n : n <= 127 -> len_octets n = [n].
Proof. intros; unfold len_octets. replace (n <? 128) with true by lia. reflexivity. Qed.
Lemma hdr_of_small i n : wf_ident i -> 0 <= n -> small_fits i n ->
  hdr_of i n primitive =
    match i with
    | Id c t => id_octets c primitive t ++ [n]
    | DoubleId oc ot ic it => id_octets oc constructed ot ++ [encoded_tag_length it + 1 + n] ++ id_octets ic primitive it ++ [n]
    end.
Proof.
  destruct i as [c t|oc ot ic it]; cbn [wf_ident small_fits hdr_of]; intros Hi Hn Hf; unfold hdr.
  - rewrite len_octets_small by lia. reflexivity.
  - pose proof (etl_range it ltac:(lia)). rewrite (ehl1_small it 0) in Hf by lia. rewrite (ehl1_small it n) by lia.
    rewrite !len_octets_small by lia. rewrite <- app_assoc. reflexivity.
Qed.
Lemma poke_mid a b x c : poke (a ++ [b] ++ c) (zlen a) [x] = a ++ [x] ++ c.
Proof.
  unfold poke. rewrite ztake_len_eq. do 2 f_equal. rewrite app_assoc. apply zdrop_app_exact.
  rewrite zlen_app. reflexivity.
Qed.
Lemma mem_write_mid a b x c k : k = zlen a -> mem_write (a ++ [b] ++ c) k [x] = Ok (a ++ [x] ++ c).
Proof.
  intros ->. rewrite mem_write_ok, poke_mid; auto using zlen_nonneg.
  rewrite !zlen_app. change (zlen [x]) with 1. change (zlen [b]) with 1. pose proof (zlen_nonneg c). lia.
Qed.
Lemma small_hl_eq i : wf_ident i ->
  small_hl i = match i with Id _ t => encoded_tag_length t + 1
               | DoubleId _ ot _ it => encoded_tag_length ot + 1 + (encoded_tag_length it + 1) end.
Proof.
  destruct i as [c t|oc ot ic it]; cbn [wf_ident]; intros Hi; unfold small_hl; cbn [encoded_header_length].
  - apply ehl1_small. lia.
  - rewrite encoded_length1_nowrap by lia. pose proof (etl_range it ltac:(lia)).
    rewrite (ehl1_small it) by lia. rewrite ehl1_small by lia. reflexivity.
Qed.
Lemma hdr_of_small_len i n : wf_ident i -> 0 <= n -> small_fits i n -> zlen (hdr_of i n primitive) = small_hl i.
Proof.
  intros Hi Hn Hf. rewrite hdr_of_small, small_hl_eq by auto.
  destruct i as [c t|oc ot ic it]; cbn [wf_ident] in *; rewrite !zlen_app, !id_octets_len, ?zlen_1 by lia; lia.
Qed.
Lemma small_set_length_ok i m n y : wf_ident i -> 0 <= m -> 0 <= n -> small_fits i m -> small_fits i n ->
  small_set_length i (hdr_of i m primitive ++ y) n = Ok (hdr_of i n primitive ++ y).
Proof.
  intros Hi Hm Hn Hfm Hfn. unfold small_set_length. rewrite small_hl_eq, !hdr_of_small by auto.
  destruct i as [c t|oc ot ic it]; cbn [wf_ident small_fits depth inner_identifier outer_identifier encoded_header_length encoded_length] in *.
  - rewrite <- app_assoc. rewrite mem_write_mid by (rewrite id_octets_len by lia; lia). cbn [bind Z.eqb Pos.eqb].
    rewrite u8_small by lia. rewrite <- app_assoc. reflexivity.
  - pose proof (etl_range it ltac:(lia)). pose proof (etl_range ot ltac:(lia)).
    rewrite (ehl1_small it) in * by lia.
    set (A := id_octets oc constructed ot). set (B := id_octets ic primitive it).
    assert (HA : zlen A = encoded_tag_length ot) by (apply id_octets_len; lia).
    assert (HB : zlen B = encoded_tag_length it) by (apply id_octets_len; lia).
    replace ((A ++ [encoded_tag_length it + 1 + m] ++ B ++ [m]) ++ y)
       with ((A ++ [encoded_tag_length it + 1 + m] ++ B) ++ [m] ++ y) by (rewrite <- !app_assoc; reflexivity).
    rewrite mem_write_mid by (rewrite !zlen_app, HA, HB, zlen_1; lia). cbn [bind].
    replace ((A ++ [encoded_tag_length it + 1 + m] ++ B) ++ [u8 n] ++ y)
       with (A ++ [encoded_tag_length it + 1 + m] ++ (B ++ [u8 n] ++ y)) by (rewrite <- !app_assoc; reflexivity).
    change (2 =? 2) with true. cbn match. rewrite ehl1_small by lia.
    rewrite mem_write_mid by lia.
    rewrite encoded_length1_nowrap, ehl1_small by lia. rewrite !u8_small by lia.
    rewrite <- !app_assoc. reflexivity.
Qed.

Definition small_rep (i : ident) (max : Z) (data x : list Z) : Prop :=
  exists junk, data = hdr_of i (zlen x) primitive ++ x ++ junk /\ zlen x + zlen junk = max.
Definition small_ok (i : ident) (max : Z) : Prop := wf_ident i /\ 0 <= max /\ small_fits i max.
Lemma small_fits_le i m n : small_fits i n -> m <= n -> small_fits i m.
Proof. destruct i; cbn; lia. Qed.
Lemma small_fits_127 i n : wf_ident i -> small_fits i n -> n <= 127.
Proof. destruct i as [|? ? ? it]; cbn; [lia|]. intros. pose proof (ehl1_range it 0 ltac:(lia)). lia. Qed.

Lemma small_init_rep i max : small_ok i max -> small_rep i max (small_init i max) [].
Proof.
  intros (Hi & Hm & Hf). unfold small_rep, small_init.
  pose proof (small_fits_127 _ _ Hi Hf). pose proof (ehl_range i 0 Hi) as Hr. fold (small_hl i) in Hr.
  rewrite encode_header_ok; auto; [|lia|].
  - cbn [er_buf]. fold (small_hl i). exists (zdrop (small_hl i) (zrep (small_hl i + max) 0)). split; [reflexivity|].
    rewrite zlen_zdrop; rewrite zlen_zrep by lia; [rewrite zlen_nil|]; lia.
  - rewrite zlen_zrep by lia. unfold small_hl in *. destruct i; cbn [header_room] in *; lia.
Qed.
Lemma small_rep_len i max data x : small_ok i max -> small_rep i max data x -> zlen data = small_hl i + max /\ zlen x <= max.
Proof.
  intros (Hi & Hm & Hf) (junk & -> & Hl). pose proof (zlen_nonneg junk). pose proof (zlen_nonneg x).
  rewrite !zlen_app, hdr_of_small_len by (auto; apply (small_fits_le _ _ _ Hf); lia). lia.
Qed.
(** writing [x] over the content area *)
Lemma small_store i max data y x : small_ok i max -> small_rep i max data y -> zlen x <= max ->
  exists d d2, mem_write data (small_hl i) x = Ok d /\ small_set_length i d (zlen x) = Ok d2 /\ small_rep i max d2 x.
Proof.
  intros Hok (junk & -> & Hl) Hx. pose proof Hok as (Hi & Hm & Hf).
  pose proof (zlen_nonneg junk). pose proof (zlen_nonneg x). pose proof (zlen_nonneg y).
  assert (Hfy : small_fits i (zlen y)) by (apply (small_fits_le _ _ _ Hf); lia).
  assert (Hfx : small_fits i (zlen x)) by (apply (small_fits_le _ _ _ Hf); lia).
  pose proof (hdr_of_small_len i (zlen y) Hi ltac:(lia) Hfy) as Hh.
  set (h := hdr_of i (zlen y) primitive) in *. pose proof (zlen_nonneg h).
  exists (h ++ x ++ zdrop (zlen x) (y ++ junk)), (hdr_of i (zlen x) primitive ++ x ++ zdrop (zlen x) (y ++ junk)).
  split; [|split].
  - rewrite mem_write_ok by (rewrite ?zlen_app; lia). f_equal. unfold poke. rewrite ztake_app_exact by lia.
    do 2 f_equal. rewrite zdrop_app_ge by lia. f_equal. lia.
  - apply small_set_length_ok; auto; lia.
  - eexists; split; [reflexivity|]. rewrite zlen_zdrop; rewrite zlen_app; lia.
Qed.
Lemma small_assign_rep i max data y x : small_ok i max -> small_rep i max data y -> zlen x <= max ->
  exists d, small_assign_content i data x = Ok d /\ small_rep i max d x.
Proof.
  intros Hok Hr Hx. destruct (small_store i max data y x Hok Hr Hx) as (d & d2 & E1 & E2 & H).
  exists d2. unfold small_assign_content. rewrite E1. cbn [bind]. auto.
Qed.
Lemma zget_mid a b c k : k = zlen a -> zget (a ++ b :: c) k = Ok b.
Proof.
  intros ->. unfold zget. rewrite zlen_app, zlen_cons. pose proof (zlen_nonneg a). pose proof (zlen_nonneg c).
  replace (_ && _) with true by lia. unfold zlen. rewrite Nat2Z.id, nth_error_app2, Nat.sub_diag by lia. reflexivity.
Qed.
Lemma small_content_length_rep i max data x : small_ok i max -> small_rep i max data x ->
  small_content_length i data = Ok (zlen x).
Proof.
  intros (Hi & Hm & Hf) (junk & -> & Hl). pose proof (zlen_nonneg junk). pose proof (zlen_nonneg x).
  assert (Hfx : small_fits i (zlen x)) by (apply (small_fits_le _ _ _ Hf); lia).
  unfold small_content_length. rewrite small_hl_eq, hdr_of_small by (auto; lia).
  destruct i as [c t|oc ot ic it]; cbn [wf_ident] in *.
  - rewrite <- app_assoc. apply zget_mid. rewrite id_octets_len by lia. lia.
  - rewrite <- !app_assoc. rewrite !(app_assoc _ _ (_ ++ [_] ++ _)), !(app_assoc _ _ ([_] ++ _)).
    apply zget_mid. rewrite !zlen_app, !id_octets_len, ?zlen_1 by lia. lia.
Qed.
Lemma small_content_rep i max data x : small_ok i max -> small_rep i max data x -> small_content i data = Ok x.
Proof.
  intros Hok Hr. unfold small_content. rewrite (small_content_length_rep _ _ _ _ Hok Hr). cbn [bind].
  pose proof Hok as (Hi & Hm & Hf). destruct (small_rep_len _ _ _ _ Hok Hr) as [H1 H2].
  pose proof (zlen_nonneg x). destruct Hr as (junk & -> & Hl).
  assert (Hfx : small_fits i (zlen x)) by (apply (small_fits_le _ _ _ Hf); lia).
  pose proof (hdr_of_small_len i (zlen x) Hi ltac:(lia) Hfx).
  pose proof (zlen_nonneg (hdr_of i (zlen x) primitive)).
  rewrite mem_read_ok by lia. rewrite zdrop_app_exact, ztake_len_eq by lia. reflexivity.
Qed.
Lemma small_ber_length_rep i max data x : small_ok i max -> small_rep i max data x ->
  small_ber_length i data = Ok (zlen (hdr_of i (zlen x) primitive ++ x)).
Proof.
  intros Hok Hr. unfold small_ber_length. rewrite (small_content_length_rep _ _ _ _ Hok Hr). cbn [bind].
  pose proof Hok as (Hi & Hm & Hf). destruct (small_rep_len _ _ _ _ Hok Hr) as [H1 H2]. pose proof (zlen_nonneg x).
  rewrite zlen_app, hdr_of_small_len by (auto; try lia; apply (small_fits_le _ _ _ Hf); lia). reflexivity.
Qed.
Lemma small_encode_rep i max data x buf : small_ok i max -> small_rep i max data x ->
  small_encode i data buf = Ok (copy_out (hdr_of i (zlen x) primitive ++ x) buf).
Proof.
  intros Hok Hr. unfold small_encode. rewrite (small_ber_length_rep _ _ _ _ Hok Hr). cbn [bind].
  destruct Hr as (junk & -> & Hl). unfold copy_out.
  set (s := hdr_of i (zlen x) primitive ++ x). rewrite app_assoc. fold s.
  pose proof (zlen_nonneg s). pose proof (zlen_nonneg junk).
  destruct (Z.ltb_spec (zlen buf) (zlen s)); [reflexivity|].
  rewrite mem_read_ok by (rewrite ?zlen_app; lia). cbn [bind]. rewrite zdrop_0, ztake_len_eq.
  rewrite mem_write_ok by lia. reflexivity.
Qed.
Lemma v_read_content_len v n x : v_read_content v n = Ok x -> zlen x = n.
Proof.
  unfold v_read_content. destruct (Z.eqb_spec n 0) as [->|]; [intros H; inversion H; reflexivity|].
  destruct (v_mem v); [|discriminate]. unfold mem_read. destruct (_ && _ && _) eqn:E; [|discriminate].
  intros H; inversion H; subst. rewrite zlen_ztake; [reflexivity|]. rewrite zlen_zdrop; lia.
Qed.
(** the array version refines the content version *)
Lemma small_decode_refines i max data y v : small_ok i max -> small_rep i max data y ->
  match small_decode_content i max v with
  | Ok None => small_decode i max data v = Ok (false, data)
  | Ok (Some x) => exists d, small_decode i max data v = Ok (true, d) /\ small_rep i max d x /\ zlen x <= max
  | UB => small_decode i max data v = UB
  | NoFuel => small_decode i max data v = NoFuel
  end.
Proof.
  intros Hok Hr. unfold small_decode_content, small_decode.
  destruct (negb (is_valid v)); [reflexivity|].
  destruct (view_has_id v (id_class i) (id_tag i)) as [idm| |]; cbn [bind]; try reflexivity.
  destruct (v_construction v) as [k| |]; cbn [bind]; try reflexivity.
  destruct i as [c t|oc ot ic it].
  - destruct (negb _) eqn:En; [reflexivity|].
    destruct (v_read_content v (v_cl v)) as [x| |] eqn:Ex; cbn [bind]; try reflexivity.
    pose proof (v_read_content_len _ _ _ Ex) as Hx.
    destruct (small_store _ max data y x Hok Hr ltac:(lia)) as (d & d2 & E1 & E2 & H).
    rewrite E1. cbn [bind]. rewrite <- Hx, E2. cbn [bind]. exists d2. repeat split; auto; lia.
  - destruct (negb _); [reflexivity|].
    destruct (v_begin v) as [it0| |]; cbn [bind]; try reflexivity.
    destruct (negb (is_valid (it_view it0))); [reflexivity|].
    destruct (view_has_id (it_view it0) ic it) as [widm| |]; cbn [bind]; try reflexivity.
    destruct (v_construction (it_view it0)) as [wk| |]; cbn [bind]; try reflexivity.
    destruct (negb _) eqn:En; [reflexivity|].
    destruct (v_read_content (it_view it0) (v_cl (it_view it0))) as [x| |] eqn:Ex; cbn [bind]; try reflexivity.
    pose proof (v_read_content_len _ _ _ Ex) as Hx.
    destruct (small_store _ max data y x Hok Hr ltac:(lia)) as (d & d2 & E1 & E2 & H).
    rewrite E1. cbn [bind]. rewrite <- Hx, E2. cbn [bind]. exists d2. repeat split; auto; lia.
Qed.

(** What small_decode_content accepts, on any tame input. *)
Lemma small_decode_content_header i max v : is_valid v = true ->
  has_correct_header v i primitive = Ok false -> small_decode_content i max v = Ok None.
Proof.
  intros Hv. unfold has_correct_header, small_decode_content, view_has_id, v_identifier. rewrite Hv. cbn [negb].
  destruct (v_class v) as [c| |]; cbn [bind]; try discriminate.
  destruct (v_construction v) as [k| |]; cbn [bind]; try discriminate.
  destruct i as [ic it|oc ot ic it]; cbn [id_class id_tag].
  - unfold id_eqb; cbn [fst snd]. intros H. inversion H as [H1]. rewrite H1. reflexivity.
  - destruct (negb _); [reflexivity|].
    destruct (v_begin v) as [it0| |]; cbn [bind]; try discriminate.
    destruct (negb _); [reflexivity|].
    destruct (v_class (it_view it0)); cbn [bind]; try discriminate.
    destruct (v_construction (it_view it0)); cbn [bind]; try discriminate.
    intros H. inversion H as [H1]. rewrite H1. reflexivity.
Qed.
Lemma small_decode_content_packet i max p x extra rest v : id_packet i primitive p x extra -> zlen (p ++ rest) < 2^63 ->
  v_make (p ++ rest) = Ok v ->
  small_decode_content i max v = Ok (if zlen x <=? max then Some x else None).
Proof.
  intros Hp Hz Ev. destruct (header_packet i primitive p x extra rest Hp Hz) as (v' & Ev' & Hv & Hh & _ & Hcase).
  assert (v' = v) by congruence. subst v'. clear Ev'.
  unfold has_correct_header in Hh. unfold small_decode_content, view_has_id, v_identifier. rewrite Hv in *. cbn [negb] in *.
  destruct (v_class v) as [c| |]; cbn [bind] in *; try discriminate.
  destruct (v_construction v) as [k| |]; cbn [bind] in *; try discriminate.
  destruct i as [ic it|oc ot ic it]; cbn [id_class id_tag].
  - unfold id_eqb; cbn [fst snd]. inversion Hh as [H1]. rewrite H1. cbn [andb]. subst v.
    destruct Hp as [HP _]. change (v_cl (pview p it x rest)) with (zlen x).
    destruct (zlen x <=? max); cbn [negb]; [|reflexivity].
    rewrite (v_read_content_pview _ _ _ _ _ rest HP). reflexivity.
  - destruct (id_eqb (c, v_tag v) (oc, ot) && construction_eqb k constructed) eqn:Em; cbn [negb] in *; [|discriminate].
    destruct Hcase as (q & -> & Hb & HQ). rewrite Hb in *. cbn [bind it_view] in *.
    rewrite pview_valid in *. cbn [negb] in *.
    destruct (v_class (pview q it x extra)); cbn [bind] in *; try discriminate.
    destruct (v_construction (pview q it x extra)); cbn [bind] in *; try discriminate.
    change (v_tag (pview q it x extra)) with it in *. inversion Hh as [H1]. rewrite H1. cbn [andb].
    change (v_cl (pview q it x extra)) with (zlen x).
    destruct (zlen x <=? max); cbn [negb]; [|reflexivity].
    rewrite (v_read_content_pview _ _ _ _ _ extra HQ). reflexivity.
Qed.
Lemma small_decode_content_spec i max input : bytes input -> tame input ->
  exists v, v_make input = Ok v /\
    ((exists p x extra rest, input = p ++ rest /\ id_packet i primitive p x extra /\ zlen x <= max /\
        small_decode_content i max v = Ok (Some x)) \/
     (small_decode_content i max v = Ok None /\
        forall p x extra rest, id_packet i primitive p x extra -> input = p ++ rest -> zlen x > max)).
Proof.
  intros Hb Ht. destruct (header_spec i primitive input Hb Ht) as (v & Ev & [H|H]).
  - destruct H as (p & x & extra & rest & -> & Hp & Hh & _). exists v. split; [auto|].
    rewrite (small_decode_content_packet i max p x extra rest v Hp (proj1 Ht) Ev).
    destruct (Z.leb_spec (zlen x) max).
    + left. exists p, x, extra, rest. auto.
    + right. split; [reflexivity|]. intros p' x' e' r' Hp' Eq.
      destruct (id_packet_det _ _ _ _ _ _ _ _ _ _ _ Hp Hp' Eq) as (_ & -> & _). lia.
  - destruct H as [Hh Hno]. exists v. split; [auto|]. right. split.
    + destruct (is_valid v) eqn:Hv; [apply small_decode_content_header; auto|].
      unfold small_decode_content. rewrite Hv. reflexivity.
    + intros p x e r Hp Eq. exfalso. eapply Hno; eauto.
Qed.

(** Decoding into a small container, on any tame input. *)
Lemma small_decode_spec i max data y input : small_ok i max -> small_rep i max data y -> bytes input -> tame input ->
  exists v, v_make input = Ok v /\
    ((exists p x extra rest d, input = p ++ rest /\ id_packet i primitive p x extra /\ zlen x <= max /\
        small_decode i max data v = Ok (true, d) /\ small_rep i max d x) \/
     (small_decode i max data v = Ok (false, data) /\
        forall p x extra rest, id_packet i primitive p x extra -> input = p ++ rest -> zlen x > max)).
Proof.
  intros Hok Hr Hb Ht. destruct (small_decode_content_spec i max input Hb Ht) as (v & Ev & H). exists v. split; [auto|].
  pose proof (small_decode_refines i max data y v Hok Hr) as Href. destruct H as [(p & x & extra & rest & E & Hp & Hx & Ed)|[Ed Hno]].
  - rewrite Ed in Href. destruct Href as (d & E1 & E2 & _). left. exists p, x, extra, rest, d. auto.
  - rewrite Ed in Href. right. auto.
Qed.
Lemma small_decode_packet i max data y p x extra rest : small_ok i max -> small_rep i max data y ->
  id_packet i primitive p x extra -> zlen (p ++ rest) < 2^63 -> zlen x <= max ->
  exists v d, v_make (p ++ rest) = Ok v /\ small_decode i max data v = Ok (true, d) /\ small_rep i max d x.
Proof.
  intros Hok Hr Hp Hz Hx. destruct (header_packet i primitive p x extra rest Hp Hz) as (v & Ev & _).
  pose proof (small_decode_refines i max data y v Hok Hr) as Href.
  rewrite (small_decode_content_packet i max p x extra rest v Hp Hz Ev) in Href.
  replace (zlen x <=? max) with true in Href by lia. destruct Href as (d & E1 & E2 & _). exists v, d. auto.
Qed.
Lemma copy_out_writes p : writes (fun buf => Ok (copy_out p buf)) p.
Proof.
  intros buf. unfold copy_out. destruct (Z.ltb_spec (zlen buf) (zlen p)).
  - replace (_ <=? _) with false by lia. reflexivity.
  - replace (_ <=? _) with true by lia. rewrite poke_0. reflexivity.
Qed.
Lemma small_encode_writes i max data x : small_ok i max -> small_rep i max data x ->
  writes (small_encode i data) (hdr_of i (zlen x) primitive ++ x).
Proof. intros Hok Hr buf. rewrite (small_encode_rep _ _ _ _ _ Hok Hr). apply copy_out_writes. Qed.
Lemma hdr_of_pk_bytes i con x : wf_ident i -> zlen x < 2^62 -> bytes x -> bytes (hdr_of i (zlen x) con ++ x).
Proof. intros. eapply id_packet_bytes; [apply hdr_of_packet|..]; auto. apply bytes_nil. Qed.
