(** Proofs: the decoders of generated code accept exactly what [reads] describes (DecodeSpec.v). *)
From Verif Require Import Base Ident Spec IdentProofs HeaderProofs View ViewProofs Prims PrimProofs ContProofs Schema SchemaSpec SchemaProofs SchemaDecode SchemaRound SchemaSet DecodeSpec.
Ltac Zify.zify_post_hook ::= Z.div_mod_to_equations.

Definition good_bytes (x : list Z) : Prop := bytes x /\ tame x.
Lemma good_bytes_next q rest : pkt_ok q -> good_bytes (pk_ber q ++ rest) -> good_bytes rest.
Proof. intros Hq [Hb Ht]. split; [apply bytes_app in Hb; tauto|]. eapply tame_next; eauto. Qed.
Lemma good_bytes_drop qs rest : Forall pkt_ok qs -> good_bytes (concat (map pk_ber qs) ++ rest) -> good_bytes rest.
Proof. intros Hq [Hb Ht]. split; [apply bytes_app in Hb; tauto|]. eapply tame_packets; eauto. Qed.
Lemma rubbish_no_packet tail : good_bytes tail -> rubbish tail -> no_packet tail.
Proof.
  intros [Hb Ht] Hr t0. destruct (v_make_cases t0 tail Hb Ht) as [(v & E & Hv & _)|(p & c & con & t & x & rest & E & HP & _)].
  - eauto.
  - exfalso. exact (Hr _ _ _ _ _ _ HP E).
Qed.
Lemma no_packet_rubbish tail : good_bytes tail -> no_packet tail -> rubbish tail.
Proof. intros [_ Ht] H p c con t x rest HP. exact (no_packet_spec tail H (proj1 Ht) p c con t x rest HP). Qed.
Lemma split_exists x : good_bytes x -> exists qs, split_content x qs.
Proof.
  intros H. destruct (partition_packets (length x) x ltac:(lia) (proj1 H) (proj2 H)) as (ks & tail & E & Hk & Ht & _).
  exists ks, tail. split; [exact E|]. split; [exact Hk|]. apply no_packet_rubbish; [|exact Ht].
  rewrite E in H. exact (good_bytes_drop _ _ Hk H).
Qed.

(** A view of the packet p. *)
Definition at_pkt (v : view) (q : pkt) : Prop :=
  exists rest, pkt_ok q /\ good_bytes (pk_ber q ++ rest) /\ v = pview (pk_ber q) (pk_tag q) (pk_content q) rest.
Lemma at_pkt_good v q : at_pkt v q -> good_view v.
Proof. intros (rest & Hq & [Hb Ht] & ->). right. exists (pk_ber q), (pk_class q), (pk_con q), (pk_tag q), (pk_content q), rest. auto. Qed.
Lemma at_pkt_valid v q : at_pkt v q -> is_valid v = true.
Proof. intros (rest & _ & _ & ->). reflexivity. Qed.
Lemma at_pkt_id v q : at_pkt v q -> v_class v = Ok (pk_class q) /\ v_tag v = pk_tag q.
Proof. intros (rest & Hq & _ & ->). split; [apply (pview_byte0 _ _ _ _ _ rest Hq)|reflexivity]. Qed.
Lemma at_pkt_packet v q i con x extra : at_pkt v q -> id_packet i con (pk_ber q) x extra ->
  exists rest, v_make (pk_ber q ++ rest) = Ok v /\ good_bytes (pk_ber q ++ rest).
Proof.
  intros (rest & Hq & Hg & ->) Hp. exists rest. split; [|exact Hg].
  apply (pview_make _ _ _ _ _ rest 0 Hq (proj1 (proj2 Hg))).
Qed.
Lemma at_pkt_header v q i con : at_pkt v q -> has_correct_header v i con = Ok true ->
  exists x extra, id_packet i con (pk_ber q) x extra.
Proof.
  intros Ha Hh. destruct (header_good v i con (at_pkt_good _ _ Ha)) as [(p & x & extra & rest & Hp & Ev & _)|[Hf _]]; [|congruence].
  destruct Ha as (rest' & Hq & Hg & ->).
  destruct (id_packet_outer _ _ _ _ _ Hp) as (y & HP). pose proof (v_assign_valid_mem _ _ _ Ev eq_refl) as Em. cbn [pview v_mem] in Em.
  injection Em as Em. destruct (ber_packet_det _ _ _ _ _ _ _ _ _ _ _ _ Hq HP Em) as (-> & _). eauto.
Qed.
Lemma at_pkt_same v q w : at_pkt v q -> at_pkt w q -> same_packet v w.
Proof.
  intros (r1 & Hq & Hg & ->) (r2 & _ & _ & ->). apply (pview_same _ _ _ _ _ r1 r2 Hq).
  pose proof (proj1 (proj2 Hg)) as H. rewrite zlen_app in H. pose proof (zlen_nonneg r1). lia.
Qed.
Lemma pkt_view_same v q : at_pkt v q -> same_packet (pkt_view q) v.
Proof.
  intros (r1 & Hq & Hg & ->). apply (pview_same _ _ _ _ _ [] r1 Hq).
  pose proof (proj1 (proj2 Hg)) as H. rewrite zlen_app in H. pose proof (zlen_nonneg r1). lia.
Qed.

(** *** Primitive types *)
Lemma last_octets_app h y : last_octets (zlen y) (h ++ y) = y.
Proof. unfold last_octets. rewrite zlen_app. replace (zlen h + zlen y - zlen y) with (zlen h) by lia. apply zdrop_app_exact. reflexivity. Qed.
Lemma last_octets_longer n h y : 0 <= n <= zlen y -> last_octets n (h ++ y) = last_octets n y.
Proof.
  intros Hn. unfold last_octets. rewrite zlen_app. pose proof (zlen_nonneg h).
  replace (zlen h + zlen y - n) with (zlen h + (zlen y - n)) by lia. rewrite <- zdrop_zdrop by lia. rewrite zdrop_app_exact by reflexivity. reflexivity.
Qed.
Lemma id_packet_suffix i con p x extra : id_packet i con p x extra -> exists h, p = h ++ x ++ extra.
Proof.
  destruct i as [c t|oc ot ic it]; cbn [id_packet].
  - intros [(id & len & _ & _ & _ & _ & ->) ->]. exists (id ++ len). rewrite app_nil_r, <- app_assoc. reflexivity.
  - intros (q & (id & len & _ & _ & _ & _ & ->) & (id2 & len2 & _ & _ & _ & _ & ->)). exists (id ++ len ++ id2 ++ len2).
    rewrite <- !app_assoc. reflexivity.
Qed.
Lemma fixed_content_decoded i p y extra : id_packet i primitive p y extra ->
  fixed_content (Fixed (vec_assign p) (zlen y)) = Ok (last_octets (zlen y) (y ++ extra)).
Proof.
  intros Hp. destruct (id_packet_suffix _ _ _ _ _ Hp) as (h & ->). unfold fixed_content. cbn [f_len f_data f_vec vec_assign vd].
  pose proof (zlen_nonneg y). pose proof (zlen_nonneg h). pose proof (zlen_nonneg extra).
  rewrite mem_read_ok by (rewrite ?zlen_app; lia). f_equal.
  rewrite <- (last_octets_longer (zlen y) h (y ++ extra)) by (rewrite zlen_app; lia). unfold last_octets at 1.
  apply ztake_all. rewrite zlen_zdrop_max; rewrite !zlen_app; lia.
Qed.
Lemma leaf_exact k i l v q : wf_ty (TLeaf k i) -> leaf_inv k i l -> at_pkt v q ->
  (forall l', leaf_decode k i l v = Ok (true, l') -> exists x, leaf_reads k i x (pk_ber q) /\ leaf_seen k i l' x) /\
  (forall x, leaf_reads k i x (pk_ber q) -> exists l', leaf_decode k i l v = Ok (true, l') /\ leaf_seen k i l' x).
Proof.
  intros Hwf Hinv Ha. assert (Hmain : forall x, leaf_reads k i x (pk_ber q) -> exists l', leaf_decode k i l v = Ok (true, l') /\ leaf_seen k i l' x).
  { intros x (y & extra & Hp & Hok & ->). destruct (at_pkt_packet _ _ _ _ _ _ Ha Hp) as (rest & Ev & Hb & Ht).
    destruct Hwf as [Hi Hk], Hok as [Hby Hok].
    destruct k as [| |max x0|x0|]; destruct l as [d|f|]; cbn [leaf_inv] in Hinv; try tauto; cbn [leaf_decode].
    - destruct Hinv as (b & Hr). destruct (bool_decode_packet i d b _ y extra rest Hp (proj1 Ht) Hr) as (v' & Ev' & H1 & _).
      assert (v' = v) by congruence. subst v'. destruct (zlen_1_inv _ Hok) as (c & ->). destruct (H1 c eq_refl) as (d' & E & Hd').
      rewrite E. cbn [bind]. eexists. split; [reflexivity|]. cbn [leaf_seen]. unfold bool_rep in Hd'. subst d'.
      assert (El : last (hdr_of i 1 primitive ++ [c]) 0 = c) by apply last_last.
      unfold bool_value. rewrite El. split; reflexivity.
    - destruct (null_decode_packet i _ y extra rest Hp (proj1 Ht)) as (v' & Ev' & E). assert (v' = v) by congruence. subst v'.
      subst y. rewrite E. eexists. split; [reflexivity|]. reflexivity.
    - destruct Hinv as (z & Hr), Hk as (Hsm & _).
      destruct (small_decode_packet i max d z _ y extra rest Hsm Hr Hp (proj1 Ht) Hok) as (v' & d' & Ev' & E & Hr').
      assert (v' = v) by congruence. subst v'. rewrite E. cbn [bind]. eexists. split; [reflexivity|]. cbn [leaf_seen].
      eapply small_content_rep; eauto.
    - destruct (fixed_decode_packet i f _ y extra rest Hp (proj1 Ht)) as (v' & Ev' & E). assert (v' = v) by congruence. subst v'.
      rewrite E. cbn [bind]. eexists. split; [reflexivity|]. cbn [leaf_seen]. eapply fixed_content_decoded; eauto.
    - destruct (fixed_decode_packet i f _ y extra rest Hp (proj1 Ht)) as (v' & Ev' & E). assert (v' = v) by congruence. subst v'.
      unfold time_decode. rewrite E. cbn [bind f_len]. replace ((zlen y <? 10) || (zlen y >? 23)) with false by lia.
      eexists. split; [reflexivity|]. cbn [leaf_seen]. eapply fixed_content_decoded; eauto. }
  split; [|exact Hmain].
  intros l' E. destruct (leaf_decode_good k i l v Hwf Hinv (at_pkt_good _ _ Ha)) as (ok & l2 & E2 & _ & Hok & _).
  assert (ok = true) by congruence. subst ok.
  destruct (Hok eq_refl) as (p & x & extra & rest & Hp & Ev & Hb & Ht & Hc & _).
  assert (Hr : leaf_reads k i (match k with KFixed _ | KTime => last_octets (zlen x) (x ++ extra) | _ => x end) (pk_ber q)).
  { exists x, extra. split; [|split; [exact Hc|reflexivity]].
    destruct Ha as (rest' & Hq & Hg & ->). destruct (id_packet_outer _ _ _ _ _ Hp) as (y & HP).
    pose proof (v_assign_valid_mem _ _ _ Ev eq_refl) as Em. cbn [pview v_mem] in Em. injection Em as Em.
    destruct (ber_packet_det _ _ _ _ _ _ _ _ _ _ _ _ Hq HP Em) as (-> & _). exact Hp. }
  destruct (Hmain _ Hr) as (l3 & E3 & Hs). exists (match k with KFixed _ | KTime => last_octets (zlen x) (x ++ extra) | _ => x end).
  split; [exact Hr|]. assert (l3 = l') by congruence. subst l3. exact Hs.
Qed.

(** *** The packets of a content *)
Lemma pkts_fold q qs tail : pkts (q :: qs) ++ tail = pk_ber q ++ pkts qs ++ tail.
Proof. unfold pkts. cbn [map concat]. rewrite <- app_assoc. reflexivity. Qed.
(** An iterator that stands before the packets qs. *)
Definition before (it : iter) (qs : list pkt) : Prop :=
  exists tail, Forall pkt_ok qs /\ no_packet tail /\ iter_on it (pkts qs ++ tail) /\ good_bytes (pkts qs ++ tail).
Lemma before_nil it : before it [] -> is_valid (it_view it) = false.
Proof.
  intros (tail & _ & Hn & (Hb & t0 & E) & _). destruct (Hn t0) as (v & E2 & Hv). cbn in E. congruence.
Qed.
Lemma before_cons it q qs : before it (q :: qs) -> at_pkt (it_view it) q /\ exists it', it_next it = Ok it' /\ before it' qs /\
  (length (it_buf it') < length (it_buf it))%nat.
Proof.
  intros (tail & Hq & Hn & Hi & Hg). rewrite pkts_fold in *. inversion Hq as [|? ? Hq1 Hq2]; subst.
  destruct (iter_on_packet it _ _ _ _ _ _ Hi Hq1 (proj1 (proj2 Hg))) as (Ev & _ & _ & En).
  split; [exists (pkts qs ++ tail); auto|].
  pose proof (good_bytes_next _ _ Hq1 Hg) as Hg2.
  destruct (pkts_assign qs tail (pk_tag q) Hq2 Hn (proj1 (proj2 Hg2))) as (w & Ew & _). rewrite Ew in En. cbn [bind] in En.
  eexists. split; [exact En|]. split.
  - exists tail. split; [auto|]. split; [auto|]. split; [|auto]. split; [reflexivity|]. exists (pk_tag q). exact Ew.
  - cbn [it_buf]. destruct Hi as [-> _]. rewrite (app_length (pk_ber q)). pose proof (ber_packet_len _ _ _ _ _ Hq1).
    pose proof (zlen_nonneg (pk_content q)). unfold zlen in *. lia.
Qed.
Lemma before_make x qs : good_bytes x -> split_content x qs -> exists it, it_make x = Ok it /\ before it qs /\ it_buf it = x.
Proof.
  intros Hg (tail & -> & Hq & Hr). fold (pkts qs) in *. pose proof (rubbish_no_packet tail (good_bytes_drop _ _ Hq Hg) Hr) as Hn.
  destruct (pkts_assign qs tail 0 Hq Hn (proj1 (proj2 Hg))) as (w & Ew & _). unfold it_make, v_make. rewrite Ew. cbn [bind].
  eexists. split; [reflexivity|]. split; [|reflexivity]. exists tail. split; [auto|]. split; [auto|]. split; [|exact Hg]. split; [reflexivity|eauto].
Qed.
Lemma pkts_at x qs : good_bytes x -> split_content x qs -> Forall (fun q => exists v, at_pkt v q) qs.
Proof.
  intros Hg (tail & -> & Hq & _). fold (pkts qs) in *. induction Hq as [|q qs Hq1 Hq2 IH]; constructor.
  - rewrite pkts_fold in Hg. exists (pview (pk_ber q) (pk_tag q) (pk_content q) (pkts qs ++ tail)), (pkts qs ++ tail). auto.
  - apply IH. rewrite pkts_fold in Hg. exact (good_bytes_next _ _ Hq1 Hg).
Qed.
Lemma enter_content i v q x extra : at_pkt v q -> id_packet i constructed (pk_ber q) x extra ->
  good_bytes x /\ has_correct_header v i constructed = Ok true /\ content_iter i v = it_make x.
Proof.
  intros Ha Hp. destruct (at_pkt_packet _ _ _ _ _ _ Ha Hp) as (rest & Ev & Hb & Ht).
  destruct (header_packet i constructed _ x extra rest Hp (proj1 Ht)) as (v' & Ev' & _ & Hh & _).
  assert (v' = v) by congruence. subst v'.
  split; [eapply id_packet_content_bytes; eauto|]. split; [exact Hh|]. eapply content_iter_packet; eauto. apply Ht.
Qed.

(** *** Every type *)
Definition dec_exact (t : ty) : Prop :=
  wf_ty t -> labelled t -> safe t -> forall s v q, obj t s -> at_pkt v q ->
    (forall s', decode t s v = Ok (true, s') -> exists w, reads t w (pk_ber q) /\ seen t s' w) /\
    (forall w, reads t w (pk_ber q) -> exists s', decode t s v = Ok (true, s') /\ seen t s' w).

Lemma seqof_exact t : dec_exact t -> wf_ty t -> labelled t -> safe t -> forall qs fuel it, before it qs -> (length (it_buf it) < fuel)%nat ->
  (forall l, seqof_loop (decode t (init t)) fuel it = Ok (true, l) ->
     exists vs, Forall2 (fun v q => reads t v (pk_ber q)) vs qs /\ Forall2 (seen t) l vs) /\
  (forall vs, Forall2 (fun v q => reads t v (pk_ber q)) vs qs ->
     exists l, seqof_loop (decode t (init t)) fuel it = Ok (true, l) /\ Forall2 (seen t) l vs).
Proof.
  intros He Hwf Hl Hs. induction qs as [|q qs IH]; intros fuel it Hb Hf; (destruct fuel as [|fuel]; [lia|]); cbn [seqof_loop]; unfold it_at_end.
  - rewrite (before_nil _ Hb). cbn [negb]. split.
    + intros l E. injection E as <-. exists []. split; constructor.
    + intros vs H. inversion H; subst. eexists. split; [reflexivity|constructor].
  - destruct (before_cons _ _ _ Hb) as (Ha & it' & En & Hb' & Hlt). rewrite (at_pkt_valid _ _ Ha). cbn [negb].
    destruct (He Hwf Hl Hs (init t) _ q (init_obj t Hwf) Ha) as [H1 H2]. destruct (IH fuel it' Hb' ltac:(lia)) as [I1 I2]. split.
    + intros l E. destruct (decode t (init t) (it_view it)) as [[[|] s]| |] eqn:Ed; cbn [bind negb] in E; try discriminate.
      rewrite En in E. cbn [bind] in E. destruct (seqof_loop (decode t (init t)) fuel it') as [[ok l2]| |]; cbn [bind] in E; try discriminate.
      injection E as -> <-. destruct (I1 _ eq_refl) as (vs & A & B). destruct (H1 _ eq_refl) as (w & C & D).
      exists (w :: vs). split; constructor; auto.
    + intros vs H. inversion H as [|v ? vs' ? Hv Hvs]; subst. destruct (H2 _ Hv) as (s & -> & Hse). cbn [bind negb]. rewrite En. cbn [bind].
      destruct (I2 _ Hvs) as (l & -> & Hl2). cbn [bind]. eexists. split; [reflexivity|]. constructor; auto.
Qed.

Lemma member_exact k t m v q ids : dec_exact t -> wf_ty t -> labelled t -> safe t -> match m with Some s => obj t s | None => k <> Mand end ->
  at_pkt v q -> ids = type_ids t -> (k = Mand \/ In (pk_class q, pk_tag q) ids) ->
  (forall m', member_decode k (type_ids t) (init t) (decode t) m v = Ok (true, m') ->
     exists s' w, m' = Some s' /\ reads t w (pk_ber q) /\ seen t s' w) /\
  (forall w, reads t w (pk_ber q) -> exists s', member_decode k (type_ids t) (init t) (decode t) m v = Ok (true, Some s') /\ seen t s' w).
Proof.
  intros He Hwf Hl Hs Hm Ha -> Hk. destruct (at_pkt_id _ _ Ha) as [Ec Et]. pose proof (at_pkt_valid _ _ Ha) as Hv.
  assert (Hnew : forall s, obj t s -> (forall m', (let* (ok, s) := decode t s v in Ok (ok, Some s)) = Ok (true, m') ->
     exists s' w, m' = Some s' /\ reads t w (pk_ber q) /\ seen t s' w) /\
     (forall w, reads t w (pk_ber q) -> exists s', (let* (ok, s) := decode t s v in Ok (ok, Some s)) = Ok (true, Some s') /\ seen t s' w)).
  { intros s Ho. destruct (He Hwf Hl Hs s v q Ho Ha) as [H1 H2]. split.
    - intros m' E. destruct (decode t s v) as [[ok s']| |]; cbn [bind] in E; try discriminate. injection E as -> <-.
      destruct (H1 _ eq_refl) as (w & A & B). eauto.
    - intros w Hw. destruct (H2 _ Hw) as (s' & -> & B). cbn [bind]. eauto. }
  destruct k; cbn [member_decode].
  - destruct m as [s|]; [|congruence]. apply Hnew. exact Hm.
  - rewrite Hv, Ec, Et. cbn [bind]. destruct Hk as [?|Hin]; [discriminate|]. apply has_id_In in Hin. rewrite Hin. apply Hnew. apply init_obj; auto.
  - rewrite Hv, Ec, Et. cbn [bind]. destruct Hk as [?|Hin]; [discriminate|]. apply has_id_In in Hin. rewrite Hin. apply Hnew. apply init_obj; auto.
Qed.

(** A mandatory member at the end of the content is not decoded. *)
Lemma decode_invalid t s v s' : wf_ty t -> obj t s -> good_view v -> is_valid v = false -> decode t s v = Ok (true, s') -> False.
Proof. intros Hwf Ho Hg Hv E. destruct (decode_sound t Hwf s v s' Ho Hg E) as (_ & H & _). congruence. Qed.
Lemma before_good it qs : before it qs -> good_view (it_view it).
Proof.
  intros (tail & _ & _ & (Hb & t0 & E) & [Hy Ht]). destruct (assign_good t0 _ Hy Ht) as (v & E2 & H). congruence.
Qed.
Lemma seq_exact cs : each dec_exact cs -> wf_comps cs -> labelled_comps cs -> safe_comps cs -> forall qs ms it, obj_comps cs ms -> before it qs ->
  (forall ms', decode_seq cs ms it = Ok (true, ms') -> exists vs, reads_seq cs vs qs /\ seen_comps cs ms' vs) /\
  (forall vs, reads_seq cs vs qs -> exists ms', decode_seq cs ms it = Ok (true, ms') /\ seen_comps cs ms' vs).
Proof.
  induction cs as [|k ids t cs IH]; intros He Hwf Hl Hs qs ms it Ho Hb; destruct ms as [|m ms]; cbn [obj_comps] in Ho; try tauto; cbn [decode_seq].
  - split; [intros ms' E; injection E as <-; exists []; split; exact I|]. intros vs H. destruct vs; cbn [reads_seq] in H; [|tauto].
    eexists. split; [reflexivity|exact I].
  - destruct He as [He1 He], Hwf as [Hw1 Hwf], Hl as (Hids & Hl1 & Hl), Hs as [Hs1 Hs], Ho as [Hm Ho].
    assert (Hskip : k <> Mand -> (forall q qs', qs = q :: qs' -> ~ In (pk_class q, pk_tag q) ids) ->
      (forall ms', (let* (ok, ms) := decode_seq cs ms it in Ok (ok, None :: ms)) = Ok (true, ms') ->
         exists vs, reads_seq cs vs qs /\ seen_comps (CCons k ids t cs) ms' (None :: vs)) /\
      (forall vs, reads_seq cs vs qs -> exists ms', (let* (ok, ms) := decode_seq cs ms it in Ok (ok, None :: ms)) = Ok (true, ms') /\
         seen_comps (CCons k ids t cs) ms' (None :: vs))).
    { intros Hk Hn. destruct (IH He Hwf Hl Hs qs ms it Ho Hb) as [I1 I2]. split.
      - intros ms' E. destruct (decode_seq cs ms it) as [[ok ms2]| |]; cbn [bind] in E; try discriminate. injection E as -> <-.
        destruct (I1 _ eq_refl) as (vs & A & B). exists vs. split; [exact A|]. cbn [seen_comps]. auto.
      - intros vs H. destruct (I2 _ H) as (ms' & -> & B). cbn [bind]. eexists. split; [reflexivity|]. cbn [seen_comps]. auto. }
    destruct qs as [|q qs].
    + pose proof (before_nil _ Hb) as Hv. rewrite Hv. assert (Hn : forall q qs', [] = q :: qs' -> ~ In (pk_class q, pk_tag q) ids) by discriminate.
      assert (Hopt : k <> Mand ->
        (forall ms', (let* (ok, ms) := decode_seq cs ms it in Ok (ok, None :: ms)) = Ok (true, ms') ->
           exists vs, reads_seq (CCons k ids t cs) vs [] /\ seen_comps (CCons k ids t cs) ms' vs) /\
        (forall vs, reads_seq (CCons k ids t cs) vs [] -> exists ms', (let* (ok, ms) := decode_seq cs ms it in Ok (ok, None :: ms)) = Ok (true, ms') /\
           seen_comps (CCons k ids t cs) ms' vs)).
      { intros Hk. destruct (Hskip Hk Hn) as [A B]. split.
        - intros ms' E. destruct (A _ E) as (vs & C & D). exists (None :: vs). split; [|exact D]. cbn [reads_seq]. auto.
        - intros vs H. destruct vs as [|[w|] vs]; cbn [reads_seq] in H; try tauto; [destruct H as (q & qs' & ? & _); discriminate|].
          destruct H as (_ & _ & H). exact (B _ H). }
      destruct k; cbn [bind]; [|apply Hopt; discriminate|apply Hopt; discriminate].
      split.
      * intros ms' E. destruct m as [s|]; [|congruence]. cbn [member_decode] in E.
        destruct (decode t s (it_view it)) as [[[|] s2]| |] eqn:Ed; cbn [bind negb] in E; try discriminate.
        exfalso. exact (decode_invalid t s _ s2 Hw1 Hm (before_good _ _ Hb) Hv Ed).
      * intros vs H. destruct vs as [|[w|] vs]; cbn [reads_seq] in H; try tauto. destruct H as (q & qs' & ? & _). discriminate.
    + destruct (before_cons _ _ _ Hb) as (Ha & it' & En & Hb' & _). destruct (at_pkt_id _ _ Ha) as [Ec Et].
      assert (Htake : (k = Mand \/ In (pk_class q, pk_tag q) ids) -> forall r, r =
        (let* (ok, m0) := member_decode k (type_ids t) (init t) (decode t) m (it_view it) in
         if negb ok then Ok (false, m0 :: ms) else let* it1 := it_next it in let* (ok0, ms0) := decode_seq cs ms it1 in Ok (ok0, m0 :: ms0)) ->
        (forall ms', r = Ok (true, ms') -> exists vs, reads_seq (CCons k ids t cs) vs (q :: qs) /\ seen_comps (CCons k ids t cs) ms' vs) /\
        (forall vs, reads_seq (CCons k ids t cs) vs (q :: qs) -> exists ms', r = Ok (true, ms') /\ seen_comps (CCons k ids t cs) ms' vs)).
      { intros Hk r ->. destruct (member_exact k t m _ q ids He1 Hw1 Hl1 Hs1 Hm Ha Hids Hk) as [M1 M2].
        destruct (IH He Hwf Hl Hs qs ms it' Ho Hb') as [I1 I2]. split.
        - intros ms' E. destruct (member_decode k (type_ids t) (init t) (decode t) m (it_view it)) as [[[|] m']| |] eqn:Em;
            cbn [bind negb] in E; try discriminate. rewrite En in E. cbn [bind] in E.
          destruct (decode_seq cs ms it') as [[ok ms2]| |]; cbn [bind] in E; try discriminate. injection E as -> <-.
          destruct (I1 _ eq_refl) as (vs & A & B). destruct (M1 _ eq_refl) as (s' & w & -> & C & D).
          exists (Some w :: vs). cbn [reads_seq seen_comps]. split; [|auto]. exists q, qs. auto.
        - intros vs H. destruct vs as [|[w|] vs]; cbn [reads_seq] in H; try tauto.
          + destruct H as (q' & qs' & E & _ & Hw & Hvs). injection E as <- <-. destruct (M2 _ Hw) as (s' & -> & D). cbn [bind negb].
            rewrite En. cbn [bind]. destruct (I2 _ Hvs) as (ms' & -> & B). cbn [bind]. eexists. split; [reflexivity|]. cbn [seen_comps]. auto.
          + destruct H as (Hk2 & Hn & _). exfalso. destruct Hk as [?|Hk]; [tauto|]. exact (Hn _ _ eq_refl Hk). }
      assert (Hopt : k <> Mand ->
        (forall ms', (let* here := let* c := v_class (it_view it) in Ok (has_id ids c (v_tag (it_view it))) in
           if here : bool then
             let* (ok, m0) := member_decode k (type_ids t) (init t) (decode t) m (it_view it) in
             if negb ok then Ok (false, m0 :: ms) else let* it1 := it_next it in let* (ok0, ms0) := decode_seq cs ms it1 in Ok (ok0, m0 :: ms0)
           else let* (ok, ms) := decode_seq cs ms it in Ok (ok, None :: ms)) = Ok (true, ms') ->
             exists vs, reads_seq (CCons k ids t cs) vs (q :: qs) /\ seen_comps (CCons k ids t cs) ms' vs) /\
        (forall vs, reads_seq (CCons k ids t cs) vs (q :: qs) -> exists ms', (let* here := let* c := v_class (it_view it) in Ok (has_id ids c (v_tag (it_view it))) in
           if here : bool then
             let* (ok, m0) := member_decode k (type_ids t) (init t) (decode t) m (it_view it) in
             if negb ok then Ok (false, m0 :: ms) else let* it1 := it_next it in let* (ok0, ms0) := decode_seq cs ms it1 in Ok (ok0, m0 :: ms0)
           else let* (ok, ms) := decode_seq cs ms it in Ok (ok, None :: ms)) = Ok (true, ms') /\ seen_comps (CCons k ids t cs) ms' vs)).
      { intros Hk. rewrite Ec, Et. cbn [bind]. destruct (has_id ids (pk_class q) (pk_tag q)) eqn:Hi.
        - apply Htake; [right; apply has_id_In; exact Hi|reflexivity].
        - apply has_id_false in Hi. assert (Hn : forall q0 qs', q :: qs = q0 :: qs' -> ~ In (pk_class q0, pk_tag q0) ids) by (intros q0 qs' E; injection E as <- <-; exact Hi).
          destruct (Hskip Hk Hn) as [A B]. split.
          + intros ms' E. destruct (A _ E) as (vs & C & D). exists (None :: vs). split; [|exact D]. cbn [reads_seq]. auto.
          + intros vs H. destruct vs as [|[w|] vs]; cbn [reads_seq] in H; try tauto.
            * destruct H as (q0 & qs' & E & [?|Hin] & _); [tauto|]. exfalso. exact (Hn _ _ E Hin).
            * destruct H as (_ & _ & H). exact (B _ H). }
      destruct k; cbn [bind].
      * apply Htake; auto.
      * rewrite (at_pkt_valid _ _ Ha). apply Hopt. discriminate.
      * rewrite (at_pkt_valid _ _ Ha). apply Hopt. discriminate.
Qed.

Lemma set_exact cs : each dec_exact cs -> wf_comps cs -> labelled_comps cs -> safe_comps cs ->
  forall qs ms, obj_comps cs ms -> Forall (fun q => exists v, at_pkt v q) qs ->
  (forall ms', set_final cs ms qs ms' -> exists vs, reads_set cs vs qs /\ seen_comps cs ms' vs) /\
  (forall vs, reads_set cs vs qs -> exists ms', set_final cs ms qs ms' /\ seen_comps cs ms' vs).
Proof.
  induction cs as [|k ids t cs IH]; intros He Hwf Hl Hs qs ms Ho Hq; destruct ms as [|m ms]; cbn [obj_comps] in Ho; try tauto.
  - split; [intros [|] H; cbn [set_final] in H; [exists []; split; exact I|tauto]|]. intros vs H. destruct vs; cbn [reads_set] in H; [|tauto].
    exists []. split; exact I.
  - destruct He as [He1 He], Hwf as [Hw1 Hwf], Hl as (Hids & Hl1 & Hl), Hs as [Hs1 Hs], Ho as [Hm Ho].
    assert (Hq2 : Forall (fun q => exists v, at_pkt v q) (filter (fun q => negb (pkt_has ids q)) qs)).
    { rewrite Forall_forall in *. intros q Hin. apply Hq. apply filter_In in Hin. tauto. }
    destruct (IH He Hwf Hl Hs _ ms Ho Hq2) as [I1 I2].
    assert (Hone : forall q, filter (pkt_has ids) qs = [q] ->
       (forall m', member_decode k (type_ids t) (init t) (decode t) m (pkt_view q) = Ok (true, m') ->
          exists s' w, m' = Some s' /\ reads t w (pk_ber q) /\ seen t s' w) /\
       (forall w, reads t w (pk_ber q) -> exists s', member_decode k (type_ids t) (init t) (decode t) m (pkt_view q) = Ok (true, Some s') /\ seen t s' w)).
    { intros q E. assert (Hin : In q (filter (pkt_has ids) qs)) by (rewrite E; left; reflexivity). apply filter_In in Hin.
      destruct Hin as [Hin Hid]. rewrite Forall_forall in Hq. destruct (Hq _ Hin) as (v & Ha).
      rewrite (member_same k (type_ids t) (init t) (decode t) m _ v (pkt_view_same v q Ha)) by (intros s; apply decode_same; apply pkt_view_same; exact Ha).
      apply (member_exact k t m v q ids); auto. right. apply has_id_In. exact Hid. }
    split.
    + intros [|m' ms'] H; cbn [set_final] in H; [tauto|]. destruct H as [H1 H2]. destruct (I1 _ H2) as (vs & A & B).
      destruct (filter (pkt_has ids) qs) as [|q [|q2 l]] eqn:Ef; [| |tauto].
      * destruct H1 as [Hk ->]. exists (None :: vs). cbn [reads_set seen_comps]. rewrite Ef. auto.
      * destruct (proj1 (Hone q eq_refl) _ H1) as (s' & w & -> & C & D). exists (Some w :: vs). cbn [reads_set seen_comps]. rewrite Ef.
        split; [|auto]. split; [|exact A]. eauto.
    + intros [|v vs] H; cbn [reads_set] in H; [tauto|]. destruct H as [H1 H2]. destruct (I2 _ H2) as (ms' & A & B). destruct v as [w|].
      * destruct H1 as (q & Ef & Hw). destruct (proj2 (Hone q Ef) _ Hw) as (s' & E & D). exists (Some s' :: ms'). cbn [set_final seen_comps].
        rewrite Ef. auto.
      * destruct H1 as [Hk Ef]. exists (None :: ms'). cbn [set_final seen_comps]. rewrite Ef. auto.
Qed.

(** *** CHOICE *)
Lemma find_label_first cs c tag n : find_label cs c tag = Some n <-> first_with cs c tag n.
Proof.
  revert n. induction cs as [|k ids t cs IH]; intros n; cbn [find_label].
  - split; [discriminate|]. intros [(k & ids & t & E & _) _]. destruct n; discriminate.
  - destruct (has_id ids c tag) eqn:Hi.
    + apply has_id_In in Hi. split.
      * intros E. injection E as <-. split; [exists k, ids, t; auto|]. intros m ? ? ? Hm. lia.
      * intros [_ H]. destruct n as [|n]; [reflexivity|]. exfalso. exact (H 0%nat k ids t ltac:(lia) eq_refl Hi).
    + apply has_id_false in Hi. split.
      * intros E. destruct (find_label cs c tag) as [m|] eqn:Ef; [|discriminate]. cbn in E. injection E as <-.
        destruct (proj1 (IH m) eq_refl) as [(k1 & ids1 & t1 & E1 & Hin) Hmin]. split; [exists k1, ids1, t1; auto|].
        intros [|m'] k2 ids2 t2 Hlt E2; cbn [nth_comp] in E2; [injection E2 as <- <- <-; exact Hi|]. apply (Hmin m' k2 ids2 t2); [lia|exact E2].
      * intros [(k1 & ids1 & t1 & E1 & Hin) Hmin]. destruct n as [|n]; cbn [nth_comp] in E1; [injection E1 as <- <- <-; tauto|].
        assert (Hf : find_label cs c tag = Some n).
        { apply IH. split; [exists k1, ids1, t1; auto|]. intros m k2 ids2 t2 Hlt E2. apply (Hmin (S m) k2 ids2 t2); [lia|exact E2]. }
        rewrite Hf. reflexivity.
Qed.
Lemma find_label_none cs c tag : find_label cs c tag = None <-> none_with cs c tag.
Proof.
  unfold none_with. induction cs as [|k ids t cs IH]; cbn [find_label comps_ids]; [split; auto|].
  rewrite in_app_iff. destruct (has_id ids c tag) eqn:Hi.
  - apply has_id_In in Hi. split; [discriminate|tauto].
  - apply has_id_false in Hi. destruct (find_label cs c tag); cbn; split; intros H; try discriminate; try reflexivity.
    + exfalso. assert (~ In (c, tag) (comps_ids cs)) as Hn by tauto. apply IH in Hn. discriminate.
    + intros [?|Hin]; [tauto|]. exact (proj1 IH eq_refl Hin).
Qed.
Lemma first_some cs c tag n : first_with cs c tag n -> ~ none_with cs c tag.
Proof. rewrite <- find_label_first, <- find_label_none. congruence. Qed.
Lemma first_fun cs c tag n m : first_with cs c tag n -> first_with cs c tag m -> n = m.
Proof. rewrite <- !find_label_first. congruence. Qed.
Lemma select_picks g cs c tag n : select g cs c tag = Some n <-> picks g cs c tag n.
Proof.
  destruct g; cbn [select picks]; [|apply find_label_first]. rewrite <- !find_label_first, <- !find_label_none.
  destruct (find_label cs universal tag) as [a|]; [intuition congruence|].
  destruct (find_label cs application tag) as [a'|]; [intuition congruence|].
  destruct (find_label cs context_specific tag) as [a''|]; intuition congruence.
Qed.
Lemma alt_exact cs : each dec_exact cs -> wf_comps cs -> labelled_comps cs -> safe_comps cs -> forall n j v q, at_pkt v q ->
  (forall s', decode_alt cs n j v = Ok (true, s') -> exists s1 w, s' = SAlt j s1 /\ reads_alt cs n w (pk_ber q) /\ seen_alt cs n s1 w) /\
  (forall w, reads_alt cs n w (pk_ber q) -> exists s1, decode_alt cs n j v = Ok (true, SAlt j s1) /\ seen_alt cs n s1 w).
Proof.
  induction cs as [|k ids t cs IH]; intros He Hwf Hl Hs n j v q Ha.
  - destruct n; (split; [intros s' E; discriminate|intros w H; destruct H]).
  - destruct He as [He1 He], Hwf as [Hw1 Hwf], Hl as (Hids & Hl1 & Hl), Hs as [Hs1 Hs]. destruct n as [|n]; cbn [decode_alt reads_alt seen_alt]; [|apply IH; auto].
    destruct (He1 Hw1 Hl1 Hs1 (init t) v q (init_obj t Hw1) Ha) as [H1 H2]. split.
    + intros s' E. destruct (decode t (init t) v) as [[ok s1]| |]; cbn [bind] in E; try discriminate. injection E as -> <-.
      destruct (H1 _ eq_refl) as (w & A & B). eauto.
    + intros w Hw. destruct (H2 _ Hw) as (s1 & -> & B). cbn [bind]. eauto.
Qed.
Lemma pick_exact g cs : each dec_exact cs -> wf_comps cs -> labelled_comps cs -> safe_comps cs -> forall s v q, at_pkt v q ->
  let r := let* c := match g with CGen => Ok universal | CLib => v_class v end in
           match select g cs c (v_tag v) with
           | Some n => decode_alt cs n n v
           | None => let* _ := match g with CGen => v_identifier v | CLib => Ok (universal, 0) end in Ok (false, s)
           end in
  (forall s', r = Ok (true, s') -> exists n s1 w, s' = SAlt n s1 /\ picks g cs (pk_class q) (pk_tag q) n /\ reads_alt cs n w (pk_ber q) /\ seen_alt cs n s1 w) /\
  (forall n w, picks g cs (pk_class q) (pk_tag q) n -> reads_alt cs n w (pk_ber q) -> exists s1, r = Ok (true, SAlt n s1) /\ seen_alt cs n s1 w).
Proof.
  intros He Hwf Hl Hs s v q Ha. destruct (at_pkt_id _ _ Ha) as [Ec Et]. rewrite Ec, Et.
  assert (Esel : select g cs (match g with CGen => universal | CLib => pk_class q end) (pk_tag q) = select g cs (pk_class q) (pk_tag q)) by (destruct g; reflexivity).
  assert (Er : (let* c := match g with CGen => Ok universal | CLib => Ok (pk_class q) end in
           match select g cs c (pk_tag q) with
           | Some n => decode_alt cs n n v
           | None => let* _ := match g with CGen => v_identifier v | CLib => Ok (universal, 0) end in Ok (false, s)
           end) = match select g cs (pk_class q) (pk_tag q) with
           | Some n => decode_alt cs n n v
           | None => Ok (false, s)
           end).
  { rewrite <- Esel. destruct g; cbn [bind]; destruct (select _ cs _ _); try reflexivity. unfold v_identifier. rewrite Ec. reflexivity. }
  cbv zeta. rewrite Er. split.
  - intros s' E. destruct (select g cs (pk_class q) (pk_tag q)) as [n|] eqn:Es; [|discriminate].
    destruct (proj1 (alt_exact cs He Hwf Hl Hs n n v q Ha) _ E) as (s1 & w & -> & A & B). exists n, s1, w. apply select_picks in Es. auto.
  - intros n w Hp Hw. apply select_picks in Hp. rewrite Hp. exact (proj2 (alt_exact cs He Hwf Hl Hs n n v q Ha) _ Hw).
Qed.

Lemma member_nonnil cs : cs <> CNil -> (comps_length cs =? 0)%nat = false.
Proof. destruct cs; [congruence|reflexivity]. Qed.
Theorem decode_exact t : dec_exact t.
Proof.
  induction t as [k i|i t IH|i cs IH|i ext cs IH|g o cs IH] using schema_ind; intros Hwf Hl Hs s v q Ho Ha.
  - destruct s as [l| | |]; cbn [obj] in Ho; try tauto. destruct (leaf_exact k i l v q Hwf Ho Ha) as [H1 H2]. cbn [decode]. split.
    + intros s' E. destruct (leaf_decode k i l v) as [[ok l']| |]; cbn [bind] in E; try discriminate. injection E as -> <-.
      destruct (H1 _ eq_refl) as (x & A & B). exists (VPrim x). auto.
    + intros [x| | |] H; cbn [reads] in H; try tauto. destruct (H2 _ H) as (l' & -> & B). cbn [bind]. eexists. split; [reflexivity|exact B].
  - destruct s as [|l| |]; cbn [obj] in Ho; try tauto. destruct Hwf as [Hi Hwf]. cbn [labelled] in Hl. cbn [safe] in Hs. cbn [decode]. split.
    + intros s' E. destruct (has_correct_header v i constructed) as [[|]| |] eqn:Hh; cbn [bind negb] in E; try discriminate.
      destruct (at_pkt_header _ _ _ _ Ha Hh) as (x & extra & Hp). destruct (enter_content _ _ _ _ _ Ha Hp) as (Hg & _ & Hc).
      destruct (split_exists x Hg) as (qs & Hsp). destruct (before_make x qs Hg Hsp) as (it & Ei & Hb & _). rewrite Hc, Ei in E. cbn [bind] in E.
      destruct (seqof_loop (decode t (init t)) (rounds it) it) as [[ok l2]| |] eqn:El; cbn [bind] in E; try discriminate. injection E as -> <-.
      destruct (proj1 (seqof_exact t IH Hwf Hl Hs qs (rounds it) it Hb ltac:(unfold rounds; lia)) _ El) as (vs & A & B).
      exists (VList vs). split; [|exact B]. cbn [reads]. exists x, extra, qs. auto.
    + intros [|vs| |] H; cbn [reads] in H; try tauto. destruct H as (x & extra & qs & Hp & Hsp & Hf).
      destruct (enter_content _ _ _ _ _ Ha Hp) as (Hg & Hh & Hc). rewrite Hh. cbn [bind negb].
      destruct (before_make x qs Hg Hsp) as (it & Ei & Hb & _). rewrite Hc, Ei. cbn [bind].
      destruct (proj2 (seqof_exact t IH Hwf Hl Hs qs (rounds it) it Hb ltac:(unfold rounds; lia)) _ Hf) as (l2 & -> & B). cbn [bind].
      eexists. split; [reflexivity|exact B].
  - destruct s as [| |ms|]; cbn [obj] in Ho; try tauto. destruct Hwf as [Hi Hwf]. cbn [labelled] in Hl. cbn [safe] in Hs. destruct Hs as [Hs _].
    cbn [decode]. rewrite (at_pkt_valid _ _ Ha). cbn [negb]. split.
    + intros s' E. destruct (has_correct_header v i constructed) as [[|]| |] eqn:Hh; cbn [bind negb] in E; try discriminate;
        [|destruct (v_identifier v); discriminate].
      destruct (at_pkt_header _ _ _ _ Ha Hh) as (x & extra & Hp). destruct (enter_content _ _ _ _ _ Ha Hp) as (Hg & _ & Hc).
      destruct (split_exists x Hg) as (qs & Hsp). destruct (before_make x qs Hg Hsp) as (it & Ei & Hb & _).
      destruct (comps_length cs =? 0)%nat eqn:Hn.
      * injection E as <-. destruct cs; [|discriminate]. destruct ms; [|destruct Ho]. exists (VRec []). split; [|exact I].
        cbn [reads]. exists x, extra, qs. split; [auto|]. split; [auto|exact I].
      * rewrite Hc, Ei in E. cbn [bind] in E. destruct (decode_seq cs ms it) as [[ok ms2]| |] eqn:El; cbn [bind] in E; try discriminate.
        injection E as -> <-. destruct (proj1 (seq_exact cs IH Hwf Hl Hs qs ms it Ho Hb) _ El) as (vs & A & B).
        exists (VRec vs). split; [|exact B]. cbn [reads]. exists x, extra, qs. auto.
    + intros [| |vs|] H; cbn [reads] in H; try tauto. destruct H as (x & extra & qs & Hp & Hsp & Hf).
      destruct (enter_content _ _ _ _ _ Ha Hp) as (Hg & Hh & Hc). rewrite Hh. cbn [bind negb].
      destruct (comps_length cs =? 0)%nat eqn:Hn.
      * destruct cs; [|discriminate]. destruct ms; [|destruct Ho]. destruct vs; [|destruct Hf]. eexists. split; [reflexivity|exact I].
      * destruct (before_make x qs Hg Hsp) as (it & Ei & Hb & _). rewrite Hc, Ei. cbn [bind].
        destruct (proj2 (seq_exact cs IH Hwf Hl Hs qs ms it Ho Hb) _ Hf) as (l2 & -> & B). cbn [bind].
        eexists. split; [reflexivity|exact B].
  - destruct s as [| |ms|]; cbn [obj] in Ho; try tauto. destruct Hwf as [Hi Hwf]. cbn [labelled] in Hl. cbn [safe] in Hs.
    destruct cs as [|k1 ids1 t1 cs1].
    { cbn [decode]. rewrite (at_pkt_valid _ _ Ha). cbn [negb]. destruct ms; [|destruct Ho]. split.
      - intros s' E. destruct (has_correct_header v i constructed) as [[|]| |] eqn:Hh; cbn [bind negb] in E; try discriminate;
          [|destruct (v_identifier v); discriminate].
        destruct (at_pkt_header _ _ _ _ Ha Hh) as (x & extra & Hp). destruct (enter_content _ _ _ _ _ Ha Hp) as (Hg & _ & Hc).
        destruct (split_exists x Hg) as (qs & Hsp). cbn [comps_length Nat.eqb] in E. injection E as <-. exists (VRec []). split; [|exact I].
        cbn [reads]. exists x, extra, qs. split; [auto|]. split; [auto|]. split; [exact I|auto].
      - intros [| |vs|] H; cbn [reads] in H; try tauto. destruct H as (x & extra & qs & Hp & Hsp & Hf & _).
        destruct (enter_content _ _ _ _ _ Ha Hp) as (_ & Hh & _). rewrite Hh. cbn [bind negb comps_length Nat.eqb].
        destruct vs; [|destruct Hf]. eexists. split; [reflexivity|exact I]. }
    set (cs := CCons k1 ids1 t1 cs1) in *. assert (Hne : cs <> CNil) by discriminate. clearbody cs. clear k1 ids1 t1 cs1.
    assert (Hany : forall x extra qs, id_packet i constructed (pk_ber q) x extra -> split_content x qs -> forall ms',
              decode (TSet i ext cs) (SRec ms) v = Ok (true, SRec ms') <-> (set_final cs ms qs ms' /\ (ext = true \/ unknown cs qs = []))).
    { intros x extra qs Hp Hsp ms'. destruct (enter_content _ _ _ _ _ Ha Hp) as (Hg & _ & _).
      destruct Hsp as (tail & -> & Hq & Hr). destruct (at_pkt_packet _ _ _ _ _ _ Ha Hp) as (rest & Ev & _ & Ht).
      apply (set_decode_spec i ext cs ms (pk_ber q) qs tail extra rest v); auto; [|apply Ht].
      apply rubbish_no_packet; [exact (good_bytes_drop _ _ Hq Hg)|exact Hr]. }
    split.
    + intros s' E. assert (Hrec : exists ms', s' = SRec ms').
      { destruct (decode_total (TSet i ext cs) (conj Hi Hwf) Hs (SRec ms) v Ho (at_pkt_good _ _ Ha) (or_introl (at_pkt_valid _ _ Ha))) as (ok & s2 & E2 & Ho2).
        assert (s2 = s') by congruence. subst s2. destruct s'; cbn [obj] in Ho2; try tauto. eauto. }
      destruct Hrec as (ms' & ->).
      assert (Hh : has_correct_header v i constructed = Ok true).
      { cbn [decode] in E. rewrite (at_pkt_valid _ _ Ha) in E. cbn [negb] in E.
        destruct (has_correct_header v i constructed) as [[|]| |]; cbn [bind negb] in E; try discriminate; [reflexivity|destruct (v_identifier v); discriminate]. }
      destruct (at_pkt_header _ _ _ _ Ha Hh) as (x & extra & Hp). destruct (enter_content _ _ _ _ _ Ha Hp) as (Hg & _ & _).
      destruct (split_exists x Hg) as (qs & Hsp). destruct (proj1 (Hany x extra qs Hp Hsp ms') E) as [Hf Hu].
      destruct (proj1 (set_exact cs IH Hwf Hl Hs qs ms Ho (pkts_at x qs Hg Hsp)) _ Hf) as (vs & A & B).
      exists (VRec vs). split; [|exact B]. cbn [reads]. exists x, extra, qs. auto.
    + intros [| |vs|] H; cbn [reads] in H; try tauto. destruct H as (x & extra & qs & Hp & Hsp & Hf & Hu).
      destruct (enter_content _ _ _ _ _ Ha Hp) as (Hg & _ & _).
      destruct (proj2 (set_exact cs IH Hwf Hl Hs qs ms Ho (pkts_at x qs Hg Hsp)) _ Hf) as (ms' & A & B).
      exists (SRec ms'). split; [|exact B]. apply (Hany x extra qs Hp Hsp). split; [exact A|]. destruct Hu as [?|?]; [congruence|auto].
  - destruct s as [| | |n0 s0]; cbn [obj] in Ho; try tauto. destruct Hwf as (Hi & Hne & Hwf). cbn [labelled] in Hl. cbn [safe] in Hs.
    destruct o as [i|].
    + cbn [decode]. rewrite (at_pkt_valid _ _ Ha). cbn [negb]. split.
      * intros s' E. destruct (has_correct_header v i constructed) as [[|]| |] eqn:Hh; cbn [bind negb] in E; try discriminate.
        destruct (at_pkt_header _ _ _ _ Ha Hh) as (x & extra & Hp). destruct (enter_content _ _ _ _ _ Ha Hp) as (Hg & _ & Hc).
        destruct (split_exists x Hg) as (qs & Hsp). destruct (before_make x qs Hg Hsp) as (it & Ei & Hb & _).
        rewrite Hc, Ei in E. cbn [bind] in E. destruct qs as [|q1 qs]; [rewrite (before_nil _ Hb) in E; discriminate|].
        destruct (before_cons _ _ _ Hb) as (Ha1 & _). rewrite (at_pkt_valid _ _ Ha1) in E.
        destruct (proj1 (pick_exact g cs IH Hwf Hl Hs (SAlt n0 s0) _ q1 Ha1) _ E) as (n & s1 & w & -> & A & B & C).
        exists (VAlt n w). split; [|cbn [seen]; auto]. cbn [reads]. exists q1. destruct Hsp as (tail & -> & Hq & _).
        split; [inversion Hq; auto|]. split; [|auto]. exists extra, (pkts qs ++ tail). fold (pkts (q1 :: qs)) in Hp. rewrite pkts_fold in Hp. exact Hp.
      * intros [| | |n w] H; cbn [reads] in H; try tauto. destruct H as (q1 & Hq1 & (extra & rest & Hp) & Hk & Hw).
        destruct (enter_content _ _ _ _ _ Ha Hp) as (Hg & Hh & Hc). rewrite Hh. cbn [bind negb]. rewrite Hc.
        assert (Ei : it_make (pk_ber q1 ++ rest) = Ok (Iter (pk_ber q1 ++ rest) (pview (pk_ber q1) (pk_tag q1) (pk_content q1) rest))).
        { unfold it_make, v_make. rewrite (pview_make _ _ _ _ _ rest 0 Hq1 (proj1 (proj2 Hg))). reflexivity. }
        rewrite Ei. cbn [bind it_view]. rewrite pview_valid.
        assert (Ha1 : at_pkt (pview (pk_ber q1) (pk_tag q1) (pk_content q1) rest) q1) by (exists rest; auto).
        destruct (proj2 (pick_exact g cs IH Hwf Hl Hs (SAlt n0 s0) _ q1 Ha1) _ _ Hk Hw) as (s1 & E & B). exists (SAlt n s1).
        split; [exact E|]. cbn [seen]. auto.
    + assert (Ed : decode (TChoice g None cs) (SAlt n0 s0) v =
        let* c := match g with CGen => Ok universal | CLib => v_class v end in
           match select g cs c (v_tag v) with
           | Some n => decode_alt cs n n v
           | None => let* _ := match g with CGen => v_identifier v | CLib => Ok (universal, 0) end in Ok (false, SAlt n0 s0)
           end).
      { cbn [decode]. rewrite (at_pkt_valid _ _ Ha). destruct g; reflexivity. }
      rewrite Ed. clear Ed. destruct (pick_exact g cs IH Hwf Hl Hs (SAlt n0 s0) v q Ha) as [P1 P2]. split.
      * intros s' E. destruct (P1 _ E) as (n & s1 & w & -> & A & B & C). exists (VAlt n w). split; [|cbn [seen]; auto].
        cbn [reads]. exists q. destruct Ha as (rest & Hq & _). auto.
      * intros [| | |n w] H; cbn [reads] in H; try tauto. destruct H as (q1 & Hq1 & E & Hk & Hw).
        destruct Ha as (rest & Hq & Hg & ->) eqn:EHa. clear EHa.
        assert (E2 : pk_ber q ++ [] = pk_ber q1 ++ []) by (rewrite !app_nil_r; exact E).
        destruct (ber_packet_det _ _ _ _ _ _ _ _ _ _ _ _ Hq Hq1 E2) as (_ & Ec & _ & Et & _).
        rewrite <- Ec, <- Et in Hk. rewrite <- E in Hw. destruct (P2 _ _ Hk Hw) as (s1 & E3 & B). exists (SAlt n s1). split; [exact E3|]. cbn [seen]. auto.
Qed.

(** *** An object shows one value *)
Lemma leaf_seen_fun k i l x y : leaf_seen k i l x -> leaf_seen k i l y -> x = y.
Proof. destruct k, l; cbn [leaf_seen]; try tauto; intuition congruence. Qed.
Lemma seen_fun t : forall s v w, seen t s v -> seen t s w -> v = w.
Proof.
  induction t as [k i|i t IH|i cs IH|i ext cs IH|g o cs IH] using schema_ind; intros s v w Hv Hw.
  - destruct s, v, w; cbn [seen] in *; try tauto. f_equal. eapply leaf_seen_fun; eauto.
  - destruct s as [|l| |], v as [|vs| |], w as [|ws| |]; cbn [seen] in *; try tauto. f_equal. revert ws Hw.
    induction Hv as [|s v l vs H _ IHl]; intros ws Hw; inversion Hw; subst; [reflexivity|]. f_equal; eauto.
  - destruct s as [| |l|], v as [| |vs|], w as [| |ws|]; cbn [seen] in *; try tauto. f_equal. revert l vs ws Hv Hw.
    induction cs as [|k ids t cs IHc]; intros [|m l] [|v vs] [|w ws]; cbn [seen_comps]; try tauto.
    destruct IH as [IH1 IH2]. intros [A B] [C D]. f_equal; [|eapply IHc; eauto].
    destruct m, v, w; try tauto. f_equal. eapply IH1; eauto.
  - destruct s as [| |l|], v as [| |vs|], w as [| |ws|]; cbn [seen] in *; try tauto. f_equal. revert l vs ws Hv Hw.
    induction cs as [|k ids t cs IHc]; intros [|m l] [|v vs] [|w ws]; cbn [seen_comps]; try tauto.
    destruct IH as [IH1 IH2]. intros [A B] [C D]. f_equal; [|eapply IHc; eauto].
    destruct m, v, w; try tauto. f_equal. eapply IH1; eauto.
  - destruct s as [| | |n s], v as [| | |m v], w as [| | |m2 w]; cbn [seen] in *; try tauto. destruct Hv as [<- Hv], Hw as [<- Hw]. f_equal.
    revert n Hv Hw. induction cs as [|k ids t cs IHc]; intros n; cbn [seen_alt]; [tauto|]. destruct IH as [IH1 IH2].
    destruct n; [apply IH1|apply IHc; exact IH2].
Qed.
(** An object that holds a value shows it. *)
Lemma rep_seen t : wf_ty t -> forall s v, rep t s v -> seen t s v.
Proof.
  induction t as [k i|i t IH|i cs IH|i ext cs IH|g o cs IH] using schema_ind; intros Hwf s v Hv.
  - destruct s as [l| | |], v as [x| | |]; cbn [rep] in Hv; try tauto. cbn [seen]. destruct Hv as [Hok Hv], Hwf as [Hi Hk].
    destruct k, l; cbn [leaf_seen]; try tauto.
    + destruct Hok as [_ Hl]. destruct (zlen_1_inv _ Hl) as (c & ->). cbn [hd] in *. unfold bool_rep in Hv. subst.
      assert (El : last (hdr_of i 1 primitive ++ [c]) 0 = c) by apply last_last.
      unfold bool_value. rewrite El. auto.
    + apply Hok.
    + destruct Hk as (Hsm & _). eapply small_content_rep; eauto.
    + eapply fixed_content_rep; eauto.
    + eapply fixed_content_rep; eauto.
  - destruct s as [|l| |], v as [|vs| |]; cbn [rep] in Hv; try tauto. cbn [seen]. destruct Hwf as [_ Hwf]. clear i. induction Hv; constructor; auto.
  - destruct s as [| |l|], v as [| |vs|]; cbn [rep] in Hv; try tauto. cbn [seen]. destruct Hwf as [_ Hwf]. revert l vs Hv Hwf.
    induction cs as [|k ids t cs IHc]; intros [|m l] [|v vs]; cbn [rep_comps seen_comps wf_comps]; try tauto.
    destruct IH as [IH1 IH2]. intros [A B] [C D]. split; [|auto]. destruct m, v; auto.
  - destruct s as [| |l|], v as [| |vs|]; cbn [rep] in Hv; try tauto. cbn [seen]. destruct Hwf as [_ Hwf]. revert l vs Hv Hwf.
    induction cs as [|k ids t cs IHc]; intros [|m l] [|v vs]; cbn [rep_comps seen_comps wf_comps]; try tauto.
    destruct IH as [IH1 IH2]. intros [A B] [C D]. split; [|auto]. destruct m, v; auto.
  - destruct s as [| | |n s], v as [| | |m v]; cbn [rep] in Hv; try tauto. cbn [seen]. destruct Hv as [<- Hv]. split; [reflexivity|].
    destruct Hwf as (_ & _ & Hwf). revert n Hv Hwf. induction cs as [|k ids t cs IHc]; intros n; cbn [rep_alt seen_alt wf_comps]; [tauto|].
    destruct IH as [IH1 IH2]. destruct n; intros H [C D]; auto.
Qed.
(** What is read is one packet. *)
Lemma reads_packet t v p : reads t v p -> exists c con tag x, ber_packet p c con tag x.
Proof.
  destruct t as [k i|i t|i cs|i ext cs|g o cs], v; cbn [reads]; try tauto.
  - intros (y & extra & H & _). destruct (id_packet_outer _ _ _ _ _ H) as (z & Hz). eauto.
  - intros (x & extra & qs & H & _). destruct (id_packet_outer _ _ _ _ _ H) as (z & Hz). eauto.
  - intros (x & extra & qs & H & _). destruct (id_packet_outer _ _ _ _ _ H) as (z & Hz). eauto.
  - intros (x & extra & qs & H & _). destruct (id_packet_outer _ _ _ _ _ H) as (z & Hz). eauto.
  - intros (q & Hq & Ho & _). destruct o as [i|]; [|subst p; unfold pkt_ok in Hq; eauto 8].
    destruct Ho as (extra & rest & H). destruct (id_packet_outer _ _ _ _ _ H) as (z & Hz). eauto.
Qed.
(** On any input. *)
Theorem decode_accepts t s input : wf_ty t -> labelled t -> safe t -> obj t s -> bytes input -> tame input ->
  exists v, v_make input = Ok v /\ ((is_valid v = true \/ guarded t) ->
    exists ok s', decode t s v = Ok (ok, s') /\
      (ok = true <-> exists w p rest, input = p ++ rest /\ reads t w p) /\
      (forall w p rest, input = p ++ rest -> reads t w p -> seen t s' w)).
Proof.
  intros Hwf Hl Hs Ho Hb Ht. destruct (v_make_cases 0 input Hb Ht)
    as [(v & E & Hv & Hm & Hh & Hc & Hno)|(p & c & con & tag & x & rest & -> & HP & E)].
  - exists v. split; [exact E|]. intros Hg. assert (Hgv : good_view v) by (left; split; auto).
    destruct (decode_total t Hwf Hs s v Ho Hgv Hg) as (ok & s' & Ed & _). exists ok, s'. split; [exact Ed|].
    assert (Hnr : forall w p rest, input = p ++ rest -> reads t w p -> False).
    { intros w p rest Ei Hr. destruct (reads_packet _ _ _ Hr) as (c & con & tag & x & HP). exact (Hno _ _ _ _ _ _ HP Ei). }
    split; [|intros w p rest Ei Hr; exfalso; eauto]. split; [|intros (w & p & rest & Ei & Hr); exfalso; eauto].
    intros ->. exfalso. exact (decode_invalid t s v s' Hwf Ho Hgv Hv Ed).
  - exists (pview p tag x rest). split; [exact E|]. intros Hg.
    assert (Ha : at_pkt (pview p tag x rest) (Pkt p c con tag x)) by (exists rest; split; [exact HP|split; [split; auto|reflexivity]]).
    destruct (decode_total t Hwf Hs s _ Ho (at_pkt_good _ _ Ha) Hg) as (ok & s' & Ed & _). exists ok, s'. split; [exact Ed|].
    destruct (decode_exact t Hwf Hl Hs s _ _ Ho Ha) as [H1 H2]. cbn [pk_ber] in H1, H2.
    assert (Hsame : forall w p' rest', p ++ rest = p' ++ rest' -> reads t w p' -> reads t w p).
    { intros w p' rest' Ei Hr. destruct (reads_packet _ _ _ Hr) as (c' & con' & tag' & x' & HP').
      destruct (ber_packet_det _ _ _ _ _ _ _ _ _ _ _ _ HP HP' Ei) as (-> & _). exact Hr. }
    split; [split|].
    + intros ->. destruct (H1 _ Ed) as (w & Hr & _). exists w, p, rest. auto.
    + intros (w & p' & rest' & Ei & Hr). destruct (H2 _ (Hsame _ _ _ Ei Hr)) as (s2 & E2 & _). congruence.
    + intros w p' rest' Ei Hr. destruct (H2 _ (Hsame _ _ _ Ei Hr)) as (s2 & E2 & Hse). assert (s2 = s') by congruence. subst s2. exact Hse.
Qed.
Theorem reads_fun t w1 w2 p : wf_ty t -> labelled t -> safe t -> bytes p -> tame p -> reads t w1 p -> reads t w2 p -> w1 = w2.
Proof.
  intros Hwf Hl Hs Hb Ht H1 H2. destruct (reads_packet _ _ _ H1) as (c & con & tag & x & HP).
  destruct (decode_accepts t (init t) p Hwf Hl Hs (init_obj t Hwf) Hb Ht) as (v & Ev & H).
  assert (Hv : is_valid v = true).
  { assert (E := pview_make _ _ _ _ _ [] 0 HP ltac:(rewrite app_nil_r; apply Ht)). rewrite app_nil_r in E. unfold v_make in Ev.
    assert (v = pview p tag x []) by congruence. subst v. reflexivity. }
  destruct (H (or_introl Hv)) as (ok & s' & _ & _ & Hse). assert (E : p = p ++ []) by (rewrite app_nil_r; reflexivity).
  exact (seen_fun t s' _ _ (Hse w1 p [] E H1) (Hse w2 p [] E H2)).
Qed.
(** *** Encodings are tame *)
(** Packets one behind the other, nested; no content begins with identifier octets whose tag overflows. *)
Inductive nest : list Z -> Prop :=
| nest_nil : nest []
| nest_packet p c con t x rest : ber_packet p c con t x -> (con = constructed -> nest x) -> extract_tag x 0 <> UB -> nest rest ->
    nest (p ++ rest).
Lemma packet_nonempty p c con t x rest : ber_packet p c con t x -> [] <> p ++ rest.
Proof. intros (id & len & Hi & _ & _ & _ & ->) E. destruct Hi; discriminate. Qed.
Lemma nest_inv p c con t x rest : nest (p ++ rest) -> ber_packet p c con t x -> (con = constructed -> nest x) /\ extract_tag x 0 <> UB /\ nest rest.
Proof.
  intros H HP. remember (p ++ rest) as l eqn:E. destruct H as [|p' c' con' t' x' rest' HP' H1 H2 H3].
  - exfalso. exact (packet_nonempty _ _ _ _ _ _ HP E).
  - destruct (ber_packet_det _ _ _ _ _ _ _ _ _ _ _ _ HP' HP E) as (-> & -> & -> & -> & -> & ->). auto.
Qed.
Lemma nest_within x y : nest x -> within x y -> nest y.
Proof.
  intros H. induction 1 as [|p c con t w rest _ IH HP|p c t w rest _ IH HP]; [exact H| |].
  - exact (proj2 (proj2 (nest_inv _ _ _ _ _ _ IH HP))).
  - exact (proj1 (nest_inv _ _ _ _ _ _ IH HP) eq_refl).
Qed.
Lemma nest_calm x : nest x -> zlen x < 2^63 -> header_calm x.
Proof.
  destruct 1 as [|p c con t x rest (id & len & Hi & Ht & Hl & Hl9 & ->) _ _ _]; intros Hz.
  - split; [discriminate|]. intros n t E. injection E as <- <-. cbn. lia.
  - rewrite <- !app_assoc in *. unfold header_calm. rewrite (extract_tag_x690 id c con t) by auto. split; [discriminate|].
    intros n t' E. injection E as <- <-. rewrite extract_length_drop by apply zlen_nonneg. rewrite zdrop_len_eq.
    rewrite !zlen_app in Hz. pose proof (zlen_nonneg id). pose proof (zlen_nonneg len). pose proof (zlen_nonneg rest). pose proof (zlen_nonneg x).
    rewrite (extract_length_x690 _ _ _ _ Hl Hl9). cbn [snd]. lia.
Qed.
Lemma within_len x y : within x y -> zlen y <= zlen x.
Proof.
  induction 1 as [|p c con t w rest _ IH HP|p c t w rest _ IH HP]; [lia| |]; rewrite zlen_app in IH; pose proof (zlen_nonneg p).
  - lia.
  - apply ber_packet_len in HP. pose proof (zlen_nonneg rest). lia.
Qed.
Lemma nest_tame x : nest x -> zlen x < 2^63 -> tame x.
Proof.
  intros H Hz. split; [exact Hz|]. split.
  - intros y Hw. apply nest_calm; [eapply nest_within; eauto|]. apply within_len in Hw. lia.
  - intros p c con t y rest Hw HP. exact (proj1 (proj2 (nest_inv _ _ _ _ _ _ (nest_within _ _ H Hw) HP))).
Qed.

Lemma tag_loop_defined l : forall k u i, bytes l -> 0 <= k <= 8 -> 0 <= u < 2^(7 * k) ->
  ~ (9 - k <= zlen l /\ Forall (fun c => 128 <= c) (ztake (9 - k) l)) -> extract_tag_loop l i (u * 128) <> UB.
Proof.
  induction l as [|b l IH]; intros k u i Hb Hk Hu Hn; cbn [extract_tag_loop]; [discriminate|]. inversion Hb as [|? ? Hb1 Hb2]; subst.
  unfold wf_byte in Hb1.
  assert (Hr : 0 <= Z.land b 0x7F < 128) by (change 0x7F with (Z.ones 7); rewrite Z.land_ones by lia; change (2^7) with 128; apply Z.mod_pos_bound; lia).
  assert (H1 : u * 128 + Z.land b 0x7F < 2^(7 * (k + 1))).
  { replace (7 * (k + 1)) with (7 * k + 7) by lia. rewrite Z.pow_add_r by lia. change (2^7) with 128. lia. }
  assert (H2 : 2^(7 * (k + 1)) <= 2^63) by (apply Z.pow_le_mono_r; lia).
  assert (E1 : in_i64b (u * 128 + Z.land b 127) = true) by (unfold in_i64b; lia). rewrite E1. cbn [negb].
  destruct (Z.land b 128 =? 0) eqn:Ec; [discriminate|].
  assert (Hc : 128 <= b) by (rewrite (land_80 b) in Ec by (unfold wf_byte; lia); lia).
  destruct (Z.eq_dec k 8) as [->|Hk8].
  - exfalso. apply Hn. change (9 - 8) with 1. rewrite zlen_cons. pose proof (zlen_nonneg l). split; [lia|]. constructor; [exact Hc|constructor].
  - assert (H3 : (u * 128 + Z.land b 0x7F) * 128 < 2^63).
    { assert (H4 : 2^(7 * (k + 1)) <= 2^56) by (apply Z.pow_le_mono_r; lia). change (2^63) with (2^56 * 128). lia. }
    assert (E2 : in_i64b ((u * 128 + Z.land b 127) * 128) = true) by (unfold in_i64b; lia). rewrite E2. cbn [negb].
    apply (IH (k + 1)); auto; [lia|lia|]. intros [A B]. apply Hn. split; [rewrite zlen_cons; lia|].
    replace (ztake (9 - k) (b :: l)) with (b :: ztake (9 - (k + 1)) l); [constructor; auto|].
    unfold ztake. replace (Z.to_nat (9 - k)) with (S (Z.to_nat (9 - (k + 1)))) by lia. reflexivity.
Qed.
Lemma calm_content_defined x : bytes x -> calm_content x -> extract_tag x 0 <> UB.
Proof.
  intros Hb Hc. destruct x as [|b bs]; cbn [extract_tag]; [discriminate|]. inversion Hb as [|? ? Hb1 Hb2]; subst.
  destruct (Z.land b 31 =? 31) eqn:E; cbn [negb]; [|discriminate]. apply (tag_loop_defined bs 0 0 1 Hb2); [lia|cbn; lia|].
  intros [A B]. apply Hc. exists b, bs. split; [reflexivity|]. split; [|auto].
  apply Z.eqb_eq in E. unfold wf_byte in Hb1. rewrite <- E. change 31 with (Z.ones 5). rewrite Z.land_ones by lia. reflexivity.
Qed.
Lemma nest_app x y : nest x -> nest y -> nest (x ++ y).
Proof. induction 1 as [|p c con t x rest HP H1 _ H2 H3 IH]; intros Hy; [exact Hy|]. rewrite <- app_assoc. eapply nest_packet; eauto. Qed.
Lemma nest_concat ps : Forall nest ps -> nest (concat ps).
Proof. induction 1; cbn [concat]; [constructor|apply nest_app; auto]. Qed.
Lemma nest_start x : nest x -> extract_tag x 0 <> UB.
Proof.
  destruct 1 as [|p c con t x rest (id & len & Hi & Ht & Hl & Hl9 & ->) _ _ _]; [discriminate|].
  rewrite <- !app_assoc. rewrite (extract_tag_x690 id c con t) by auto. discriminate.
Qed.
Lemma nest_id i con p x : id_packet i con p x [] -> (con = constructed -> nest x) -> extract_tag x 0 <> UB -> nest p.
Proof.
  destruct i as [c t|oc ot ic it]; cbn [id_packet].
  - intros [HP _] H1 H2. rewrite <- (app_nil_r p). eapply nest_packet; eauto. constructor.
  - intros (q & HP & HQ) H1 H2. rewrite app_nil_r in HP.
    assert (Hq : nest q) by (rewrite <- (app_nil_r q); eapply nest_packet; eauto; constructor).
    rewrite <- (app_nil_r p). eapply nest_packet; [exact HP|auto|apply nest_start; exact Hq|constructor].
Qed.
Lemma parts_nest cs : each (fun t => forall v p, ber_of t v p -> calm_value v -> nest p) cs -> forall vs ps, ber_parts cs vs ps ->
  Forall (fun m => forall v, m = Some v -> calm_value v) vs -> Forall nest ps.
Proof.
  induction cs as [|k ids t cs IH]; intros He vs ps H Hv; destruct vs as [|[v|] vs]; cbn [ber_parts] in H; try tauto; [subst; constructor| |].
  - destruct He as [He1 He], H as (p & ps' & -> & H1 & H2). inversion Hv; subst. constructor; [eapply He1; eauto|eapply IH; eauto].
  - destruct He as [He1 He], H as [_ H]. inversion Hv; subst. eapply IH; eauto.
Qed.
Lemma alt_nest cs : each (fun t => forall v p, ber_of t v p -> calm_value v -> nest p) cs -> forall n v p, ber_alt cs n v p -> calm_value v -> nest p.
Proof.
  induction cs as [|k ids t cs IH]; intros He n v p H Hv; destruct n as [|n]; cbn [ber_alt] in H; try tauto; destruct He as [He1 He]; eauto.
Qed.
Lemma ber_of_nest t : forall v p, ber_of t v p -> calm_value v -> nest p.
Proof.
  induction t as [k i|i t IH|i cs IH|i ext cs IH|g o cs IH] using schema_ind; intros v p H Hv.
  - destruct v as [x| | |]; cbn [ber_of] in H; try tauto. destruct H as [Hok Hp]. inversion Hv; subst.
    eapply nest_id; [exact Hp|discriminate|]. apply calm_content_defined; [apply Hok|auto].
  - destruct v as [|vs| |]; cbn [ber_of] in H; try tauto. destruct H as (ps & Hf & Hp). inversion Hv as [|l Hl| |]; subst.
    assert (Hn : nest (concat ps)).
    { apply nest_concat. clear Hp Hv. induction Hf as [|v q vs ps H1 _ IHf]; constructor; [inversion Hl; eauto|]. apply IHf. inversion Hl; auto. }
    eapply nest_id; [exact Hp|auto|apply nest_start; auto].
  - destruct v as [| |vs|]; cbn [ber_of] in H; try tauto. destruct H as (ps & Hf & Hp). inversion Hv as [| |l Hl|]; subst.
    assert (Hn : nest (concat ps)) by (apply nest_concat; exact (parts_nest cs IH vs ps Hf Hl)).
    eapply nest_id; [exact Hp|auto|apply nest_start; auto].
  - destruct v as [| |vs|]; cbn [ber_of] in H; try tauto. destruct H as (ps & qs & Hf & Hpe & Hp). inversion Hv as [| |l Hl|]; subst.
    assert (Hn : nest (concat qs)).
    { apply nest_concat. eapply Permutation_Forall; [exact Hpe|]. exact (parts_nest cs IH vs ps Hf Hl). }
    eapply nest_id; [exact Hp|auto|apply nest_start; auto].
  - destruct v as [| | |n v]; cbn [ber_of] in H; try tauto. inversion Hv as [| | |n' v' Hv']; subst.
    destruct o as [i|].
    + destruct H as (q & Ha & Hp). assert (Hn : nest q) by exact (alt_nest cs IH n v q Ha Hv').
      eapply nest_id; [exact Hp|auto|apply nest_start; auto].
    + exact (alt_nest cs IH n v p H Hv').
Qed.
Theorem encoding_tame t v p : ber_of t v p -> calm_value v -> zlen p < 2^63 -> tame p.
Proof. intros H Hv Hz. apply nest_tame; [eapply ber_of_nest; eauto|exact Hz]. Qed.

(** The encodings of a value are read as it. *)
Theorem encoding_reads t v p : good_schema t -> safe t -> ber_of t v p -> calm_value v -> zlen p < 2^63 -> reads t v p.
Proof.
  intros Hg Hs Hbe Hcv Hzp. pose proof (encoding_tame t v p Hbe Hcv Hzp) as Ht. pose proof (proj1 (ber_of_packet t v p Hbe)) as Hb. assert (Hg2 := Hg). destruct Hg2 as (Hwf & Hl & _).
  assert (Ep : p = p ++ []) by (rewrite app_nil_r; reflexivity).
  destruct (decode_accepts t (init t) p Hwf Hl Hs (init_obj t Hwf) Hb Ht) as (w & Ev & H).
  assert (Ev' := Ev). rewrite Ep in Ev'.
  destruct (decode_round t Hg v p Hbe (init t) w [] (init_obj t Hwf) ltac:(rewrite app_nil_r; apply Ht) Ev') as (s' & Ed & Hr).
  assert (Hv : is_valid w = true).
  { destruct (v_make_cases 0 p Hb Ht) as [(v1 & E & Hv & Hm & Hh & Hc & Hno)|(p1 & c & con & tag & x & rest & E0 & HP & E)].
    - assert (v1 = w) by (unfold v_make in Ev; congruence). subst v1.
      destruct (decode_sound t Hwf (init t) w s' (init_obj t Hwf) ltac:(left; split; auto) Ed) as (_ & ? & _). auto.
    - assert (w = pview p1 tag x rest) by (unfold v_make in Ev; congruence). subst w. reflexivity. }
  destruct (H (or_introl Hv)) as (ok & s2 & Ed2 & Hiff & Hse). assert (ok = true /\ s2 = s') as [-> ->] by (split; congruence).
  destruct (proj1 Hiff eq_refl) as (w2 & p2 & rest2 & E2 & Hr2).
  pose proof (Hse w2 p2 rest2 E2 Hr2) as Hs2. pose proof (seen_fun t s' _ _ Hs2 (rep_seen t Hwf s' v Hr)) as ->.
  replace p with p2; [exact Hr2|]. destruct (reads_packet _ _ _ Hr2) as (c & con & tag & x & HP).
  destruct (ber_of_packet t v p Hbe) as (_ & c2 & con2 & tag2 & x2 & HP2 & _).
  rewrite Ep in E2. destruct (ber_packet_det _ _ _ _ _ _ _ _ _ _ _ _ HP HP2 (eq_sym E2)) as (-> & _). reflexivity.
Qed.
