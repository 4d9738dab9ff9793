(** Proofs about the composite types: decoding an encoding. *)
From Verif Require Import Base Ident Spec IdentProofs HeaderProofs View ViewProofs Prims PrimProofs ContProofs Schema SchemaSpec SchemaProofs SchemaDecode.
Ltac Zify.zify_post_hook ::= Z.div_mod_to_equations.

(** ** An encoding is one packet, with an identifier of the type *)
Definition enc_packet (t : ty) : Prop := forall v p, ber_of t v p ->
  bytes p /\ exists c con tag x, ber_packet p c con tag x /\ (labelled t -> In (c, tag) (type_ids t)).
Lemma id_packet_own i con p x : id_packet i con p x [] -> bytes x ->
  bytes p /\ exists c k tag y, ber_packet p c k tag y /\ In (c, tag) [outer_id i].
Proof.
  intros Hp Hb. split; [eapply id_packet_bytes; eauto; constructor|]. destruct (id_packet_outer _ _ _ _ _ Hp) as (y & HP).
  eexists _, _, _, y. split; [exact HP|]. left. reflexivity.
Qed.
Lemma parts_bytes cs : each enc_packet cs -> forall vs ps, ber_parts cs vs ps -> bytes (concat ps).
Proof.
  induction cs as [|k ids t cs IH]; intros He vs ps H; destruct vs as [|[v|] vs]; cbn [ber_parts] in H; try tauto.
  - subst ps. constructor.
  - destruct H as (p & ps' & -> & Hp & Hps). destruct He as [Ht He]. cbn [concat]. apply bytes_app. split; [eapply Ht; eauto|eauto].
  - destruct He, H. eauto.
Qed.
Lemma concat_bytes (l : list (list Z)) : Forall bytes l -> bytes (concat l).
Proof. induction 1; cbn; [constructor|apply bytes_app; auto]. Qed.
Lemma parts_all_bytes cs : each enc_packet cs -> forall vs ps, ber_parts cs vs ps -> Forall bytes ps.
Proof.
  induction cs as [|k ids t cs IH]; intros He vs ps H; destruct vs as [|[v|] vs]; cbn [ber_parts] in H; try tauto.
  - subst ps. constructor.
  - destruct H as (p & ps' & -> & Hp & Hps). destruct He as [Ht He]. constructor; [eapply Ht; eauto|eauto].
  - destruct He, H. eauto.
Qed.
Lemma alt_packet cs : each enc_packet cs -> forall n v p, ber_alt cs n v p ->
  bytes p /\ exists c con tag x, ber_packet p c con tag x /\ (labelled_comps cs -> In (c, tag) (comps_ids cs)).
Proof.
  induction cs as [|k ids t cs IH]; intros He n v p H; destruct n as [|n]; cbn [ber_alt] in H; try tauto; destruct He as [Ht He].
  - destruct (Ht _ _ H) as (Hb & c & con & tag & x & HP & Hl). split; [auto|]. exists c, con, tag, x. split; [auto|].
    cbn [labelled_comps comps_ids]. intros (-> & Hlt & _). rewrite in_app_iff. auto.
  - destruct (IH He _ _ _ H) as (Hb & c & con & tag & x & HP & Hl). split; [auto|]. exists c, con, tag, x. split; [auto|].
    cbn [labelled_comps comps_ids]. intros (_ & _ & Hlc). rewrite in_app_iff. auto.
Qed.
Lemma ber_of_packet t : enc_packet t.
Proof.
  induction t as [k i|i t IH|i cs IH|i ext cs IH|g o cs IH] using schema_ind; intros v p H.
  - destruct v as [x| | |]; cbn [ber_of] in H; try tauto. destruct H as [[Hb _] Hp].
    destruct (id_packet_own _ _ _ _ Hp Hb) as (H1 & c & con & tag & y & H2 & H3). split; [auto|]. eauto 8.
  - destruct v as [|vs| |]; cbn [ber_of] in H; try tauto. destruct H as (ps & Hf & Hp).
    assert (Hb : bytes (concat ps)) by (clear - Hf IH; induction Hf; cbn; [constructor|]; apply bytes_app; split; [eapply IH; eauto|auto]).
    destruct (id_packet_own _ _ _ _ Hp Hb) as (H1 & c & con & tag & y & H2 & H3). split; [auto|]. eauto 8.
  - destruct v as [| |vs|]; cbn [ber_of] in H; try tauto. destruct H as (ps & Hf & Hp).
    destruct (id_packet_own _ _ _ _ Hp (parts_bytes cs IH _ _ Hf)) as (H1 & c & con & tag & y & H2 & H3). split; [auto|]. eauto 8.
  - destruct v as [| |vs|]; cbn [ber_of] in H; try tauto. destruct H as (ps & qs & Hf & Hq & Hp).
    assert (Hb : bytes (concat qs)).
    { apply concat_bytes. eapply Permutation_Forall; eauto. eapply parts_all_bytes; eauto. }
    destruct (id_packet_own _ _ _ _ Hp Hb) as (H1 & c & con & tag & y & H2 & H3). split; [auto|]. eauto 8.
  - destruct v as [| | |n v]; cbn [ber_of] in H; try tauto. destruct o as [i|].
    + destruct H as (q & Ha & Hp). destruct (alt_packet cs IH _ _ _ Ha) as (Hb & _).
      destruct (id_packet_own _ _ _ _ Hp Hb) as (H1 & c & con & tag & y & H2 & H3). split; [auto|]. eauto 8.
    + apply (alt_packet cs IH _ _ _ H).
Qed.
Lemma each_packet cs : each enc_packet cs.
Proof. induction cs; cbn; auto using ber_of_packet. Qed.

(** ** Round trip *)
Definition dec_round (t : ty) : Prop := good_schema t -> forall v p, ber_of t v p ->
  forall s w rest, obj t s -> zlen (p ++ rest) < 2^63 -> v_make (p ++ rest) = Ok w ->
  exists s', decode t s w = Ok (true, s') /\ rep t s' v.

Lemma leaf_round k i : dec_round (TLeaf k i).
Proof.
  intros ((Hi & Hk) & _) v p Hb s w rest Ho Hz Ew. destruct v as [x| | |]; cbn [ber_of] in Hb; try tauto.
  destruct s as [l| | |]; cbn [obj] in Ho; try tauto. destruct Hb as [Hc Hp]. cbn [decode rep].
  destruct k as [| |max x0|x0|]; destruct l as [d|f|]; cbn [leaf_inv] in Ho; try tauto; cbn [leaf_decode]; pose proof Hc as [Hbx Hcx].
  - destruct Ho as (b & Hr). destruct (bool_decode_packet i d b p x [] rest Hp Hz Hr) as (w' & Ew' & H1 & _).
    assert (w' = w) by congruence. subst w'. destruct (zlen_1_inv _ Hcx) as (c & ->). destruct (H1 c eq_refl) as (d' & E & Hd).
    rewrite E. cbn [bind]. eexists. split; [reflexivity|]. split; [exact Hc|exact Hd].
  - destruct (null_decode_packet i p x [] rest Hp Hz) as (w' & Ew' & E). assert (w' = w) by congruence. subst w' x.
    rewrite E. cbn [bind]. eexists. split; [reflexivity|]. split; [exact Hc|exact I].
  - destruct Ho as (y & Hr), Hk as (Hok & _).
    destruct (small_decode_packet i max d y p x [] rest Hok Hr Hp Hz Hcx) as (w' & d' & Ew' & E & Hd).
    assert (w' = w) by congruence. subst w'. rewrite E. cbn [bind]. eexists. split; [reflexivity|]. split; [exact Hc|exact Hd].
  - destruct (fixed_decode_packet i f p x [] rest Hp Hz) as (w' & Ew' & E). assert (w' = w) by congruence. subst w'.
    rewrite E. cbn [bind]. eexists. split; [reflexivity|]. split; [exact Hc|]. split; [exact Hp|reflexivity].
  - unfold time_decode. destruct (fixed_decode_packet i f p x [] rest Hp Hz) as (w' & Ew' & E). assert (w' = w) by congruence. subst w'.
    rewrite E. cbn [bind f_len]. replace (_ || _) with false by lia. eexists. split; [reflexivity|]. split; [exact Hc|].
    split; [exact Hp|reflexivity].
Qed.

(** entering a constructed packet *)
Lemma enter i p x rest w : id_packet i constructed p x [] -> zlen (p ++ rest) < 2^63 -> v_make (p ++ rest) = Ok w ->
  is_valid w = true /\ has_correct_header w i constructed = Ok true /\ content_iter i w = it_make x /\ zlen x < 2^63.
Proof.
  intros Hp Hz Ew. destruct (header_packet i constructed p x [] rest Hp Hz) as (w' & Ew' & Hv & Hh & _).
  assert (w' = w) by congruence. subst w'. split; [auto|]. split; [auto|]. split; [eapply content_iter_packet; eauto|].
  apply id_packet_len in Hp. rewrite zlen_app in Hz. pose proof (zlen_nonneg rest). lia.
Qed.
(** an iterator over x *)
Definition iter_on (it : iter) (x : list Z) : Prop := it_buf it = x /\ exists t0, v_assign t0 x = Ok (it_view it).
Lemma iter_on_nil it : iter_on it [] -> is_valid (it_view it) = false.
Proof. intros (_ & t0 & E). destruct it as [b w]. cbn in E |- *. injection E as <-. reflexivity. Qed.
Lemma it_make_nil : exists it, it_make [] = Ok it /\ iter_on it [].
Proof. eexists. split; [reflexivity|]. split; [reflexivity|]. exists 0. reflexivity. Qed.
Lemma iter_on_packet it p c con t x rest : iter_on it (p ++ rest) -> ber_packet p c con t x -> zlen (p ++ rest) < 2^63 ->
  it_view it = pview p t x rest /\ v_make (p ++ rest) = Ok (it_view it) /\ v_class (it_view it) = Ok c /\
  it_next it = let* v := v_assign t rest in Ok (Iter rest v).
Proof.
  intros (Hb & t0 & E) HP Hz. rewrite (pview_make _ _ _ _ _ rest t0 HP Hz) in E. injection E as E.
  rewrite <- E. split; [reflexivity|]. split; [apply (pview_make _ _ _ _ _ rest 0 HP Hz)|].
  split; [apply (pview_byte0 _ _ _ _ _ rest HP)|].
  destruct it as [buf w]. cbn [it_buf it_view] in *. subst buf w. apply (it_next_packet _ _ _ _ _ rest HP Hz).
Qed.
(** every prefix of packets can be entered *)
Definition packets (ps : list (list Z)) : Prop := Forall (fun p => exists c con t x, ber_packet p c con t x) ps.
Lemma packets_assign ps t0 : packets ps -> zlen (concat ps) < 2^63 -> exists v, v_assign t0 (concat ps) = Ok v.
Proof.
  intros H Hz. destruct H as [|p ps (c & con & t & x & HP) _]; [eexists; reflexivity|]. cbn [concat] in *.
  eexists. apply (pview_make _ _ _ _ _ _ t0 HP Hz).
Qed.
Lemma packets_make ps : packets ps -> zlen (concat ps) < 2^63 -> exists it, it_make (concat ps) = Ok it /\ iter_on it (concat ps).
Proof.
  intros H Hz. destruct (packets_assign ps 0 H Hz) as (v & E). unfold it_make, v_make. rewrite E. cbn [bind].
  eexists. split; [reflexivity|]. split; [reflexivity|]. exists 0. exact E.
Qed.
Lemma packets_next it p ps : iter_on it (concat (p :: ps)) -> packets (p :: ps) -> zlen (concat (p :: ps)) < 2^63 ->
  exists c con t x w it', ber_packet p c con t x /\ it_view it = w /\ w = pview p t x (concat ps) /\ v_make (p ++ concat ps) = Ok w /\
    v_class w = Ok c /\ it_next it = Ok it' /\ iter_on it' (concat ps).
Proof.
  intros Hi Hp Hz. inversion Hp as [|? ? (c & con & t & x & HP) Hps]; subst. cbn [concat] in *.
  destruct (iter_on_packet it p c con t x (concat ps) Hi HP Hz) as (E1 & E2 & E3 & E4).
  assert (Hz2 : zlen (concat ps) < 2^63) by (rewrite zlen_app in Hz; pose proof (zlen_nonneg p); lia).
  destruct (packets_assign ps t Hps Hz2) as (v & E). rewrite E in E4. cbn [bind] in E4.
  exists c, con, t, x, (it_view it), (Iter (concat ps) v). do 6 (split; [auto|]). split; [reflexivity|]. exists t. exact E.
Qed.

(** *** SEQUENCE OF *)
Lemma seqof_packets t vs ps : Forall2 (ber_of t) vs ps -> packets ps.
Proof.
  induction 1 as [|v p vs ps H _ IH]; constructor; [|exact IH]. destruct (ber_of_packet t v p H) as (_ & c & con & tag & x & HP & _). eauto.
Qed.
Lemma seqof_round t : dec_round t -> good_schema t -> forall vs ps, Forall2 (ber_of t) vs ps ->
  forall fuel it, iter_on it (concat ps) -> zlen (concat ps) < 2^63 -> (length (concat ps) < fuel)%nat ->
  exists l, seqof_loop (decode t (init t)) fuel it = Ok (true, l) /\ Forall2 (rep t) l vs.
Proof.
  intros Ht Hg vs ps H. induction H as [|v p vs ps Hv Hvs IH]; intros fuel it Hi Hz Hf; (destruct fuel as [|fuel]; [lia|]);
    cbn [seqof_loop]; unfold it_at_end.
  - rewrite (iter_on_nil it Hi). cbn [negb]. eexists. split; [reflexivity|constructor].
  - assert (Hps : packets (p :: ps)) by (eapply (seqof_packets t (v :: vs)); constructor; eauto).
    destruct (packets_next it p ps Hi Hps Hz) as (c & con & tag & x & w & it' & HP & Ew & Epv & Em & _ & En & Hi').
    assert (Hvw : is_valid w = true) by (rewrite Epv; reflexivity). rewrite Ew, Hvw. cbn [negb].
    destruct (Ht Hg v p Hv (init t) w (concat ps) (init_obj t (proj1 Hg)) Hz Em) as (s & E & Hs). rewrite E. cbn [bind negb].
    rewrite En. cbn [bind]. cbn [concat] in Hz, Hf. rewrite zlen_app in Hz. rewrite app_length in Hf.
    apply ber_packet_len in HP. pose proof (zlen_nonneg x). pose proof (zlen_nonneg p).
    destruct (IH fuel it' Hi' ltac:(lia) ltac:(unfold zlen in *; lia)) as (l & El & Hl). rewrite El. cbn [bind].
    eexists. split; [reflexivity|constructor; auto].
Qed.

(** *** SEQUENCE *)
Lemma parts_packets cs : forall vs ps, ber_parts cs vs ps -> packets ps.
Proof.
  induction cs as [|k ids t cs IH]; intros vs ps H; destruct vs as [|[v|] vs]; cbn [ber_parts] in H; try tauto.
  - subst ps. constructor.
  - destruct H as (p & ps' & -> & Hp & Hps). constructor; [|eapply IH; eauto]. destruct (ber_of_packet t v p Hp) as (_ & c & con & tag & x & HP & _). eauto.
  - destruct H. eauto.
Qed.
Lemma parts_next cs : labelled_comps cs -> forall vs p ps c con tag x, ber_parts cs vs (p :: ps) -> ber_packet p c con tag x ->
  In (c, tag) (next_ids cs).
Proof.
  induction cs as [|k ids t cs IH]; intros Hl vs p ps c con tag x H HP; destruct vs as [|[v|] vs]; cbn [ber_parts] in H; try tauto;
    try discriminate; destruct Hl as (Hids & Hlt & Hl).
  - destruct H as (p' & ps' & E & Hp & _). injection E as -> ->.
    destruct (ber_of_packet t v p' Hp) as (_ & c' & con' & tag' & x' & HP' & Hin). specialize (Hin Hlt).
    destruct (ber_packet_det _ _ _ _ _ _ _ _ _ _ [] [] HP HP' eq_refl) as (_ & -> & _ & -> & _). subst ids.
    cbn [next_ids]. destruct k; [exact Hin|rewrite in_app_iff; auto|rewrite in_app_iff; auto].
  - destruct H as [Hk H]. cbn [next_ids]. pose proof (IH Hl vs p ps c con tag x H HP) as Hin.
    destruct k; [congruence|rewrite in_app_iff; auto|rewrite in_app_iff; auto].
Qed.
Definition good_comps (cs : comps) : Prop := wf_comps cs /\ labelled_comps cs /\ unambiguous_comps cs /\ choices_by_tag_comps cs.
Lemma good_comps_cons k ids t cs : good_comps (CCons k ids t cs) -> good_schema t /\ good_comps cs /\ ids = type_ids t.
Proof. unfold good_comps, good_schema. cbn. tauto. Qed.
Lemma member_round k t m p v w rest : dec_round t -> good_schema t -> ber_of t v p -> zlen (p ++ rest) < 2^63 ->
  v_make (p ++ rest) = Ok w -> match m with Some s => obj t s | None => k <> Mand end ->
  exists s', member_decode k (type_ids t) (init t) (decode t) m w = Ok (true, Some s') /\ rep t s' v.
Proof.
  intros Ht Hg Hp Hz Ew Hm. destruct (ber_of_packet t v p Hp) as (_ & c & con & tag & x & HP & Hin).
  specialize (Hin (proj1 (proj2 Hg))). pose proof (pview_make _ _ _ _ _ rest 0 HP Hz) as Epv. unfold v_make in Ew.
  assert (w = pview p tag x rest) by congruence. subst w.
  destruct (Ht Hg v p Hp (init t) _ rest (init_obj t (proj1 Hg)) Hz Ew) as (s1 & E1 & H1).
  assert (Hid : has_id (type_ids t) c tag = true) by (apply has_id_In; exact Hin).
  destruct k; cbn [member_decode].
  - destruct m as [s|]; [|congruence]. destruct (Ht Hg v p Hp s _ rest Hm Hz Ew) as (s2 & E2 & H2). rewrite E2. cbn [bind]. eauto.
  - rewrite pview_valid, (proj1 (pview_byte0 _ _ _ _ _ rest HP)). cbn [bind]. change (v_tag (pview p tag x rest)) with tag.
    rewrite Hid, E1. cbn [bind]. eauto.
  - rewrite pview_valid, (proj1 (pview_byte0 _ _ _ _ _ rest HP)). cbn [bind]. change (v_tag (pview p tag x rest)) with tag.
    rewrite Hid, E1. cbn [bind]. eauto.
Qed.
Lemma seq_round cs : each dec_round cs -> good_comps cs -> seq_distinct cs -> forall vs ps, ber_parts cs vs ps ->
  forall ms it, obj_comps cs ms -> iter_on it (concat ps) -> zlen (concat ps) < 2^63 ->
  exists ms', decode_seq cs ms it = Ok (true, ms') /\ rep_comps cs ms' vs.
Proof.
  induction cs as [|k ids t cs IH]; intros He Hg Hd vs ps Hp ms it Ho Hi Hz; destruct ms as [|m ms]; cbn [obj_comps] in Ho; try tauto.
  - destruct vs; cbn [ber_parts] in Hp; try tauto. cbn [decode_seq]. exists []. split; [reflexivity|exact I].
  - destruct vs as [|v vs]; cbn [ber_parts] in Hp; try tauto.
    destruct He as [Ht He], Hd as [Hd1 Hd], Ho as [Hm Ho]. destruct (good_comps_cons _ _ _ _ Hg) as (Hgt & Hgc & ->). cbn [decode_seq].
    destruct v as [v|].
    + pose proof (parts_packets (CCons k (type_ids t) t cs) (Some v :: vs) ps Hp) as Hpk.
      destruct Hp as (p & ps' & -> & Hp & Hps).
      destruct (packets_next it p ps' Hi Hpk Hz) as (c & con & tag & x & w & it' & HP & Ew & Epv & Em & Ec & En & Hi').
      rewrite Ew. cbn [concat] in Hz.
      destruct (ber_of_packet t v p Hp) as (_ & c' & con' & tag' & x' & HP' & Hin). specialize (Hin (proj1 (proj2 Hgt))).
      destruct (ber_packet_det _ _ _ _ _ _ _ _ _ _ [] [] HP HP' eq_refl) as (_ & -> & _ & -> & _).
      assert (Hhere : match k with
                   | Mand => Ok true
                   | _ => if is_valid w then let* c := v_class w in Ok (has_id (type_ids t) c (v_tag w)) else Ok false
                   end = Ok true).
      { assert (Hid : has_id (type_ids t) c' tag' = true) by (apply has_id_In; exact Hin).
        rewrite Ec. rewrite Epv, pview_valid. cbn [bind]. change (v_tag (pview p tag' x (concat ps'))) with tag'. rewrite Hid.
        destruct k; reflexivity. }
      rewrite Hhere. cbn [bind].
      destruct (member_round k t m p v w (concat ps') Ht Hgt Hp Hz Em Hm) as (s' & E & Hs'). rewrite E. cbn [bind negb].
      rewrite En. cbn [bind]. rewrite zlen_app in Hz. pose proof (zlen_nonneg p).
      destruct (IH He Hgc Hd vs ps' Hps ms it' Ho Hi' ltac:(lia)) as (ms' & E2 & Hms'). rewrite E2. cbn [bind].
      eexists. split; [reflexivity|]. split; auto.
    + destruct Hp as [Hk Hp]. destruct (IH He Hgc Hd vs ps Hp ms it Ho Hi Hz) as (ms' & E2 & Hms').
      assert (Hhere : match k with
                   | Mand => Ok true
                   | _ => if is_valid (it_view it) then let* c := v_class (it_view it) in Ok (has_id (type_ids t) c (v_tag (it_view it))) else Ok false
                   end = Ok false).
      { assert (H : (if is_valid (it_view it) then let* c := v_class (it_view it) in Ok (has_id (type_ids t) c (v_tag (it_view it))) else Ok false) = Ok false).
        { destruct ps as [|p ps]; [rewrite (iter_on_nil it Hi); reflexivity|].
          destruct (packets_next it p ps Hi (parts_packets _ _ _ Hp) Hz) as (c & con & tag & x & w & it' & HP & Ew & Epv & Em & Ec & En & Hi').
          rewrite Ew, Ec, Epv, pview_valid. cbn [bind]. change (v_tag (pview p tag x (concat ps))) with tag. f_equal.
          apply has_id_false. intros Hin. destruct Hd1 as [Hd1|Hd1]; [congruence|]. apply (Hd1 (c, tag) Hin).
          eapply parts_next; eauto. apply Hgc. }
        destruct k; [congruence|exact H|exact H]. }
      rewrite Hhere. cbn [bind]. rewrite E2. cbn [bind]. eexists. split; [reflexivity|]. split; auto.
Qed.

(** *** SET *)
Fixpoint pend (cs : comps) (vs : list (option val)) (D : list bool) (ps : list (list Z)) : Prop :=
  match cs, vs, D with
  | CNil, [], [] => ps = []
  | CCons k _ t cs, v :: vs, d :: D =>
      match v with
      | Some v => if d then pend cs vs D ps else exists p ps', ps = p :: ps' /\ ber_of t v p /\ pend cs vs D ps'
      | None => k <> Mand /\ d = false /\ pend cs vs D ps
      end
  | _, _, _ => False
  end.
Fixpoint set_inv (cs : comps) (vs : list (option val)) (D : list bool) (ms : list (option st)) (counts : list Z) : Prop :=
  match cs, vs, D, ms, counts with
  | CNil, [], [], [], [] => True
  | CCons k _ t cs, v :: vs, d :: D, m :: ms, n :: counts =>
      (if d then n = 1 /\ exists s x, m = Some s /\ v = Some x /\ rep t s x
       else n = 0 /\ match m with Some s => obj t s | None => k <> Mand end) /\ set_inv cs vs D ms counts
  | _, _, _, _, _ => False
  end.
Lemma pend_start cs : forall vs ps ms, ber_parts cs vs ps -> obj_comps cs ms ->
  exists D, pend cs vs D ps /\ set_inv cs vs D ms (zrep (Z.of_nat (comps_length cs)) 0).
Proof.
  unfold zrep. induction cs as [|k ids t cs IH]; intros vs ps ms H Ho; destruct vs as [|v vs]; cbn [ber_parts] in H; try tauto;
    destruct ms as [|m ms]; cbn [obj_comps] in Ho; try tauto.
  - exists []. split; auto.
  - destruct Ho as [Hm Ho]. rewrite Nat2Z.id. cbn [comps_length repeat].
    destruct v as [v|].
    + destruct H as (p & ps' & -> & Hp & Hps). destruct (IH _ _ _ Hps Ho) as (D & H1 & H2). rewrite Nat2Z.id in H2. exists (false :: D). cbn [pend set_inv].
      split; [exists p, ps'; auto|auto].
    + destruct H as [Hk Hps]. destruct (IH _ _ _ Hps Ho) as (D & H1 & H2). rewrite Nat2Z.id in H2. exists (false :: D). cbn [pend set_inv]. auto.
Qed.
Lemma pend_packets cs : forall vs D ps, pend cs vs D ps -> packets ps.
Proof.
  induction cs as [|k ids t cs IH]; intros vs D ps H; destruct vs as [|v vs], D as [|d D]; cbn [pend] in H; try tauto.
  - subst. constructor.
  - destruct v as [v|]; [|apply (IH vs D); tauto]. destruct d; [eauto|]. destruct H as (p & ps' & -> & Hp & H).
    constructor; [|eapply IH; eauto]. destruct (ber_of_packet t v p Hp) as (_ & c & con & tag & x & HP & _). eauto.
Qed.
Lemma pend_ids cs : labelled_comps cs -> forall vs D ps q c con tag x, pend cs vs D ps -> In q ps -> ber_packet q c con tag x ->
  In (c, tag) (comps_ids cs).
Proof.
  induction cs as [|k ids t cs IH]; intros Hl vs D ps q c con tag x H Hin HP; destruct vs as [|v vs], D as [|d D]; cbn [pend] in H; try tauto.
  - subst. destruct Hin.
  - destruct Hl as (-> & Hlt & Hl). cbn [comps_ids]. rewrite in_app_iff.
    destruct v as [v|]; [|right; apply (IH Hl vs D ps q c con tag x); tauto]. destruct d; [right; eauto|].
    destruct H as (p & ps' & -> & Hp & H). destruct Hin as [->|Hin]; [|right; eauto]. left.
    destruct (ber_of_packet t v q Hp) as (_ & c' & con' & tag' & x' & HP' & Hin). specialize (Hin Hlt).
    destruct (ber_packet_det _ _ _ _ _ _ _ _ _ _ [] [] HP HP' eq_refl) as (_ & -> & _ & -> & _). exact Hin.
Qed.
Lemma set_step cs : each dec_round cs -> good_comps cs -> all_distinct cs -> forall vs D l1 q l2 ms counts c con tag x w rest,
  pend cs vs D (l1 ++ q :: l2) -> set_inv cs vs D ms counts -> ber_packet q c con tag x -> zlen (q ++ rest) < 2^63 ->
  v_make (q ++ rest) = Ok w ->
  exists D' ms' counts', decode_member cs ms counts c tag w = Ok (Some (true, (ms', counts'))) /\
    set_inv cs vs D' ms' counts' /\ pend cs vs D' (l1 ++ l2).
Proof.
  induction cs as [|k ids t cs IH]; intros He Hg Hd vs D l1 q l2 ms counts c con tag x w rest Hp Hs HP Hz Ew.
  - destruct vs, D; cbn [pend] in Hp; try tauto. destruct l1; discriminate.
  - destruct vs as [|v vs], D as [|d D]; cbn [pend] in Hp; try tauto. destruct ms as [|m ms], counts as [|n counts]; cbn [set_inv] in Hs; try tauto.
    destruct He as [Ht He], Hd as [Hd1 Hd], Hs as [Hm Hs]. destruct (good_comps_cons _ _ _ _ Hg) as (Hgt & Hgc & ->).
    pose proof (proj1 (proj2 Hgc)) as Hlc. cbn [decode_member].
    assert (Hskip : forall l1', (In q (l1' ++ q :: l2)) -> pend cs vs D (l1' ++ q :: l2) ->
       exists D' ms' counts', (if has_id (type_ids t) c tag
        then let* (ok, m) := member_decode k (type_ids t) (init t) (decode t) m w in
             Ok (Some (ok, (m :: ms, (if ok then n + 1 else n) :: counts)))
        else let* r := decode_member cs ms counts c tag w in
             Ok (match r with
                 | None => None
                 | Some (ok, (ms, counts)) => Some (ok, (m :: ms, n :: counts))
                 end)) = Ok (Some (true, (m :: ms', n :: counts'))) /\ set_inv cs vs D' ms' counts' /\ pend cs vs D' (l1' ++ l2)).
    { intros l1' Hin Hpe. pose proof (pend_ids cs Hlc _ _ _ _ _ _ _ _ Hpe Hin HP) as Hids.
      assert (Hno : has_id (type_ids t) c tag = false) by (apply has_id_false; intros H; exact (Hd1 _ H Hids)). rewrite Hno.
      destruct (IH He Hgc Hd vs D l1' q l2 ms counts c con tag x w rest Hpe Hs HP Hz Ew) as (D' & ms' & counts' & E & H1 & H2).
      rewrite E. cbn [bind]. exists D', ms', counts'. auto. }
    destruct v as [v|].
    + destruct d.
      * destruct (Hskip l1 (in_elt _ _ _) Hp) as (D' & ms' & counts' & E & H1 & H2). rewrite E.
        exists (true :: D'), (m :: ms'), (n :: counts'). cbn [set_inv pend]. auto.
      * destruct Hp as (p & ps' & E0 & Hp & Hpe). destruct l1 as [|p0 l1]; cbn [app] in *; injection E0 as -> <-.
        -- destruct (ber_of_packet t v p Hp) as (_ & c' & con' & tag' & x' & HP' & Hin). specialize (Hin (proj1 (proj2 Hgt))).
           destruct (ber_packet_det _ _ _ _ _ _ _ _ _ _ [] [] HP HP' eq_refl) as (_ & -> & _ & -> & _).
           assert (Hid : has_id (type_ids t) c' tag' = true) by (apply has_id_In; exact Hin). rewrite Hid.
           destruct (member_round k t m p v w rest Ht Hgt Hp Hz Ew (proj2 Hm)) as (s' & E & Hs'). rewrite E. cbn [bind].
           destruct Hm as [-> Hm]. exists (true :: D). eexists _, _. split; [reflexivity|]. cbn [set_inv pend].
           split; [split; [split; [reflexivity|exists s', v; auto]|exact Hs]|exact Hpe].
        -- destruct (Hskip l1 (in_elt _ _ _) Hpe) as (D' & ms' & counts' & E & H1 & H2). rewrite E.
           exists (false :: D'), (m :: ms'), (n :: counts'). cbn [set_inv pend]. split; [auto|]. split; [auto|].
           exists p, (l1 ++ l2). auto.
    + destruct Hp as (Hk & -> & Hpe). destruct (Hskip l1 (in_elt _ _ _) Hpe) as (D' & ms' & counts' & E & H1 & H2). rewrite E.
      exists (false :: D'), (m :: ms'), (n :: counts'). cbn [set_inv pend]. auto.
Qed.
Lemma set_end cs : forall vs D ms counts, pend cs vs D [] -> set_inv cs vs D ms counts ->
  exists ms', set_finish cs ms counts = (true, ms') /\ rep_comps cs ms' vs.
Proof.
  induction cs as [|k ids t cs IH]; intros vs D ms counts Hp Hs; destruct vs as [|v vs], D as [|d D]; cbn [pend] in Hp; try tauto;
    destruct ms as [|m ms], counts as [|n counts]; cbn [set_inv] in Hs; try tauto.
  - exists []. split; [reflexivity|exact I].
  - destruct Hs as [Hm Hs]. cbn [set_finish]. destruct v as [v|].
    + destruct d; [|destruct Hp as (p & ps' & E & _); discriminate]. destruct Hm as (-> & s & x & -> & Ex & Hr). injection Ex as <-.
      cbn. destruct (IH vs D ms counts Hp Hs) as (ms' & E & H). rewrite E. eexists. split; [reflexivity|]. split; auto.
    + destruct Hp as (Hk & -> & Hp). destruct Hm as [-> _]. cbn. destruct (IH vs D ms counts Hp Hs) as (ms' & E & H).
      destruct k; [congruence| |]; rewrite E; (eexists; split; [reflexivity|]; split; auto).
Qed.
Lemma set_round cs ext : each dec_round cs -> good_comps cs -> all_distinct cs -> forall qs vs D ps fuel it ms counts,
  pend cs vs D ps -> Permutation ps qs -> set_inv cs vs D ms counts -> iter_on it (concat qs) -> zlen (concat qs) < 2^63 ->
  (length (concat qs) < fuel)%nat ->
  exists ms' counts' ms2, set_loop (decode_member cs) ext fuel it ms counts = Ok (true, (ms', counts')) /\
    set_finish cs ms' counts' = (true, ms2) /\ rep_comps cs ms2 vs.
Proof.
  intros He Hg Hd. induction qs as [|q qs IH]; intros vs D ps fuel it ms counts Hp Hperm Hs Hi Hz Hf; (destruct fuel as [|fuel]; [lia|]);
    cbn [set_loop]; unfold it_at_end.
  - apply Permutation_sym, Permutation_nil in Hperm. subst ps. rewrite (iter_on_nil it Hi). cbn [negb].
    destruct (set_end cs vs D ms counts Hp Hs) as (ms2 & E & H). eauto 6.
  - assert (Hpk : packets (q :: qs)).
    { eapply Permutation_Forall; [exact Hperm|]. eapply pend_packets; eauto. }
    destruct (packets_next it q qs Hi Hpk Hz) as (c & con & tag & x & w & it' & HP & Ew & Epv & Em & Ec & En & Hi').
    assert (Hvw : is_valid w = true) by (rewrite Epv; reflexivity). rewrite Ew, Hvw. cbn [negb]. rewrite Ec. cbn [bind].
    assert (Etag : v_tag w = tag) by (rewrite Epv; reflexivity). rewrite Etag.
    assert (Hin : In q ps) by (eapply Permutation_in; [apply Permutation_sym; exact Hperm|left; reflexivity]).
    destruct (in_split _ _ Hin) as (l1 & l2 & ->). cbn [concat] in Hz.
    destruct (set_step cs He Hg Hd vs D l1 q l2 ms counts c con tag x w (concat qs) Hp Hs HP Hz Em) as (D' & ms' & counts' & E & H1 & H2).
    rewrite E. cbn [bind]. rewrite En. cbn [bind]. rewrite zlen_app in Hz. cbn [concat] in Hf. rewrite app_length in Hf.
    apply ber_packet_len in HP. pose proof (zlen_nonneg x). pose proof (zlen_nonneg q).
    eapply (IH vs D' (l1 ++ l2) fuel it' ms' counts'); auto; [|lia|unfold zlen in *; lia].
    apply Permutation_sym, Permutation_cons_app_inv in Hperm || (apply Permutation_sym; eapply Permutation_cons_app_inv; apply Permutation_sym; exact Hperm).
    apply Permutation_sym. exact Hperm.
Qed.

(** *** CHOICE *)
Lemma find_label_In cs c tag n : find_label cs c tag = Some n -> In (c, tag) (comps_ids cs).
Proof.
  revert n. induction cs as [|k ids t cs IH]; intros n; cbn; [discriminate|]. rewrite in_app_iff.
  destruct (has_id ids c tag) eqn:E; [intros _; left; apply has_id_In; auto|].
  destruct (find_label cs c tag); cbn; [|discriminate]. intros _. right. eauto.
Qed.
Lemma find_label_alt cs : labelled_comps cs -> all_distinct cs -> forall n v p c con tag x, ber_alt cs n v p -> ber_packet p c con tag x ->
  find_label cs c tag = Some n.
Proof.
  induction cs as [|k ids t cs IH]; intros Hl Hd n v p c con tag x H HP; destruct n as [|n]; cbn [ber_alt] in H; try tauto;
    destruct Hl as (-> & Hlt & Hl), Hd as [Hd1 Hd]; cbn [find_label].
  - destruct (ber_of_packet t v p H) as (_ & c' & con' & tag' & x' & HP' & Hin). specialize (Hin Hlt).
    destruct (ber_packet_det _ _ _ _ _ _ _ _ _ _ [] [] HP HP' eq_refl) as (_ & -> & _ & -> & _).
    apply has_id_In in Hin. rewrite Hin. reflexivity.
  - rewrite (IH Hl Hd n v p c con tag x H HP).
    destruct (alt_packet cs (each_packet cs) n v p H) as (_ & c' & con' & tag' & x' & HP' & Hin). specialize (Hin Hl).
    destruct (ber_packet_det _ _ _ _ _ _ _ _ _ _ [] [] HP HP' eq_refl) as (_ & -> & _ & -> & _).
    replace (has_id (type_ids t) c' tag') with false; [reflexivity|]. symmetry. apply has_id_false. intros Hin2. exact (Hd1 _ Hin2 Hin).
Qed.
Lemma select_alt g cs c tag n : (g = CLib \/ tags_distinct cs) -> find_label cs c tag = Some n ->
  select g cs (match g with CGen => universal | CLib => c end) tag = Some n.
Proof.
  intros Hg Hn. destruct g; [|exact Hn]. destruct Hg as [Hg|Hg]; [discriminate|]. unfold select.
  assert (Hother : forall c', c' <> c -> find_label cs c' tag = None).
  { intros c' Hne. destruct (find_label cs c' tag) as [m|] eqn:E; [|reflexivity]. exfalso. apply Hne.
    apply (Hg c' c tag); eapply find_label_In; eauto. }
  destruct c; rewrite ?Hn; [reflexivity| | |]; rewrite (Hother universal) by discriminate; try rewrite Hn; try reflexivity;
    rewrite (Hother application) by discriminate; try rewrite Hn; try reflexivity;
    rewrite (Hother context_specific) by discriminate; try rewrite Hn; reflexivity.
Qed.
Lemma alt_round cs : each dec_round cs -> good_comps cs -> forall n k v p w rest, ber_alt cs n v p -> zlen (p ++ rest) < 2^63 ->
  v_make (p ++ rest) = Ok w -> exists s', decode_alt cs n k w = Ok (true, SAlt k s') /\ rep_alt cs n s' v.
Proof.
  induction cs as [|kk ids t cs IH]; intros He Hg n k v p w rest H Hz Ew; destruct n as [|n]; cbn [ber_alt] in H; try tauto;
    destruct He as [Ht He], (good_comps_cons _ _ _ _ Hg) as (Hgt & Hgc & _); cbn [decode_alt rep_alt].
  - destruct (Ht Hgt v p H (init t) w rest (init_obj t (proj1 Hgt)) Hz Ew) as (s' & E & Hs). rewrite E. cbn [bind]. eauto.
  - eapply IH; eauto.
Qed.

Theorem decode_round t : dec_round t.
Proof.
  induction t as [k i|i t IH|i cs IH|i ext cs IH|g o cs IH] using schema_ind.
  - apply leaf_round.
  - intros ((Hi & Hwf) & Hl & Hu & Hc) v p Hb s w rest Ho Hz Ew. destruct v as [|vs| |]; cbn [ber_of] in Hb; try tauto.
    destruct s as [|l| |]; cbn [obj] in Ho; try tauto. destruct Hb as (ps & Hf & Hp).
    destruct (enter i p _ rest w Hp Hz Ew) as (Hv & Hh & Hci & Hzx). cbn [decode rep]. rewrite Hh. cbn [bind negb]. rewrite Hci.
    destruct (packets_make ps (seqof_packets _ _ _ Hf) Hzx) as (it & E & Hit). rewrite E. cbn [bind].
    destruct (seqof_round t IH ltac:(repeat split; auto) vs ps Hf (rounds it) it Hit Hzx) as (l' & El & Hl').
    { unfold rounds. rewrite (proj1 Hit). lia. }
    rewrite El. cbn [bind]. eauto.
  - intros ((Hi & Hwf) & Hl & [Hd Hu] & Hc) v p Hb s w rest Ho Hz Ew. destruct v as [| |vs|]; cbn [ber_of] in Hb; try tauto.
    destruct s as [| |ms|]; cbn [obj] in Ho; try tauto. destruct Hb as (ps & Hf & Hp).
    destruct (enter i p _ rest w Hp Hz Ew) as (Hv & Hh & Hci & Hzx). cbn [decode rep]. rewrite Hv, Hh. cbn [bind negb].
    destruct (packets_make ps (parts_packets _ _ _ Hf) Hzx) as (it & E & Hit).
    destruct (seq_round cs IH ltac:(repeat split; auto) Hd vs ps Hf ms it Ho Hit Hzx) as (ms' & El & Hl').
    destruct cs as [|k ids t cs].
    + cbn [comps_length Nat.eqb]. eexists. split; [reflexivity|]. destruct ms; [|destruct Ho]. destruct vs; [exact I|destruct Hf].
    + cbn [comps_length Nat.eqb]. rewrite Hci, E. cbn [bind]. rewrite El. cbn [bind]. eauto.
  - intros ((Hi & Hwf) & Hl & [Hd Hu] & Hc) v p Hb s w rest Ho Hz Ew. destruct v as [| |vs|]; cbn [ber_of] in Hb; try tauto.
    destruct s as [| |ms|]; cbn [obj] in Ho; try tauto. destruct Hb as (ps & qs & Hf & Hq & Hp).
    destruct (enter i p _ rest w Hp Hz Ew) as (Hv & Hh & Hci & Hzx). cbn [decode rep]. rewrite Hv, Hh. cbn [bind negb].
    assert (Hpk : packets qs) by (eapply Permutation_Forall; [exact Hq|]; eapply parts_packets; eauto).
    destruct (packets_make qs Hpk Hzx) as (it & E & Hit).
    destruct (pend_start cs vs ps ms Hf Ho) as (D & Hpe & Hinv).
    destruct (set_round cs ext IH ltac:(repeat split; auto) Hd qs vs D ps (rounds it) it ms _ Hpe Hq Hinv Hit Hzx) as (ms' & counts' & ms2 & El & Ef & Hr).
    { unfold rounds. rewrite (proj1 Hit). lia. }
    destruct (comps_length cs =? 0)%nat eqn:E0.
    + destruct cs; [|discriminate]. destruct ms; [|destruct Ho]. destruct vs; [|destruct Hf]. eexists. split; [reflexivity|exact I].
    + rewrite Hci, E. cbn [bind]. rewrite El. cbn [bind negb]. rewrite Ef. eauto.
  - intros ((Hi & Hn & Hwf) & Hl & [Hd Hu] & [Hc1 Hc]) v p Hb s w rest Ho Hz Ew. destruct v as [| | |n v]; cbn [ber_of] in Hb; try tauto.
    destruct s as [| | |n0 s0]; cbn [obj] in Ho; try tauto. cbn [decode rep].
    assert (Hgc : good_comps cs) by (repeat split; auto).
    assert (Halt : forall q rest w, ber_alt cs n v q -> zlen (q ++ rest) < 2^63 -> v_make (q ++ rest) = Ok w ->
       is_valid w = true /\ exists s', (let* c := match g with CGen => Ok universal | CLib => v_class w end in
          match select g cs c (v_tag w) with
          | Some n => decode_alt cs n n w
          | None => let* _ := match g with CGen => v_identifier w | CLib => Ok (universal, 0) end in Ok (false, SAlt n0 s0)
          end) = Ok (true, SAlt n s') /\ rep_alt cs n s' v).
    { clear p w rest Hb Hz Ew. intros q rest w Hb Hz Ew. destruct (alt_packet cs (each_packet cs) n v q Hb) as (_ & c & con & tag & x & HP & _).
      pose proof (pview_make _ _ _ _ _ rest 0 HP Hz) as Epv. unfold v_make in Ew. assert (Hw : w = pview q tag x rest) by congruence.
      split; [rewrite Hw; reflexivity|]. destruct (alt_round cs IH Hgc n n v q w rest Hb Hz Ew) as (s' & E & Hs').
      pose proof (select_alt g cs c tag n Hc1 (find_label_alt cs Hl Hd n v q c con tag x Hb HP)) as Hsel.
      assert (Ec : v_class w = Ok c) by (rewrite Hw; apply (pview_byte0 _ _ _ _ _ rest HP)).
      assert (Et : v_tag w = tag) by (rewrite Hw; reflexivity).
      exists s'. split; [|exact Hs']. rewrite Et. destruct g; rewrite ?Ec; cbn [bind]; rewrite Hsel; exact E. }
    destruct o as [i|].
    + destruct Hb as (q & Ha & Hp). destruct (enter i p _ rest w Hp Hz Ew) as (Hv & Hh & Hci & Hzx). rewrite Hv, Hh. cbn [negb bind].
      rewrite Hci. destruct (alt_packet cs (each_packet cs) n v q Ha) as (_ & c & con & tag & x & HP & _).
      pose proof (pview_make _ _ _ _ _ [] 0 HP ltac:(rewrite app_nil_r; exact Hzx)) as Epv.
      unfold it_make. assert (Em : v_make q = Ok (pview q tag x [])) by (rewrite <- (app_nil_r q) at 1; exact Epv). rewrite Em. cbn [bind it_view].
      rewrite pview_valid. cbn match.
      destruct (Halt q [] (pview q tag x []) Ha ltac:(rewrite app_nil_r; exact Hzx) ltac:(rewrite app_nil_r; exact Em)) as (_ & s' & E & Hs').
      rewrite E. eexists. split; [reflexivity|]. split; [reflexivity|exact Hs'].
    + cbn [bind]. destruct (Halt p rest w Hb Hz Ew) as (Hv & s' & E & Hs').
      replace (match g with CGen => Some w | CLib => if is_valid w then Some w else None end) with (Some w) by (rewrite Hv; destruct g; reflexivity).
      rewrite E. eexists. split; [reflexivity|]. split; [reflexivity|exact Hs'].
Qed.

(** ** An object holds one value *)
Lemma rep_fun t : wf_ty t -> forall s v1 v2, rep t s v1 -> rep t s v2 -> v1 = v2.
Proof.
  apply (ty_comps_ind (fun t => wf_ty t -> forall s v1 v2, rep t s v1 -> rep t s v2 -> v1 = v2)
    (fun cs => wf_comps cs -> (forall l v1 v2, rep_comps cs l v1 -> rep_comps cs l v2 -> v1 = v2) /\
                              (forall n s v1 v2, rep_alt cs n s v1 -> rep_alt cs n s v2 -> v1 = v2))).
  - intros k i [Hi Hk] [l| | |] [x| | |] [y| | |]; cbn; try tauto. intros [[_ H1] H2] [[_ H3] H4]. f_equal.
    destruct k, l; cbn in *; try tauto.
    + destruct (zlen_1_inv _ H1) as (a & ->), (zlen_1_inv _ H3) as (b & ->). cbn in *. f_equal.
      rewrite <- (bool_last _ _ _ H2), <- (bool_last _ _ _ H4). reflexivity.
    + congruence.
    + destruct Hk as (Hok & _). pose proof (small_content_rep _ _ _ _ Hok H2). pose proof (small_content_rep _ _ _ _ Hok H4). congruence.
    + pose proof (fixed_content_rep _ _ _ H2). pose proof (fixed_content_rep _ _ _ H4). congruence.
    + pose proof (fixed_content_rep _ _ _ H2). pose proof (fixed_content_rep _ _ _ H4). congruence.
  - intros i t' IH [_ Hwf] [|l| |] [|v1| |] [|v2| |]; cbn; try tauto. intros H1 H2. f_equal. revert v2 H2.
    induction H1 as [|s v l vs Hs _ IHl]; intros v2 H2; inversion H2; subst; [reflexivity|]. f_equal; eauto.
  - intros i cs IH [_ Hwf] [| |l|] [| |v1|] [| |v2|]; cbn; try tauto. intros H1 H2. f_equal. eapply (proj1 (IH Hwf)); eauto.
  - intros i e cs IH [_ Hwf] [| |l|] [| |v1|] [| |v2|]; cbn; try tauto. intros H1 H2. f_equal. eapply (proj1 (IH Hwf)); eauto.
  - intros g o cs IH (_ & _ & Hwf) [| | |n s] [| | |n1 v1] [| | |n2 v2]; cbn; try tauto. intros [-> H1] [-> H2]. f_equal.
    eapply (proj2 (IH Hwf)); eauto.
  - intros _. split; [intros [|] [|] [|]|]; cbn; tauto.
  - intros k ids t' IHt cs IH [Hwt Hwf]. destruct (IH Hwf) as [IH1 IH2]. split.
    + intros [|m l] [|v1 v1s] [|v2 v2s]; cbn; try tauto. intros [H1 H2] [H3 H4]. f_equal; [|eauto].
      destruct m, v1, v2; try tauto. f_equal. eauto.
    + intros [|n] s v1 v2; cbn; eauto.
Qed.
