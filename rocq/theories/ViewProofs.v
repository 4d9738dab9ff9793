(** Lemmas about views and iterators. *)
From Verif Require Import Base Ident Spec IdentProofs HeaderProofs View.
Ltac Zify.zify_post_hook ::= Z.div_mod_to_equations.

Lemma ber_packet_bytes p c con t x : ber_packet p c con t x -> bytes x -> bytes p.
Proof.
  intros (id & len & Hi & _ & Hl & _ & ->) Hx. rewrite !bytes_app. split; [eapply x690_ident_bytes; eauto|].
  split; auto. destruct Hl as [n Hn | ds Hds Hk].
  - constructor; [split; lia | constructor].
  - constructor; auto. unfold wf_byte; lia.
Qed.
Lemma x690_length_len l n : x690_length l n -> 1 <= zlen l.
Proof. destruct 1; rewrite ?zlen_cons; [cbn; lia|]. pose proof (zlen_nonneg ds). lia. Qed.
Lemma ber_packet_len p c con t x : ber_packet p c con t x -> 2 + zlen x <= zlen p.
Proof.
  intros (id & len & Hi & _ & Hl & _ & ->). rewrite !zlen_app.
  pose proof (x690_ident_len _ _ _ _ Hi). pose proof (x690_length_len _ _ Hl). lia.
Qed.
Lemma ber_packet_tlv p c con t x : ber_packet p c con t x -> tlv p c con t x.
Proof. intros (id & len & Hi & _ & Hl & _ & ->). exists id, len; auto. Qed.
Lemma ber_packet_tag p c con t x : ber_packet p c con t x -> 0 <= t < 2^63.
Proof. intros (id & len & Hi & Ht & Hl & _ & ->). pose proof (x690_ident_nonneg _ _ _ _ Hi). lia. Qed.
Lemma ber_packet_det p1 p2 c1 c2 k1 k2 t1 t2 x1 x2 r1 r2 :
  ber_packet p1 c1 k1 t1 x1 -> ber_packet p2 c2 k2 t2 x2 -> p1 ++ r1 = p2 ++ r2 ->
  p1 = p2 /\ c1 = c2 /\ k1 = k2 /\ t1 = t2 /\ x1 = x2 /\ r1 = r2.
Proof. intros H1 H2. eapply tlv_det; eauto using ber_packet_tlv. Qed.
Lemma hdr_packet c con t x : 0 <= t < 2^63 -> zlen x < 2^63 -> ber_packet (hdr c con t (zlen x) ++ x) c con t x.
Proof.
  intros Ht Hx. exists (id_octets c con t), (len_octets (zlen x)).
  pose proof (zlen_nonneg x).
  split; [apply id_octets_x690; auto|]. split; [lia|].
  split; [apply len_octets_x690; unfold in_u64; lia|].
  split; [rewrite len_octets_len; apply ell_range|].
  unfold hdr. rewrite <- app_assoc. reflexivity.
Qed.
Lemma packet_len_bound p c con t x : ber_packet p c con t x -> 0 <= zlen p - zlen x <= zlen p.
Proof. intros H; pose proof (ber_packet_len _ _ _ _ _ H); pose proof (zlen_nonneg x); lia. Qed.

(** Making a view of a packet followed by anything. *)
Lemma v_assign_packet p c con t x rest t0 :
  ber_packet p c con t x -> zlen (p ++ rest) < 2^63 ->
  v_assign t0 (p ++ rest) = Ok (View (Some (p ++ rest)) t (zlen p - zlen x) (zlen x)).
Proof.
  intros (id & len & Hi & Ht & Hl & Hl9 & ->) Hz. unfold v_assign.
  rewrite <- !app_assoc in *. rewrite (extract_tag_x690 id c con t) by auto. cbn [bind].
  rewrite extract_length_drop by apply zlen_nonneg. rewrite zdrop_len_eq.
  rewrite (extract_length_x690 _ _ _ _ Hl Hl9).
  pose proof (x690_ident_len _ _ _ _ Hi). pose proof (x690_length_len _ _ Hl).
  rewrite !zlen_app in *. pose proof (zlen_nonneg x). pose proof (zlen_nonneg rest).
  rewrite (u64_small (zlen id + zlen len)) by lia. rewrite u64_small by lia.
  replace (_ || _ || _) with false by lia. f_equal. f_equal; lia.
Qed.

(** The view of a packet, and what its accessors return. *)
Definition pview (p : list Z) (t : Z) (x : list Z) (rest : list Z) : view :=
  View (Some (p ++ rest)) t (zlen p - zlen x) (zlen x).
Lemma pview_byte0 p c con t x rest : ber_packet p c con t x ->
  v_class (pview p t x rest) = Ok c /\ v_construction (pview p t x rest) = Ok con.
Proof.
  intros (id & len & Hi & Ht & Hl & Hl9 & ->). unfold v_class, v_construction, v_byte0, pview; cbn [v_mem].
  rewrite <- !app_assoc.
  pose proof (extract_class_x690 _ _ _ _ (len ++ x ++ rest) Hi) as H1.
  pose proof (extract_construction_x690 _ _ _ _ (len ++ x ++ rest) Hi) as H2.
  destruct (id ++ len ++ x ++ rest) as [|b l]; [discriminate|]. cbn in *. split; congruence.
Qed.
Lemma pview_content p c con t x rest : ber_packet p c con t x -> v_content (pview p t x rest) = Ok x.
Proof.
  intros (id & len & Hi & Ht & Hl & Hl9 & ->). unfold v_content, pview; cbn [v_mem v_hl v_cl].
  pose proof (zlen_nonneg x). pose proof (zlen_nonneg id). pose proof (zlen_nonneg len). pose proof (zlen_nonneg rest).
  rewrite mem_read_ok by (rewrite ?zlen_app; lia).
  f_equal. rewrite <- !app_assoc, (app_assoc id len (x ++ rest)).
  rewrite zdrop_app_exact by (rewrite !zlen_app; lia). apply ztake_len_eq.
Qed.
Lemma pview_ber_length p c con t x rest : ber_packet p c con t x -> zlen p < 2^63 ->
  v_ber_length (pview p t x rest) = zlen p.
Proof.
  intros H Hp. pose proof (zlen_nonneg p). unfold v_ber_length, pview; cbn [v_hl v_cl].
  rewrite u64_small; lia.
Qed.
Lemma pview_ber p c con t x rest : ber_packet p c con t x -> zlen p < 2^63 -> v_ber (pview p t x rest) = Ok p.
Proof.
  intros H Hp. unfold v_ber. rewrite (pview_ber_length p c con) by auto. cbn [pview v_mem].
  pose proof (zlen_nonneg p). rewrite mem_read_ok by (rewrite ?zlen_app; pose proof (zlen_nonneg rest); lia).
  rewrite zdrop_0, ztake_len_eq. reflexivity.
Qed.
Lemma pview_valid p t x rest : is_valid (pview p t x rest) = true. Proof. reflexivity. Qed.

(** Conversely: what a valid view without wrap-around is. *)
Lemma v_assign_inv t0 input v :
  bytes input -> zlen input < 2^63 -> v_assign t0 input = Ok v -> is_valid v = true -> v_cl v < 2^63 ->
  exists p c con t x rest, input = p ++ rest /\ ber_packet p c con t x /\ v = pview p t x rest.
Proof.
  intros Hb Hz H Hv Hcl. unfold v_assign in H.
  destruct (extract_tag input t0) as [[tl tag]| |] eqn:Et; cbn [bind] in H; try discriminate.
  destruct (extract_length input 0 tl) as [ll cl] eqn:El.
  destruct (_ || _ || _) eqn:Ec; [inversion H; subst; discriminate|].
  inversion H; subst v; clear H Hv. cbn [v_tag v_cl] in *.
  destruct (extract_tag_inv input t0 tl tag Hb Et ltac:(lia)) as (id & r1 & c & con & -> & Hi & <- & Ht & _).
  rewrite extract_length_drop in El by apply zlen_nonneg. rewrite zdrop_len_eq in El.
  apply bytes_app in Hb; destruct Hb as [Hb1 Hb2].
  destruct (extract_length_inv r1 0 ll cl Hb2 El ltac:(lia)) as (len & r2 & -> & Hl & <- & Hl9).
  pose proof (x690_length_nonneg _ _ Hl) as Hcl0. rewrite !zlen_app in *. pose proof (zlen_nonneg r2).
  pose proof (x690_ident_len _ _ _ _ Hi).
  rewrite (u64_small (zlen id + zlen len)) in Ec by lia. rewrite u64_small in Ec by lia.
  exists (id ++ len ++ ztake cl r2), c, con, tag, (ztake cl r2), (zdrop cl r2).
  assert (Hzx : zlen (ztake cl r2) = cl) by (rewrite zlen_ztake; lia).
  split; [rewrite <- !app_assoc, ztake_zdrop; reflexivity|]. split.
  - exists id, len. rewrite Hzx. repeat split; auto; lia.
  - unfold pview. rewrite <- !app_assoc, ztake_zdrop, !zlen_app, Hzx. rewrite u64_small by lia. f_equal; lia.
Qed.
Lemma v_assign_invalid t0 input v : v_assign t0 input = Ok v -> is_valid v = false -> v_mem v = None /\ v_hl v = 0 /\ v_cl v = 0.
Proof.
  unfold v_assign. destruct (extract_tag input t0) as [[tl tag]| |]; cbn [bind]; try discriminate.
  destruct (extract_length input 0 tl) as [ll cl]. destruct (_ || _ || _); intros H; inversion H; subst; cbn; auto; discriminate.
Qed.
Lemma v_assign_valid_mem t0 input v : v_assign t0 input = Ok v -> is_valid v = true -> v_mem v = Some input.
Proof.
  unfold v_assign. destruct (extract_tag input t0) as [[tl tag]| |]; cbn [bind]; try discriminate.
  destruct (extract_length input 0 tl) as [ll cl]. destruct (_ || _ || _); intros H; inversion H; subst; cbn; auto; discriminate.
Qed.

(** Inputs on which no header makes the library's arithmetic overflow or wrap.  [header_calm]: the identifier octets at the
    start do not overflow the tag, the length is below 2^63.  [within x y]:
    y starts at a place of x where a header is expected: at the start, behind a packet, in a constructed packet.  The
    third condition: error messages of explicitly tagged strings read the identifier octets at the start of any content
    (FixedIdBerContainer.hpp 188-192).  The contents of primitive packets are otherwise arbitrary. *)
Definition header_calm (x : list Z) : Prop :=
  extract_tag x 0 <> UB /\ forall n t, extract_tag x 0 = Ok (n, t) -> snd (extract_length x 0 n) < 2^63.
Inductive within (x : list Z) : list Z -> Prop :=
| within_start : within x x
| within_next p c con t y rest : within x (p ++ rest) -> ber_packet p c con t y -> within x rest
| within_content p c t y rest : within x (p ++ rest) -> ber_packet p c constructed t y -> within x y.
Definition tame (input : list Z) : Prop :=
  zlen input < 2^63 /\ (forall y, within input y -> header_calm y) /\
  (forall p c con t y rest, within input (p ++ rest) -> ber_packet p c con t y -> extract_tag y 0 <> UB).
Lemma within_trans x y z : within x y -> within y z -> within x z.
Proof. intros H. induction 1 as [|p c con t w rest _ IH HP|p c t w rest _ IH HP]; [exact H|eapply within_next; eauto|eapply within_content; eauto]. Qed.
Lemma tame_within x y : tame x -> within x y -> zlen y <= zlen x -> tame y.
Proof.
  intros (Hz & H1 & H2) Hw Hl. split; [lia|]. split.
  - intros z Hz2. apply H1. eapply within_trans; eauto.
  - intros p c con t z rest Hz2. apply (H2 p c con t z rest). eapply within_trans; eauto.
Qed.
Lemma tame_next p c con t x rest : ber_packet p c con t x -> tame (p ++ rest) -> tame rest.
Proof.
  intros HP H. apply (tame_within _ _ H); [exact (within_next _ _ _ _ _ _ _ (within_start _) HP)|]. rewrite zlen_app. pose proof (zlen_nonneg p). lia.
Qed.
Lemma tame_content p c t x rest : ber_packet p c constructed t x -> tame (p ++ rest) -> tame x.
Proof.
  intros HP H. apply (tame_within _ _ H); [exact (within_content _ _ _ _ _ _ (within_start _) HP)|].
  rewrite zlen_app. pose proof (zlen_nonneg rest). pose proof (ber_packet_len _ _ _ _ _ HP). lia.
Qed.
Lemma tame_packets ks rest : Forall pkt_ok ks -> tame (concat (map pk_ber ks) ++ rest) -> tame rest.
Proof.
  induction 1 as [|k ks HP _ IH]; cbn [map concat app]; [auto|]. rewrite <- app_assoc. intros H. apply IH. eapply tame_next; eauto.
Qed.
Lemma extract_tag_fuel input t0 : extract_tag input t0 <> NoFuel.
Proof.
  assert (Hnf : forall l i t, extract_tag_loop l i t <> NoFuel).
  { induction l as [|b l IH]; intros i t; cbn; [discriminate|].
    repeat match goal with |- context [if ?c then _ else _] => destruct c end; auto; discriminate. }
  destruct input; cbn; [discriminate|]. destruct (negb _); [discriminate|]. apply Hnf.
Qed.
Lemma extract_tag_nonneg input t0 k t : extract_tag input t0 = Ok (k, t) -> 0 <= k.
Proof.
  assert (Hloop : forall l i tg k t, 0 <= i -> extract_tag_loop l i tg = Ok (k, t) -> 0 <= k).
  { induction l as [|b l IH]; intros i tg k' t' Hi; cbn; [intros E; inversion E; lia|].
    repeat match goal with |- context [if ?c then _ else _] => destruct c end; try discriminate;
      [intros E; inversion E; lia | apply IH; lia]. }
  destruct input; cbn; [intros E; inversion E; lia|].
  destruct (negb _); [intros E; inversion E; lia | apply Hloop; lia].
Qed.
Lemma calm_v_assign input t0 : header_calm input -> exists v, v_assign t0 input = Ok v /\ v_cl v < 2^63.
Proof.
  intros [H1 H2]. unfold v_assign. destruct input as [|b0 input]; [eexists; split; [reflexivity|cbn; lia]|].
  change (extract_tag (b0 :: input) t0) with (extract_tag (b0 :: input) 0).
  destruct (extract_tag (b0 :: input) 0) as [[tl tag]| |] eqn:Et.
  - cbn [bind]. specialize (H2 _ _ eq_refl). destruct (extract_length (b0 :: input) 0 tl) as [ll cl]. cbn in H2.
    destruct (_ || _ || _); eexists; (split; [reflexivity|]); cbn; lia.
  - congruence.
  - exfalso. exact (extract_tag_fuel _ _ Et).
Qed.
Lemma tame_v_assign input t0 : tame input -> exists v, v_assign t0 input = Ok v /\ v_cl v < 2^63.
Proof. intros (_ & H & _). apply calm_v_assign. apply H. constructor. Qed.
(** Reading the start of any octets whose tag does not overflow. *)
Lemma v_assign_defined input t0 : extract_tag input 0 <> UB -> exists v, v_assign t0 input = Ok v.
Proof.
  intros H. unfold v_assign. destruct input as [|b0 input]; [eexists; reflexivity|].
  change (extract_tag (b0 :: input) t0) with (extract_tag (b0 :: input) 0).
  destruct (extract_tag (b0 :: input) 0) as [[tl tag]| |] eqn:Et.
  - cbn [bind]. destruct (extract_length (b0 :: input) 0 tl) as [ll cl]. destruct (_ || _ || _); eexists; reflexivity.
  - congruence.
  - exfalso. exact (extract_tag_fuel _ _ Et).
Qed.

(** Truncation *)
Lemma extract_tag_loop_prefix l1 : forall l2 i tag k t,
  extract_tag_loop (l1 ++ l2) i tag = Ok (k, t) ->
  extract_tag_loop l1 i tag = Ok (k, t) \/ exists t', extract_tag_loop l1 i tag = Ok (0, t').
Proof.
  induction l1 as [|b l1 IH]; intros l2 i tag k t H; [right; cbn; eauto|].
  cbn in *. destruct (negb _); [discriminate|]. destruct (Z.land b 128 =? 0); [auto|].
  destruct (negb _); [discriminate|]. eauto.
Qed.
Lemma v_assign_prefix p c con t x k t0 :
  ber_packet p c con t x -> bytes x -> zlen p < 2^63 -> k < zlen p ->
  exists v, v_assign t0 (ztake k p) = Ok v /\ is_valid v = false.
Proof.
  intros HP Hx Hz Hk.
  assert (Hbp : bytes p) by (eapply ber_packet_bytes; eauto).
  destruct (Z.ltb_spec k 0) as [Hneg|Hk0].
  { rewrite ztake_neg by lia. eexists; split; reflexivity. }
  assert (Hzk : zlen (ztake k p) = k) by (apply zlen_ztake; lia).
  assert (Hsplit : ztake k p ++ zdrop k p = p) by apply ztake_zdrop.
  pose proof HP as (id & len & Hi & Ht & Hl & Hl9 & Ep).
  pose proof (x690_ident_len _ _ _ _ Hi) as Hil. pose proof (x690_length_len _ _ Hl) as Hll.
  assert (Htag : extract_tag (ztake k p) t0 = Ok (zlen id, t) \/ exists t', extract_tag (ztake k p) t0 = Ok (0, t')).
  { pose proof (extract_tag_x690 id c con t (len ++ x) t0 Hi Ht) as Hfull. rewrite <- Ep in Hfull.
    destruct (ztake k p) as [|b l]; [right; cbn; eauto|].
    rewrite <- Hsplit in Hfull. cbn in *. destruct (negb _); [auto|].
    eapply extract_tag_loop_prefix; eauto. }
  unfold v_assign. destruct Htag as [Htag | [t' Htag]]; rewrite Htag; cbn [bind].
  2:{ destruct (extract_length (ztake k p) 0 0). cbn. eexists; split; reflexivity. }
  destruct (extract_length (ztake k p) 0 (zlen id)) as [ll cl] eqn:El.
  destruct (Z.eqb_spec ll 0) as [E0|E0].
  { subst. rewrite orb_true_r. cbn [orb]. eexists; split; reflexivity. }
  assert (Hbt : bytes (ztake k p)) by (apply bytes_ztake; auto).
  destruct (extract_tag_inv _ t0 _ _ Hbt Htag ltac:(lia)) as (id' & r1 & c' & con' & E1 & Hi' & Hz' & _).
  rewrite E1 in *. assert (E2 : id' ++ (r1 ++ zdrop k p) = id ++ (len ++ x)).
  { rewrite app_assoc, Hsplit. exact Ep. }
  destruct (app_eq_len _ _ _ _ Hz' E2) as [-> E3].
  rewrite extract_length_drop in El by apply zlen_nonneg. rewrite zdrop_len_eq in El.
  apply bytes_app in Hbt; destruct Hbt as [_ Hbr].
  destruct (extract_length_inv r1 0 ll cl Hbr El E0) as (len' & r2 & -> & Hl' & <- & _).
  rewrite <- app_assoc in E3.
  destruct (x690_length_det _ _ _ _ _ _ Hl' Hl E3) as (-> & -> & _).
  subst p. rewrite !zlen_app in *. pose proof (zlen_nonneg x). pose proof (zlen_nonneg r2).
  rewrite (u64_small (zlen id + zlen len)) by lia. rewrite u64_small by lia.
  replace (_ || _ || _) with true by lia. eexists; split; reflexivity.
Qed.

(** Iteration *)
Lemma it_next_packet p c con t x rest :
  ber_packet p c con t x -> zlen (p ++ rest) < 2^63 ->
  it_next (Iter (p ++ rest) (pview p t x rest)) = let* v := v_assign t rest in Ok (Iter rest v).
Proof.
  intros HP Hz. unfold it_next; cbn [it_view it_buf].
  rewrite zlen_app in Hz. pose proof (zlen_nonneg p). pose proof (zlen_nonneg rest).
  rewrite (pview_ber_length p c con) by (auto; lia).
  rewrite zlen_app. replace (_ >? _) with false by lia. rewrite zdrop_len_eq. reflexivity.
Qed.

(** A decision procedure for [tame], to exhibit concrete tame inputs. *)
(** A sufficient condition that can be computed: no header at any position whatsoever. *)
Definition tame_all (input : list Z) : Prop :=
  zlen input < 2^63 /\ forall k, 0 <= k ->
    extract_tag (zdrop k input) 0 <> UB /\ snd (extract_length (zdrop k input) 0 0) < 2^63.
Lemma tame_all_zdrop input k : 0 <= k -> tame_all input -> tame_all (zdrop k input).
Proof.
  intros Hk [Hz H]. split; [rewrite zlen_zdrop_max; lia|].
  intros j Hj. rewrite zdrop_zdrop by lia. apply H. lia.
Qed.
Lemma extract_tag_loop_defined l1 : forall l2 i tag,
  extract_tag_loop (l1 ++ l2) i tag <> UB -> extract_tag_loop l1 i tag <> UB.
Proof.
  induction l1 as [|b l1 IH]; intros l2 i tag H; cbn in *; [discriminate|].
  destruct (negb _); [congruence|]. destruct (Z.land b 128 =? 0); [discriminate|].
  destruct (negb _); [congruence|]. eapply IH; eauto.
Qed.
Lemma tame_all_prefix l1 l2 : tame_all (l1 ++ l2) -> tame_all l1.
Proof.
  intros [Hz H]. rewrite zlen_app in Hz. pose proof (zlen_nonneg l2). split; [lia|].
  intros k Hk. destruct (H k Hk) as [H1 H2].
  destruct (Z.leb_spec (zlen l1) k) as [Hge|Hlt].
  { rewrite zdrop_all by lia. split; [discriminate | cbn; lia]. }
  rewrite zdrop_app_le in H1, H2 by lia.
  set (m := zdrop k l1) in *. destruct m as [|b0 m]; [split; [discriminate | cbn; lia]|].
  split.
  - cbn [app extract_tag] in *. destruct (negb _); [discriminate|]. eapply extract_tag_loop_defined; eauto.
  - unfold extract_length in *. rewrite zdrop_0 in *. cbn [app] in H2.
    destruct (Z.land b0 128 =? 0); [auto|].
    destruct (_ || _ || _) eqn:E1 in |- *; [cbn; lia|].
    destruct (_ || _ || _) eqn:E2 in H2.
    + exfalso. rewrite !zlen_cons, ?zlen_app in *. lia.
    + cbn [snd] in *. rewrite ztake_app_le in H2; auto. rewrite zlen_cons in E1. lia.
Qed.
Lemma tame_all_middle a b c : tame_all (a ++ b ++ c) -> tame_all b.
Proof.
  intros H. apply (tame_all_prefix b c). rewrite <- (zdrop_len_eq a (b ++ c)). apply tame_all_zdrop; auto. apply zlen_nonneg.
Qed.
Lemma packet_content_sub p c con t x : ber_packet p c con t x -> exists h, p = h ++ x /\ zlen h = zlen p - zlen x.
Proof.
  intros (id & len & _ & _ & _ & _ & ->). exists (id ++ len). rewrite <- app_assoc, !zlen_app. split; [auto|lia].
Qed.
Lemma tame_all_content p c con t x rest : ber_packet p c con t x -> tame_all (p ++ rest) -> tame_all x.
Proof.
  intros HP. destruct (packet_content_sub _ _ _ _ _ HP) as (h & -> & _). rewrite <- app_assoc. apply tame_all_middle.
Qed.
Lemma tame_all_within x y : tame_all x -> within x y -> tame_all y.
Proof.
  intros H. induction 1 as [|p c con t w rest _ IH HP|p c t w rest _ IH HP]; [exact H| |eapply tame_all_content; eauto].
  rewrite <- (zdrop_len_eq p rest). apply tame_all_zdrop; auto using zlen_nonneg.
Qed.
Lemma tame_all_tame x : tame_all x -> tame x.
Proof.
  intros H. split; [apply H|]. split.
  - intros y Hw. destruct (tame_all_within _ _ H Hw) as [_ Hy]. split; [destruct (Hy 0 ltac:(lia)) as [H0 _]; rewrite zdrop_0 in H0; exact H0|].
    intros n t E. pose proof (extract_tag_nonneg _ _ _ _ E) as Hn. rewrite (extract_length_drop y 0 n) by lia. apply Hy. exact Hn.
  - intros p c con t y rest Hw HP. destruct (tame_all_content _ _ _ _ _ _ HP (tame_all_within _ _ H Hw)) as [_ Hy].
    destruct (Hy 0 ltac:(lia)) as [H0 _]. rewrite zdrop_0 in H0. exact H0.
Qed.
Definition tame_check (input : list Z) : bool :=
  (zlen input <? 2^63) &&
  forallb (fun k => match extract_tag (skipn k input) 0 with UB => false | _ => true end
                    && (snd (extract_length (skipn k input) 0 0) <? 2^63)) (seq 0 (S (length input))).
Lemma tame_check_sound input : tame_check input = true -> tame input.
Proof.
  unfold tame_check. intros H. apply tame_all_tame. apply andb_prop in H; destruct H as [Hz H]. split; [lia|].
  intros k Hk. rewrite forallb_forall in H.
  assert (Hs : exists j, In j (seq 0 (S (length input))) /\ zdrop k input = skipn j input).
  { destruct (Z.leb_spec (zlen input) k).
    - exists (length input). split; [apply in_seq; lia|]. rewrite zdrop_all, skipn_all by lia. reflexivity.
    - exists (Z.to_nat k). split; [apply in_seq; unfold zlen in *; lia | reflexivity]. }
  destruct Hs as (j & Hj & ->). specialize (H j Hj). apply andb_prop in H; destruct H as [H1 H2].
  split; [|lia]. destruct (extract_tag (skipn j input) 0); congruence.
Qed.

(** ** Iterating over packets *)
Definition shows (v : view) (k : pkt) : Prop :=
  is_valid v = true /\ v_ber v = Ok (pk_ber k) /\ v_class v = Ok (pk_class k) /\
  v_construction v = Ok (pk_con k) /\ v_tag v = pk_tag k /\ v_content v = Ok (pk_content k).
Definition no_packet (tail : list Z) : Prop := forall t0, exists v, v_assign t0 tail = Ok v /\ is_valid v = false.
Lemma no_packet_nil : no_packet []. Proof. intros t0; eexists; split; reflexivity. Qed.

Lemma pview_shows k rest : pkt_ok k -> zlen (pk_ber k) < 2^63 ->
  shows (pview (pk_ber k) (pk_tag k) (pk_content k) rest) k.
Proof.
  intros HP Hz. unfold shows, pkt_ok in *.
  pose proof (pview_byte0 _ _ _ _ _ rest HP) as [H1 H2].
  repeat split; auto; [eapply pview_ber; eauto | eapply pview_content; eauto].
Qed.
Lemma it_loop_packets ks : forall tail t0 fuel,
  Forall pkt_ok ks -> zlen (concat (map pk_ber ks) ++ tail) < 2^63 -> no_packet tail -> (length ks < fuel)%nat ->
  exists v vs, v_assign t0 (concat (map pk_ber ks) ++ tail) = Ok v /\
    it_loop fuel (Iter (concat (map pk_ber ks) ++ tail) v) = Ok (vs, tail) /\ Forall2 shows vs ks.
Proof.
  induction ks as [|k ks IH]; intros tail t0 fuel Hk Hz Ht Hf; cbn [map concat app] in *.
  - destruct (Ht t0) as (v & E & Hv). exists v, []. split; [exact E|].
    destruct fuel as [|fuel]; [lia|]. cbn [it_loop]. unfold it_at_end; cbn [it_view it_buf]. rewrite Hv. cbn. auto.
  - rewrite <- app_assoc in *. inversion Hk as [|? ? HP Hks]; subst.
    destruct fuel as [|fuel]; [cbn in Hf; lia|]. set (rest := concat (map pk_ber ks) ++ tail) in *.
    assert (Hzp := Hz). rewrite zlen_app in Hzp. pose proof (zlen_nonneg rest). pose proof (zlen_nonneg (pk_ber k)).
    destruct (IH tail (pk_tag k) fuel Hks ltac:(fold rest; lia) Ht ltac:(cbn in Hf; lia)) as (v' & vs & E' & El & HF).
    fold rest in E', El.
    exists (pview (pk_ber k) (pk_tag k) (pk_content k) rest), (pview (pk_ber k) (pk_tag k) (pk_content k) rest :: vs).
    split; [apply (v_assign_packet _ _ _ _ _ rest t0 HP); auto|].
    cbn [it_loop]. unfold it_at_end; cbn [it_view]. rewrite pview_valid. cbn [negb].
    rewrite (it_next_packet _ _ _ _ _ rest HP Hz). rewrite E'. cbn [bind]. rewrite El. cbn [bind].
    split; [reflexivity|]. constructor; auto. apply pview_shows; auto; lia.
Qed.

(** Any tame input is a sequence of packets followed by something that is not a packet. *)
Lemma partition_packets n : forall input, (length input <= n)%nat -> bytes input -> tame input ->
  exists ks tail, input = concat (map pk_ber ks) ++ tail /\ Forall pkt_ok ks /\ no_packet tail /\
                  (2 * length ks <= length input)%nat.
Proof.
  induction n as [|n IH]; intros input Hn Hb Ht.
  - exists [], input. destruct input; [|cbn in Hn; lia]. repeat split; auto using no_packet_nil.
  - destruct (tame_v_assign input 0 Ht) as (v & Ev & Hcl).
    destruct (is_valid v) eqn:Hv.
    + destruct (v_assign_inv 0 input v Hb (proj1 Ht) Ev Hv Hcl) as (p & c & con & t & x & rest & -> & HP & _).
      pose proof (ber_packet_len _ _ _ _ _ HP) as Hlen. pose proof (zlen_nonneg x).
      assert (Hl2 : (2 <= length p)%nat) by (unfold zlen in *; lia).
      rewrite app_length in Hn.
      destruct (IH rest) as (ks & tail & E & Hks & Htl & Hlk); [lia | apply bytes_app in Hb; tauto | |].
      { eapply tame_next; eauto. }
      exists (Pkt p c con t x :: ks), tail. cbn [map concat pk_ber]. rewrite <- app_assoc, E.
      repeat split; auto. rewrite <- E, app_length. cbn [length]. lia.
    + exists [], input. cbn. repeat split; auto; [|lia].
      intros t0. destruct (tame_v_assign input t0 Ht) as (v' & Ev' & Hcl'). exists v'. split; auto.
      destruct (is_valid v') eqn:Hv'; auto. exfalso.
      destruct (v_assign_inv t0 input v' Hb (proj1 Ht) Ev' Hv' Hcl') as (p & c & con & t & x & rest & -> & HP & _).
      rewrite (v_assign_packet _ _ _ _ _ rest 0 HP) in Ev by (apply Ht). inversion Ev; subst. discriminate.
Qed.
Lemma no_packet_spec tail : no_packet tail -> zlen tail < 2^63 ->
  forall p c con t x rest, ber_packet p c con t x -> tail <> p ++ rest.
Proof.
  intros H Hz p c con t x rest HP ->. destruct (H 0) as (v & E & Hv).
  rewrite (v_assign_packet _ _ _ _ _ rest 0 HP Hz) in E. inversion E; subst; discriminate.
Qed.
