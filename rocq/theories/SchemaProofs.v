(** Proofs about the composite types: encoding. *)
From Verif Require Import Base Ident Spec IdentProofs HeaderProofs View ViewProofs Prims PrimProofs ContProofs Schema SchemaSpec.
Ltac Zify.zify_post_hook ::= Z.div_mod_to_equations.

(** ** Induction over schemas *)
Fixpoint each (P : ty -> Prop) (cs : comps) : Prop :=
  match cs with CNil => True | CCons _ _ t cs => P t /\ each P cs end.
Lemma schema_ind (P : ty -> Prop) :
  (forall k i, P (TLeaf k i)) ->
  (forall i t, P t -> P (TSeqOf i t)) ->
  (forall i cs, each P cs -> P (TSeq i cs)) ->
  (forall i ext cs, each P cs -> P (TSet i ext cs)) ->
  (forall g o cs, each P cs -> P (TChoice g o cs)) -> forall t, P t.
Proof.
  intros H1 H2 H3 H4 H5. apply (ty_comps_ind P (each P)); cbn [each]; auto.
Qed.
Lemma each_impl (P Q : ty -> Prop) cs : (forall t, P t -> Q t) -> each P cs -> each Q cs.
Proof. intros H. induction cs; cbn [each]; intuition. Qed.

Lemma sumz_nonneg l : Forall (fun x => 0 <= x) l -> 0 <= sumz l.
Proof. induction 1; cbn; unfold sumz in *; cbn; lia. Qed.
Lemma weight_pos : forall s, 64 <= weight s.
Proof.
  fix IH 1. destruct s as [l|l|l|n s]; cbn [weight].
  - destruct l as [d|f|]; cbn [leaf_weight]; [pose proof (zlen_nonneg d) | pose proof (zlen_nonneg (f_data f)) |]; lia.
  - assert (0 <= sumz (map weight l)); [|lia]. induction l as [|s l IHl]; cbn; [lia|]. specialize (IH s). unfold sumz in *. lia.
  - assert (0 <= sumz (map (fun m => match m with Some s => weight s | None => 0 end) l)); [|lia].
    induction l as [|m l IHl]; cbn; [lia|]. unfold sumz in *. destruct m as [s|]; [specialize (IH s)|]; lia.
  - specialize (IH s). lia.
Qed.

(** ** encode *)
Lemma writes_strict enc p : writes enc p -> writes_exactly enc p.
Proof. intros H buf _. exists buf. split; [reflexivity|apply H]. Qed.
Lemma writes_exactly_ext e1 e2 p : (forall b, e1 b = e2 b) -> writes_exactly e1 p -> writes_exactly e2 p.
Proof. intros H H1 buf Hb. destruct (H1 buf Hb) as (out & E1 & E2). exists out. rewrite <- H. auto. Qed.
Lemma writes_nil : writes_exactly (fun buffer => Ok (EncResult buffer true 0)) [].
Proof.
  intros buf _. exists buf. split; [reflexivity|]. pose proof (zlen_nonneg buf). change (zlen (@nil Z)) with 0.
  replace (_ <=? _) with true by lia. reflexivity.
Qed.
Lemma writes_seq e1 e2 p1 p2 : writes_exactly e1 p1 -> writes_exactly e2 p2 ->
  writes_exactly (fun buf => enc_seq (e1 buf) e2) (p1 ++ p2).
Proof.
  intros H1 H2 buf Hb. destruct (H1 buf Hb) as (o1 & El1 & E1). unfold enc_seq. rewrite E1. cbn [bind].
  pose proof (zlen_nonneg p1). pose proof (zlen_nonneg p2).
  destruct (Z.leb_spec (zlen p1) (zlen buf)) as [Hl|Hl]; cbn [er_ok negb er_len er_buf].
  - assert (Hlen : zlen (p1 ++ zdrop (zlen p1) buf) = zlen buf) by (rewrite zlen_app, zlen_zdrop; lia).
    rewrite Hlen. replace (zlen p1 >? zlen buf) with false by lia. rewrite zdrop_len_eq, ztake_len_eq.
    destruct (H2 (zdrop (zlen p1) buf)) as (o2 & El2 & E2); [rewrite zlen_zdrop; lia|].
    rewrite E2. cbn [bind]. rewrite zlen_zdrop in * by lia. rewrite zlen_app.
    destruct (Z.leb_spec (zlen p2) (zlen buf - zlen p1)); cbn [er_ok er_buf er_len].
    + exists buf. split; [reflexivity|]. replace (_ <=? _) with true by lia. rewrite u64_small by lia.
      rewrite zdrop_zdrop by lia. rewrite app_assoc. reflexivity.
    + exists (p1 ++ o2). rewrite zlen_app. split; [lia|]. replace (_ <=? _) with false by lia. reflexivity.
  - exists o1. split; [auto|]. rewrite zlen_app. replace (_ <=? _) with false by lia. reflexivity.
Qed.
Lemma writes_wrap i enc x : wf_ident i -> zlen x < 2^62 -> writes_exactly enc x ->
  writes_exactly (enc_wrap i enc) (hdr_of i (zlen x) constructed ++ x).
Proof.
  intros Hi Hx He buf Hb. pose proof (zlen_nonneg x). unfold enc_wrap. cbv zeta.
  rewrite encoded_length_nowrap by (auto; lia). rewrite Z.add_0_r.
  pose proof (ehl_range i 0 Hi) as Hr0. pose proof (ehl_range i (zlen x) Hi) as Hr.
  assert (Hmono : encoded_header_length 0 i <= encoded_header_length (zlen x) i).
  { destruct i as [c t|oc ot ic it]; cbn [wf_ident encoded_header_length] in *.
    - unfold encoded_header_length1. pose proof (ell_range (zlen x)). replace (encoded_length_length 0) with 1 by reflexivity. lia.
    - rewrite !encoded_length1_nowrap by lia. unfold encoded_header_length1, encoded_identifier_length.
      change (encoded_length_length 0) with 1. pose proof (ell_range (zlen x)).
      pose proof (etl_range it ltac:(lia)).
      replace (encoded_length_length (encoded_tag_length it + 1 + 0)) with 1 by (unfold encoded_length_length; replace (_ <? 128) with true by lia; reflexivity).
      pose proof (ell_range (encoded_tag_length it + encoded_length_length (zlen x) + zlen x)). lia. }
  set (g := encoded_header_length 0 i) in *.
  rewrite zlen_app, hdr_of_len by (auto; lia).
  destruct (Z.ltb_spec (zlen buf) g) as [Hl|Hl].
  { exists buf. split; [auto|]. replace (_ <=? _) with false by lia. reflexivity. }
  destruct (He (zdrop g buf)) as (o & Eo & E); [rewrite zlen_zdrop; lia|]. rewrite E. cbn [bind].
  rewrite zlen_zdrop in * by lia.
  assert (Hg : zlen (ztake g buf) = g) by (apply zlen_ztake; lia).
  destruct (Z.leb_spec (zlen x) (zlen buf - g)) as [Hl2|Hl2]; cbn [er_ok er_buf er_len negb].
  - rewrite zdrop_zdrop by lia. set (B := ztake g buf ++ x ++ zdrop (g + zlen x) buf).
    assert (HB : zlen B = zlen buf) by (unfold B; rewrite !zlen_app, zlen_zdrop by lia; lia).
    destruct (Z.leb_spec (encoded_header_length (zlen x) i + zlen x) (zlen buf)).
    + exists buf. split; [reflexivity|]. rewrite wrap_ok by (auto; lia). do 2 f_equal.
      rewrite <- app_assoc. f_equal. replace (zdrop g B) with (x ++ zdrop (g + zlen x) buf).
      2:{ unfold B. symmetry. apply zdrop_app_exact. lia. }
      rewrite ztake_len_eq. f_equal. unfold B.
      rewrite app_assoc, zdrop_app_ge by (rewrite zlen_app; lia). rewrite zdrop_zdrop by (rewrite ?zlen_app; lia).
      f_equal. rewrite zlen_app. lia.
    + exists B. split; [exact HB|]. apply wrap_fail; auto; lia.
  - exists (ztake g buf ++ o). rewrite zlen_app. split; [lia|]. replace (_ <=? _) with false by lia. reflexivity.
Qed.

Definition wcomps (l : list (option st)) : Z := sumz (map (fun m => match m with Some s => weight s | None => 0 end) l).
Lemma wcomps_nonneg l : 0 <= wcomps l.
Proof.
  unfold wcomps. induction l as [|[s|] l IH]; cbn; unfold sumz in *; try lia. pose proof (weight_pos s). lia.
Qed.
Lemma wlist_nonneg l : 0 <= sumz (map weight l).
Proof. induction l as [|s l IH]; cbn; unfold sumz in *; try lia. pose proof (weight_pos s). lia. Qed.

Definition encodes (t : ty) (s : st) (p : list Z) : Prop :=
  zlen p <= weight s /\ encoded_length_of t s = Ok (zlen p) /\ writes_exactly (encode t s) p /\
  (forall v, rep t s v -> ber_of t v p).
Definition enc_good (t : ty) : Prop :=
  wf_ty t -> forall s, obj t s -> weight s < 2^62 -> exists p, encodes t s p.

Lemma encode_leaf k i : enc_good (TLeaf k i).
Proof.
  intros [Hi Hk] s Ho Hw. destruct s as [l| | |]; cbn [obj] in Ho; try tauto. cbn [weight] in Hw.
  unfold encodes. cbn [encoded_length_of rep ber_of weight].
  destruct k as [| |max x0|x0|]; destruct l as [d|f|]; cbn [leaf_inv] in Ho; try tauto;
    cbn [leaf_encoded_length leaf_weight] in *.
  - destruct Ho as (b & Hd). unfold bool_rep in Hd. exists d. split; [lia|].
    assert (Hz : zlen d = encoded_header_length 1 i + 1) by (rewrite Hd, zlen_app, hdr_of_len, zlen_1 by (auto; lia); reflexivity).
    split; [|split].
    + unfold bool_encoded_length. rewrite encoded_length_nowrap by (auto; lia). rewrite Hz. reflexivity.
    + apply writes_strict. exact (copy_out_writes d).
    + intros [x| | |]; cbn; try tauto. intros [Hc Hr]. split; [exact Hc|]. destruct Hc as [Hb Hl].
      destruct (zlen_1_inv _ Hl) as (b' & ->). cbn [hd] in Hr. rewrite Hr.
      apply (hdr_of_packet i primitive [b']); [auto|rewrite zlen_1; lia].
  - exists (hdr_of i 0 primitive). assert (Hz := hdr_of_len i 0 primitive Hi ltac:(lia)). pose proof (ehl_range i 0 Hi).
    split; [lia|]. split; [|split].
    + unfold null_encoded_length. rewrite encoded_length_nowrap by (auto; lia). rewrite Hz. f_equal. lia.
    + apply writes_strict. intros buf. cbn [encode leaf_encode]. unfold null_encode. rewrite null_data_eq by auto.
      apply copy_out_writes.
    + intros [x| | |]; cbn; try tauto. intros [Hc _]. split; [exact Hc|]. destruct Hc as [_ ->].
      pose proof (hdr_of_packet i primitive [] Hi ltac:(rewrite zlen_nil; lia)) as Hp. rewrite app_nil_r in Hp. exact Hp.
  - destruct Hk as (Hok & Hx0). destruct Ho as (x & Hr). exists (hdr_of i (zlen x) primitive ++ x).
    split; [|split; [|split]].
    + destruct Hr as (junk & -> & Hl). pose proof (zlen_nonneg junk). rewrite !zlen_app. lia.
    + apply (small_ber_length_rep _ _ _ _ Hok Hr).
    + apply writes_strict. apply (small_encode_writes _ _ _ _ Hok Hr).
    + intros [y| | |]; cbn; try tauto. intros [Hc Hy]. split; [exact Hc|].
      assert (y = x) as ->.
      { pose proof (small_content_rep _ _ _ _ Hok Hr). pose proof (small_content_rep _ _ _ _ Hok Hy). congruence. }
      apply hdr_of_packet; [auto|]. destruct (small_rep_len _ _ _ _ Hok Hr). pose proof (small_fits_127 i max Hi (proj2 (proj2 Hok))). lia.
  - exists (f_data f). split; [lia|]. split; [reflexivity|]. split; [apply writes_strict; exact (copy_out_writes _)|].
    intros [x| | |]; cbn; try tauto. intros [Hc [Hr _]]. split; [exact Hc|exact Hr].
  - exists (f_data f). split; [lia|]. split; [reflexivity|]. split; [apply writes_strict; exact (copy_out_writes _)|].
    intros [x| | |]; cbn; try tauto. intros [Hc [Hr _]]. split; [exact Hc|exact Hr].
Qed.

(** wrapping *)
Lemma wrap_facts i x w : wf_ident i -> zlen x <= w -> 64 + w < 2^62 ->
  let p := hdr_of i (zlen x) constructed ++ x in
  zlen p <= 64 + w /\ encoded_length (zlen x) i = zlen p /\ id_packet i constructed p x [].
Proof.
  intros Hi Hx Hw p. pose proof (zlen_nonneg x). pose proof (ehl_range i (zlen x) Hi).
  assert (Hp : zlen p = encoded_header_length (zlen x) i + zlen x) by (unfold p; rewrite zlen_app, hdr_of_len by (auto; lia); lia).
  split; [lia|]. split; [rewrite encoded_length_nowrap by (auto; lia); lia|]. apply hdr_of_packet; auto; lia.
Qed.
Lemma encode_list t l : enc_good t -> wf_ty t -> Forall (obj t) l -> sumz (map weight l) < 2^62 ->
  exists ps, zlen (concat ps) <= sumz (map weight l) /\ len_list (encoded_length_of t) l = Ok (zlen (concat ps)) /\
    writes_exactly (enc_list (encode t) l) (concat ps) /\ (forall vs, Forall2 (rep t) l vs -> Forall2 (ber_of t) vs ps).
Proof.
  intros Ht Hwf. induction 1 as [|s l Hs Hl IH]; intros Hw.
  - exists []. cbn. split; [lia|]. split; [reflexivity|]. split; [apply writes_nil|]. intros vs Hv. inversion Hv. constructor.
  - cbn [map] in *. unfold sumz in Hw; cbn [fold_right] in Hw; fold (sumz (map weight l)) in Hw.
    pose proof (wlist_nonneg l). pose proof (weight_pos s).
    destruct (Ht Hwf s Hs ltac:(lia)) as (p & H1 & H2 & H3 & H4).
    destruct (IH ltac:(lia)) as (ps & I1 & I2 & I3 & I4).
    exists (p :: ps). cbn [concat len_list enc_list]. rewrite zlen_app. unfold sumz; cbn [fold_right]; fold (sumz (map weight l)).
    pose proof (zlen_nonneg p). pose proof (zlen_nonneg (concat ps)).
    split; [lia|]. split; [rewrite H2, I2; cbn [bind]; rewrite u64_small by lia; reflexivity|].
    split; [apply (writes_seq (encode t s) _ _ _ H3 I3)|].
    intros vs Hv. inversion Hv as [|? v ? vs' Hv1 Hv2]; subst. constructor; auto.
Qed.
Lemma encode_comps_good cs : each enc_good cs -> wf_comps cs -> forall l, obj_comps cs l -> wcomps l < 2^62 ->
  exists ps, zlen (concat ps) <= wcomps l /\ length_comps cs l = Ok (zlen (concat ps)) /\
    writes_exactly (encode_comps cs l) (concat ps) /\ (forall vs, rep_comps cs l vs -> ber_parts cs vs ps).
Proof.
  induction cs as [|k ids t cs IH]; intros He Hwf l Ho Hw; destruct l as [|m l]; cbn [obj_comps] in Ho; try tauto.
  - exists []. cbn. split; [lia|]. split; [reflexivity|]. split; [apply writes_nil|]. intros [|]; tauto.
  - destruct Ho as [Hm Hl], He as [Ht He], Hwf as [Hwt Hwf]. pose proof (wcomps_nonneg l).
    unfold wcomps, sumz in Hw; cbn [map fold_right] in Hw. change (fold_right _ _ _) with (wcomps l) in Hw.
    destruct m as [s|].
    + pose proof (weight_pos s). destruct (Ht Hwt s Hm ltac:(lia)) as (p & H1 & H2 & H3 & H4).
      destruct (IH He Hwf l Hl ltac:(lia)) as (ps & I1 & I2 & I3 & I4).
      exists (p :: ps). cbn [concat length_comps encode_comps]. rewrite zlen_app.
      unfold wcomps, sumz; cbn [map fold_right]; change (fold_right _ _ _) with (wcomps l).
      pose proof (zlen_nonneg p). pose proof (zlen_nonneg (concat ps)).
      split; [lia|].
      split; [destruct k; rewrite H2, I2; cbn [bind]; rewrite u64_small by lia; reflexivity|].
      split; [destruct k; apply (writes_seq (encode t s) _ _ _ H3 I3)|].
      intros [|v vs] Hv; [destruct Hv|]. destruct Hv as [Hv1 Hv2]. destruct v as [v|]; [|tauto]. cbn [ber_parts]. exists p, ps. auto.
    + destruct (IH He Hwf l Hl ltac:(lia)) as (ps & I1 & I2 & I3 & I4).
      exists ps. cbn [length_comps encode_comps].
      unfold wcomps, sumz; cbn [map fold_right]; change (fold_right _ _ _) with (wcomps l).
      pose proof (zlen_nonneg (concat ps)).
      split; [lia|].
      split; [destruct k; try tauto; rewrite I2; cbn [bind]; rewrite u64_small by lia; f_equal; lia|].
      split; [destruct k; try tauto; apply (writes_seq _ _ [] _ writes_nil I3)|].
      intros [|v vs] Hv; [destruct Hv|]. destruct Hv as [Hv1 Hv2]. destruct v as [v|]; [tauto|]. cbn [ber_parts]. auto.
Qed.
Lemma encode_alt_good cs : each enc_good cs -> wf_comps cs -> forall n s, obj_alt cs n s -> weight s < 2^62 ->
  exists p, zlen p <= weight s /\ length_alt cs n s = Ok (zlen p) /\ writes_exactly (encode_alt cs n s) p /\
    (forall v, rep_alt cs n s v -> ber_alt cs n v p).
Proof.
  induction cs as [|k ids t cs IH]; intros He Hwf n s Ho Hw; destruct n as [|n]; cbn [obj_alt] in Ho; try tauto;
    destruct He as [Ht He], Hwf as [Hwt Hwf]; cbn [length_alt rep_alt ber_alt].
  - destruct (Ht Hwt s Ho Hw) as (p & H). exists p. exact H.
  - apply IH; auto.
Qed.
Lemma encode_good t : enc_good t.
Proof.
  induction t as [k i|i t IH|i cs IH|i ext cs IH|g o cs IH] using schema_ind.
  - apply encode_leaf.
  - intros [Hi Hwf] s Ho Hw. destruct s as [|l| |]; cbn [obj] in Ho; try tauto. cbn [weight] in Hw.
    pose proof (wlist_nonneg l). destruct (encode_list t l IH Hwf Ho ltac:(lia)) as (ps & H1 & H2 & H3 & H4).
    destruct (wrap_facts i (concat ps) _ Hi H1 Hw) as (W1 & W2 & W3).
    eexists. split; [exact W1|]. cbn [encoded_length_of rep ber_of]. rewrite H2. cbn [bind]. rewrite W2.
    split; [reflexivity|]. split; [apply writes_wrap; auto; lia|].
    intros [|vs| |]; try tauto. intros Hv. exists ps. auto.
  - intros [Hi Hwf] s Ho Hw. destruct s as [| |l|]; cbn [obj] in Ho; try tauto. cbn [weight] in Hw.
    change (64 + wcomps l < 2^62) in Hw.
    pose proof (wcomps_nonneg l). destruct (encode_comps_good cs IH Hwf l Ho ltac:(lia)) as (ps & H1 & H2 & H3 & H4).
    destruct (wrap_facts i (concat ps) _ Hi H1 Hw) as (W1 & W2 & W3).
    eexists. split; [exact W1|]. cbn [encoded_length_of rep ber_of]. rewrite H2. cbn [bind]. rewrite W2.
    split; [reflexivity|]. split; [apply writes_wrap; auto; lia|].
    intros [| |vs|]; try tauto. intros Hv. exists ps. auto.
  - intros [Hi Hwf] s Ho Hw. destruct s as [| |l|]; cbn [obj] in Ho; try tauto. cbn [weight] in Hw.
    change (64 + wcomps l < 2^62) in Hw.
    pose proof (wcomps_nonneg l). destruct (encode_comps_good cs IH Hwf l Ho ltac:(lia)) as (ps & H1 & H2 & H3 & H4).
    destruct (wrap_facts i (concat ps) _ Hi H1 Hw) as (W1 & W2 & W3).
    eexists. split; [exact W1|]. cbn [encoded_length_of rep ber_of]. rewrite H2. cbn [bind]. rewrite W2.
    split; [reflexivity|]. split; [apply writes_wrap; auto; lia|].
    intros [| |vs|]; try tauto. intros Hv. exists ps, ps. auto.
  - intros [Hi [_ Hwf]] s Ho Hw. destruct s as [| | |n s]; cbn [obj] in Ho; try tauto. cbn [weight] in Hw.
    pose proof (weight_pos s). destruct (encode_alt_good cs IH Hwf n s Ho ltac:(lia)) as (p & H1 & H2 & H3 & H4).
    destruct o as [i|].
    + destruct (wrap_facts i p _ Hi H1 Hw) as (W1 & W2 & W3).
      eexists. split; [exact W1|]. cbn [encoded_length_of rep ber_of]. rewrite H2. cbn [bind]. rewrite W2.
      split; [reflexivity|]. split; [apply writes_wrap; auto; lia|].
      intros [| | |m v]; try tauto. intros [<- Hv]. exists p. auto.
    + exists p. split; [cbn [weight]; lia|]. cbn [encoded_length_of rep ber_of]. rewrite H2. cbn [bind].
      split; [reflexivity|]. split; [exact H3|]. intros [| | |m v]; try tauto. intros [<- Hv]. auto.
Qed.

(** ** Objects *)
Lemma leaf_init_rep k i : wf_ty (TLeaf k i) ->
  leaf_rep k i (leaf_init k i) (match k with KBool => [0] | KNull => [] | KSmall _ x0 | KFixed x0 => x0 | KTime => epoch_text end).
Proof.
  intros [Hi Hk]. unfold leaf_rep, content_ok. destruct k as [| |max x0|x0|]; cbn [leaf_init].
  - split; [split; [bytes_lit|reflexivity]|]. apply bool_init_rep; auto.
  - split; [split; [constructor|reflexivity]|exact I].
  - destruct Hk as (Hok & H1 & H2). split; [auto|].
    destruct (small_assign_rep i max _ _ x0 Hok (small_init_rep i max Hok) H1) as (d & E & Hd). rewrite E. exact Hd.
  - destruct Hk as [H1 H2]. split; [auto|]. destruct (fixed_assign_rep i (fixed_init i) x0 Hi H1) as (f & E & Hf).
    rewrite E. exact Hf.
  - split; [split; [bytes_lit|cbn; lia]|].
    destruct (fixed_assign_rep i (fixed_init i) epoch_text Hi ltac:(cbn; lia)) as (f & E & Hf). rewrite E. exact Hf.
Qed.
Lemma leaf_rep_inv k i l x : leaf_rep k i l x -> leaf_inv k i l.
Proof. intros [_ H]. destruct k, l; cbn in *; eauto. Qed.
Lemma rep_obj t : forall s v, rep t s v -> obj t s.
Proof.
  apply (ty_comps_ind (fun t => forall s v, rep t s v -> obj t s)
    (fun cs => (forall l vs, rep_comps cs l vs -> obj_comps cs l) /\ (forall n s v, rep_alt cs n s v -> obj_alt cs n s))).
  - intros k i [l| | |] [x| | |]; cbn; try tauto. apply leaf_rep_inv.
  - intros i t' IH [|l| |] [|vs| |]; cbn; try tauto. induction 1; constructor; eauto.
  - intros i cs [IH _] [| |l|] [| |vs|]; cbn; try tauto. apply IH.
  - intros i ext cs [IH _] [| |l|] [| |vs|]; cbn; try tauto. apply IH.
  - intros g o cs [_ IH] [| | |n s] [| | |m v]; cbn; try tauto. intros [_ H]. eauto.
  - split; [intros [|] [|]|]; cbn; tauto.
  - intros k ids t' IHt cs [IH1 IH2]. split.
    + intros [|m l] [|v vs]; cbn; try tauto. intros [H1 H2]. split; [|eauto]. destruct m, v; try tauto. eauto.
    + intros [|n] s v; cbn; eauto.
Qed.
Lemma init_obj t : wf_ty t -> obj t (init t).
Proof.
  apply (ty_comps_ind (fun t => wf_ty t -> obj t (init t))
    (fun cs => wf_comps cs -> obj_comps cs (init_comps cs) /\
       match cs with CNil => True | CCons _ _ t _ => obj t (init t) end)).
  - intros k i H. eapply leaf_rep_inv. apply leaf_init_rep. exact H.
  - intros. constructor.
  - intros i cs IH [_ H]. apply IH. exact H.
  - intros i e cs IH [_ H]. apply IH. exact H.
  - intros g o cs IH (_ & Hn & H). destruct cs; [congruence|]. apply IH. exact H.
  - cbn. tauto.
  - intros k ids t' IHt cs IH [H1 H2]. destruct (IH H2) as [H3 _]. split; [|auto].
    destruct k; cbn; (split; [auto; discriminate|auto]).
Qed.
