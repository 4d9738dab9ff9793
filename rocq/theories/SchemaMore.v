(** Proofs: every decode leaves an object behind; SEQUENCE with trailing members; SEQUENCE OF; CHOICE selection. *)
From Verif Require Import Base Ident Spec IdentProofs HeaderProofs View ViewProofs Prims PrimProofs ContProofs Schema SchemaSpec SchemaProofs SchemaDecode SchemaRound SchemaSet.
Ltac Zify.zify_post_hook ::= Z.div_mod_to_equations.

(** ** Decoding leaves an object behind, whatever its result *)
Definition dec_obj (t : ty) : Prop :=
  wf_ty t -> forall s v ok s', obj t s -> good_view v -> decode t s v = Ok (ok, s') -> obj t s'.
Lemma member_obj k t m v ok m' : dec_obj t -> wf_ty t -> match m with Some s => obj t s | None => k <> Mand end ->
  good_view v -> member_decode k (type_ids t) (init t) (decode t) m v = Ok (ok, m') ->
  match m' with Some s => obj t s | None => k <> Mand end.
Proof.
  intros Ht Hwf Hm Hg E.
  assert (Hopt : k <> Mand -> (if is_valid v then
        let* c := v_class v in
        if has_id (type_ids t) c (v_tag v) then let* (ok, s) := decode t (init t) v in Ok (ok, Some s) else Ok (false, m)
      else Ok (true, None)) = Ok (ok, m') -> match m' with Some s => obj t s | None => k <> Mand end).
  { intros Hk E2. destruct (is_valid v); [|injection E2 as <- <-; exact Hk].
    destruct (v_class v) as [c| |]; cbn [bind] in E2; try discriminate.
    destruct (has_id _ _ _); [|injection E2 as <- <-; exact Hm].
    destruct (decode t (init t) v) as [[ok2 s2]| |] eqn:E3; cbn [bind] in E2; try discriminate. injection E2 as <- <-.
    eapply Ht; eauto using init_obj. }
  destruct k; cbn [member_decode] in E; [|apply Hopt; [discriminate|exact E]|apply Hopt; [discriminate|exact E]].
  destruct m as [s|]; [|discriminate].
  destruct (decode t s v) as [[ok2 s2]| |] eqn:E3; cbn [bind] in E; try discriminate. injection E as <- <-. eapply Ht; eauto.
Qed.
Lemma decode_seq_obj cs : each dec_obj cs -> wf_comps cs ->
  forall ms it ok ms', obj_comps cs ms -> good_iter it -> decode_seq cs ms it = Ok (ok, ms') -> obj_comps cs ms'.
Proof.
  induction cs as [|k ids t cs IH]; intros He Hwf ms it ok ms' Ho Hg E; destruct ms as [|m ms]; cbn [obj_comps] in Ho; try tauto.
  - cbn [decode_seq] in E. injection E as <- <-. exact I.
  - destruct He as [Ht He], Hwf as [Hwt Hwf], Ho as [Hm Ho]. cbn [decode_seq] in E.
    pose proof (good_iter_view _ Hg) as Hgv.
    destruct (match k with
                   | Mand => Ok true
                   | _ => if is_valid (it_view it) then let* c := v_class (it_view it) in Ok (has_id ids c (v_tag (it_view it))) else Ok false
                   end) as [here| |] eqn:Eh; cbn [bind] in E; try discriminate.
    destruct here.
    + destruct (member_decode k (type_ids t) (init t) (decode t) m (it_view it)) as [[ok1 m1]| |] eqn:Em; cbn [bind] in E; try discriminate.
      pose proof (member_obj _ _ _ _ _ _ Ht Hwt Hm Hgv Em) as Hm1.
      destruct ok1; cbn [negb] in E; [|injection E as <- <-; split; auto].
      destruct (good_iter_next_any it Hg) as (it' & E3 & Hg'). rewrite E3 in E. cbn [bind] in E.
      destruct (decode_seq cs ms it') as [[ok2 ms2]| |] eqn:E4; cbn [bind] in E; try discriminate. injection E as <- <-.
      split; [exact Hm1|eapply IH; eauto].
    + destruct (decode_seq cs ms it) as [[ok2 ms2]| |] eqn:E4; cbn [bind] in E; try discriminate. injection E as <- <-.
      split; [destruct k; [discriminate|discriminate|discriminate]|eapply IH; eauto].
Qed.
Lemma decode_member_obj cs : each dec_obj cs -> wf_comps cs ->
  forall ms counts c tag v r, obj_comps cs ms -> good_view v -> decode_member cs ms counts c tag v = Ok r ->
    match r with None => True | Some (_, (ms', _)) => obj_comps cs ms' end.
Proof.
  induction cs as [|k ids t cs IH]; intros He Hwf ms counts c tag v r Ho Hv E; cbn [decode_member] in E.
  - injection E as <-. exact I.
  - destruct ms as [|m ms]; cbn [obj_comps] in Ho; try tauto. destruct counts as [|n counts]; [discriminate|].
    destruct He as [Ht He], Hwf as [Hwt Hwf], Ho as [Hm Ho].
    destruct (has_id ids c tag).
    + destruct (member_decode k (type_ids t) (init t) (decode t) m v) as [[ok1 m1]| |] eqn:Em; cbn [bind] in E; try discriminate.
      injection E as <-. split; [eapply member_obj; eauto|auto].
    + destruct (decode_member cs ms counts c tag v) as [r2| |] eqn:E2; cbn [bind] in E; try discriminate. injection E as <-.
      specialize (IH He Hwf ms counts c tag v r2 Ho Hv E2). destruct r2 as [[ok2 [ms2 counts2]]|]; [|exact I]. split; auto.
Qed.
Lemma set_loop_obj cs ext : each dec_obj cs -> wf_comps cs ->
  forall fuel it ms counts ok ms' counts', obj_comps cs ms -> good_iter it ->
  set_loop (decode_member cs) ext fuel it ms counts = Ok (ok, (ms', counts')) -> obj_comps cs ms'.
Proof.
  intros He Hwf. induction fuel as [|fuel IH]; intros it ms counts ok ms' counts' Ho Hg E; [discriminate|]. cbn [set_loop] in E.
  unfold it_at_end in E. destruct (is_valid (it_view it)) eqn:Hv in E; cbn [negb] in E; [|injection E as <- <- <-; exact Ho].
  destruct (v_class (it_view it)) as [c| |]; cbn [bind] in E; try discriminate.
  destruct (decode_member cs ms counts c (v_tag (it_view it)) (it_view it)) as [r| |] eqn:E2; cbn [bind] in E; try discriminate.
  pose proof (decode_member_obj cs He Hwf _ _ _ _ _ _ Ho (good_iter_view _ Hg) E2) as Hr.
  destruct (good_iter_next_any it Hg) as (it' & E3 & Hg'). rewrite E3 in E. cbn [bind] in E.
  destruct r as [[[|] [ms1 counts1]]|].
  - eapply IH; eauto.
  - injection E as <- <- <-. exact Hr.
  - destruct ext; [eapply IH; eauto|]. destruct (v_identifier (it_view it)); cbn [bind] in E; try discriminate. injection E as <- <- <-. exact Ho.
Qed.
Lemma seqof_loop_obj t : dec_obj t -> wf_ty t -> forall fuel it ok l, good_iter it ->
  seqof_loop (decode t (init t)) fuel it = Ok (ok, l) -> Forall (obj t) l.
Proof.
  intros Ht Hwf. induction fuel as [|fuel IH]; intros it ok l Hg E; [discriminate|]. cbn [seqof_loop] in E. unfold it_at_end in E.
  destruct (is_valid (it_view it)) in E; cbn [negb] in E; [|injection E as <- <-; constructor].
  destruct (decode t (init t) (it_view it)) as [[ok1 s]| |] eqn:E1; cbn [bind] in E; try discriminate.
  pose proof (Ht Hwf _ _ _ _ (init_obj t Hwf) (good_iter_view _ Hg) E1) as Hs.
  destruct ok1; cbn [negb] in E; [|injection E as <- <-; auto].
  destruct (good_iter_next_any it Hg) as (it' & E3 & Hg'). rewrite E3 in E. cbn [bind] in E.
  destruct (seqof_loop (decode t (init t)) fuel it') as [[ok2 l2]| |] eqn:E4; cbn [bind] in E; try discriminate. injection E as <- <-.
  constructor; [exact Hs|eapply IH; eauto].
Qed.
Lemma decode_alt_obj cs : each dec_obj cs -> wf_comps cs ->
  forall n k v ok s, good_view v -> decode_alt cs n k v = Ok (ok, s) -> exists s', s = SAlt k s' /\ obj_alt cs n s'.
Proof.
  induction cs as [|kk ids t cs IH]; intros He Hwf n k v ok s Hv E; destruct n as [|n]; cbn [decode_alt] in E; try discriminate;
    destruct He as [Ht He], Hwf as [Hwt Hwf]; cbn [obj_alt].
  - destruct (decode t (init t) v) as [[ok1 s1]| |] eqn:E1; cbn [bind] in E; try discriminate. injection E as <- <-.
    eexists. split; [reflexivity|]. eapply Ht; eauto using init_obj.
  - eapply IH; eauto.
Qed.
Theorem decode_obj t : dec_obj t.
Proof.
  induction t as [k i|i t IH|i cs IH|i ext cs IH|g o cs IH] using schema_ind; intros Hwf s v ok s' Ho Hg E.
  - destruct s as [l| | |]; cbn [obj] in Ho; try tauto. cbn [decode] in E.
    destruct (leaf_decode_good k i l v Hwf Ho Hg) as (ok1 & l' & E1 & Hl & _). rewrite E1 in E. cbn [bind] in E.
    injection E as <- <-. exact Hl.
  - destruct s as [|l| |]; cbn [obj] in Ho; try tauto. cbn [decode] in E. destruct Hwf as [Hi Hwf].
    destruct (header_good v i constructed Hg) as [(p & x & extra & rest & Hp & Ev & Hb & Ht & Hh)|[Hh _]]; rewrite Hh in E; cbn [bind negb] in E.
    2:{ injection E as <- <-. constructor. }
    destruct (content_iter_good _ _ _ _ _ _ Hp Hb Ht Ev) as (it & E1 & _ & Hgi & _). rewrite E1 in E. cbn [bind] in E.
    destruct (seqof_loop _ _ _) as [[ok2 l2]| |] eqn:E2 in E; cbn [bind] in E; try discriminate. injection E as <- <-.
    cbn [obj]. eapply seqof_loop_obj; eauto.
  - destruct s as [| |ms|]; cbn [obj] in Ho; try tauto. cbn [decode] in E. destruct Hwf as [Hi Hwf].
    destruct (is_valid v) eqn:Hval in E; cbn [negb] in E; [|injection E as <- <-; exact Ho].
    destruct (header_good v i constructed Hg) as [(p & x & extra & rest & Hp & Ev & Hb & Ht & Hh)|[Hh _]]; rewrite Hh in E; cbn [bind negb] in E.
    2:{ destruct (v_identifier v); cbn [bind] in E; try discriminate. injection E as <- <-. exact Ho. }
    destruct (comps_length cs =? 0)%nat in E; [injection E as <- <-; exact Ho|].
    destruct (content_iter_good _ _ _ _ _ _ Hp Hb Ht Ev) as (it & E1 & _ & Hgi & _). rewrite E1 in E. cbn [bind] in E.
    destruct (decode_seq cs ms it) as [[ok2 ms2]| |] eqn:E2; cbn [bind] in E; try discriminate. injection E as <- <-.
    cbn [obj]. eapply decode_seq_obj; eauto.
  - destruct s as [| |ms|]; cbn [obj] in Ho; try tauto. cbn [decode] in E. destruct Hwf as [Hi Hwf].
    destruct (is_valid v) eqn:Hval in E; cbn [negb] in E; [|injection E as <- <-; exact Ho].
    destruct (header_good v i constructed Hg) as [(p & x & extra & rest & Hp & Ev & Hb & Ht & Hh)|[Hh _]]; rewrite Hh in E; cbn [bind negb] in E.
    2:{ destruct (v_identifier v); cbn [bind] in E; try discriminate. injection E as <- <-. exact Ho. }
    destruct (comps_length cs =? 0)%nat in E; [injection E as <- <-; exact Ho|].
    destruct (content_iter_good _ _ _ _ _ _ Hp Hb Ht Ev) as (it & E1 & _ & Hgi & _). rewrite E1 in E. cbn [bind] in E.
    destruct (set_loop _ _ _ _ _ _) as [[ok2 [ms2 counts2]]| |] eqn:E2 in E; cbn [bind] in E; try discriminate.
    assert (Ho2 : obj_comps cs ms2) by (eapply set_loop_obj; eauto).
    destruct ok2; cbn [negb] in E; [|injection E as <- <-; exact Ho2].
    pose proof (set_finish_obj cs ms2 counts2 Ho2) as Hf. destruct (set_finish cs ms2 counts2) as [ok3 ms3]. cbn [snd] in Hf.
    injection E as <- <-. exact Hf.
  - destruct s as [| | |n0 s0]; cbn [obj] in Ho; try tauto. cbn [decode] in E. destruct Hwf as (Hi & _ & Hwf).
    destruct (match o with
        | None => Ok (match g with CGen => Some v | CLib => if is_valid v then Some v else None end)
        | Some i => if negb (is_valid v) then Ok None
                    else let* ok := has_correct_header v i constructed in
                         if negb ok then Ok None
                         else let* it := content_iter i v in Ok (if is_valid (it_view it) then Some (it_view it) else None)
        end) as [content| |] eqn:Ec; cbn [bind] in E; try discriminate.
    assert (Hc : match content with Some w => good_view w | None => True end).
    { destruct o as [i|].
      - destruct (is_valid v) eqn:Hval; cbn [negb] in Ec; [|injection Ec as <-; exact I].
        destruct (header_good v i constructed Hg) as [(p & x & extra & rest & Hp & Ev & Hb & Ht & Hh)|[Hh _]]; rewrite Hh in Ec; cbn [bind negb] in Ec.
        2:{ injection Ec as <-; exact I. }
        destruct (content_iter_good _ _ _ _ _ _ Hp Hb Ht Ev) as (it & E1 & _ & Hgi & _). rewrite E1 in Ec. cbn [bind] in Ec. injection Ec as <-.
        destruct (is_valid (it_view it)); [apply good_iter_view; auto|exact I].
      - injection Ec as <-. destruct g; [exact Hg|]. destruct (is_valid v); [exact Hg|exact I]. }
    destruct content as [w|]; [|injection E as <- <-; exact Ho].
    destruct (match g with CGen => Ok universal | CLib => v_class w end) as [c| |]; cbn [bind] in E; try discriminate.
    destruct (select g cs c (v_tag w)) as [n|].
    + destruct (decode_alt_obj cs IH Hwf _ _ _ _ _ Hc E) as (s2 & -> & H). exact H.
    + destruct (match g with CGen => v_identifier w | CLib => Ok (universal, 0) end); cbn [bind] in E; try discriminate.
      injection E as <- <-. exact Ho.
Qed.

(** ** SEQUENCE: what follows the last member does not matter *)
Lemma tail_iter it q qs tail : Forall pkt_ok (q :: qs) -> no_packet tail -> iter_on it (pkts (q :: qs) ++ tail) ->
  zlen (pkts (q :: qs) ++ tail) < 2^63 ->
  it_view it = pview (pk_ber q) (pk_tag q) (pk_content q) (pkts qs ++ tail) /\
  exists it', it_next it = Ok it' /\ iter_on it' (pkts qs ++ tail).
Proof.
  intros Hq Ht Hi Hz. inversion Hq as [|? ? Hq1 Hq2]; subst. unfold pkts in Hi, Hz. cbn [map concat] in Hi, Hz. fold (pkts qs) in Hi, Hz.
  rewrite <- app_assoc in Hi, Hz. destruct (iter_on_packet it _ _ _ _ _ _ Hi Hq1 Hz) as (Ev & _ & Ec & En).
  split; [exact Ev|].
  assert (Hz2 : zlen (pkts qs ++ tail) < 2^63) by (rewrite zlen_app in Hz; pose proof (zlen_nonneg (pk_ber q)); lia).
  destruct (pkts_assign qs tail (pk_tag q) Hq2 Ht Hz2) as (v & E & _). rewrite E in En. cbn [bind] in En.
  eexists. split; [exact En|]. split; [reflexivity|]. exists (pk_tag q). exact E.
Qed.
Lemma iter_on_tail it tail : no_packet tail -> iter_on it tail -> is_valid (it_view it) = false.
Proof. intros Ht (Hb & t0 & E). destruct (Ht t0) as (v & E2 & Hv). congruence. Qed.
Lemma iter_on_good it x : iter_on it x -> bytes x -> tame x -> good_iter it.
Proof. intros (Hb & Ha) H1 H2. unfold good_iter. rewrite Hb. auto. Qed.
Lemma bytes_suffix a b : bytes (a ++ b) -> bytes b.
Proof. intros H. apply bytes_app in H. tauto. Qed.
Lemma no_success t s v c k : wf_ty t -> labelled t -> obj t s -> good_view v -> v_class v = Ok c -> is_valid v = true ->
  has_id (type_ids t) c (v_tag v) = false -> decode t s v = Ok (true, k) -> False.
Proof.
  intros Hwf Hl Ho Hg Hc Hv Hid E. destruct (decode_sound t Hwf s v k Ho Hg E) as (_ & _ & Hs).
  destruct (Hs Hl) as (p & c' & con & tag & x & rest & -> & HP & Hz & Hin). destruct (pview_byte0 _ _ _ _ _ rest HP) as [H1 _].
  assert (c' = c) by congruence. subst c'. change (v_tag (pview p tag x rest)) with tag in Hid. apply has_id_In in Hin. congruence.
Qed.
Lemma member_no_success k t m v c m' : wf_ty t -> labelled t -> match m with Some s => obj t s | None => k <> Mand end ->
  good_view v -> v_class v = Ok c -> is_valid v = true -> has_id (type_ids t) c (v_tag v) = false ->
  member_decode k (type_ids t) (init t) (decode t) m v = Ok (true, m') -> False.
Proof.
  intros Hwf Hl Hm Hg Hc Hv Hid E. destruct k; cbn [member_decode] in E; rewrite ?Hv, ?Hc in E; cbn [bind] in E; rewrite ?Hid in E; try discriminate.
  destruct m as [s|]; [|discriminate]. destruct (decode t s v) as [[[|] s1]| |] eqn:E1; cbn [bind] in E; try discriminate.
  eapply no_success; eauto.
Qed.
Lemma seq_skip cs : wf_comps cs -> labelled_comps cs -> forall es tail1 tail2 ms it it' ms',
  obj_comps cs ms -> Forall pkt_ok es -> Forall (fun q => pkt_has (comps_ids cs) q = false) es -> no_packet tail1 -> no_packet tail2 ->
  iter_on it tail1 -> iter_on it' (pkts es ++ tail2) -> bytes tail1 -> tame tail1 -> bytes (pkts es ++ tail2) -> tame (pkts es ++ tail2) ->
  decode_seq cs ms it = Ok (true, ms') <-> decode_seq cs ms it' = Ok (true, ms').
Proof.
  induction cs as [|k ids t cs IH]; intros Hwf Hl es tail1 tail2 ms it it' ms' Ho Hes Hun Ht1 Ht2 Hi Hi' B1 T1 B2 T2;
    destruct ms as [|m ms]; cbn [obj_comps] in Ho; try (exfalso; exact Ho); [cbn [decode_seq]; tauto|].
  - destruct Ho as [Hm Ho], Hwf as [Hwt Hwf], Hl as (-> & Hlt & Hl).
    assert (Hun1 : Forall (fun q => pkt_has (type_ids t) q = false) es /\ Forall (fun q => pkt_has (comps_ids cs) q = false) es).
    { split; (eapply Forall_impl; [|exact Hun]); cbn beta; intros q Hq; unfold pkt_has in *; cbn [comps_ids] in Hq;
        rewrite has_id_app in Hq; apply orb_false_iff in Hq; tauto. }
    destruct Hun1 as [Hun1 Hun2]. specialize (IH Hwf Hl es tail1 tail2 ms it it').
    pose proof (iter_on_tail _ _ Ht1 Hi) as Hv1. pose proof (good_iter_view _ (iter_on_good _ _ Hi B1 T1)) as G1.
    pose proof (good_iter_view _ (iter_on_good _ _ Hi' B2 T2)) as G2.
    (* what the second iterator shows *)
    assert (Hsee : is_valid (it_view it') = false \/ exists c, is_valid (it_view it') = true /\ v_class (it_view it') = Ok c /\
                   has_id (type_ids t) c (v_tag (it_view it')) = false).
    { destruct es as [|q es]; [left; apply (iter_on_tail _ _ Ht2 Hi')|]. right. inversion Hes as [|? ? Hq _]; subst.
      destruct (tail_iter it' q es tail2 Hes Ht2 Hi' (proj1 T2)) as (Ev & _). rewrite Ev. exists (pk_class q).
      split; [reflexivity|]. split; [apply (pview_byte0 _ _ _ _ _ _ Hq)|]. inversion Hun1; subst. assumption. }
    cbn [decode_seq].
    destruct k.
    + (* a mandatory member succeeds in neither case *)
      cbn [bind]. destruct m as [s|]; [|congruence]. split; intros E; exfalso.
      * destruct (member_decode Mand (type_ids t) (init t) (decode t) (Some s) (it_view it)) as [[[|] m1]| |] eqn:Em; cbn [bind negb] in E; try discriminate.
        cbn [member_decode] in Em. destruct (decode t s (it_view it)) as [[ok1 s1]| |] eqn:E1; cbn [bind] in Em; try discriminate.
        injection Em as -> <-. destruct (decode_sound t Hwt s _ _ Hm G1 E1) as (_ & Hx & _). congruence.
      * destruct (member_decode Mand (type_ids t) (init t) (decode t) (Some s) (it_view it')) as [[[|] m1]| |] eqn:Em; cbn [bind negb] in E; try discriminate.
        destruct Hsee as [Hs|(c & H1 & H2 & H3)].
        -- cbn [member_decode] in Em. destruct (decode t s (it_view it')) as [[ok1 s1]| |] eqn:E1; cbn [bind] in Em; try discriminate.
           injection Em as -> <-. destruct (decode_sound t Hwt s _ _ Hm G2 E1) as (_ & Hx & _). congruence.
        -- eapply (member_no_success Mand t (Some s)); eauto.
    + rewrite Hv1. assert (Eh : (if is_valid (it_view it') then let* c := v_class (it_view it') in Ok (has_id (type_ids t) c (v_tag (it_view it'))) else Ok false) = Ok false).
      { destruct Hsee as [->|(c & -> & H2 & H3)]; [reflexivity|]. rewrite H2. cbn [bind]. congruence. }
      rewrite Eh. cbn [bind]. split; intros E.
      * destruct (decode_seq cs ms it) as [[ok1 ms1]| |] eqn:E1; cbn [bind] in E; try discriminate. injection E as -> <-.
        rewrite (proj1 (IH ms1 Ho Hes Hun2 Ht1 Ht2 Hi Hi' B1 T1 B2 T2) eq_refl). reflexivity.
      * destruct (decode_seq cs ms it') as [[ok1 ms1]| |] eqn:E1; cbn [bind] in E; try discriminate. injection E as -> <-.
        rewrite (proj2 (IH ms1 Ho Hes Hun2 Ht1 Ht2 Hi Hi' B1 T1 B2 T2) eq_refl). reflexivity.
    + rewrite Hv1. assert (Eh : (if is_valid (it_view it') then let* c := v_class (it_view it') in Ok (has_id (type_ids t) c (v_tag (it_view it'))) else Ok false) = Ok false).
      { destruct Hsee as [->|(c & -> & H2 & H3)]; [reflexivity|]. rewrite H2. cbn [bind]. congruence. }
      rewrite Eh. cbn [bind]. split; intros E.
      * destruct (decode_seq cs ms it) as [[ok1 ms1]| |] eqn:E1; cbn [bind] in E; try discriminate. injection E as -> <-.
        rewrite (proj1 (IH ms1 Ho Hes Hun2 Ht1 Ht2 Hi Hi' B1 T1 B2 T2) eq_refl). reflexivity.
      * destruct (decode_seq cs ms it') as [[ok1 ms1]| |] eqn:E1; cbn [bind] in E; try discriminate. injection E as -> <-.
        rewrite (proj2 (IH ms1 Ho Hes Hun2 Ht1 Ht2 Hi Hi' B1 T1 B2 T2) eq_refl). reflexivity.
Qed.
Lemma seq_tail cs : wf_comps cs -> labelled_comps cs -> forall qs es tail1 tail2 ms it it' ms',
  obj_comps cs ms -> Forall pkt_ok qs -> Forall pkt_ok es -> Forall (fun q => pkt_has (comps_ids cs) q = false) es ->
  no_packet tail1 -> no_packet tail2 ->
  iter_on it (pkts qs ++ tail1) -> iter_on it' (pkts qs ++ pkts es ++ tail2) ->
  bytes (pkts qs ++ tail1) -> tame (pkts qs ++ tail1) -> bytes (pkts qs ++ pkts es ++ tail2) -> tame (pkts qs ++ pkts es ++ tail2) ->
  decode_seq cs ms it = Ok (true, ms') <-> decode_seq cs ms it' = Ok (true, ms').
Proof.
  induction cs as [|k ids t cs IH]; intros Hwf Hl qs es tail1 tail2 ms it it' ms' Ho Hqs Hes Hun Ht1 Ht2 Hi Hi' B1 T1 B2 T2.
  - destruct ms as [|m ms]; cbn [obj_comps] in Ho; try tauto.
  - destruct qs as [|q qs].
    { cbn [pkts map concat app] in *. unfold pkts in Hi, Hi'. cbn [map concat app] in Hi, Hi'. fold (pkts es) in Hi'.
      eapply (seq_skip (CCons k ids t cs) Hwf Hl es tail1 tail2 ms it it' ms'); eauto. }
    destruct ms as [|m ms]; cbn [obj_comps] in Ho; try tauto.
    destruct Ho as [Hm Ho], Hwf as [Hwt Hwf], Hl as (Hids & Hlt & Hl).
    assert (Hun2 : Forall (fun q => pkt_has (comps_ids cs) q = false) es).
    { eapply Forall_impl; [|exact Hun]. cbn beta; intros q' Hq; unfold pkt_has in *; cbn [comps_ids] in Hq;
        rewrite has_id_app in Hq; apply orb_false_iff in Hq; tauto. }
    assert (Hnt : forall x, exists v, v_assign x (pkts es ++ tail2) = Ok v).
    { intros x. destruct (pkts_assign es tail2 x Hes Ht2) as (v & E & _); [|eauto]. apply (tame_packets (q :: qs)) in T2; [|exact Hqs]. apply T2. }
    pose proof Hqs as Hqs0. inversion Hqs0 as [|? ? Hq Hqs']; subst.
    destruct (tail_iter it q qs tail1 Hqs Ht1 Hi (proj1 T1)) as (Ev1 & itn & En1 & Hin1).
    assert (Hi2 : iter_on it' (pkts ((q :: qs) ++ es) ++ tail2)).
    { unfold pkts. rewrite map_app, concat_app, <- app_assoc. exact Hi'. }
    assert (T2' : tame (pkts ((q :: qs) ++ es) ++ tail2)).
    { unfold pkts. rewrite map_app, concat_app, <- app_assoc. exact T2. }
    destruct (tail_iter it' q (qs ++ es) tail2) as (Ev2 & itn' & En2 & Hin2); auto.
    { constructor; [exact Hq|]. apply Forall_app. auto. }
    { apply T2'. }
    assert (Hin2' : iter_on itn' (pkts qs ++ pkts es ++ tail2)).
    { unfold pkts in Hin2. rewrite map_app, concat_app, <- app_assoc in Hin2. exact Hin2. }
    assert (Hzq : zlen (pk_ber q) < 2^63).
    { destruct T1 as [T1 _]. unfold pkts in T1. cbn [map concat] in T1. rewrite !zlen_app in T1.
      pose proof (zlen_nonneg (concat (map pk_ber qs))). pose proof (zlen_nonneg tail1). lia. }
    assert (Hsame : same_packet (it_view it) (it_view it')) by (rewrite Ev1, Ev2; eapply pview_same; eauto).
    cbn [decode_seq].
    rewrite (member_same k (type_ids t) (init t) (decode t) m _ _ Hsame (fun s => decode_same t s _ _ Hsame)).
    destruct Hsame as (S1 & S2 & _ & S4 & _). rewrite S1, S2, S4, En1, En2. cbn [bind].
    destruct (match k with
                   | Mand => Ok true
                   | _ => if is_valid (it_view it') then let* c := v_class (it_view it') in Ok (has_id (type_ids t) c (v_tag (it_view it'))) else Ok false
                   end) as [here| |]; cbn [bind]; [|tauto|tauto].
    destruct here.
    + destruct (member_decode k (type_ids t) (init t) (decode t) m (it_view it')) as [[ok1 m1]| |]; cbn [bind]; [|tauto|tauto].
      destruct ok1; cbn [negb]; [|split; discriminate].
      assert (Hn : forall ms1, decode_seq cs ms itn = Ok (true, ms1) <-> decode_seq cs ms itn' = Ok (true, ms1)).
      { intros ms1. unfold pkts in B1, T1, B2, T2. cbn [map concat] in B1, T1, B2, T2. rewrite <- !app_assoc in B1, T1, B2, T2.
        eapply (IH Hwf Hl qs es tail1 tail2); eauto using bytes_suffix, tame_next. }
      split; intros E.
      * destruct (decode_seq cs ms itn) as [[ok2 ms2]| |]; cbn [bind] in E; try discriminate. injection E as -> <-.
        rewrite (proj1 (Hn ms2) eq_refl). reflexivity.
      * destruct (decode_seq cs ms itn') as [[ok2 ms2]| |]; cbn [bind] in E; try discriminate. injection E as -> <-.
        rewrite (proj2 (Hn ms2) eq_refl). reflexivity.
    + assert (Hn : forall ms1, decode_seq cs ms it = Ok (true, ms1) <-> decode_seq cs ms it' = Ok (true, ms1)).
      { intros ms1. eapply (IH Hwf Hl (q :: qs) es tail1 tail2); eauto. }
      split; intros E.
      * destruct (decode_seq cs ms it) as [[ok2 ms2]| |]; cbn [bind] in E; try discriminate. injection E as -> <-.
        rewrite (proj1 (Hn ms2) eq_refl). reflexivity.
      * destruct (decode_seq cs ms it') as [[ok2 ms2]| |]; cbn [bind] in E; try discriminate. injection E as -> <-.
        rewrite (proj2 (Hn ms2) eq_refl). reflexivity.
Qed.

(** ** SEQUENCE OF on any content *)
Lemma seqof_loop_spec t tail : no_packet tail -> forall qs fuel it l, Forall pkt_ok qs ->
  iter_on it (pkts qs ++ tail) -> zlen (pkts qs ++ tail) < 2^63 -> (length qs < fuel)%nat ->
  seqof_loop (decode t (init t)) fuel it = Ok (true, l) <-> Forall2 (fun q s => decode t (init t) (pkt_view q) = Ok (true, s)) qs l.
Proof.
  intros Ht. induction qs as [|q qs IH]; intros fuel it l Hq Hi Hz Hf; (destruct fuel as [|fuel]; [cbn in Hf; lia|]); cbn [seqof_loop]; unfold it_at_end.
  - rewrite (iter_on_tail _ _ Ht Hi). cbn [negb]. split; [intros H; injection H as <-; constructor|intros H; inversion H; reflexivity].
  - destruct (tail_iter it q qs tail Hq Ht Hi Hz) as (Ev & it' & En & Hi'). rewrite Ev, pview_valid. cbn [negb].
    inversion Hq as [|? ? Hq1 Hq2]; subst.
    assert (Hz' : zlen (pk_ber q) < 2^63 /\ zlen (pkts qs ++ tail) < 2^63).
    { unfold pkts in Hz. cbn [map concat] in Hz. rewrite <- app_assoc, zlen_app in Hz. fold (pkts qs) in Hz.
      pose proof (zlen_nonneg (pk_ber q)). pose proof (zlen_nonneg (pkts qs ++ tail)). lia. }
    destruct Hz' as [Hz1 Hz2].
    rewrite (decode_same t (init t) _ (pkt_view q) (pview_same _ _ _ _ _ (pkts qs ++ tail) [] Hq1 Hz1)). rewrite En. cbn [bind].
    cbn [length] in Hf. specialize (IH fuel it'). split; intros H.
    + destruct (decode t (init t) (pkt_view q)) as [[[|] s]| |] eqn:E; cbn [bind negb] in H; try discriminate.
      destruct (seqof_loop (decode t (init t)) fuel it') as [[ok l']| |] eqn:E2; cbn [bind] in H; try discriminate.
      injection H as -> <-. constructor; [exact E|]. apply (IH l' Hq2 Hi' Hz2 ltac:(lia)). reflexivity.
    + inversion H as [|? s ? l' H1 H2]; subst. rewrite H1. cbn [bind negb]. apply (IH l' Hq2 Hi' Hz2 ltac:(lia)) in H2. rewrite H2. reflexivity.
Qed.

(** ** CHOICE: the alternative a successful decode selects *)
Lemma alt_nth cs : wf_comps cs -> labelled_comps cs -> forall n k v s', good_view v -> decode_alt cs n k v = Ok (true, s') ->
  exists kk ids t s1, nth_comp cs n = Some (kk, ids, t) /\ s' = SAlt k s1 /\ sees_id v (type_ids t).
Proof.
  induction cs as [|kk ids t cs IH]; intros Hwf Hl n k v s' Hg E; destruct n as [|n]; cbn [decode_alt] in E; try discriminate;
    destruct Hwf as [Hwt Hwf], Hl as (-> & Hlt & Hl); cbn [nth_comp].
  - destruct (decode t (init t) v) as [[ok s]| |] eqn:E2; cbn [bind] in E; try discriminate. injection E as -> <-.
    destruct (decode_sound t Hwt _ _ _ (init_obj t Hwt) Hg E2) as (_ & _ & Hs). eexists _, _, _, _. split; [reflexivity|]. split; [reflexivity|auto].
  - eapply IH; eauto.
Qed.

(** ** Encodings determine values, whatever the decoder does *)
Fixpoint lib (t : ty) : ty :=
  match t with
  | TLeaf k i => TLeaf k i
  | TSeqOf i t => TSeqOf i (lib t)
  | TSeq i cs => TSeq i (lib_comps cs)
  | TSet i e cs => TSet i e (lib_comps cs)
  | TChoice _ o cs => TChoice CLib o (lib_comps cs)
  end
with lib_comps (cs : comps) : comps :=
  match cs with CNil => CNil | CCons k ids t cs => CCons k ids (lib t) (lib_comps cs) end.
Lemma lib_ids cs : comps_ids (lib_comps cs) = comps_ids cs.
Proof. induction cs as [|k ids t cs IH]; cbn; congruence. Qed.
Lemma lib_type_ids t : type_ids (lib t) = type_ids t.
Proof. destruct t as [| | | |g [i|] cs]; cbn; auto using lib_ids. Qed.
Lemma lib_next cs : next_ids (lib_comps cs) = next_ids cs.
Proof. induction cs as [|[] ids t cs IH]; cbn; congruence. Qed.
Lemma lib_seq cs : seq_distinct cs -> seq_distinct (lib_comps cs).
Proof. induction cs as [|k ids t cs IH]; cbn; [auto|]. rewrite lib_next. tauto. Qed.
Lemma lib_all cs : all_distinct cs -> all_distinct (lib_comps cs).
Proof. induction cs as [|k ids t cs IH]; cbn; [auto|]. rewrite lib_ids. tauto. Qed.
Lemma lib_good t : wf_ty t -> labelled t -> unambiguous t -> good_schema (lib t).
Proof.
  intros H1 H2 H3. unfold good_schema.
  assert (A : forall t, (wf_ty t -> wf_ty (lib t)) /\ (labelled t -> labelled (lib t)) /\ (unambiguous t -> unambiguous (lib t)) /\ choices_by_tag (lib t)).
  { clear. apply (ty_comps_ind
      (fun t => (wf_ty t -> wf_ty (lib t)) /\ (labelled t -> labelled (lib t)) /\ (unambiguous t -> unambiguous (lib t)) /\ choices_by_tag (lib t))
      (fun cs => (wf_comps cs -> wf_comps (lib_comps cs)) /\ (labelled_comps cs -> labelled_comps (lib_comps cs)) /\
                 (unambiguous_comps cs -> unambiguous_comps (lib_comps cs)) /\ choices_by_tag_comps (lib_comps cs))); cbn.
    - tauto.
    - intros i t IH. tauto.
    - intros i cs IH. pose proof (lib_seq cs). tauto.
    - intros i e cs IH. pose proof (lib_all cs). tauto.
    - intros g o cs IH. pose proof (lib_all cs). assert (cs <> CNil -> lib_comps cs <> CNil) by (destruct cs; cbn; congruence). tauto.
    - tauto.
    - intros k ids t IHt cs IH. rewrite lib_type_ids. tauto. }
  destruct (A t) as (A1 & A2 & A3 & A4). auto.
Qed.
Lemma lib_ber t : forall v p, ber_of t v p -> ber_of (lib t) v p.
Proof.
  apply (ty_comps_ind (fun t => forall v p, ber_of t v p -> ber_of (lib t) v p)
    (fun cs => (forall vs ps, ber_parts cs vs ps -> ber_parts (lib_comps cs) vs ps) /\ (forall n v p, ber_alt cs n v p -> ber_alt (lib_comps cs) n v p))).
  - intros k i v p H. exact H.
  - intros i t' IH [|vs| |] p; cbn; try tauto. intros (ps & Hf & Hp). exists ps. split; [|exact Hp]. clear Hp. induction Hf; constructor; auto.
  - intros i cs [IH _] [| |vs|] p; cbn; try tauto. intros (ps & Hf & Hp). eauto.
  - intros i e cs [IH _] [| |vs|] p; cbn; try tauto. intros (ps & qs & Hf & Hq & Hp). eauto 6.
  - intros g [i|] cs [_ IH] [| | |n v] p; cbn; try tauto; [|auto]. intros (q & Hf & Hp). eauto.
  - cbn. auto.
  - intros k ids t' IHt cs [IH1 IH2]. split.
    + intros [|[v|] vs] ps; cbn; try tauto; [|intros [H1 H2]; auto]. intros (p & ps' & H1 & H2 & H3). eauto 7.
    + intros [|n] v p; cbn; auto.
Qed.
Lemma ber_of_unique t : wf_ty t -> labelled t -> unambiguous t -> forall v1 v2 p1 p2 r1 r2,
  ber_of t v1 p1 -> ber_of t v2 p2 -> p1 ++ r1 = p2 ++ r2 -> zlen (p1 ++ r1) < 2^63 -> v1 = v2.
Proof.
  intros H1 H2 H3 v1 v2 p1 p2 r1 r2 B1 B2 E Hz. pose proof (lib_good t H1 H2 H3) as Hg. apply lib_ber in B1, B2.
  destruct (ber_of_packet (lib t) v1 p1 B1) as (_ & c & con & tag & x & HP & _).
  pose proof (pview_make _ _ _ _ _ r1 0 HP Hz) as Ew.
  destruct (decode_round (lib t) Hg v1 p1 B1 (init (lib t)) _ r1 (init_obj _ (proj1 Hg)) Hz Ew) as (s1 & E1 & R1).
  rewrite E in Hz, Ew.
  destruct (decode_round (lib t) Hg v2 p2 B2 (init (lib t)) _ r2 (init_obj _ (proj1 Hg)) Hz Ew) as (s2 & E2 & R2).
  assert (s2 = s1) by congruence. subst s2. exact (rep_fun (lib t) (proj1 Hg) s1 v1 v2 R1 R2).
Qed.

(** ** SET, member by member *)
Lemma filter_filter {A} (f g : A -> bool) l : filter f (filter g l) = filter (fun x => g x && f x) l.
Proof. induction l as [|x l IH]; cbn; [reflexivity|]. destruct (g x); cbn; rewrite IH; reflexivity. Qed.
Lemma filter_disjoint ids ids' qs : disjoint ids ids' -> filter (pkt_has ids') (filter (fun q => negb (pkt_has ids q)) qs) = filter (pkt_has ids') qs.
Proof.
  intros Hd. rewrite filter_filter. apply filter_ext. intros q. unfold pkt_has. destruct (has_id ids' _ _) eqn:E; [|rewrite andb_false_r; reflexivity].
  destruct (has_id ids _ _) eqn:E2; [|reflexivity]. exfalso. apply has_id_In in E, E2. eapply Hd; eauto.
Qed.
Lemma nth_comp_ids cs n k ids t : nth_comp cs n = Some (k, ids, t) -> incl ids (comps_ids cs).
Proof.
  revert n. induction cs as [|k' ids' t' cs IH]; intros [|n]; cbn; try discriminate.
  - intros H. injection H as <- <- <-. apply incl_appl, incl_refl.
  - intros H. apply incl_appr. eauto.
Qed.
Lemma set_final_nth cs : all_distinct cs -> forall ms qs ms', set_final cs ms qs ms' ->
  forall n k ids t, nth_comp cs n = Some (k, ids, t) ->
  exists m m', nth_error ms n = Some m /\ nth_error ms' n = Some m' /\
    match filter (pkt_has ids) qs with
    | [] => k <> Mand /\ m' = None
    | [q] => member_decode k (type_ids t) (init t) (decode t) m (pkt_view q) = Ok (true, m')
    | _ => False
    end.
Proof.
  induction cs as [|k' ids' t' cs IH]; intros Hd ms qs ms' H n k ids t Hn; [destruct n; discriminate|].
  destruct ms as [|m ms], ms' as [|m' ms']; cbn [set_final] in H; try tauto. destruct H as [H1 H2], Hd as [Hd1 Hd].
  destruct n as [|n]; cbn [nth_comp] in Hn.
  - injection Hn as -> -> ->. exists m, m'. auto.
  - destruct (IH Hd _ _ _ H2 n k ids t Hn) as (a & b & A1 & A2 & A3). exists a, b. split; [auto|]. split; [auto|].
    rewrite filter_disjoint in A3; [exact A3|]. intros y Hy1 Hy2. apply (Hd1 y Hy1). eapply nth_comp_ids; eauto.
Qed.
Lemma set_final_build cs : all_distinct cs -> forall ms qs ms', length ms = comps_length cs -> length ms' = comps_length cs ->
  (forall n k ids t m m', nth_comp cs n = Some (k, ids, t) -> nth_error ms n = Some m -> nth_error ms' n = Some m' ->
    match filter (pkt_has ids) qs with
    | [] => k <> Mand /\ m' = None
    | [q] => member_decode k (type_ids t) (init t) (decode t) m (pkt_view q) = Ok (true, m')
    | _ => False
    end) -> set_final cs ms qs ms'.
Proof.
  induction cs as [|k' ids' t' cs IH]; intros Hd ms qs ms' Hl Hl' H; destruct ms as [|m ms], ms' as [|m' ms']; cbn in Hl, Hl'; try discriminate.
  - exact I.
  - destruct Hd as [Hd1 Hd]. cbn [set_final]. split; [apply (H 0%nat k' ids' t' m m'); reflexivity|].
    apply IH; auto. intros n k ids t a b Hn Ha Hb. rewrite filter_disjoint; [apply (H (S n) k ids t a b); auto|].
    intros y Hy1 Hy2. apply (Hd1 y Hy1). eapply nth_comp_ids; eauto.
Qed.
