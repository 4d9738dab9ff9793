(** Proofs about the composite types: decoding. *)
From Verif Require Import Base Ident Spec IdentProofs HeaderProofs View ViewProofs Prims PrimProofs ContProofs Schema SchemaSpec SchemaProofs.
Ltac Zify.zify_post_hook ::= Z.div_mod_to_equations.

(** ** Views *)
Definition packet_view (v : view) : Prop :=
  exists p c con t x rest, ber_packet p c con t x /\ bytes (p ++ rest) /\ tame (p ++ rest) /\ v = pview p t x rest.
Definition good_view (v : view) : Prop := invalid_view v \/ packet_view v.
Lemma invalid_not v : invalid_view v -> is_valid v = false.
Proof. intros [H _]. unfold is_valid. rewrite H. reflexivity. Qed.
Lemma good_view_valid v : good_view v -> is_valid v = true -> packet_view v.
Proof. intros [H|H] Hv; [rewrite (invalid_not _ H) in Hv; discriminate|exact H]. Qed.
Lemma good_view_invalid v : good_view v -> is_valid v = false -> invalid_view v.
Proof. intros [H|(p & c & con & t & x & rest & _ & _ & _ & ->)] Hv; [exact H|discriminate]. Qed.
Lemma assign_good t0 input : bytes input -> tame input -> exists v, v_assign t0 input = Ok v /\ good_view v.
Proof.
  intros Hb Ht. destruct (v_make_cases t0 input Hb Ht) as [(v & E & _ & H1 & H2 & H3 & _)|(p & c & con & t & x & rest & -> & HP & E)].
  - exists v. split; [exact E|]. left. split; auto.
  - eexists. split; [exact E|]. right. exists p, c, con, t, x, rest. auto.
Qed.
Lemma pview_make p c con t x rest t0 : ber_packet p c con t x -> zlen (p ++ rest) < 2^63 ->
  v_assign t0 (p ++ rest) = Ok (pview p t x rest).
Proof. intros. apply (v_assign_packet p c con t x rest t0); auto. Qed.

(** Iterators over the packets of a tame buffer. *)
Definition good_iter (it : iter) : Prop :=
  bytes (it_buf it) /\ tame (it_buf it) /\ exists t0, v_assign t0 (it_buf it) = Ok (it_view it).
Lemma good_iter_view it : good_iter it -> good_view (it_view it).
Proof.
  intros (Hb & Ht & t0 & E). destruct (assign_good t0 _ Hb Ht) as (v & E2 & H). congruence.
Qed.
Lemma good_iter_next it : good_iter it -> is_valid (it_view it) = true ->
  exists it', it_next it = Ok it' /\ good_iter it' /\ (length (it_buf it') < length (it_buf it))%nat.
Proof.
  intros (Hb & Ht & t0 & E) Hv.
  destruct (v_make_cases t0 _ Hb Ht) as [(v & E2 & Hi & _)|(p & c & con & t & x & rest & E1 & HP & E2)]; [congruence|].
  destruct it as [buf w]; cbn [it_buf it_view] in *. subst buf. assert (w = pview p t x rest) by congruence. subst w.
  rewrite (it_next_packet _ _ _ _ _ rest HP (proj1 Ht)).
  assert (Hb2 : bytes rest) by (apply bytes_app in Hb; tauto).
  assert (Ht2 : tame rest) by (eapply tame_next; eauto).
  destruct (assign_good t rest Hb2 Ht2) as (w & E3 & _). rewrite E3. cbn [bind]. eexists. split; [reflexivity|].
  split; [split; [auto|split; [auto|eauto]]|]. cbn [it_buf]. rewrite app_length. apply ber_packet_len in HP.
  unfold zlen in HP. lia.
Qed.
Lemma packet_begin v : packet_view v -> exists it, v_begin v = Ok it.
Proof. intros (p & c & con & t & x & rest & HP & Hb & Ht & ->). eapply pview_begin_any; eauto. Qed.
Lemma packet_facts v : packet_view v -> is_valid v = true /\ exists c k, v_class v = Ok c /\ v_construction v = Ok k.
Proof.
  intros (p & c & con & t & x & rest & HP & _ & _ & ->). split; [reflexivity|].
  destruct (pview_byte0 _ _ _ _ _ rest HP). eauto.
Qed.
(** the header test on any good view *)
Lemma header_good v i con : good_view v ->
  (exists p x extra rest, id_packet i con p x extra /\ v_make (p ++ rest) = Ok v /\ bytes (p ++ rest) /\ tame (p ++ rest) /\
     has_correct_header v i con = Ok true) \/
  (has_correct_header v i con = Ok false /\
     forall p x extra rest, id_packet i con p x extra -> zlen (p ++ rest) < 2^63 -> v_make (p ++ rest) = Ok v -> False).
Proof.
  intros [H|(p & c & k & t & x & rest & HP & Hb & Ht & ->)].
  - right. split; [unfold has_correct_header; rewrite (invalid_not _ H); reflexivity|].
    intros p x extra rest Hp Hz E. destruct (header_packet i con p x extra rest Hp Hz) as (v' & E' & Hv & _).
    assert (v' = v) by congruence. subst v'. rewrite (invalid_not _ H) in Hv. discriminate.
  - destruct (header_spec i con (p ++ rest) Hb Ht) as (v & Ev & Hc). pose proof (pview_make _ _ _ _ _ rest 0 HP (proj1 Ht)) as Em.
    unfold v_make in Ev. assert (v = pview p t x rest) by congruence. subst v. clear Em.
    destruct Hc as [(p' & x' & extra & rest' & E & Hp & Hh & _)|[Hh Hno]].
    + left. exists p', x', extra, rest'. rewrite <- E. auto.
    + right. split; [auto|]. intros p' x' extra' rest' Hp' Hz' E'.
      assert (Emem : p ++ rest = p' ++ rest').
      { destruct (header_packet i con p' x' extra' rest' Hp' Hz') as (v' & E2 & Hv & _).
        pose proof (v_assign_valid_mem _ _ _ E2 Hv) as M2. assert (v' = pview p t x rest) by congruence. subst v'.
        cbn in M2. congruence. }
      eapply Hno; eauto.
Qed.
Lemma content_iter_packet i con p x extra rest v : id_packet i con p x extra -> zlen (p ++ rest) < 2^63 ->
  v_make (p ++ rest) = Ok v -> content_iter i v = it_make x.
Proof.
  intros Hp Hz Ev. destruct (header_packet i con p x extra rest Hp Hz) as (v' & Ev' & _ & _ & _ & Hc).
  assert (v' = v) by congruence. subst v'. destruct i as [c t|oc ot ic it]; cbn [content_iter].
  - subst v. destruct Hp as [HP _]. unfold v_begin. rewrite (pview_content _ _ _ _ _ rest HP). reflexivity.
  - destruct Hc as (q & -> & Hb & HQ). rewrite Hb. cbn [bind it_view]. unfold v_begin.
    rewrite (pview_content _ _ _ _ _ extra HQ). reflexivity.
Qed.
Lemma id_packet_inner_bytes i con p x extra rest : id_packet i con p x extra -> bytes (p ++ rest) -> bytes x.
Proof.
  destruct i as [c t|oc ot ic it]; cbn [id_packet].
  - intros [H _] Hb. eapply bytes_content; eauto.
  - intros (q & H1 & H2) Hb. assert (B := bytes_content _ _ _ _ _ _ H1 Hb). eapply bytes_content; eauto.
Qed.
Lemma id_packet_content_bytes i p x extra rest : id_packet i constructed p x extra -> bytes (p ++ rest) -> tame (p ++ rest) -> bytes x /\ tame x.
Proof.
  intros Hp Hb Ht. split; [eapply id_packet_inner_bytes; eauto|]. destruct i as [c t|oc ot ic it]; cbn [id_packet] in Hp.
  - destruct Hp as [H _]. eapply tame_content; eauto.
  - destruct Hp as (q & H1 & H2). assert (T := tame_content _ _ _ _ _ H1 Ht). eapply tame_content; eauto.
Qed.
Lemma content_iter_good i p x extra rest v : id_packet i constructed p x extra -> bytes (p ++ rest) -> tame (p ++ rest) ->
  v_make (p ++ rest) = Ok v -> exists it, content_iter i v = Ok it /\ it_make x = Ok it /\ good_iter it /\ it_buf it = x.
Proof.
  intros Hp Hb Ht Ev. rewrite (content_iter_packet _ _ _ _ _ _ _ Hp (proj1 Ht) Ev).
  destruct (id_packet_content_bytes _ _ _ _ _ Hp Hb Ht) as [Bx Tx]. unfold it_make, v_make.
  destruct (assign_good 0 x Bx Tx) as (w & E & _). rewrite E. cbn [bind]. eexists. split; [reflexivity|]. split; [reflexivity|].
  split; [split; [auto|split; [auto|eauto]]|reflexivity].
Qed.
(** What an id_packet looks like from outside. *)
Definition shape (i : ident) (con : construction) : construction := match i with Id _ _ => con | DoubleId _ _ _ _ => constructed end.
Lemma id_packet_outer i con p x extra : id_packet i con p x extra ->
  exists y, ber_packet p (id_class i) (shape i con) (id_tag i) y.
Proof. destruct i as [c t|oc ot ic it]; cbn; [intros [H _]; eauto|intros (q & H & _); eauto]. Qed.
Lemma header_valid v i con b : has_correct_header v i con = Ok b -> b = true -> is_valid v = true.
Proof. intros H ->. unfold has_correct_header in H. destruct (is_valid v); [auto|discriminate H]. Qed.

(** ** Primitive types *)
Lemma has_header_invalid v i con : is_valid v = false -> has_correct_header v i con = Ok false.
Proof. intros H. unfold has_correct_header. rewrite H. reflexivity. Qed.
Lemma leaf_decode_good k i l v : wf_ty (TLeaf k i) -> leaf_inv k i l -> good_view v ->
  exists ok l', leaf_decode k i l v = Ok (ok, l') /\ leaf_inv k i l' /\
    (ok = true -> exists p x extra rest, id_packet i primitive p x extra /\ v_make (p ++ rest) = Ok v /\
       bytes (p ++ rest) /\ tame (p ++ rest) /\ content_ok k x /\ (extra = [] -> leaf_rep k i l' x)) /\
    (ok = false -> forall p x extra rest, id_packet i primitive p x extra -> zlen (p ++ rest) < 2^63 -> v_make (p ++ rest) = Ok v ->
       bytes x -> content_ok k x -> False).
Proof.
  intros [Hi Hk] Hinv Hg.
  destruct (header_good v i primitive Hg) as [(p & x & extra & rest & Hp & Ev & Hb & Ht & Hh)|[Hh Hno]].
  - assert (Bx : bytes x) by (eapply id_packet_inner_bytes; eauto).
    assert (Huniq : forall p' x' extra' rest', id_packet i primitive p' x' extra' -> zlen (p' ++ rest') < 2^63 ->
              v_make (p' ++ rest') = Ok v -> x' = x).
    { intros p' x' extra' rest' Hp' Hz' E'.
      destruct (header_packet i primitive p' x' extra' rest' Hp' Hz') as (v1 & E1 & Hv1 & _).
      destruct (header_packet i primitive p x extra rest Hp (proj1 Ht)) as (v2 & E2 & Hv2 & _).
      pose proof (v_assign_valid_mem _ _ _ E1 Hv1). pose proof (v_assign_valid_mem _ _ _ E2 Hv2).
      assert (p' ++ rest' = p ++ rest) as E by congruence.
      destruct (id_packet_det _ _ _ _ _ _ _ _ _ _ _ Hp' Hp E) as (_ & E3 & _). exact E3. }
    destruct k as [| |max x0|x0|]; destruct l as [d|f|]; cbn [leaf_inv] in Hinv; try tauto; cbn [leaf_decode].
    + destruct Hinv as (b & Hr). destruct (bool_decode_packet i d b p x extra rest Hp (proj1 Ht) Hr) as (v' & Ev' & H1 & H2).
      assert (v' = v) by congruence. subst v'.
      destruct (Z.eq_dec (zlen x) 1) as [Hx|Hx].
      * destruct (zlen_1_inv _ Hx) as (c & ->). destruct (H1 c eq_refl) as (d' & E & Hd'). rewrite E. cbn [bind].
        exists true, (LData d'). split; [reflexivity|]. split; [cbn; eauto|]. split; [|discriminate].
        intros _. exists p, [c], extra, rest. assert (content_ok KBool [c]) by (split; auto).
        do 5 (split; [auto|]). intros _. split; auto.
      * rewrite (H2 Hx). cbn [bind]. exists false, (LData d). split; [reflexivity|]. split; [cbn; eauto|].
        split; [discriminate|]. intros _ p' x' e' r' Hp' Hz' E' _ [_ Hc]. rewrite (Huniq _ _ _ _ Hp' Hz' E') in Hc. tauto.
    + destruct (null_decode_packet i p x extra rest Hp (proj1 Ht)) as (v' & Ev' & E). assert (v' = v) by congruence. subst v'.
      rewrite E. cbn [bind]. exists (zlen x =? 0), LNull. split; [reflexivity|]. split; [exact I|].
      destruct (Z.eqb_spec (zlen x) 0) as [Hx|Hx].
      * split; [|discriminate]. intros _. apply zlen_0_nil in Hx. subst x. exists p, [], extra, rest.
        assert (content_ok KNull []) by (split; auto). do 5 (split; [auto|]). intros _. split; [auto|exact I].
      * split; [discriminate|]. intros _ p' x' e' r' Hp' Hz' E' _ [_ Hc].
        rewrite (Huniq _ _ _ _ Hp' Hz' E') in Hc. subst x. apply Hx. reflexivity.
    + destruct Hinv as (y & Hr), Hk as (Hok & _).
      destruct (small_decode_spec i max d y (p ++ rest) Hok Hr Hb Ht) as (v' & Ev' & Hc).
      assert (v' = v) by congruence. subst v'.
      destruct Hc as [(p2 & x2 & e2 & r2 & d2 & E2 & Hp2 & Hm & Ed & Hr2)|[Ed Hbig]]; rewrite Ed; cbn [bind].
      * destruct (id_packet_det _ _ _ _ _ _ _ _ _ _ _ Hp Hp2 E2) as (<- & <- & <- & <- & _).
        exists true, (LData d2). split; [reflexivity|]. split; [cbn; eauto|]. split; [|discriminate]. intros _.
        exists p, x, extra, rest. assert (content_ok (KSmall max x0) x) by (split; auto). do 5 (split; [auto|]).
        intros _. split; auto.
      * exists false, (LData d). split; [reflexivity|]. split; [cbn; eauto|]. split; [discriminate|].
        intros _ p' x' e' r' Hp' Hz' E' _ [_ Hc]. rewrite (Huniq _ _ _ _ Hp' Hz' E') in Hc.
        specialize (Hbig p x extra rest Hp eq_refl). lia.
    + destruct (fixed_decode_packet i f p x extra rest Hp (proj1 Ht)) as (v' & Ev' & E). assert (v' = v) by congruence. subst v'.
      rewrite E. cbn [bind]. eexists true, _. split; [reflexivity|]. split; [exact I|]. split; [|discriminate].
      intros _. exists p, x, extra, rest. assert (content_ok (KFixed x0) x) by (split; auto). do 5 (split; [auto|]).
      intros ->. split; [auto|]. split; [exact Hp|reflexivity].
    + unfold time_decode. destruct (fixed_decode_packet i f p x extra rest Hp (proj1 Ht)) as (v' & Ev' & E).
      assert (v' = v) by congruence. subst v'.
      rewrite E. cbn [bind f_len]. eexists _, _. split; [reflexivity|]. split; [exact I|].
      destruct ((zlen x <? 10) || (zlen x >? 23)) eqn:Hl.
      * split; [discriminate|]. intros _ p' x' e' r' Hp' Hz' E' _ [_ Hc]. rewrite (Huniq _ _ _ _ Hp' Hz' E') in Hc. lia.
      * split; [|discriminate]. intros _. exists p, x, extra, rest. assert (content_ok KTime x) by (split; auto; lia).
        do 5 (split; [auto|]). intros ->. split; [auto|]. split; [exact Hp|reflexivity].
  - assert (Hfail : forall l', leaf_decode k i l v = Ok (false, l') -> leaf_inv k i l' -> exists ok l', leaf_decode k i l v = Ok (ok, l') /\ leaf_inv k i l' /\
      (ok = true -> exists p x extra rest, id_packet i primitive p x extra /\ v_make (p ++ rest) = Ok v /\
         bytes (p ++ rest) /\ tame (p ++ rest) /\ content_ok k x /\ (extra = [] -> leaf_rep k i l' x)) /\
      (ok = false -> forall p x extra rest, id_packet i primitive p x extra -> zlen (p ++ rest) < 2^63 -> v_make (p ++ rest) = Ok v ->
         bytes x -> content_ok k x -> False)).
    { intros l' E HI. exists false, l'. split; [exact E|]. split; [exact HI|]. split; [discriminate|]. intros _ p x extra rest Hp Hz E' _ _. eapply Hno; eauto. }
    destruct k as [| |max x0|x0|]; destruct l as [d|f|]; cbn [leaf_inv] in Hinv; try tauto; cbn [leaf_decode] in *.
    + apply (Hfail (LData d)); [unfold bool_decode; rewrite Hh; reflexivity|exact Hinv].
    + apply (Hfail LNull); [unfold null_decode; rewrite Hh; reflexivity|exact I].
    + apply (Hfail (LData d)); [|exact Hinv]. destruct Hinv as (y & Hr). destruct Hk as (Hok & _).
      destruct (is_valid v) eqn:Hv; [|unfold small_decode; rewrite Hv; reflexivity].
      pose proof (small_decode_refines i max d y v Hok Hr) as Href.
      rewrite (small_decode_content_header i max v Hv Hh) in Href. rewrite Href. reflexivity.
    + apply (Hfail (LFixed f)); [|exact I]. unfold fixed_decode. rewrite Hh. cbn [bind negb].
      destruct i; [reflexivity|]. destruct (is_valid v) eqn:Hv; [|reflexivity].
      destruct (packet_begin v (good_view_valid _ Hg Hv)) as (it9 & E). rewrite E. reflexivity.
    + apply (Hfail (LFixed f)); [|exact I]. unfold time_decode.
      assert (E : fixed_decode i f v = Ok (false, f)).
      { unfold fixed_decode. rewrite Hh. cbn [bind negb].
        destruct i; [reflexivity|]. destruct (is_valid v) eqn:Hv; [|reflexivity].
        destruct (packet_begin v (good_view_valid _ Hg Hv)) as (it9 & E). rewrite E. reflexivity. }
      rewrite E. cbn [bind]. destruct (_ || _); reflexivity.
Qed.

(** ** Decoding is defined, and leaves an object of the type *)
Definition dec_total (t : ty) : Prop :=
  wf_ty t -> safe t -> forall s v, obj t s -> good_view v -> (is_valid v = true \/ guarded t) ->
  exists ok s', decode t s v = Ok (ok, s') /\ obj t s'.
Lemma good_iter_next_any it : good_iter it -> exists it', it_next it = Ok it' /\ good_iter it'.
Proof.
  intros Hg. destruct (is_valid (it_view it)) eqn:Hv.
  - destruct (good_iter_next it Hg Hv) as (it' & E & H & _). eauto.
  - destruct (good_view_invalid _ (good_iter_view _ Hg) Hv) as (_ & H1 & H2). unfold it_next, v_ber_length. rewrite H1, H2.
    change (u64 (0 + 0)) with 0. pose proof (zlen_nonneg (it_buf it)). replace (_ >? _) with false by lia. rewrite zdrop_0.
    destruct Hg as (Hb & Ht & _). destruct (assign_good (v_tag (it_view it)) _ Hb Ht) as (w & E & _). rewrite E. cbn [bind].
    eexists. split; [reflexivity|]. split; [auto|split; [auto|]]. exists (v_tag (it_view it)). exact E.
Qed.
Lemma member_total k t m v : dec_total t -> wf_ty t -> safe t -> match m with Some s => obj t s | None => k <> Mand end ->
  good_view v -> (is_valid v = true \/ (k = Mand -> guarded t)) ->
  exists ok m', member_decode k (type_ids t) (init t) (decode t) m v = Ok (ok, m') /\
    match m' with Some s => obj t s | None => k <> Mand end.
Proof.
  intros Ht Hwf Hs Hm Hg Hv.
  assert (Hopt : k <> Mand -> exists ok m', (if is_valid v then
        let* c := v_class v in
        if has_id (type_ids t) c (v_tag v) then let* (ok, s) := decode t (init t) v in Ok (ok, Some s) else Ok (false, m)
      else Ok (true, None)) = Ok (ok, m') /\ match m' with Some s => obj t s | None => k <> Mand end).
  { intros Hk. destruct (is_valid v) eqn:Hv2; [|exists true, None; auto].
    destruct (packet_facts _ (good_view_valid _ Hg Hv2)) as (_ & c & kk & E & _). rewrite E. cbn [bind].
    destruct (has_id _ _ _).
    - destruct (Ht Hwf Hs (init t) v (init_obj t Hwf) Hg ltac:(auto)) as (ok & s' & E2 & H). rewrite E2. cbn [bind]. eauto.
    - exists false, m. auto. }
  destruct k; cbn [member_decode]; [|apply Hopt; discriminate|apply Hopt; discriminate].
  destruct m as [s|]; [|tauto].
  destruct (Ht Hwf Hs s v Hm Hg) as (ok & s' & E2 & H); [tauto|]. rewrite E2. cbn [bind]. eauto.
Qed.
Lemma decode_seq_total cs : each dec_total cs -> wf_comps cs -> safe_comps cs -> guarded_comps cs ->
  forall ms it, obj_comps cs ms -> good_iter it -> exists ok ms', decode_seq cs ms it = Ok (ok, ms') /\ obj_comps cs ms'.
Proof.
  induction cs as [|k ids t cs IH]; intros He Hwf Hs Hgu ms it Ho Hg; destruct ms as [|m ms]; cbn [obj_comps] in Ho; try tauto.
  - cbn [decode_seq]. exists true, []. split; [reflexivity|exact I].
  - destruct He as [Ht He], Hwf as [Hwt Hwf], Hs as [Hst Hs], Hgu as [Hgt Hgu], Ho as [Hm Ho]. cbn [decode_seq].
    pose proof (good_iter_view _ Hg) as Hgv.
    assert (Hhere : exists here : bool, match k with
                   | Mand => Ok true
                   | _ => if is_valid (it_view it) then let* c := v_class (it_view it) in Ok (has_id ids c (v_tag (it_view it))) else Ok false
                   end = Ok here /\ (here = true -> is_valid (it_view it) = true \/ (k = Mand -> guarded t)) /\ (here = false -> k <> Mand)).
    { destruct k; [exists true; split; [auto|split; [auto|discriminate]]| |];
        (destruct (is_valid (it_view it)) eqn:Hv;
         [destruct (packet_facts _ (good_view_valid _ Hgv Hv)) as (_ & c & kk & E & _); rewrite E; cbn [bind];
          eexists; split; [reflexivity|]; split; [auto|discriminate]
         |exists false; split; [auto|split; [auto|discriminate]]]). }
    destruct Hhere as (here & E & Hh & Hk). rewrite E. cbn [bind]. destruct here.
    + destruct (member_total k t m (it_view it) Ht Hwt Hst Hm Hgv (Hh eq_refl)) as (ok & m' & E2 & Hm'). rewrite E2. cbn [bind].
      destruct ok; cbn [negb]; [|eexists false, _; split; [reflexivity|split; auto]].
      destruct (good_iter_next_any it Hg) as (it' & E3 & Hg'). rewrite E3. cbn [bind].
      destruct (IH He Hwf Hs Hgu ms it' Ho Hg') as (ok & ms' & E4 & Ho'). rewrite E4. cbn [bind]. eexists _, _. split; [reflexivity|split; auto].
    + destruct (IH He Hwf Hs Hgu ms it Ho Hg) as (ok & ms' & E4 & Ho'). rewrite E4. cbn [bind]. eexists _, _. split; [reflexivity|split; auto].
Qed.
Lemma decode_member_total cs : each dec_total cs -> wf_comps cs -> safe_comps cs ->
  forall ms counts c tag v, obj_comps cs ms -> length counts = comps_length cs -> packet_view v ->
  exists r, decode_member cs ms counts c tag v = Ok r /\
    match r with None => True | Some (_, (ms', counts')) => obj_comps cs ms' /\ length counts' = comps_length cs end.
Proof.
  induction cs as [|k ids t cs IH]; intros He Hwf Hs ms counts c tag v Ho Hl Hv; cbn [decode_member].
  - eexists; split; [reflexivity|exact I].
  - destruct ms as [|m ms]; cbn [obj_comps] in Ho; try tauto. destruct counts as [|n counts]; [discriminate|].
    destruct He as [Ht He], Hwf as [Hwt Hwf], Hs as [Hst Hs], Ho as [Hm Ho]. cbn [length comps_length] in Hl. injection Hl as Hl.
    destruct (has_id ids c tag).
    + destruct (member_total k t m v Ht Hwt Hst Hm (or_intror Hv)) as (ok & m' & E & Hm'); [left; apply packet_facts; auto|].
      rewrite E. cbn [bind]. eexists; split; [reflexivity|]. split; [split; auto|cbn; lia].
    + destruct (IH He Hwf Hs ms counts c tag v Ho Hl Hv) as (r & E & Hr). rewrite E. cbn [bind].
      eexists; split; [reflexivity|]. destruct r as [[ok [ms' counts']]|]; [|exact I]. destruct Hr. split; [split; auto|cbn; lia].
Qed.
Lemma set_loop_total cs ext : each dec_total cs -> wf_comps cs -> safe_comps cs ->
  forall fuel it ms counts, obj_comps cs ms -> length counts = comps_length cs -> good_iter it -> (length (it_buf it) < fuel)%nat ->
  exists ok ms' counts', set_loop (decode_member cs) ext fuel it ms counts = Ok (ok, (ms', counts')) /\
    obj_comps cs ms' /\ length counts' = comps_length cs.
Proof.
  intros He Hwf Hs. induction fuel as [|fuel IH]; intros it ms counts Ho Hl Hg Hf; [lia|]. cbn [set_loop].
  unfold it_at_end. destruct (is_valid (it_view it)) eqn:Hv; cbn [negb]; [|eexists _, _, _; split; [reflexivity|auto]].
  pose proof (good_view_valid _ (good_iter_view _ Hg) Hv) as Hpv.
  destruct (packet_facts _ Hpv) as (_ & c & k & E & _). rewrite E. cbn [bind].
  destruct (decode_member_total cs He Hwf Hs ms counts c (v_tag (it_view it)) (it_view it) Ho Hl Hpv) as (r & E2 & Hr).
  rewrite E2. cbn [bind]. destruct (good_iter_next it Hg Hv) as (it' & E3 & Hg' & Hlt).
  destruct r as [[[|] [ms' counts']]|].
  - rewrite E3. cbn [bind]. apply IH; try tauto. lia.
  - eexists _, _, _; split; [reflexivity|tauto].
  - destruct ext.
    + rewrite E3. cbn [bind]. apply IH; auto. lia.
    + unfold v_identifier. rewrite E. cbn [bind]. eexists _, _, _; split; [reflexivity|auto].
Qed.
Lemma set_finish_obj cs : forall ms counts, obj_comps cs ms -> obj_comps cs (snd (set_finish cs ms counts)).
Proof.
  induction cs as [|k ids t cs IH]; intros ms counts Ho; destruct ms as [|m ms]; cbn [obj_comps] in Ho; try tauto; cbn [set_finish].
  destruct counts as [|n counts]; [exact Ho|]. destruct Ho as [Hm Ho].
  specialize (IH ms counts Ho). destruct (set_finish cs ms counts) as [ok ms'] eqn:E. cbn [snd] in IH.
  destruct (n =? 0).
  - destruct k; cbn [snd]; [split; auto|split; [discriminate|auto]|split; [discriminate|auto]].
  - destruct (n >? 1); cbn [snd]; split; auto.
Qed.
Lemma seqof_loop_total t : dec_total t -> wf_ty t -> safe t -> forall fuel it, good_iter it -> (length (it_buf it) < fuel)%nat ->
  exists ok l, seqof_loop (decode t (init t)) fuel it = Ok (ok, l) /\ Forall (obj t) l.
Proof.
  intros Ht Hwf Hs. induction fuel as [|fuel IH]; intros it Hg Hf; [lia|]. cbn [seqof_loop]. unfold it_at_end.
  destruct (is_valid (it_view it)) eqn:Hv; cbn [negb]; [|eexists _, _; split; [reflexivity|constructor]].
  destruct (Ht Hwf Hs (init t) (it_view it) (init_obj t Hwf) (good_iter_view _ Hg) ltac:(auto)) as (ok & s & E & Ho).
  rewrite E. cbn [bind]. destruct ok; cbn [negb]; [|eexists _, _; split; [reflexivity|auto]].
  destruct (good_iter_next it Hg Hv) as (it' & E3 & Hg' & Hlt). rewrite E3. cbn [bind].
  destruct (IH it' Hg' ltac:(lia)) as (ok & l & E4 & Hl). rewrite E4. cbn [bind]. eexists _, _; split; [reflexivity|auto].
Qed.
Lemma find_label_lt cs c tag n : find_label cs c tag = Some n -> (n < comps_length cs)%nat.
Proof.
  revert n. induction cs as [|k ids t cs IH]; intros n; cbn; [discriminate|].
  destruct (has_id ids c tag); [intros H; injection H; lia|].
  destruct (find_label cs c tag); cbn; [|discriminate]. intros H. injection H as <-. specialize (IH _ eq_refl). lia.
Qed.
Lemma select_lt g cs c tag n : select g cs c tag = Some n -> (n < comps_length cs)%nat.
Proof.
  unfold select. destruct g; [|apply find_label_lt].
  destruct (find_label cs universal tag) eqn:E1; [intros H; injection H as <-; eapply find_label_lt; eauto|].
  destruct (find_label cs application tag) eqn:E2; [intros H; injection H as <-; eapply find_label_lt; eauto|].
  destruct (find_label cs context_specific tag) eqn:E3; [intros H; injection H as <-; eapply find_label_lt; eauto|].
  apply find_label_lt.
Qed.
Lemma decode_alt_total cs : each dec_total cs -> wf_comps cs -> safe_comps cs ->
  forall n k v, (n < comps_length cs)%nat -> packet_view v ->
  exists ok s, decode_alt cs n k v = Ok (ok, SAlt k s) /\ obj_alt cs n s.
Proof.
  induction cs as [|kk ids t cs IH]; intros He Hwf Hs n k v Hn Hv; cbn [comps_length] in Hn; [lia|].
  destruct He as [Ht He], Hwf as [Hwt Hwf], Hs as [Hst Hs]. destruct n as [|n]; cbn [decode_alt obj_alt].
  - destruct (Ht Hwt Hst (init t) v (init_obj t Hwt) (or_intror Hv)) as (ok & s & E & Ho); [left; apply packet_facts; auto|].
    rewrite E. cbn [bind]. eauto.
  - apply IH; auto. lia.
Qed.
Lemma good_iter_packet it : good_iter it -> is_valid (it_view it) = true -> packet_view (it_view it).
Proof. intros H. apply good_view_valid. apply good_iter_view. exact H. Qed.

Theorem decode_total t : dec_total t.
Proof.
  induction t as [k i|i t IH|i cs IH|i ext cs IH|g o cs IH] using schema_ind; intros Hwf Hs s v Ho Hg Hv.
  - destruct s as [l| | |]; cbn [obj] in Ho; try tauto. cbn [decode].
    destruct (leaf_decode_good k i l v Hwf Ho Hg) as (ok & l' & E & Hl & _). rewrite E. cbn [bind]. eauto.
  - destruct s as [|l| |]; cbn [obj] in Ho; try tauto. cbn [decode]. destruct Hwf as [Hi Hwf].
    destruct (header_good v i constructed Hg) as [(p & x & extra & rest & Hp & Ev & Hb & Ht & Hh)|[Hh _]]; rewrite Hh; cbn [bind negb].
    2:{ eexists _, _. split; [reflexivity|constructor]. }
    destruct (content_iter_good _ _ _ _ _ _ Hp Hb Ht Ev) as (it & E & _ & Hgi & _). rewrite E. cbn [bind].
    destruct (seqof_loop_total t IH Hwf Hs (rounds it) it Hgi) as (ok & l' & E2 & Hl); [unfold rounds; lia|].
    rewrite E2. cbn [bind]. eexists _, _. split; [reflexivity|exact Hl].
  - destruct s as [| |ms|]; cbn [obj] in Ho; try tauto. cbn [decode]. destruct Hwf as [Hi Hwf], Hs as [Hs Hgu].
    destruct (is_valid v) eqn:Hval; cbn [negb]; [|eexists _, _; split; [reflexivity|exact Ho]].
    destruct (header_good v i constructed Hg) as [(p & x & extra & rest & Hp & Ev & Hb & Ht & Hh)|[Hh _]]; rewrite Hh; cbn [bind negb].
    2:{ destruct (packet_facts _ (good_view_valid _ Hg Hval)) as (_ & c & kk & E & _). unfold v_identifier. rewrite E. cbn [bind].
        eexists _, _. split; [reflexivity|exact Ho]. }
    destruct (comps_length cs =? 0)%nat; [eexists _, _; split; [reflexivity|exact Ho]|].
    destruct (content_iter_good _ _ _ _ _ _ Hp Hb Ht Ev) as (it & E & _ & Hgi & _). rewrite E. cbn [bind].
    destruct (decode_seq_total cs IH Hwf Hs Hgu ms it Ho Hgi) as (ok & ms' & E2 & Hl).
    rewrite E2. cbn [bind]. eexists _, _. split; [reflexivity|exact Hl].
  - destruct s as [| |ms|]; cbn [obj] in Ho; try tauto. cbn [decode]. destruct Hwf as [Hi Hwf].
    destruct (is_valid v) eqn:Hval; cbn [negb]; [|eexists _, _; split; [reflexivity|exact Ho]].
    destruct (header_good v i constructed Hg) as [(p & x & extra & rest & Hp & Ev & Hb & Ht & Hh)|[Hh _]]; rewrite Hh; cbn [bind negb].
    2:{ destruct (packet_facts _ (good_view_valid _ Hg Hval)) as (_ & c & kk & E & _). unfold v_identifier. rewrite E. cbn [bind].
        eexists _, _. split; [reflexivity|exact Ho]. }
    destruct (comps_length cs =? 0)%nat; [eexists _, _; split; [reflexivity|exact Ho]|].
    destruct (content_iter_good _ _ _ _ _ _ Hp Hb Ht Ev) as (it & E & _ & Hgi & _). rewrite E. cbn [bind].
    destruct (set_loop_total cs ext IH Hwf Hs (rounds it) it ms (zrep (Z.of_nat (comps_length cs)) 0) Ho) as (ok & ms' & counts' & E2 & Ho' & _);
      [unfold zrep; rewrite repeat_length; lia|exact Hgi|unfold rounds; lia|].
    rewrite E2. cbn [bind]. destruct ok; cbn [negb]; [|eexists _, _; split; [reflexivity|exact Ho']].
    pose proof (set_finish_obj cs ms' counts' Ho') as Hf. destruct (set_finish cs ms' counts') as [ok ms2]. cbn [snd] in Hf.
    eexists _, _. split; [reflexivity|exact Hf].
  - destruct s as [| | |n0 s0]; cbn [obj] in Ho; try tauto. cbn [decode]. destruct Hwf as (Hi & _ & Hwf). cbn [safe] in Hs.
    assert (Hdec : exists content, match o with
        | None => Ok (match g with CGen => Some v | CLib => if is_valid v then Some v else None end)
        | Some i => if negb (is_valid v) then Ok None
                    else let* ok := has_correct_header v i constructed in
                         if negb ok then Ok None
                         else let* it := content_iter i v in Ok (if is_valid (it_view it) then Some (it_view it) else None)
        end = Ok content /\ match content with Some w => packet_view w | None => True end).
    { destruct o as [i|].
      - destruct (is_valid v) eqn:Hval; cbn [negb]; [|exists None; auto].
        destruct (header_good v i constructed Hg) as [(p & x & extra & rest & Hp & Ev & Hb & Ht & Hh)|[Hh _]]; rewrite Hh; cbn [bind negb].
        2:{ exists None; auto. }
        destruct (content_iter_good _ _ _ _ _ _ Hp Hb Ht Ev) as (it & E & _ & Hgi & _). rewrite E. cbn [bind].
        destruct (is_valid (it_view it)) eqn:Hvi; (eexists; split; [reflexivity|]); [apply good_iter_packet; auto|exact I].
      - destruct g.
        + eexists; split; [reflexivity|]. destruct Hv as [Hv|Hv]; [|destruct Hv]. apply good_view_valid; auto.
        + destruct (is_valid v) eqn:Hval; (eexists; split; [reflexivity|]); [apply good_view_valid; auto|exact I]. }
    destruct Hdec as (content & Ec & Hc). rewrite Ec. cbn [bind].
    destruct content as [w|]; [|eexists _, _; split; [reflexivity|exact Ho]].
    destruct (packet_facts _ Hc) as (_ & c & kk & E & _).
    assert (Hcl : exists c', match g with CGen => Ok universal | CLib => v_class w end = Ok c') by (destruct g; eauto).
    destruct Hcl as (c' & Ec'). rewrite Ec'. cbn [bind]. destruct (select g cs c' (v_tag w)) as [n|] eqn:Hsel.
    + destruct (decode_alt_total cs IH Hwf Hs n n w (select_lt _ _ _ _ _ Hsel) Hc) as (ok & s' & E2 & Ho').
      rewrite E2. eexists _, _. split; [reflexivity|exact Ho'].
    + assert (Hid : exists r, match g with CGen => v_identifier w | CLib => Ok (universal, 0) end = Ok r)
        by (destruct g; [unfold v_identifier; rewrite E; cbn [bind]; eauto|eauto]).
      destruct Hid as (r & Er). rewrite Er. cbn [bind]. eexists _, _. split; [reflexivity|exact Ho].
Qed.

(** ** A successful decode has seen a packet with an identifier of the type *)
Lemma has_id_In ids c tag : has_id ids c tag = true <-> In (c, tag) ids.
Proof.
  unfold has_id. rewrite existsb_exists. split.
  - intros ([c' t'] & Hin & E). apply id_eqb_true in E. destruct E as [-> ->]. exact Hin.
  - intros H. exists (c, tag). split; [exact H|]. apply id_eqb_true. auto.
Qed.
Lemma has_id_false ids c tag : has_id ids c tag = false <-> ~ In (c, tag) ids.
Proof. rewrite <- has_id_In. destruct (has_id ids c tag); split; intros; try congruence; try tauto. Qed.
Definition sees_id (v : view) (ids : list (class * Z)) : Prop :=
  exists p c con t x rest, v = pview p t x rest /\ ber_packet p c con t x /\ zlen (p ++ rest) < 2^63 /\ In (c, t) ids.
Lemma id_packet_sees i con p x extra rest v : id_packet i con p x extra -> zlen (p ++ rest) < 2^63 -> v_make (p ++ rest) = Ok v ->
  sees_id v [outer_id i].
Proof.
  intros Hp Hz Ev. destruct (id_packet_outer _ _ _ _ _ Hp) as (y & HP).
  pose proof (pview_make _ _ _ _ _ rest 0 HP Hz) as E. unfold v_make in Ev.
  exists p, (id_class i), (shape i con), (id_tag i), y, rest. split; [congruence|]. split; [exact HP|]. split; [exact Hz|]. left. reflexivity.
Qed.
Definition dec_sound (t : ty) : Prop :=
  wf_ty t -> forall s v s', obj t s -> good_view v -> decode t s v = Ok (true, s') ->
    (forall i, own_id t = Some i -> exists p x extra rest, id_packet i (own_con t) p x extra /\ zlen (p ++ rest) < 2^63 /\
                                     v_make (p ++ rest) = Ok v) /\
    is_valid v = true /\ (labelled t -> sees_id v (type_ids t)).
Lemma sound_of_own t v i p x extra rest : own_id t = Some i -> id_packet i (own_con t) p x extra -> zlen (p ++ rest) < 2^63 ->
  v_make (p ++ rest) = Ok v ->
  (forall i, own_id t = Some i -> exists p x extra rest, id_packet i (own_con t) p x extra /\ zlen (p ++ rest) < 2^63 /\
                                     v_make (p ++ rest) = Ok v) /\
    is_valid v = true /\ (labelled t -> sees_id v (type_ids t)).
Proof.
  intros Ho Hp Hz Ev. split; [|split].
  - intros j Hj. assert (j = i) by congruence. subst j. exists p, x, extra, rest. auto.
  - destruct (header_packet _ _ _ _ _ _ Hp Hz) as (v' & E & Hv & _). assert (v' = v) by congruence. subst. exact Hv.
  - intros _. replace (type_ids t) with [outer_id i]; [eapply id_packet_sees; eauto|].
    destruct t as [| | | |g [j|] cs]; cbn in Ho |- *; congruence.
Qed.
Lemma decode_alt_sound cs : each dec_sound cs -> wf_comps cs -> forall n k v s', good_view v ->
  decode_alt cs n k v = Ok (true, s') -> is_valid v = true /\ (labelled_comps cs -> sees_id v (comps_ids cs)).
Proof.
  induction cs as [|kk ids t cs IH]; intros He Hwf n k v s' Hg E; destruct n as [|n]; cbn [decode_alt] in E; try discriminate;
    destruct He as [Ht He], Hwf as [Hwt Hwf]; cbn [labelled_comps comps_ids].
  - destruct (decode t (init t) v) as [[ok s]| |] eqn:E2; cbn [bind] in E; try discriminate.
    assert (ok = true) by congruence. subst ok.
    destruct (Ht Hwt _ _ _ (init_obj t Hwt) Hg E2) as (_ & Hv & Hl). split; [exact Hv|]. intros (-> & Hlt & _).
    destruct (Hl Hlt) as (p & c & con & tag & x & rest & H1 & H2 & H3 & H4). exists p, c, con, tag, x, rest.
    rewrite in_app_iff. auto 6.
  - destruct (IH He Hwf n k v s' Hg E) as (Hv & Hl). split; [exact Hv|]. intros (_ & _ & Hlc).
    destruct (Hl Hlc) as (p & c & con & tag & x & rest & H1 & H2 & H3 & H4). exists p, c, con, tag, x, rest.
    rewrite in_app_iff. auto 6.
Qed.
Theorem decode_sound t : dec_sound t.
Proof.
  induction t as [k i|i t IH|i cs IH|i ext cs IH|g o cs IH] using schema_ind; intros Hwf s v s' Ho Hg E.
  - destruct s as [l| | |]; cbn [obj] in Ho; try tauto. cbn [decode] in E.
    destruct (leaf_decode_good k i l v Hwf Ho Hg) as (ok & l' & E2 & Hl & Hok & _). rewrite E2 in E. cbn [bind] in E.
    assert (ok = true) by congruence. destruct (Hok H) as (p & x & extra & rest & Hp & Ev & Hb & Ht & _).
    exact (sound_of_own (TLeaf k i) v i p x extra rest eq_refl Hp (proj1 Ht) Ev).
  - destruct s as [|l| |]; cbn [obj] in Ho; try tauto. cbn [decode] in E.
    destruct (header_good v i constructed Hg) as [(p & x & extra & rest & Hp & Ev & Hb & Ht & Hh)|[Hh _]]; rewrite Hh in E;
      cbn [bind negb] in E; [|discriminate].
    exact (sound_of_own (TSeqOf i t) v i p x extra rest eq_refl Hp (proj1 Ht) Ev).
  - destruct s as [| |ms|]; cbn [obj] in Ho; try tauto. cbn [decode] in E.
    destruct (is_valid v) eqn:Hval in E; cbn [negb] in E; [|discriminate].
    destruct (header_good v i constructed Hg) as [(p & x & extra & rest & Hp & Ev & Hb & Ht & Hh)|[Hh _]]; rewrite Hh in E;
      cbn [bind negb] in E; [|destruct (v_identifier v); cbn [bind] in E; discriminate].
    exact (sound_of_own (TSeq i cs) v i p x extra rest eq_refl Hp (proj1 Ht) Ev).
  - destruct s as [| |ms|]; cbn [obj] in Ho; try tauto. cbn [decode] in E.
    destruct (is_valid v) eqn:Hval in E; cbn [negb] in E; [|discriminate].
    destruct (header_good v i constructed Hg) as [(p & x & extra & rest & Hp & Ev & Hb & Ht & Hh)|[Hh _]]; rewrite Hh in E;
      cbn [bind negb] in E; [|destruct (v_identifier v); cbn [bind] in E; discriminate].
    exact (sound_of_own (TSet i ext cs) v i p x extra rest eq_refl Hp (proj1 Ht) Ev).
  - destruct s as [| | |n0 s0]; cbn [obj] in Ho; try tauto. cbn [decode] in E. destruct Hwf as (Hi & _ & Hwf).
    destruct o as [i|].
    + destruct (is_valid v) eqn:Hval in E; cbn [negb bind] in E; [|discriminate].
      destruct (header_good v i constructed Hg) as [(p & x & extra & rest & Hp & Ev & Hb & Ht & Hh)|[Hh _]]; rewrite Hh in E;
        cbn [bind negb] in E; [|discriminate].
      exact (sound_of_own (TChoice g (Some i) cs) v i p x extra rest eq_refl Hp (proj1 Ht) Ev).
    + cbn [bind] in E. assert (Hgoal : is_valid v = true /\ (labelled_comps cs -> sees_id v (comps_ids cs))); [|
        split; [intros i Hc; discriminate|exact Hgoal]].
      destruct (match g with CGen => Some v | CLib => if is_valid v then Some v else None end) as [w|] eqn:Ew; [|discriminate].
      assert (w = v) by (destruct g; [congruence|]; destruct (is_valid v); congruence). subst w.
      destruct (match g with CGen => Ok universal | CLib => v_class v end) as [c| |]; cbn [bind] in E; try discriminate.
      destruct (select g cs c (v_tag v)) as [n|].
      * eapply decode_alt_sound; eauto.
      * destruct (match g with CGen => v_identifier v | CLib => Ok (universal, 0) end); cbn [bind] in E; discriminate.
Qed.

(** ** Decoding depends on the packet only *)
Definition same_packet (v w : view) : Prop :=
  is_valid v = is_valid w /\ v_class v = v_class w /\ v_construction v = v_construction w /\ v_tag v = v_tag w /\
  v_cl v = v_cl w /\ v_content v = v_content w /\ v_ber v = v_ber w /\
  (forall n, n = v_cl v -> v_read_content v n = v_read_content w n).
Lemma pview_same p c con t x rest rest' : ber_packet p c con t x -> zlen p < 2^63 ->
  same_packet (pview p t x rest) (pview p t x rest').
Proof.
  intros HP Hz. destruct (pview_byte0 _ _ _ _ _ rest HP) as [A1 A2]. destruct (pview_byte0 _ _ _ _ _ rest' HP) as [B1 B2].
  split; [reflexivity|]. split; [congruence|]. split; [congruence|]. split; [reflexivity|]. split; [reflexivity|].
  split; [rewrite !(pview_content _ _ _ _ _ _ HP); reflexivity|].
  split; [rewrite !(pview_ber _ _ _ _ _ _ HP Hz); reflexivity|].
  intros n Hn. change (v_cl (pview p t x rest)) with (zlen x) in Hn. subst n.
  rewrite !(v_read_content_pview _ _ _ _ _ _ HP). reflexivity.
Qed.
Lemma same_begin v w : same_packet v w -> v_begin v = v_begin w.
Proof. intros H. unfold v_begin. destruct H as (_ & _ & _ & _ & _ & -> & _). reflexivity. Qed.
Lemma same_header v w i con : same_packet v w -> has_correct_header v i con = has_correct_header w i con.
Proof.
  intros H. unfold has_correct_header. rewrite (same_begin v w H). destruct H as (-> & -> & -> & -> & _). reflexivity.
Qed.
Lemma same_content_iter v w i : same_packet v w -> content_iter i v = content_iter i w.
Proof. intros H. unfold content_iter. rewrite (same_begin v w H). reflexivity. Qed.
Lemma same_leaf k i l v w : same_packet v w -> leaf_decode k i l v = leaf_decode k i l w.
Proof.
  intros H. pose proof (same_begin v w H) as Hb. pose proof (same_header v w i primitive H) as Hh.
  destruct H as (H1 & H2 & H3 & H4 & H5 & H6 & H7 & H8).
  assert (Hf : forall f, fixed_decode i f v = fixed_decode i f w).
  { intros f. unfold fixed_decode. rewrite Hh, Hb, H1, H5, H7. reflexivity. }
  destruct k, l; cbn [leaf_decode]; try reflexivity.
  - unfold bool_decode. rewrite Hh, Hb, <- H5. destruct (Z.eqb_spec (v_cl v) 1) as [E|E]; [|reflexivity].
    rewrite (H8 1) by lia. reflexivity.
  - unfold null_decode. rewrite Hh, Hb, H5. reflexivity.
  - unfold small_decode, view_has_id, v_identifier. rewrite H1, H2, H3, H4, Hb, (H8 (v_cl v) eq_refl), H5. reflexivity.
  - rewrite Hf. reflexivity.
  - unfold time_decode. rewrite Hf. reflexivity.
Qed.
Theorem decode_same t : forall s v w, same_packet v w -> decode t s v = decode t s w.
Proof.
  induction t as [k i|i t IH|i cs IH|i ext cs IH|g o cs IH] using schema_ind; intros s v w H; destruct s as [l|l|ms|n0 s0];
    cbn [decode]; try reflexivity.
  - rewrite (same_leaf k i l v w H). reflexivity.
  - rewrite (same_header v w i constructed H), (same_content_iter v w i H). reflexivity.
  - rewrite (same_header v w i constructed H), (same_content_iter v w i H). destruct H as (-> & H2 & _ & H4 & _).
    unfold v_identifier. rewrite H2, H4. reflexivity.
  - rewrite (same_header v w i constructed H), (same_content_iter v w i H). destruct H as (-> & H2 & _ & H4 & _).
    unfold v_identifier. rewrite H2, H4. reflexivity.
  - assert (Halt : forall n k, decode_alt cs n k v = decode_alt cs n k w).
    { clear - IH H. induction cs as [|kk ids t cs IHc]; intros n k; destruct n as [|n]; cbn [decode_alt]; try reflexivity.
      - destruct IH as [Ht _]. rewrite (Ht (init t) v w H). reflexivity.
      - apply IHc. apply IH. }
    destruct o as [i|].
    + rewrite (same_header v w i constructed H), (same_content_iter v w i H). destruct H as (-> & _). reflexivity.
    + pose proof H as (H1 & H2 & _ & H4 & _). cbn [bind]. rewrite H1. unfold v_identifier.
      destruct g; [|destruct (is_valid w)]; cbn [bind]; try rewrite H2; rewrite ?H4; try reflexivity.
      * destruct (select _ _ _ _); [apply Halt|reflexivity].
      * destruct (v_class w); cbn [bind]; try reflexivity. destruct (select _ _ _ _); [apply Halt|reflexivity].
Qed.
