(** Proofs about SET: what a successful decode means, order independence; SEQUENCE with trailing members. *)
From Verif Require Import Base Ident Spec IdentProofs HeaderProofs View ViewProofs Prims PrimProofs ContProofs Schema SchemaSpec SchemaProofs SchemaDecode SchemaRound.
Ltac Zify.zify_post_hook ::= Z.div_mod_to_equations.

Lemma filter_perm {A} (f : A -> bool) l l' : Permutation l l' -> Permutation (filter f l) (filter f l').
Proof.
  induction 1 as [|x l l' H IH|x y l|l1 l2 l3 H1 IH1 H2 IH2]; cbn; auto.
  - destruct (f x); auto.
  - destruct (f x), (f y); auto. apply perm_swap.
  - eapply perm_trans; eauto.
Qed.
Lemma set_final_perm cs : forall ms qs qs' ms', Permutation qs qs' -> set_final cs ms qs ms' -> set_final cs ms qs' ms'.
Proof.
  induction cs as [|k ids t cs IH]; intros ms qs qs' ms' Hp H; destruct ms as [|m ms], ms' as [|m' ms']; cbn [set_final] in *; try tauto.
  destruct H as [H1 H2]. split; [|eapply IH; [apply filter_perm; eauto|exact H2]].
  pose proof (filter_perm (pkt_has ids) _ _ Hp) as Hf. destruct (filter (pkt_has ids) qs) as [|q [|q2 l]].
  - apply Permutation_nil in Hf. rewrite Hf. exact H1.
  - apply Permutation_length_1_inv in Hf. rewrite Hf. exact H1.
  - tauto.
Qed.
Lemma unknown_perm cs qs qs' : Permutation qs qs' -> unknown cs qs = [] -> unknown cs qs' = [].
Proof. intros Hp H. pose proof (filter_perm (fun q => negb (pkt_has (comps_ids cs) q)) _ _ Hp) as Hf.
  unfold unknown in *. rewrite H in Hf. apply Permutation_nil in Hf. exact Hf. Qed.
Lemma set_final_fun cs : forall ms qs m1 m2, set_final cs ms qs m1 -> set_final cs ms qs m2 -> m1 = m2.
Proof.
  induction cs as [|k ids t cs IH]; intros ms qs m1 m2 H1 H2; destruct ms as [|m ms], m1 as [|a m1], m2 as [|b m2]; cbn [set_final] in *; try tauto.
  destruct H1 as [A1 A2], H2 as [B1 B2]. f_equal; [|eauto].
  destruct (filter (pkt_has ids) qs) as [|q [|q2 l]]; [destruct A1, B1; congruence|congruence|tauto].
Qed.

(** the loop, packet by packet *)
Fixpoint set_fold (cs : comps) (ext : bool) (qs : list pkt) (ms : list (option st)) (counts : list Z) : res (bool * (list (option st) * list Z)) :=
  match qs with
  | [] => Ok (true, (ms, counts))
  | q :: qs =>
      let* r := decode_member cs ms counts (pk_class q) (pk_tag q) (pkt_view q) in
      match r with
      | Some (false, s) => Ok (false, s)
      | Some (true, (ms, counts)) => set_fold cs ext qs ms counts
      | None => if ext then set_fold cs ext qs ms counts else Ok (false, (ms, counts))
      end
  end.
Lemma member_same k ids new dec m v w : same_packet v w -> (forall s, dec s v = dec s w) ->
  member_decode k ids new dec m v = member_decode k ids new dec m w.
Proof.
  intros (H1 & H2 & _ & H4 & _) Hd. destruct k; cbn [member_decode]; rewrite ?H1, ?H2, ?H4, ?Hd; try reflexivity.
  destruct m; [|reflexivity]. rewrite Hd. reflexivity.
Qed.
Lemma decode_member_same cs : forall ms counts c tag v w, same_packet v w ->
  decode_member cs ms counts c tag v = decode_member cs ms counts c tag w.
Proof.
  induction cs as [|k ids t cs IH]; intros ms counts c tag v w H; cbn [decode_member]; [reflexivity|].
  destruct ms as [|m ms]; [reflexivity|]. destruct counts as [|n counts]; [reflexivity|].
  rewrite (member_same k (type_ids t) (init t) (decode t) m v w H (fun s => decode_same t s v w H)).
  rewrite (IH ms counts c tag v w H). reflexivity.
Qed.
Definition pkts (qs : list pkt) : list Z := concat (map pk_ber qs).
Lemma pkts_assign qs tail t0 : Forall pkt_ok qs -> no_packet tail -> zlen (pkts qs ++ tail) < 2^63 ->
  exists v, v_assign t0 (pkts qs ++ tail) = Ok v /\ is_valid v = match qs with [] => false | _ => true end.
Proof.
  intros H Ht Hz. destruct H as [|q qs Hq _]; [apply Ht|]. unfold pkts in *. cbn [map concat] in *. rewrite <- app_assoc in *.
  eexists. split; [apply (pview_make _ _ _ _ _ _ t0 Hq Hz)|reflexivity].
Qed.
Lemma set_loop_fold cs ext tail : no_packet tail -> forall qs fuel it ms counts, Forall pkt_ok qs ->
  iter_on it (pkts qs ++ tail) -> zlen (pkts qs ++ tail) < 2^63 -> (length qs < fuel)%nat ->
  set_loop (decode_member cs) ext fuel it ms counts = set_fold cs ext qs ms counts.
Proof.
  intros Ht. induction qs as [|q qs IH]; intros fuel it ms counts Hq Hi Hz Hf; (destruct fuel as [|fuel]; [cbn in Hf; lia|]);
    cbn [set_loop set_fold]; unfold it_at_end.
  - destruct Hi as (Hb & t0 & E). destruct (Ht t0) as (v & Ev & Hv). cbn in E. assert (it_view it = v) by congruence. subst v.
    rewrite Hv. reflexivity.
  - inversion Hq as [|? ? Hq1 Hq2]; subst. unfold pkts in Hi, Hz. cbn [map concat] in Hi, Hz. fold (pkts qs) in Hi, Hz.
    rewrite <- app_assoc in Hi, Hz.
    destruct (iter_on_packet it _ _ _ _ _ _ Hi Hq1 Hz) as (Ev & _ & Ec & En). rewrite Ev in *. rewrite pview_valid. cbn [negb]. rewrite Ec. cbn [bind].
    change (v_tag (pview (pk_ber q) (pk_tag q) (pk_content q) (pkts qs ++ tail))) with (pk_tag q).
    assert (Hzq : zlen (pk_ber q) < 2^63) by (rewrite zlen_app in Hz; pose proof (zlen_nonneg (pkts qs ++ tail)); lia).
    rewrite (decode_member_same cs ms counts _ _ _ (pkt_view q) (pview_same _ _ _ _ _ (pkts qs ++ tail) [] Hq1 Hzq)).
    assert (Hz2 : zlen (pkts qs ++ tail) < 2^63) by (rewrite zlen_app in Hz; pose proof (zlen_nonneg (pk_ber q)); lia).
    destruct (pkts_assign qs tail (pk_tag q) Hq2 Ht Hz2) as (v & E & _). rewrite E in En. cbn [bind] in En. rewrite En. cbn [bind].
    assert (Hi' : iter_on (Iter (pkts qs ++ tail) v) (pkts qs ++ tail)) by (split; [reflexivity|exists (pk_tag q); exact E]).
    cbn [length] in Hf.
    destruct (decode_member cs ms counts (pk_class q) (pk_tag q) (pkt_view q)) as [[[[|] [ms' counts']]|]| |]; cbn [bind]; try reflexivity.
    + apply IH; auto. lia.
    + destruct ext; [apply IH; auto; lia|]. unfold v_identifier. rewrite Ec. reflexivity.
Qed.

(** after the packets [done], in any order *)
Fixpoint acc (cs : comps) (ms0 : list (option st)) (done : list pkt) (ms : list (option st)) (counts : list Z) : Prop :=
  match cs, ms0, ms, counts with
  | CNil, [], [], [] => True
  | CCons k ids t cs, m0 :: ms0, m :: ms, n :: counts =>
      n = zlen (filter (pkt_has ids) done) /\
      match filter (pkt_has ids) done with
      | [] => m = m0
      | [q] => member_decode k (type_ids t) (init t) (decode t) m0 (pkt_view q) = Ok (true, m)
      | _ => True
      end /\ acc cs ms0 (filter (fun q => negb (pkt_has ids q)) done) ms counts
  | _, _, _, _ => False
  end.
Lemma acc_start cs : forall ms, obj_comps cs ms -> acc cs ms [] ms (zrep (Z.of_nat (comps_length cs)) 0).
Proof.
  unfold zrep. induction cs as [|k ids t cs IH]; intros ms Ho; destruct ms as [|m ms]; cbn [obj_comps] in Ho; try tauto; rewrite Nat2Z.id;
    cbn [comps_length repeat acc filter].
  destruct Ho as [_ Ho]. specialize (IH ms Ho). rewrite Nat2Z.id in IH. auto.
Qed.
Lemma filter_snoc {A} (f : A -> bool) l x : filter f (l ++ [x]) = filter f l ++ (if f x then [x] else []).
Proof. rewrite filter_app. cbn. destruct (f x); reflexivity. Qed.
Lemma has_id_app a b c tag : has_id (a ++ b) c tag = has_id a c tag || has_id b c tag.
Proof. apply existsb_app. Qed.
Lemma acc_step cs : forall ms0 done ms counts q r, acc cs ms0 done ms counts ->
  decode_member cs ms counts (pk_class q) (pk_tag q) (pkt_view q) = Ok r ->
  match r with
  | Some (true, (ms', counts')) => acc cs ms0 (done ++ [q]) ms' counts' /\ pkt_has (comps_ids cs) q = true
  | Some (false, _) => True
  | None => acc cs ms0 (done ++ [q]) ms counts /\ pkt_has (comps_ids cs) q = false
  end.
Proof.
  induction cs as [|k ids t cs IH]; intros ms0 done ms counts q r Ha E.
  - cbn [decode_member] in E. injection E as <-. destruct ms0, ms, counts; cbn [acc] in *; auto.
  - destruct ms0 as [|m0 ms0], ms as [|m ms], counts as [|n counts]; cbn [acc] in Ha; try tauto. destruct Ha as (Hn & Hm & Ha).
    cbn [decode_member comps_ids] in *. unfold pkt_has. rewrite has_id_app. fold (pkt_has ids q). fold (pkt_has (comps_ids cs) q).
    change (has_id ids (pk_class q) (pk_tag q)) with (pkt_has ids q) in *.
    destruct (pkt_has ids q) eqn:Hh.
    + destruct (member_decode k (type_ids t) (init t) (decode t) m (pkt_view q)) as [[ok m']| |] eqn:Em; cbn [bind] in E; try discriminate.
      injection E as <-. destruct ok; [|exact I]. cbn [orb]. split; [|reflexivity]. cbn [acc]. rewrite !filter_snoc, Hh. cbn [negb].
      rewrite app_nil_r. split; [rewrite zlen_app, zlen_1; lia|]. split; [|exact Ha].
      destruct (filter (pkt_has ids) done) as [|a l]; cbn [app]; [congruence|]. destruct (l ++ [q]) eqn:El; [destruct l; discriminate|exact I].
    + destruct (decode_member cs ms counts (pk_class q) (pk_tag q) (pkt_view q)) as [r'| |] eqn:Em; cbn [bind] in E; try discriminate.
      injection E as <-. specialize (IH ms0 _ ms counts q r' Ha Em). cbn [orb].
      destruct r' as [[[|] [ms' counts']]|]; cbn [acc]; try exact I; rewrite !filter_snoc, Hh; cbn [negb]; rewrite app_nil_r; tauto.
Qed.
Lemma fold_acc cs ext : forall qs ms0 done ms counts ms' counts', acc cs ms0 done ms counts ->
  set_fold cs ext qs ms counts = Ok (true, (ms', counts')) ->
  acc cs ms0 (done ++ qs) ms' counts' /\ (ext = true \/ unknown cs qs = []).
Proof.
  induction qs as [|q qs IH]; intros ms0 done ms counts ms' counts' Ha E; cbn [set_fold] in E.
  - injection E as <- <-. rewrite app_nil_r. auto.
  - destruct (decode_member cs ms counts (pk_class q) (pk_tag q) (pkt_view q)) as [r| |] eqn:Em; cbn [bind] in E; try discriminate.
    pose proof (acc_step cs ms0 done ms counts q r Ha Em) as Hs.
    replace (done ++ q :: qs) with ((done ++ [q]) ++ qs) by (rewrite <- app_assoc; reflexivity).
    destruct r as [[[|] [ms1 counts1]]|]; try discriminate.
    + destruct Hs as [Hs Hk]. destruct (IH _ _ _ _ _ _ Hs E) as [H1 H2]. split; [exact H1|]. unfold unknown. cbn [filter]. rewrite Hk. exact H2.
    + destruct Hs as [Hs Hk]. destruct ext; [|discriminate]. destruct (IH _ _ _ _ _ _ Hs E) as [H1 H2]. auto.
Qed.
Lemma finish_final cs : forall ms0 qs ms counts ms', acc cs ms0 qs ms counts -> set_finish cs ms counts = (true, ms') ->
  set_final cs ms0 qs ms'.
Proof.
  induction cs as [|k ids t cs IH]; intros ms0 qs ms counts ms' Ha E; destruct ms0 as [|m0 ms0], ms as [|m ms], counts as [|n counts];
    cbn [acc] in Ha; try tauto; cbn [set_finish] in E.
  - injection E as <-. exact I.
  - destruct Ha as (Hn & Hm & Ha). destruct (set_finish cs ms counts) as [ok2 ms2] eqn:E2.
    destruct (Z.eqb_spec n 0) as [H0|H0].
    + destruct k; [discriminate| |]; injection E as -> <-; cbn [set_final]; (split; [|eauto]);
        (destruct (filter (pkt_has ids) qs); [split; [discriminate|reflexivity]|rewrite zlen_cons in Hn; pose proof (zlen_nonneg l); lia]).
    + destruct (n >? 1) eqn:H1; [discriminate|]. injection E as -> <-. cbn [set_final]. split; [|eauto].
      destruct (filter (pkt_has ids) qs) as [|q [|q2 l]]; [cbn in Hn; lia|exact Hm|].
      rewrite !zlen_cons in Hn. pose proof (zlen_nonneg l). lia.
Qed.
(** conversely *)
Lemma unknown_cons cs ids k t qs : filter (fun q => negb (pkt_has (comps_ids (CCons k ids t cs)) q)) qs =
  filter (fun q => negb (pkt_has (comps_ids cs) q)) (filter (fun q => negb (pkt_has ids q)) qs).
Proof.
  induction qs as [|q qs IH]; cbn [filter]; [reflexivity|]. cbn [comps_ids] in *. unfold pkt_has at 1. rewrite has_id_app.
  fold (pkt_has ids q). fold (pkt_has (comps_ids cs) q). destruct (pkt_has ids q); cbn [orb negb filter]; [exact IH|].
  destruct (negb (pkt_has (comps_ids cs) q)); rewrite IH; reflexivity.
Qed.
Lemma final_step cs : forall ms0 done q rest ms counts ms2, acc cs ms0 done ms counts -> set_final cs ms0 (done ++ q :: rest) ms2 ->
  if pkt_has (comps_ids cs) q
  then exists ms' counts', decode_member cs ms counts (pk_class q) (pk_tag q) (pkt_view q) = Ok (Some (true, (ms', counts')))
  else decode_member cs ms counts (pk_class q) (pk_tag q) (pkt_view q) = Ok None.
Proof.
  induction cs as [|k ids t cs IH]; intros ms0 done q rest ms counts ms2 Ha Hf.
  - reflexivity.
  - destruct ms0 as [|m0 ms0], ms as [|m ms], counts as [|n counts]; cbn [acc] in Ha; try tauto.
    destruct ms2 as [|m2 ms2]; cbn [set_final] in Hf; try tauto. destruct Ha as (Hn & Hm & Ha), Hf as [Hf1 Hf].
    cbn [decode_member comps_ids]. unfold pkt_has at 1. rewrite has_id_app. fold (pkt_has ids q). fold (pkt_has (comps_ids cs) q).
    destruct (pkt_has ids q) eqn:Hh; cbn [orb].
    + rewrite filter_app in Hf1. cbn [filter] in Hf1. rewrite Hh in Hf1.
      destruct (filter (pkt_has ids) done) as [|a l]; cbn [app] in Hf1.
      * destruct (filter (pkt_has ids) rest) as [|b l2]; [|tauto]. subst m0. rewrite Hf1. cbn [bind]. eauto.
      * destruct (l ++ q :: filter (pkt_has ids) rest) eqn:E; [destruct l; discriminate|tauto].
    + rewrite filter_app in Hf. cbn [filter] in Hf. rewrite Hh in Hf. cbn [negb] in Hf.
      specialize (IH ms0 _ q _ ms counts ms2 Ha Hf). destruct (pkt_has (comps_ids cs) q).
      * destruct IH as (ms' & counts' & E). rewrite E. cbn [bind]. eauto.
      * rewrite IH. reflexivity.
Qed.
Lemma final_end cs : forall ms0 qs ms counts ms2, acc cs ms0 qs ms counts -> set_final cs ms0 qs ms2 -> set_finish cs ms counts = (true, ms2).
Proof.
  induction cs as [|k ids t cs IH]; intros ms0 qs ms counts ms2 Ha Hf; destruct ms0 as [|m0 ms0], ms as [|m ms], counts as [|n counts];
    cbn [acc] in Ha; try tauto; destruct ms2 as [|m2 ms2]; cbn [set_final] in Hf; try tauto; cbn [set_finish].
  destruct Ha as (Hn & Hm & Ha), Hf as [Hf1 Hf]. rewrite (IH _ _ _ _ _ Ha Hf).
  destruct (filter (pkt_has ids) qs) as [|q [|q2 l]]; [| |tauto].
  - destruct Hf1 as [Hk ->]. subst n. cbn. destruct k; [congruence|reflexivity|reflexivity].
  - subst n. cbn. congruence.
Qed.
Lemma fold_complete cs ext : forall qs ms0 done ms counts ms2, acc cs ms0 done ms counts -> set_final cs ms0 (done ++ qs) ms2 ->
  (ext = true \/ unknown cs qs = []) ->
  exists ms' counts', set_fold cs ext qs ms counts = Ok (true, (ms', counts')) /\ acc cs ms0 (done ++ qs) ms' counts'.
Proof.
  induction qs as [|q qs IH]; intros ms0 done ms counts ms2 Ha Hf Hu; cbn [set_fold].
  - rewrite app_nil_r. eauto.
  - pose proof (final_step cs ms0 done q qs ms counts ms2 Ha Hf) as Hs.
    assert (Eapp : done ++ q :: qs = (done ++ [q]) ++ qs) by (rewrite <- app_assoc; reflexivity). rewrite Eapp in *.
    destruct (pkt_has (comps_ids cs) q) eqn:Hk.
    + destruct Hs as (ms' & counts' & E). rewrite E. cbn [bind]. pose proof (acc_step _ _ _ _ _ _ _ Ha E) as [Ha' _].
      apply (IH ms0 (done ++ [q]) ms' counts' ms2 Ha' Hf). destruct Hu as [Hu|Hu]; [auto|]. right. unfold unknown in *. cbn [filter] in Hu.
      rewrite Hk in Hu. exact Hu.
    + rewrite Hs. cbn [bind]. pose proof (acc_step _ _ _ _ _ _ _ Ha Hs) as [Ha' _]. cbn beta iota in Ha'.
      destruct Hu as [->|Hu].
      * apply (IH ms0 (done ++ [q]) ms counts ms2 Ha' Hf). auto.
      * unfold unknown in Hu. cbn [filter] in Hu. rewrite Hk in Hu. discriminate.
Qed.

(** SET decode on any content *)
Theorem set_decode_spec i ext cs ms p qs tail extra rest w :
  obj_comps cs ms -> cs <> CNil -> id_packet i constructed p (pkts qs ++ tail) extra -> Forall pkt_ok qs -> no_packet tail ->
  zlen (p ++ rest) < 2^63 -> v_make (p ++ rest) = Ok w ->
  forall ms', decode (TSet i ext cs) (SRec ms) w = Ok (true, SRec ms') <->
              (set_final cs ms qs ms' /\ (ext = true \/ unknown cs qs = [])).
Proof.
  intros Ho Hcs Hp Hq Ht Hz Ew ms'.
  destruct (header_packet i constructed p _ extra rest Hp Hz) as (w' & Ew' & Hv & Hh & _). assert (w' = w) by congruence. subst w'.
  pose proof (content_iter_packet _ _ _ _ _ _ _ Hp Hz Ew) as Hci.
  assert (Hzx : zlen (pkts qs ++ tail) < 2^63).
  { apply id_packet_len in Hp. rewrite zlen_app in Hz. pose proof (zlen_nonneg rest). lia. }
  cbn [decode]. rewrite Hv, Hh. cbn [negb bind].
  replace (comps_length cs =? 0)%nat with false by (destruct cs; [congruence|reflexivity]).
  rewrite Hci. destruct (pkts_assign qs tail 0 Hq Ht Hzx) as (v & E & _). unfold it_make, v_make. rewrite E. cbn [bind].
  rewrite (set_loop_fold cs ext tail Ht qs); auto; [|split; [reflexivity|exists 0; exact E]|].
  2:{ unfold rounds. cbn [it_buf]. clear - Hq. induction Hq as [|q qs Hq _ IH]; cbn; [lia|]. fold (pkts qs) in *.
      unfold pkts in *. cbn [map concat] in *. rewrite <- app_assoc, app_length. apply ber_packet_len in Hq.
      pose proof (zlen_nonneg (pk_content q)). unfold zlen in *. lia. }
  pose proof (acc_start cs ms Ho) as Ha. split.
  - intros H. destruct (set_fold cs ext qs ms _) as [[ok [ms1 counts1]]| |] eqn:Ef; cbn [bind] in H; try discriminate.
    destruct ok; cbn [negb] in H; [|discriminate].
    destruct (fold_acc cs ext qs ms [] ms _ ms1 counts1 Ha Ef) as [H1 H2]. split; [|exact H2].
    destruct (set_finish cs ms1 counts1) as [ok2 ms2] eqn:E2. injection H as -> ->. eapply finish_final; eauto.
  - intros [Hf Hu]. destruct (fold_complete cs ext qs ms [] ms _ ms' Ha Hf Hu) as (ms1 & counts1 & Ef & Ha1). rewrite Ef. cbn [bind negb].
    rewrite (final_end cs ms _ ms1 counts1 ms' Ha1 Hf). reflexivity.
Qed.
