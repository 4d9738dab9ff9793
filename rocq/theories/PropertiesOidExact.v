(** Property theorems C82-C84: what ObjectIdentifier does exactly, including where C33, C34, C35 and C69 fail. *)
From Verif Require Import Base Ident Spec IdentProofs HeaderProofs View ViewProofs Prims PrimProofs ContProofs PropertiesCont Oid OidProofs
  PropertiesOid.
Ltac Zify.zify_post_hook ::= Z.div_mod_to_equations.

(** Reduction of an integer to the range of int64_t. *)
Definition wrap_i64 (x : Z) : Z := (x + 2^63) mod 2^64 - 2^63.
Lemma to_i64_wrap x : to_i64 (u64 x) = wrap_i64 x.
Proof. unfold to_i64, u64, wrap_i64. destruct (Z.ltb_spec (x mod 2^64) (2^63)); lia. Qed.
Lemma wrap_id x : wrap_i64 x = x <-> in_i64 x.
Proof. unfold wrap_i64, in_i64. lia. Qed.

(** * decode_object_id on any octets *)
Lemma u64_mul_mod a b : u64 (u64 a * b) = u64 (a * b).
Proof. unfold u64. apply Z.mul_mod_idemp_l. lia. Qed.
Lemma u64_add_mod a b : u64 (u64 a + b) = u64 (a + b).
Proof. unfold u64. apply Z.add_mod_idemp_l. lia. Qed.
Lemma oid_group_wrap ds : forall rest cur, b128_octets ds ->
  oid_decode_loop (ds ++ rest) (u64 cur) = wrap_i64 (cur * 128 ^ (zlen ds - 1) + b128_value ds) :: oid_decode_loop rest 0.
Proof.
  induction ds as [|d ds IH]; intros rest cur (pre & lst & E & Hpre & Hlst).
  { destruct pre; discriminate. }
  destruct pre as [|p pre].
  - cbn in E. inversion E; subst. cbn [app oid_decode_loop]. change (zlen [lst]) with 1.
    change (128 ^ (1 - 1)) with 1. assert (Hv : b128_value [lst] = lst) by (cbn; rewrite Z.mod_small; lia). rewrite Hv.
    assert (Hw : wf_byte lst) by (split; lia).
    rewrite land_comm_7F by auto. rewrite Z.mod_small by lia. rewrite (Z.land_comm 0x80), land_80 by auto.
    replace (lst <? 128) with true by lia. cbn [negb]. rewrite u64_add_mod, to_i64_wrap. do 2 f_equal. lia.
  - cbn in E. inversion E; subst. clear E. inversion Hpre as [|? ? Hp Hpre']; subst.
    set (ds := pre ++ [lst]) in *. assert (Hds : b128_octets ds) by (exists pre, lst; auto).
    pose proof (b128_octets_len ds Hds) as Hl. cbn [app oid_decode_loop].
    rewrite zlen_cons. replace (1 + zlen ds - 1) with (zlen ds) by lia. rewrite b128_value_cons.
    assert (Hw : wf_byte p) by (split; lia).
    rewrite land_comm_7F by auto. rewrite (Z.land_comm 0x80), land_80 by auto.
    replace (p <? 128) with false by lia. cbn [negb].
    assert (Hpw : 128 ^ zlen ds = 128 * 128 ^ (zlen ds - 1)).
    { replace (zlen ds) with (1 + (zlen ds - 1)) at 1 by lia. rewrite Z.pow_add_r by lia. reflexivity. }
    rewrite u64_mul_mod. replace (u64 ((u64 cur + p mod 128) * 128)) with (u64 ((cur + p mod 128) * 128)).
    + rewrite IH by auto. do 2 f_equal. rewrite Hpw. ring.
    + rewrite <- (u64_mul_mod (cur + p mod 128)), <- (u64_mul_mod (u64 cur + p mod 128)), u64_add_mod. reflexivity.
Qed.
Lemma oid_groups_wrap gs : forall rest, Forall b128_octets gs ->
  oid_decode_loop (concat gs ++ rest) 0 = map (fun g => wrap_i64 (b128_value g)) gs ++ oid_decode_loop rest 0.
Proof.
  induction gs as [|g gs IH]; intros rest H; [reflexivity|]. inversion H as [|? ? Hg H']; subst.
  cbn [concat map]. rewrite <- app_assoc. change 0 with (u64 0) at 1. rewrite oid_group_wrap by auto. rewrite IH by auto.
  cbn [app]. reflexivity.
Qed.
Lemma oid_tail l : bytes l -> Forall (fun b => 128 <= b) l -> forall cur, oid_decode_loop l cur = [].
Proof.
  induction l as [|b l IH]; intros Hb H cur; [reflexivity|]. apply bytes_cons in Hb as [Hw Hb].
  apply Forall_cons_iff in H as [Hge H]. cbn [oid_decode_loop]. rewrite (Z.land_comm 0x80), land_80 by auto.
  replace (b <? 128) with false by lia. cbn [negb]. apply IH; auto.
Qed.
Lemma oid_split l : bytes l -> exists gs tail, l = concat gs ++ tail /\ Forall b128_octets gs /\ Forall (fun b => 128 <= b) tail.
Proof.
  induction l as [|b l IH]; intros Hb; [exists [], []; auto|]. apply bytes_cons in Hb as [Hw Hb].
  destruct (IH Hb) as (gs & tail & -> & Hg & Ht). unfold wf_byte in Hw. destruct (Z.ltb_spec b 128) as [Hlt|Hge].
  - exists ([b] :: gs), tail. split; [reflexivity|]. split; [|exact Ht]. constructor; [|exact Hg].
    exists [], b. split; [reflexivity|]. split; [constructor|lia].
  - destruct gs as [|g gs].
    + exists [], (b :: tail). split; [reflexivity|]. split; [constructor|]. constructor; auto.
    + apply Forall_cons_iff in Hg as [(pre & lst & -> & Hpre & Hlst) Hg]. exists ((b :: pre ++ [lst]) :: gs), tail.
      split; [cbn [concat app]; rewrite <- !app_assoc; reflexivity|]. split; [|exact Ht]. constructor; [|exact Hg].
      exists (b :: pre), lst. split; [reflexivity|]. split; [constructor; [lia|exact Hpre]|exact Hlst].
Qed.

(** C82.  value() of any content octets: the first octet gives its quotient and remainder by 40, each complete base-128 group
    after it one component reduced to the range of int64_t, and an incomplete group at the end is ignored. *)
Theorem C82_oid_value_exact : forall content, bytes content ->
  (content = [] /\ decode_object_id content = (false, [])) \/
  exists b0 gs tail, content = b0 :: concat gs ++ tail /\ Forall b128_octets gs /\ Forall (fun b => 128 <= b) tail /\
    decode_object_id content = (true, b0 / 40 :: b0 mod 40 :: map (fun g => wrap_i64 (b128_value g)) gs).
Proof.
  intros [|b0 l] Hb; [left; auto|]. right. apply bytes_cons in Hb as [Hw Hb].
  destruct (oid_split l Hb) as (gs & tail & -> & Hg & Ht). exists b0, gs, tail. split; [auto|]. split; [auto|]. split; [auto|].
  cbn [decode_object_id]. rewrite oid_groups_wrap, oid_tail by (auto; apply bytes_app in Hb; tauto).
  rewrite app_nil_r. reflexivity.
Qed.
(** So an X.690 content is decoded to its components exactly when its first subidentifier is below 120 and every later
    component fits in int64_t. *)
Theorem C82_oid_decode_agrees_exactly : forall content a b cs, x690_oid content (a :: b :: cs) ->
  (decode_object_id content = (true, a :: b :: cs) <-> 40 * a + b < 120 /\ Forall (fun c => c < 2^63) cs).
Proof.
  intros content a b cs H. split.
  - intros E. assert (Hc : Forall (fun c => c < 2^63) cs); [|split; [apply (C33_oid_decode_x690_partial content a b cs H Hc); exact E|exact Hc]].
    assert (Hin : Forall in_i64 cs).
    { destruct H as (g0 & gs & X & Y & -> & [H0 _] & _). destruct H0 as (pre & lst & -> & _ & _).
      assert (Hl : forall l cur, Forall in_i64 (oid_decode_loop l cur)).
      { induction l as [|x l IH]; intros cur; cbn [oid_decode_loop]; [constructor|].
        destruct (negb _); [apply IH|]. constructor; [|apply IH]. rewrite to_i64_wrap. unfold wrap_i64, in_i64. lia. }
      destruct pre as [|p pre]; cbn [app decode_object_id] in E; injection E as _ _ <-; apply Hl. }
    eapply Forall_impl; [|exact Hin]. intros c [_ ?]. assumption.
  - intros [H1 H2]. apply (C33_oid_decode_x690_partial content a b cs H H2). exact H1.
Qed.
Example C82_example : bytes [43; 0x81; 0x80; 0x80; 0x80; 0x80; 0x80; 0x80; 0x80; 0x80; 0; 5; 0x86] /\
  decode_object_id [43; 0x81; 0x80; 0x80; 0x80; 0x80; 0x80; 0x80; 0x80; 0x80; 0; 5; 0x86] = (true, [1; 3; -2^63; 5]).
Proof. split; [bytes_lit|]. vm_compute. reflexivity. Qed.

(** C83.  component_number and number_of_components for every reachable object, in terms of content(): nothing held: -1;
    0: the first element of value(); 1: undefined when the content is one octet, and otherwise the second content octet
    modulo 40 (not value()[1]); from 2 on: 0 when value() has such an element and -1 when it has not. *)
Theorem C83_oid_component_number_exact : forall i f, oid_reachable i f -> exists x comps,
  fixed_content f = Ok x /\ oid_value f = Ok comps /\ oid_number_of_components f = Ok (zlen comps) /\
  forall n, 0 <= n -> oid_component_number f n =
    match x with
    | [] => Ok (-1)
    | b0 :: r => if n =? 0 then Ok (hd 0 comps)
                 else if n =? 1 then match r with [] => UB | b1 :: _ => Ok (b1 mod 40) end
                 else Ok (if n <? zlen comps then 0 else -1)
    end.
Proof.
  intros i f Hr. destruct (oid_reachable_held _ _ Hr) as (Hi & Hf & Hz).
  destruct (zsplit (f_data f) (zlen (f_data f) - f_len f)) as (h & x & E & Eh); [lia|].
  assert (Ex : f_len f = zlen x) by (rewrite E, zlen_app in Eh; lia). assert (Ec := fixed_content_suffix f h x E Ex).
  destruct (C34_oid_component_number_partial i f Hr) as (comps & Ev & En & E0 & E2).
  exists x, comps. split; [exact Ec|]. split; [exact Ev|]. split; [exact En|]. intros n Hn.
  unfold oid_value in Ev. rewrite Ec in Ev. cbn [bind] in Ev. destruct x as [|b0 r].
  - unfold oid_component_number. rewrite Ec. reflexivity.
  - cbn [decode_object_id snd] in Ev. injection Ev as <-. destruct (Z.eqb_spec n 0) as [->|N0].
    { rewrite E0. reflexivity. }
    destruct (Z.eqb_spec n 1) as [->|N1]; [|apply E2; lia].
    unfold oid_component_number. rewrite Ec. cbn [bind get_component_number]. change (1 =? 0) with false. change (1 =? 1) with true.
    cbn match. destruct r as [|b1 r]; [reflexivity|].
    assert (Eg := zget_mid [b0] b1 r 1 eq_refl). cbn [app] in Eg. rewrite Eg. reflexivity.
Qed.
Example C83_example : exists f, oid_reachable (Id universal 6) f /\ oid_value f = Ok [1; 2; 0; 9] /\ oid_component_number f 2 = Ok 0.
Proof.
  eexists. split.
  - eapply (or_assign _ _ [1; 2; 0; 9] true); [apply or_default; cbn; lia | repeat constructor; unfold in_i64; lia | cbn; lia | vm_compute; reflexivity].
  - split; vm_compute; reflexivity.
Qed.

(** C84.  assign, for every list of int64_t and every reachable object.  It is undefined exactly when the list passes the tests of
    its first two elements and 40 * a + b overflows; otherwise it returns true exactly when there are at least two elements, a <= 2,
    b <= 39 (negative ones included) and no negative element after them; the content then is the octet (40 * a + b) mod 256
    followed by the shortest base-128 groups, so value() is the list exactly when a and b are not negative. *)
Lemma encode_object_id_wide a b cs out : a <= 2 -> b <= 39 -> in_i64 (40 * a) -> in_i64 (40 * a + b) -> Forall comp_ok cs ->
  zlen out = 1 + zlen (concat (map comp_octets cs)) -> zlen out < 2^62 ->
  encode_object_id out (a :: b :: cs) (zlen out) = Ok (EncResult (u8 (40 * a + b) :: concat (map comp_octets cs)) true (zlen out)).
Proof.
  intros Ha Hb Ho1 Ho2 Hc Hl Hz.
  pose proof (zlen_nonneg (concat (map comp_octets cs))) as Hn. unfold encode_object_id.
  replace (zlen out =? 0) with false by lia. cbn [bind]. rewrite Z.ltb_irrefl.
  replace (a >? 2) with false by lia. replace (b >? 39) with false by lia. cbn [orb].
  rewrite (in_i64b_ok _ Ho1), (in_i64b_ok _ Ho2). cbn [andb negb].
  destruct out as [|x out]; [rewrite zlen_nil in Hl; lia|]. rewrite zlen_cons in *. set (o := u8 (40 * a + b)).
  assert (Hw : mem_write (x :: out) 0 [o] = Ok (o :: out)) by (apply (mem_write_mid [] x o out); reflexivity).
  rewrite Hw. cbn [bind]. rewrite u64_small by lia.
  assert (Ha2 := oid_write_all_spec cs [o] out [] Hc ltac:(lia)).
  rewrite zlen_1, !app_nil_r in Ha2. change ([o] ++ out) with (o :: out) in Ha2. rewrite zlen_cons in Ha2.
  change ([o] ++ concat (map comp_octets cs)) with (o :: concat (map comp_octets cs)) in Ha2.
  rewrite Ha2 by lia. cbn [bind]. reflexivity.
Qed.
Theorem C84_oid_assign_exact : forall i f comps, oid_reachable i f -> Forall in_i64 comps -> zlen comps < 2^57 ->
  (oid_assign i f comps = UB <->
     exists a b cs, comps = a :: b :: cs /\ a <= 2 /\ b <= 39 /\ ~ (in_i64 (40 * a) /\ in_i64 (40 * a + b))) /\
  (oid_assign i f comps <> UB -> exists ok f' x p, oid_assign i f comps = Ok (ok, f') /\ oid_reachable i f' /\
     fixed_content f' = Ok x /\ id_packet i primitive p x [] /\ writes (fun buf => Ok (oid_encode f' buf)) p /\
     (ok = true <-> exists a b cs, comps = a :: b :: cs /\ a <= 2 /\ b <= 39 /\ Forall (fun c => 0 <= c) cs) /\
     (ok = true -> forall a b cs, comps = a :: b :: cs -> exists gs, x = (40 * a + b) mod 256 :: concat gs /\
        Forall b128_shortest gs /\ map b128_value gs = cs /\ (oid_value f' = Ok comps <-> 0 <= a /\ 0 <= b)) /\
     (zlen comps < 2 -> ok = false /\ x = [])).
Proof.
  intros i f comps Hr Hc Hn. destruct (oid_reachable_held _ _ Hr) as (Hi & Hf & Hz).
  assert (Hdec : (exists a b cs, comps = a :: b :: cs /\ a <= 2 /\ b <= 39 /\ ~ (in_i64 (40 * a) /\ in_i64 (40 * a + b))) \/
     (forall a b cs, comps = a :: b :: cs -> a <= 2 -> b <= 39 -> in_i64 (40 * a) /\ in_i64 (40 * a + b))).
  { destruct comps as [|a [|b cs]]; [right; discriminate|right; discriminate|].
    destruct (Z.leb_spec a 2); [|right; intros ? ? ? E; injection E as <- <- <-; lia].
    destruct (Z.leb_spec b 39); [|right; intros ? ? ? E; injection E as <- <- <-; lia].
    destruct (in_i64_dec (40 * a)) as [H1|H1]; [destruct (in_i64_dec (40 * a + b)) as [H2|H2]|].
    - right. intros ? ? ? E. injection E as <- <- <-. auto.
    - left. exists a, b, cs. tauto.
    - left. exists a, b, cs. tauto. }
  destruct Hdec as [Hub|Hov].
  - assert (E : oid_assign i f comps = UB).
    { destruct Hub as (a & b & cs & -> & Ha & Hb & Hno). inversion Hc as [|? ? _ Hc1]; subst. inversion Hc1 as [|? ? _ Hc2]; subst.
      rewrite !zlen_cons in Hn. apply oid_held_ub; auto; [split; auto|lia]. }
    split; [tauto|]. intros H. contradiction.
  - destruct (oid_assign_gen i f comps Hi Hf Hz Hc Hn Hov) as (f' & y & E & Hr' & El & Hy & Hz').
    assert (Hacc : oid_accepts comps = true <-> exists a b cs, comps = a :: b :: cs /\ a <= 2 /\ b <= 39 /\ Forall (fun c => 0 <= c) cs).
    { destruct comps as [|a [|b cs]]; cbn [oid_accepts].
      - split; [discriminate|]. intros (? & ? & ? & ? & _); discriminate.
      - split; [discriminate|]. intros (? & ? & ? & ? & _); discriminate.
      - rewrite !andb_true_iff, forallb_forall. split.
        + intros [[H1 H2] H3]. exists a, b, cs. split; [auto|]. split; [lia|]. split; [lia|]. apply Forall_forall. intros c Hin. specialize (H3 c Hin). lia.
        + intros (a' & b' & cs' & E' & Ha & Hb & Hcs). injection E' as <- <- <-. rewrite Forall_forall in Hcs.
          split; [lia|]. intros c Hin. specialize (Hcs c Hin). lia. }
    split.
    { rewrite E. split; [discriminate|]. intros (a & b & cs & Ec & Ha & Hb & Hno). specialize (Hov a b cs Ec Ha Hb). contradiction. }
    intros _. exists (oid_accepts comps), f', y, (f_data f'). split; [exact E|].
    split; [eapply or_assign; eauto|]. split; [eapply fixed_content_rep; eauto|]. split; [apply Hr'|]. split; [apply copy_out_writes|].
    split; [exact Hacc|]. split.
    + intros Hok a b cs ->. destruct (proj1 Hacc Hok) as (a' & b' & cs' & E' & Ha & Hb & Hcs). injection E' as <- <- <-.
      destruct (Hov a b cs eq_refl Ha Hb) as [Ho1 Ho2].
      inversion Hc as [|? ? _ Hc1]; subst. inversion Hc1 as [|? ? _ Hc2]; subst. rewrite !zlen_cons in Hn.
      assert (Hok2 : Forall comp_ok cs).
      { rewrite Forall_forall in *. intros c Hin. split; [apply Hcs; auto|]. apply (Hc2 c Hin). }
      assert (Hlen : zlen (concat (map comp_octets cs)) <= 10 * zlen cs).
      { pose proof (oid_content_len a b cs Hok2) as Hl. cbn [oid_content] in Hl. rewrite zlen_cons in Hl. lia. }
      pose proof (zlen_nonneg (concat (map comp_octets cs))) as Hlen0.
      assert (Ey : y = u8 (40 * a + b) :: concat (map comp_octets cs)).
      { unfold oid_assign in E. cbn [encoded_object_id_length] in E. rewrite oid_count_all_spec in E by auto. cbn [bind] in E.
        destruct (zsplit (f_data f) (zlen (f_data f) - f_len f)) as (h & x & Ed & Eh); [lia|].
        assert (Ex : f_len f = zlen x) by (rewrite Ed, zlen_app in Eh; lia).
        destruct (fixed_resize_gen i f h x (1 + zlen (concat (map comp_octets cs))) Hi Ed Ex) as (f2 & y2 & E1 & E2 & E3 & E4 & _); [lia|lia|].
        rewrite E1 in E. cbn [bind] in E. rewrite (fixed_content_suffix f2 _ _ E2) in E by congruence. cbn [bind] in E.
        assert (Ee := encode_object_id_wide a b cs y2 Ha Hb Ho1 Ho2 Hok2 E4 ltac:(lia)). rewrite E4 in Ee. rewrite Ee in E.
        cbn [bind er_ok er_buf] in E. injection E as _ Ef. rewrite E2, zlen_app, ztake_app_exact in Ef by lia.
        assert (Hc' := fixed_content_rep _ _ _ Hr'). rewrite <- Ef in Hc'.
        rewrite (fixed_content_suffix _ (hdr_of i (1 + zlen (concat (map comp_octets cs))) primitive) (u8 (40 * a + b) :: concat (map comp_octets cs))) in Hc'.
        - injection Hc' as <-. reflexivity.
        - reflexivity.
        - cbn [f_len]. rewrite E3, zlen_cons. reflexivity. }
      exists (map comp_octets cs). split; [exact Ey|].
      split; [apply Forall_map; eapply Forall_impl; [|exact Hok2]; intros c; apply comp_octets_shortest|].
      assert (Hm : map b128_value (map comp_octets cs) = cs).
      { rewrite map_map. rewrite <- (map_id cs) at 2. apply map_ext_Forall. eapply Forall_impl; [|exact Hok2]. intros c. apply comp_octets_value. }
      split; [exact Hm|]. unfold oid_value. rewrite (fixed_content_rep _ _ _ Hr'), Ey. cbn [bind decode_object_id snd].
      assert (Hg := oid_groups (map comp_octets cs) []). rewrite !app_nil_r in Hg. rewrite Hg, Hm.
      2:{ apply Forall_map. eapply Forall_impl; [|exact Hok2]. intros c Hcc. split; [apply comp_octets_b128; auto|].
          rewrite comp_octets_value by auto. apply Hcc. }
      unfold u8. split.
      * intros H. injection H as H1 H2. clear - H1 H2 Ha Hb. lia.
      * intros [Ha0 Hb0]. f_equal. f_equal; [clear - Ha Hb Ha0 Hb0; lia|]. f_equal. clear - Ha Hb Ha0 Hb0; lia.
    + intros Hs. destruct comps as [|a [|b cs]].
      3:{ rewrite !zlen_cons in Hs. pose proof (zlen_nonneg cs). lia. }
      all: split; [reflexivity|]; cbn [encoded_object_id_length] in El; injection El as El; symmetry in El; apply zlen_0_nil; exact El.
Qed.
Example C84_example : exists f f', oid_reachable (Id universal 6) f /\ oid_assign (Id universal 6) f [1; -2; 9] = Ok (true, f') /\
  fixed_ber f' = [6; 2; 38; 9].
Proof.
  eexists. eexists. split; [apply or_default; cbn; lia|]. split; vm_compute; reflexivity.
Qed.

Print Assumptions C82_oid_value_exact.
Print Assumptions C82_oid_decode_agrees_exactly.
Print Assumptions C83_oid_component_number_exact.
Print Assumptions C84_oid_assign_exact.
