(** Lemmas about object identifiers. *)
From Verif Require Import Base Ident Spec IdentProofs HeaderProofs View ViewProofs Prims PrimProofs ContProofs Oid.
Ltac Zify.zify_post_hook ::= Z.div_mod_to_equations.

(** the octets of one component, most significant first *)
Fixpoint comp_enc (fuel : nat) (c : Z) (first : bool) : list Z :=
  match fuel with
  | O => []
  | S fuel => (if c / 128 >? 0 then comp_enc fuel (c / 128) false else []) ++ [c mod 128 + (if first then 0 else 128)]
  end.
Definition comp_octets (c : Z) : list Z := comp_enc 10 c true.

Lemma lor_80 d : 0 <= d < 128 -> Z.lor d 0x80 = d + 128.
Proof.
  intros Hd. assert (wf_byte d) by (split; lia).
  sweep H0 (fun d => (128 <=? d) || (Z.lor d 0x80 =? d + 128)) d. lia.
Qed.
Lemma quot_128 c : 0 <= c -> Z.quot c 128 = c / 128. Proof. intros; apply Z.quot_div_nonneg; lia. Qed.
Lemma rem_128 c : 0 <= c -> Z.rem c 128 = c mod 128. Proof. intros; apply Z.rem_mod_nonneg; lia. Qed.

Lemma comp_enc_len fuel c b1 b2 : zlen (comp_enc fuel c b1) = zlen (comp_enc fuel c b2).
Proof. destruct fuel; [reflexivity|]. cbn [comp_enc]. rewrite !zlen_app. reflexivity. Qed.
Lemma oid_count_spec fuel : forall c b, 0 <= c < 128 ^ Z.of_nat fuel -> (0 < fuel)%nat ->
  oid_count fuel c = Ok (zlen (comp_enc fuel c b)).
Proof.
  induction fuel as [|fuel IH]; intros c b Hc Hf; [lia|]. cbn [oid_count comp_enc]. rewrite quot_128 by lia.
  rewrite zlen_app, zlen_1.
  destruct (Z.gtb_spec (c / 128) 0) as [Hp|Hp]; [|reflexivity].
  rewrite Nat2Z.inj_succ, Z.pow_succ_r in Hc by lia.
  destruct fuel as [|fuel]; [change (128 ^ Z.of_nat 0) with 1 in Hc; lia|].
  rewrite (IH (c / 128) false) by lia. cbn [bind]. f_equal. lia.
Qed.
Lemma poke_hole pre (x d : Z) post : mem_write (pre ++ [x] ++ post) (zlen pre) [d] = Ok (pre ++ [d] ++ post).
Proof. apply mem_write_mid. reflexivity. Qed.
Lemma zsplit {A} (l : list A) n : 0 <= n <= zlen l -> exists a b, l = a ++ b /\ zlen a = n.
Proof. intros H. exists (ztake n l), (zdrop n l). split; [symmetry; apply ztake_zdrop|apply zlen_ztake; lia]. Qed.
Lemma zlen_snoc_inv {A} (l : list A) : 0 < zlen l -> exists m a, l = m ++ [a].
Proof.
  destruct l as [|x l'] using rev_ind; [cbn; lia|]. eauto.
Qed.
Lemma oid_write_spec fuel : forall c pre hole post first, 0 <= c < 128 ^ Z.of_nat fuel -> (0 < fuel)%nat ->
  zlen hole = zlen (comp_enc fuel c first) -> 1 <= zlen pre -> zlen (pre ++ hole ++ post) < 2^63 ->
  oid_write fuel (pre ++ hole ++ post) (zlen pre + zlen hole - 1) c first = Ok (pre ++ comp_enc fuel c first ++ post, zlen pre - 1).
Proof.
  induction fuel as [|fuel IH]; intros c pre hole post first Hc Hf Hh Hp Hz; [lia|].
  cbn [oid_write comp_enc] in *. rewrite quot_128, rem_128 by lia. rewrite u8_small by lia.
  rewrite zlen_app, zlen_1 in Hh.
  assert (Hpos : 0 < zlen hole). { pose proof (zlen_nonneg (if c / 128 >? 0 then comp_enc fuel (c / 128) false else [])). lia. }
  destruct (zlen_snoc_inv hole Hpos) as (h1 & x & ->). rewrite zlen_app, zlen_1 in *.
  rewrite !zlen_app, zlen_1 in Hz. pose proof (zlen_nonneg post). pose proof (zlen_nonneg h1).
  replace (zlen pre + (zlen h1 + 1) - 1) with (zlen (pre ++ h1)) by (rewrite zlen_app; lia).
  replace (pre ++ (h1 ++ [x]) ++ post) with ((pre ++ h1) ++ [x] ++ post) by (rewrite <- !app_assoc; reflexivity).
  rewrite poke_hole. cbn [bind]. rewrite zlen_app. rewrite u64_small by lia.
  assert (Hd : (if first then c mod 128 else Z.lor (c mod 128) 128) = c mod 128 + (if first then 0 else 128)).
  { destruct first; [lia|]. apply lor_80. lia. }
  rewrite Hd. destruct (Z.gtb_spec (c / 128) 0) as [Hg|Hg].
  - rewrite Nat2Z.inj_succ, Z.pow_succ_r in Hc by lia.
    destruct fuel as [|fuel]; [change (128 ^ Z.of_nat 0) with 1 in Hc; lia|].
    rewrite <- app_assoc. rewrite (IH (c / 128) pre h1 _ false); [|lia|lia|lia|lia|].
    2: { rewrite (zlen_app pre), (zlen_app h1), (zlen_app [_]), zlen_1. lia. }
    f_equal. f_equal. rewrite <- !app_assoc. reflexivity.
  - rewrite zlen_nil in Hh. assert (h1 = []) as -> by (apply zlen_0_nil; lia).
    rewrite (app_nil_r pre), (zlen_nil (A:=Z)). cbn [app].
    do 2 f_equal. lia.
Qed.
Lemma oid_comp_small c : in_i64 c -> 0 <= c -> 0 <= c < 128 ^ Z.of_nat 10.
Proof. intros [_ H] ?. change (128 ^ Z.of_nat 10) with 1180591620717411303424. lia. Qed.

Definition comp_ok (c : Z) : Prop := 0 <= c < 2^63.
Lemma comp_ok_small c : comp_ok c -> 0 <= c < 128 ^ Z.of_nat 10.
Proof. intros [? ?]. apply oid_comp_small; auto. split; lia. Qed.
Lemma oid_count_all_spec cs : Forall comp_ok cs -> oid_count_all cs = Ok (zlen (concat (map comp_octets cs))).
Proof.
  induction 1 as [|c cs Hc _ IH]; [reflexivity|]. cbn [oid_count_all map concat].
  rewrite (oid_count_spec 10 c true (comp_ok_small c Hc)) by lia. cbn [bind]. rewrite IH. cbn [bind]. rewrite zlen_app. reflexivity.
Qed.
Lemma oid_write_all_spec cs : forall pre hole post, Forall comp_ok cs -> zlen hole = zlen (concat (map comp_octets cs)) ->
  1 <= zlen pre -> zlen (pre ++ hole ++ post) < 2^63 ->
  oid_write_all 10 (pre ++ hole ++ post) (zlen pre + zlen hole - 1) (rev cs) =
    Ok (true, pre ++ concat (map comp_octets cs) ++ post).
Proof.
  induction cs as [|c cs IH] using rev_ind; intros pre hole post Hcs Hh Hp Hz.
  - cbn in Hh. apply zlen_0_nil in Hh. subst. reflexivity.
  - rewrite rev_unit. cbn [oid_write_all]. apply Forall_app in Hcs as [Hcs Hc]. inversion Hc as [|? ? Hc1 _]; subst.
    replace (c <? 0) with false by (destruct Hc1; lia).
    rewrite map_app, concat_app in *. cbn [map concat] in *. rewrite app_nil_r in *. rewrite zlen_app in Hh.
    remember (concat (map comp_octets cs)) as A eqn:EA.
    pose proof (zlen_nonneg A). pose proof (zlen_nonneg (comp_octets c)).
    destruct (zsplit hole (zlen A)) as (h1 & h2 & -> & H1); [lia|]. rewrite zlen_app in Hh.
    assert (H2 : zlen h2 = zlen (comp_octets c)) by lia.
    assert (Hz' : zlen ((pre ++ h1) ++ h2 ++ post) < 2^63) by (rewrite <- !app_assoc in *; exact Hz).
    assert (Hp' : 1 <= zlen (pre ++ h1)) by (rewrite zlen_app; lia).
    assert (Hw := oid_write_spec 10 c (pre ++ h1) h2 post true (comp_ok_small c Hc1) ltac:(lia) H2 Hp' Hz').
    fold (comp_octets c) in Hw.
    replace (zlen pre + zlen (h1 ++ h2) - 1) with (zlen (pre ++ h1) + zlen h2 - 1) by (rewrite !zlen_app; lia).
    replace (pre ++ (h1 ++ h2) ++ post) with ((pre ++ h1) ++ h2 ++ post) by (rewrite <- !app_assoc; reflexivity).
    rewrite Hw. cbn [bind].
    replace ((pre ++ h1) ++ comp_octets c ++ post) with (pre ++ h1 ++ (comp_octets c ++ post)) by (rewrite <- !app_assoc; reflexivity).
    rewrite zlen_app. rewrite IH; auto.
    + rewrite <- !app_assoc. reflexivity.
    + rewrite !zlen_app in *. lia.
Qed.

(** * the octets of one component *)
Lemma comp_enc_value fuel : forall c first, 0 <= c < 128 ^ Z.of_nat fuel -> b128_value (comp_enc fuel c first) = c.
Proof.
  induction fuel as [|fuel IH]; intros c first Hc.
  - change (128 ^ Z.of_nat 0) with 1 in Hc. cbn. lia.
  - rewrite Nat2Z.inj_succ, Z.pow_succ_r in Hc by lia. cbn [comp_enc]. rewrite b128_value_snoc.
    assert (Hm : (c mod 128 + (if first then 0 else 128)) mod 128 = c mod 128).
    { destruct first; [rewrite Z.add_0_r; apply Z.mod_mod; lia|].
      change 128 with (1 * 128) at 2. rewrite Z.mod_add by lia. apply Z.mod_mod; lia. }
    rewrite Hm. destruct (Z.gtb_spec (c / 128) 0); [rewrite IH by lia|change (b128_value []) with 0]; lia.
Qed.
Lemma comp_enc_high fuel : forall c, 0 <= c -> Forall (fun b => 128 <= b < 256) (comp_enc fuel c false).
Proof.
  induction fuel as [|fuel IH]; intros c Hc; [constructor|]. cbn [comp_enc]. apply Forall_app. split.
  - destruct (c / 128 >? 0); [apply IH; lia|constructor].
  - constructor; [lia|constructor].
Qed.
Lemma comp_enc_hd fuel : forall c, 0 < c < 128 ^ Z.of_nat fuel -> hd 0 (comp_enc fuel c false) <> 128.
Proof.
  induction fuel as [|fuel IH]; intros c Hc; [change (128 ^ Z.of_nat 0) with 1 in Hc; lia|].
  rewrite Nat2Z.inj_succ, Z.pow_succ_r in Hc by lia. cbn [comp_enc].
  destruct (Z.gtb_spec (c / 128) 0) as [H|H].
  - destruct fuel as [|fuel]; [change (128 ^ Z.of_nat 0) with 1 in Hc; lia|].
    specialize (IH (c / 128)). destruct (comp_enc (S fuel) (c / 128) false) eqn:E.
    + cbn [comp_enc] in E. destruct (if _ >? _ then _ else _); discriminate.
    + cbn [app hd] in *. apply IH. lia.
  - cbn [app hd]. lia.
Qed.
Lemma comp_octets_b128 c : comp_ok c -> b128_octets (comp_octets c).
Proof.
  intros [Hc _]. unfold comp_octets. generalize 9%nat. intros n. cbn [comp_enc].
  eexists _, _. split; [reflexivity|]. split; [|rewrite Z.add_0_r; lia].
  destruct (c / 128 >? 0); [apply comp_enc_high; lia|constructor].
Qed.
Lemma comp_octets_value c : comp_ok c -> b128_value (comp_octets c) = c.
Proof. intros Hc. apply comp_enc_value, comp_ok_small, Hc. Qed.
Lemma comp_octets_shortest c : comp_ok c -> b128_shortest (comp_octets c).
Proof.
  intros Hc. split; [apply comp_octets_b128; auto|]. pose proof (comp_ok_small c Hc) as Hs. unfold comp_octets.
  change 10%nat with (S 9) in Hs |- *. rewrite Nat2Z.inj_succ, Z.pow_succ_r in Hs by lia.
  assert (Hn : (0 < 9)%nat) by lia. revert Hs Hn. generalize 9%nat. intros n Hs Hn. cbn [comp_enc].
  destruct (Z.gtb_spec (c / 128) 0) as [H|H].
  - assert (Hh := comp_enc_hd n (c / 128)). destruct n as [|n]; [lia|].
    destruct (comp_enc (S n) (c / 128) false) eqn:E.
    + cbn [comp_enc] in E. destruct (if _ >? _ then _ else _); discriminate.
    + cbn [app hd] in *. apply Hh. lia.
  - cbn [app hd]. lia.
Qed.
Lemma comp_octets_bytes c : comp_ok c -> bytes (comp_octets c).
Proof.
  intros Hc. destruct (comp_octets_b128 c Hc) as (pre & lst & -> & Hp & Hl). apply bytes_app. split.
  - eapply Forall_impl; [|exact Hp]. intros b Hb. cbn beta in Hb. split; lia.
  - constructor; [split; lia|constructor].
Qed.

(** * decoding *)
Lemma land_comm_7F b : wf_byte b -> Z.land 0x7F b = b mod 128.
Proof. intros. rewrite Z.land_comm. apply land_7F; auto. Qed.
Lemma oid_group ds : forall rest cur, b128_octets ds -> 0 <= cur -> cur * 128 ^ (zlen ds - 1) + b128_value ds < 2^63 -> cur mod 128 = 0 ->
  oid_decode_loop (ds ++ rest) cur = (cur * 128 ^ (zlen ds - 1) + b128_value ds) :: oid_decode_loop rest 0.
Proof.
  induction ds as [|d ds IH]; intros rest cur (pre & lst & E & Hpre & Hlst) Ht Hb Hm.
  { destruct pre; discriminate. }
  destruct pre as [|p pre].
  - cbn in E. inversion E; subst. cbn [app oid_decode_loop]. change (zlen [lst]) with 1 in *.
    change (128 ^ (1 - 1)) with 1 in *. assert (Hv : b128_value [lst] = lst) by (cbn; rewrite Z.mod_small; lia). rewrite Hv in *.
    assert (Hw : wf_byte lst) by (split; lia).
    rewrite land_comm_7F by auto. rewrite Z.mod_small by lia. rewrite (Z.land_comm 0x80), land_80 by auto.
    replace (lst <? 128) with true by lia. cbn [negb].
    rewrite u64_small by lia. unfold to_i64. replace (cur + lst <? 2^63) with true by lia. f_equal. lia.
  - cbn in E. inversion E; subst. clear E. inversion Hpre as [|? ? Hp Hpre']; subst.
    set (ds := pre ++ [lst]) in *. assert (Hds : b128_octets ds) by (exists pre, lst; auto).
    pose proof (b128_octets_len ds Hds) as Hl. cbn [app oid_decode_loop].
    rewrite zlen_cons in *. replace (1 + zlen ds - 1) with (zlen ds) in * by lia. rewrite b128_value_cons in *.
    assert (Hw : wf_byte p) by (split; lia).
    rewrite land_comm_7F by auto. rewrite (Z.land_comm 0x80), land_80 by auto.
    replace (p <? 128) with false by lia. cbn [negb].
    pose proof (b128_value_nonneg ds) as Hv.
    assert (Hpw : 128 ^ zlen ds = 128 * 128 ^ (zlen ds - 1)).
    { replace (zlen ds) with (1 + (zlen ds - 1)) at 1 by lia. rewrite Z.pow_add_r by lia. reflexivity. }
    assert (H1 : 1 <= 128 ^ (zlen ds - 1)) by (assert (0 < 128 ^ (zlen ds - 1)) by (apply Z.pow_pos_nonneg; lia); lia).
    set (t1 := cur + p mod 128) in *.
    assert (Ht1 : cur * 128 ^ zlen ds + (p mod 128 * 128 ^ zlen ds + b128_value ds)
                  = (t1 * 128) * 128 ^ (zlen ds - 1) + b128_value ds) by (rewrite Hpw; unfold t1; ring).
    assert (0 <= t1) by (unfold t1; lia). clearbody t1.
    rewrite Ht1 in Hb.
    assert (t1 * 128 < 2^63).
    { assert (t1 * 128 * 1 <= t1 * 128 * 128 ^ (zlen ds - 1)) by (apply Z.mul_le_mono_nonneg_l; lia).
      clear - H0 Hb Hv. lia. }
    rewrite (u64_small t1) by lia. rewrite u64_small by lia.
    rewrite IH; auto; try lia. f_equal. lia.
Qed.
Lemma oid_groups gs : forall rest, Forall (fun g => b128_octets g /\ b128_value g < 2^63) gs ->
  oid_decode_loop (concat gs ++ rest) 0 = map b128_value gs ++ oid_decode_loop rest 0.
Proof.
  induction gs as [|g gs IH]; intros rest H; [reflexivity|]. inversion H as [|? ? [Hg Hv] H']; subst.
  cbn [concat map]. rewrite <- app_assoc, oid_group by (auto; lia). rewrite IH by auto. cbn [app]. f_equal; lia.
Qed.
Lemma oid_count_decode l : forall cur, zlen (filter (fun b => Z.land 0x80 b =? 0) l) = zlen (oid_decode_loop l cur).
Proof.
  induction l as [|b l IH]; intros cur; [reflexivity|]. cbn [filter oid_decode_loop].
  destruct (Z.land 0x80 b =? 0); cbn [negb]; [rewrite !zlen_cons, (IH 0); reflexivity | apply IH].
Qed.

(** * encoding *)
Definition oid_content (comps : list Z) : list Z :=
  match comps with a :: b :: cs => (40 * a + b) :: concat (map comp_octets cs) | _ => [] end.
Lemma eoil_spec a b cs : Forall comp_ok cs -> encoded_object_id_length (a :: b :: cs) = Ok (zlen (oid_content (a :: b :: cs))).
Proof. intros H. cbn [encoded_object_id_length oid_content]. rewrite oid_count_all_spec by auto. cbn [bind]. rewrite zlen_cons. reflexivity. Qed.
Lemma encode_object_id_spec a b cs out : 0 <= a <= 2 -> 0 <= b <= 39 -> Forall comp_ok cs ->
  zlen out = zlen (oid_content (a :: b :: cs)) -> zlen out < 2^62 ->
  encode_object_id out (a :: b :: cs) (zlen out) = Ok (EncResult (oid_content (a :: b :: cs)) true (zlen out)).
Proof.
  intros Ha Hb Hc Hl Hz. cbn [oid_content] in *. rewrite zlen_cons in Hl.
  pose proof (zlen_nonneg (concat (map comp_octets cs))) as Hn. unfold encode_object_id.
  replace (zlen out =? 0) with false by lia. cbn [bind]. rewrite Z.ltb_irrefl.
  replace (a >? 2) with false by lia. replace (b >? 39) with false by lia. cbn [orb].
  unfold in_i64b. replace (-2 ^ 63 <=? 40 * a) with true by lia. replace (40 * a <? 2 ^ 63) with true by lia.
  replace (-2 ^ 63 <=? 40 * a + b) with true by lia. replace (40 * a + b <? 2 ^ 63) with true by lia. cbn [andb negb].
  destruct out as [|x out]; [rewrite zlen_nil in Hl; lia|]. rewrite zlen_cons in *.
  assert (Hw : mem_write (x :: out) 0 [u8 (40 * a + b)] = Ok ((40 * a + b) :: out)).
  { rewrite u8_small by lia. apply (mem_write_mid [] x (40 * a + b) out). reflexivity. }
  rewrite Hw. cbn [bind]. rewrite u64_small by lia.
  assert (Ha2 := oid_write_all_spec cs [40 * a + b] out [] Hc ltac:(lia)).
  rewrite zlen_1, !app_nil_r in Ha2.
  change ([40 * a + b] ++ out) with ((40 * a + b) :: out) in Ha2. rewrite zlen_cons in Ha2.
  change ([40 * a + b] ++ concat (map comp_octets cs)) with ((40 * a + b) :: concat (map comp_octets cs)) in Ha2.
  rewrite Ha2 by lia. cbn [bind]. reflexivity.
Qed.
Lemma oid_content_decode a b cs : 0 <= a <= 2 -> 0 <= b <= 39 -> Forall comp_ok cs ->
  decode_object_id (oid_content (a :: b :: cs)) = (true, a :: b :: cs).
Proof.
  intros Ha Hb Hc. cbn [oid_content decode_object_id].
  assert (Hg := oid_groups (map comp_octets cs) []). rewrite !app_nil_r in Hg. rewrite Hg.
  - rewrite map_map. f_equal. f_equal; [lia|]. f_equal; [lia|].
    rewrite <- (map_id cs) at 2. apply map_ext_Forall. eapply Forall_impl; [|exact Hc]. intros c. apply comp_octets_value.
  - apply Forall_map. eapply Forall_impl; [|exact Hc]. intros c Hcc.
    split; [apply comp_octets_b128; auto|]. rewrite comp_octets_value by auto. apply Hcc.
Qed.
Lemma comp_octets_le c : comp_ok c -> 1 <= zlen (comp_octets c) <= 10.
Proof.
  intros Hc. split; [apply b128_octets_len, comp_octets_b128, Hc|]. unfold comp_octets.
  assert (H : forall n c b, zlen (comp_enc n c b) <= Z.of_nat n).
  { induction n as [|n IH]; intros; [cbn; lia|]. cbn [comp_enc]. rewrite zlen_app, zlen_1.
    destruct (_ >? 0); [specialize (IH (c0 / 128) false)|rewrite zlen_nil]; lia. }
  apply (H 10%nat).
Qed.
Lemma oid_content_len a b cs : Forall comp_ok cs -> 1 <= zlen (oid_content (a :: b :: cs)) <= 1 + 10 * zlen cs.
Proof.
  intros H. cbn [oid_content]. rewrite zlen_cons. pose proof (zlen_nonneg (concat (map comp_octets cs))). split; [lia|].
  clear H0. induction H as [|c cs Hc _ IH]; [cbn; lia|]. cbn [map concat]. rewrite zlen_app, zlen_cons.
  pose proof (comp_octets_le c Hc). lia.
Qed.
Lemma oid_content_bytes a b cs : 0 <= a <= 2 -> 0 <= b <= 39 -> Forall comp_ok cs -> bytes (oid_content (a :: b :: cs)).
Proof.
  intros Ha Hb H. cbn [oid_content]. constructor; [split; lia|].
  induction H as [|c cs Hc _ IH]; [constructor|]. cbn [map concat]. apply bytes_app. split; [apply comp_octets_bytes; auto|exact IH].
Qed.
Lemma oid_assign_spec i f a b cs : wf_ident i -> 0 <= f_len f <= zlen (f_data f) -> zlen (f_data f) < 2^63 ->
  0 <= a <= 2 -> 0 <= b <= 39 -> Forall comp_ok cs -> zlen cs < 2^57 ->
  exists f', oid_assign i f (a :: b :: cs) = Ok (true, f') /\ fixed_rep i f' (oid_content (a :: b :: cs)).
Proof.
  intros Hi Hf Hz Ha Hb Hc Hn. pose proof (oid_content_len a b cs Hc) as Hl.
  unfold oid_assign. rewrite eoil_spec by auto. cbn [bind].
  destruct (zsplit (f_data f) (zlen (f_data f) - f_len f)) as (h & x & E & Eh); [lia|].
  assert (Ex : f_len f = zlen x) by (rewrite E, zlen_app in Eh; lia).
  destruct (fixed_resize_gen i f h x (zlen (oid_content (a :: b :: cs))) Hi E Ex) as (f' & y & E1 & E2 & E3 & E4 & _); [lia|lia|].
  rewrite E1. cbn [bind]. rewrite (fixed_content_suffix f' _ _ E2) by congruence. cbn [bind].
  assert (Ee := encode_object_id_spec a b cs y Ha Hb Hc E4 ltac:(lia)). rewrite E4 in Ee. rewrite Ee. cbn [bind er_ok er_buf].
  eexists. split; [reflexivity|]. rewrite E2, E3, zlen_app, ztake_app_exact by lia.
  split; [apply hdr_of_packet; auto; lia | reflexivity].
Qed.

(** * assignments of any list of int64_t *)
Definition clen (c : Z) : Z := if c <? 0 then 1 else zlen (comp_octets c).
Definition clens (cs : list Z) : Z := fold_right (fun c n => clen c + n) 0 cs.
Lemma oid_count_neg n c : c < 0 -> oid_count (S n) c = Ok 1.
Proof.
  intros Hc. cbn [oid_count]. assert (H : Z.quot c 128 <= 0).
  { rewrite <- (Z.opp_involutive c). rewrite Z.quot_opp_l by lia. pose proof (Z.quot_pos (- c) 128). lia. }
  replace (Z.quot c 128 >? 0) with false by lia. reflexivity.
Qed.
Lemma clen_range c : in_i64 c -> 1 <= clen c <= 10.
Proof.
  intros [_ Hc]. unfold clen. destruct (Z.ltb_spec c 0); [lia|]. apply comp_octets_le. split; [lia|]. exact Hc.
Qed.
Lemma clens_app a b : clens (a ++ b) = clens a + clens b.
Proof. induction a as [|x a IH]; [reflexivity|]. cbn [app clens fold_right] in *. fold (clens (a ++ b)). fold (clens a). lia. Qed.
Lemma clens_range cs : Forall in_i64 cs -> 0 <= clens cs <= 10 * zlen cs.
Proof.
  induction 1 as [|c cs Hc _ IH]; [cbn; lia|]. cbn [clens fold_right]. fold (clens cs). rewrite zlen_cons.
  pose proof (clen_range c Hc). lia.
Qed.
Lemma oid_count_all_gen cs : Forall in_i64 cs -> oid_count_all cs = Ok (clens cs).
Proof.
  induction 1 as [|c cs Hc _ IH]; [reflexivity|]. cbn [oid_count_all]. rewrite IH.
  assert (E : oid_count 10 c = Ok (clen c)).
  { unfold clen. destruct (Z.ltb_spec c 0); [apply (oid_count_neg 9); auto|].
    apply (oid_count_spec 10 c true); [|lia]. apply oid_comp_small; auto. }
  rewrite E. reflexivity.
Qed.
Lemma oid_write_all_gen cs : forall pre hole post, Forall in_i64 cs -> zlen hole = clens cs ->
  1 <= zlen pre -> zlen (pre ++ hole ++ post) < 2^63 ->
  exists out, oid_write_all 10 (pre ++ hole ++ post) (zlen pre + zlen hole - 1) (rev cs) = Ok (forallb (fun c => 0 <=? c) cs, out)
    /\ zlen out = zlen (pre ++ hole ++ post).
Proof.
  induction cs as [|c cs IH] using rev_ind; intros pre hole post Hcs Hh Hp Hz.
  - eexists. split; reflexivity.
  - rewrite rev_unit, forallb_app. cbn [oid_write_all forallb]. apply Forall_app in Hcs as [Hcs Hc]. inversion Hc as [|? ? Hc1 _]; subst.
    rewrite clens_app in Hh. cbn [clens fold_right] in Hh. fold (clens cs) in Hh. pose proof (clens_range cs Hcs).
    pose proof (clen_range c Hc1). unfold clen in Hh. destruct (Z.ltb_spec c 0) as [Hneg|Hpos].
    + eexists. replace (0 <=? c) with false by lia. rewrite andb_false_r. split; reflexivity.
    + replace (0 <=? c) with true by lia. cbn [andb]. rewrite andb_true_r.
      assert (Hco : comp_ok c) by (destruct Hc1; split; assumption).
      pose proof (zlen_nonneg (comp_octets c)).
      destruct (zsplit hole (clens cs)) as (h1 & h2 & -> & H1'); [lia|]. rewrite zlen_app in Hh.
      assert (H2 : zlen h2 = zlen (comp_octets c)) by lia.
      assert (Hz' : zlen ((pre ++ h1) ++ h2 ++ post) < 2^63) by (rewrite <- !app_assoc in *; exact Hz).
      assert (Hp' : 1 <= zlen (pre ++ h1)) by (rewrite zlen_app; lia).
      assert (Hw := oid_write_spec 10 c (pre ++ h1) h2 post true (comp_ok_small c Hco) ltac:(lia) H2 Hp' Hz').
      fold (comp_octets c) in Hw.
      replace (zlen pre + zlen (h1 ++ h2) - 1) with (zlen (pre ++ h1) + zlen h2 - 1) by (rewrite !zlen_app; lia).
      replace (pre ++ (h1 ++ h2) ++ post) with ((pre ++ h1) ++ h2 ++ post) by (rewrite <- !app_assoc; reflexivity).
      rewrite Hw. cbn [bind].
      replace ((pre ++ h1) ++ comp_octets c ++ post) with (pre ++ h1 ++ (comp_octets c ++ post)) by (rewrite <- !app_assoc; reflexivity).
      rewrite zlen_app. destruct (IH pre h1 (comp_octets c ++ post)) as (out & E & El); auto.
      * rewrite !zlen_app in *. lia.
      * exists out. split; [exact E|]. rewrite El. rewrite !zlen_app. lia.
Qed.
Lemma in_i64b_ok x : in_i64 x -> in_i64b x = true.
Proof. intros [? ?]. unfold in_i64b. apply andb_true_intro. split; lia. Qed.
(** the acceptance test and the shape of the object after any assignment *)
Definition oid_accepts (comps : list Z) : bool :=
  match comps with a :: b :: cs => (a <=? 2) && (b <=? 39) && forallb (fun c => 0 <=? c) cs | _ => false end.
Lemma oid_assign_gen i f comps : wf_ident i -> 0 <= f_len f <= zlen (f_data f) -> zlen (f_data f) < 2^63 ->
  Forall in_i64 comps -> zlen comps < 2^57 -> (forall a b cs, comps = a :: b :: cs -> a <= 2 -> b <= 39 -> in_i64 (40 * a) /\ in_i64 (40 * a + b)) ->
  exists f' y, oid_assign i f comps = Ok (oid_accepts comps, f') /\ fixed_rep i f' y /\
    encoded_object_id_length comps = Ok (zlen y) /\ zlen y < 2^62 /\ zlen (f_data f') < 2^63.
Proof.
  intros Hi Hf Hz Hc Hn Hov.
  destruct (zsplit (f_data f) (zlen (f_data f) - f_len f)) as (h & x & E & Eh); [lia|].
  assert (Ex : f_len f = zlen x) by (rewrite E, zlen_app in Eh; lia).
  assert (Hlen : exists n, encoded_object_id_length comps = Ok n /\ 0 <= n < 2^62 /\
            (forall a b cs, comps = a :: b :: cs -> n = 1 + clens cs) /\ ((zlen comps < 2) -> n = 0)).
  { destruct comps as [|a [|b cs]]; cbn [encoded_object_id_length].
    - exists 0. split; [auto|]. split; [lia|]. split; [discriminate|auto].
    - exists 0. split; [auto|]. split; [lia|]. split; [discriminate|auto].
    - inversion Hc as [|? ? _ Hc1]; subst. inversion Hc1 as [|? ? _ Hc2]; subst.
      rewrite oid_count_all_gen by auto. cbn [bind]. pose proof (clens_range cs Hc2). rewrite !zlen_cons in *.
      eexists. split; [reflexivity|]. split; [lia|]. split; [congruence|]. pose proof (zlen_nonneg cs). lia. }
  destruct Hlen as (n & En & Hn62 & Hn2 & Hn0). unfold oid_assign. rewrite En. cbn [bind].
  destruct (fixed_resize_gen i f h x n Hi E Ex) as (f' & y & E1 & E2 & E3 & E4 & _); [lia|lia|].
  rewrite E1. cbn [bind]. rewrite (fixed_content_suffix f' _ _ E2) by congruence. cbn [bind].
  assert (Henc : exists y' len, encode_object_id y comps n = Ok (EncResult y' (oid_accepts comps) len) /\ zlen y' = n).
  { destruct comps as [|a [|b cs]].
    - exists y, 0. split; [|exact E4]. rewrite (Hn0 ltac:(reflexivity)). reflexivity.
    - exists y, 0. split; [|exact E4]. rewrite (Hn0 ltac:(reflexivity)). reflexivity.
    - specialize (Hn2 a b cs eq_refl). cbn [oid_accepts]. unfold encode_object_id.
      inversion Hc as [|? ? _ Hc1]; subst. inversion Hc1 as [|? ? _ Hc2]; subst. pose proof (clens_range cs Hc2).
      replace (1 + clens cs =? 0) with false by lia. cbn [bind]. rewrite E4.
      replace (1 + clens cs =? 0) with false by lia. rewrite Z.ltb_irrefl. cbn [orb].
      destruct (Z.gtb_spec a 2); cbn [orb].
      { exists y, 0. replace (a <=? 2) with false by lia. split; [reflexivity|exact E4]. }
      destruct (Z.gtb_spec b 39).
      { exists y, 0. replace (b <=? 39) with false by lia. rewrite andb_false_r. split; [reflexivity|exact E4]. }
      destruct (Hov a b cs eq_refl) as [Ho1 Ho2]; [lia|lia|]. rewrite (in_i64b_ok _ Ho1), (in_i64b_ok _ Ho2). cbn [andb negb].
      replace (a <=? 2) with true by lia. replace (b <=? 39) with true by lia. cbn [andb].
      destruct y as [|y0 y]; [rewrite zlen_nil in E4; lia|]. rewrite zlen_cons in E4.
      assert (Hw : mem_write (y0 :: y) 0 [u8 (40 * a + b)] = Ok ([u8 (40 * a + b)] ++ y ++ [])).
      { rewrite app_nil_r. apply (mem_write_mid [] y0 (u8 (40 * a + b)) y). reflexivity. }
      rewrite Hw. cbn [bind]. rewrite u64_small by lia.
      destruct (oid_write_all_gen cs [u8 (40 * a + b)] y []) as (out & Eo & El); auto; [lia|rewrite zlen_1; lia| |].
      { rewrite app_nil_r. cbn [app]. rewrite zlen_cons. lia. }
      rewrite zlen_1 in Eo. replace (1 + clens cs - 1) with (1 + zlen y - 1) by lia. rewrite Eo. cbn [bind].
      rewrite app_nil_r in El. cbn [app] in El. rewrite zlen_cons in El.
      destruct (forallb _ cs); eexists; eexists; (split; [reflexivity|lia]). }
  destruct Henc as (y' & len & Ee & Ey). rewrite Ee. cbn [bind er_ok er_buf].
  eexists. exists y'. split; [reflexivity|]. rewrite E2, E3, zlen_app, ztake_app_exact by lia.
  split; [|split; [congruence|split; [lia|]]].
  2: { cbn [f_data f_vec vd]. rewrite zlen_app, hdr_of_len by (auto; lia). pose proof (ehl_range i n Hi). lia. }
  split; [|cbn [f_len]; lia]. cbn [f_data f_vec vd]. rewrite <- Ey.
  apply hdr_of_packet; auto; lia.
Qed.
