(** Property theorems C31-C35, C69 and the object identifier part of C25. *)
From Verif Require Import Base Ident Spec IdentProofs HeaderProofs View ViewProofs Prims PrimProofs ContProofs PropertiesCont Oid OidProofs.

(** The ObjectIdentifier objects a program can hold: default construction, any assignment (accepted or rejected),
    copies, decodes (accepted or rejected). *)
Inductive oid_reachable : ident -> fixed -> Prop :=
| or_default i : wf_ident i -> oid_reachable i (fixed_init i)
| or_assign i f comps ok f' : oid_reachable i f -> Forall in_i64 comps -> zlen comps < 2^57 ->
    oid_assign i f comps = Ok (ok, f') -> oid_reachable i f'
| or_decode i f input view ok f' : oid_reachable i f -> bytes input -> tame input -> v_make input = Ok view ->
    oid_decode i f view = Ok (ok, f') -> oid_reachable i f'.
Definition oid_held (f : fixed) : Prop := 0 <= f_len f <= zlen (f_data f) /\ zlen (f_data f) < 2^63.
Lemma oid_held_ub i f a b cs : ~ (in_i64 (40 * a) /\ in_i64 (40 * a + b)) -> a <= 2 -> b <= 39 -> wf_ident i -> oid_held f ->
  Forall in_i64 cs -> zlen cs < 2^57 -> oid_assign i f (a :: b :: cs) = UB.
Proof.
  intros Hov Ha Hb Hi [Hf Hz] Hc Hn. pose proof (clens_range cs Hc). unfold oid_assign. cbn [encoded_object_id_length].
  rewrite oid_count_all_gen by auto. cbn [bind].
  destruct (zsplit (f_data f) (zlen (f_data f) - f_len f)) as (h & x & E & Eh); [lia|].
  assert (Ex : f_len f = zlen x) by (rewrite E, zlen_app in Eh; lia).
  destruct (fixed_resize_gen i f h x (1 + clens cs) Hi E Ex) as (f' & y & E1 & E2 & E3 & E4 & _); [lia|lia|].
  rewrite E1. cbn [bind]. rewrite (fixed_content_suffix f' _ _ E2) by congruence. cbn [bind].
  unfold encode_object_id. replace (1 + clens cs =? 0) with false by lia. cbn [bind]. rewrite E4.
  replace (1 + clens cs =? 0) with false by lia. rewrite Z.ltb_irrefl. cbn [orb].
  replace (a >? 2) with false by lia. replace (b >? 39) with false by lia. cbn [orb].
  destruct (negb (in_i64b (40 * a) && in_i64b (40 * a + b))) eqn:En; [reflexivity|]. exfalso. apply Hov.
  apply negb_false_iff, andb_true_iff in En as [E5 E6]. unfold in_i64b in *. apply andb_true_iff in E5, E6. split; split; lia.
Qed.
Lemma in_i64_dec x : {in_i64 x} + {~ in_i64 x}.
Proof.
  destruct (in_i64b x) eqn:E; unfold in_i64b in E; [left|right].
  - apply andb_true_iff in E as [? ?]. split; lia.
  - intros [? ?]. apply andb_false_iff in E. lia.
Qed.
Lemma oid_reachable_held i f : oid_reachable i f -> wf_ident i /\ oid_held f.
Proof.
  assert (Hrep : forall i f x, fixed_rep i f x -> zlen (f_data f) < 2^63 -> oid_held f).
  { intros i0 f0 x [Hp El] Hz. pose proof (id_packet_len _ _ _ _ _ Hp). pose proof (zlen_nonneg x). split; lia. }
  induction 1 as [i Hi | i f comps ok f' _ IH Hc Hn E | i f input view ok f' _ IH Hb Ht Ev E].
  - split; [auto|]. assert (Hh := fixed_history_rep _ _ _ (fh_default i Hi)). destruct Hh as (_ & Hr & Hz & _). eauto.
  - destruct IH as (Hi & Hf & Hz). split; [auto|].
    assert (Hg : forall a b cs, comps = a :: b :: cs -> a <= 2 -> b <= 39 -> in_i64 (40 * a) /\ in_i64 (40 * a + b)).
    { intros a b cs -> Ha Hb2. inversion Hc as [|? ? _ Hc1]; subst. inversion Hc1 as [|? ? _ Hc2]; subst.
      destruct (in_i64_dec (40 * a)) as [H1|H1]; [destruct (in_i64_dec (40 * a + b)) as [H2|H2]; [auto|]|].
      all: rewrite !zlen_cons in Hn; rewrite oid_held_ub in E; [discriminate| tauto | lia | lia | auto | split; auto | auto | lia]. }
    destruct (oid_assign_gen i f comps Hi Hf Hz Hc Hn Hg) as (f2 & y & E2 & Hr & _ & _ & Hz2).
    assert (f2 = f') by congruence. subst f2. eapply Hrep; eauto.
  - destruct IH as (Hi & Hf). split; [auto|]. unfold oid_decode in E.
    destruct (fixed_decode_spec i f input Hb Ht) as (v2 & Ev2 & [(p & x & extra & rest & Ein & Hp & E2)|[E2 _]]);
      assert (v2 = view) by congruence; subst v2; assert (E3 := eq_trans (eq_sym E) E2); injection E3 as -> ->; [|auto].
    destruct Ht as [Hz _]. rewrite Ein, zlen_app in Hz. pose proof (zlen_nonneg rest). pose proof (zlen_nonneg x).
    pose proof (id_packet_len _ _ _ _ _ Hp). split; cbn [f_len f_data f_vec vd vec_assign]; lia.
Qed.

(** C31.  From every state of the object, a valid component list is accepted, read back, and survives encode/decode
    into any other object of the same type. *)
Theorem C31_oid_round_trip : forall i f comps, oid_reachable i f -> oid_valid comps -> Forall in_i64 comps -> zlen comps < 2^57 ->
  exists f' p, oid_assign i f comps = Ok (true, f') /\ oid_value f' = Ok comps /\
    writes (fun buf => Ok (oid_encode f' buf)) p /\ fixed_encoded_length f' = zlen p /\
    forall g rest, zlen (p ++ rest) < 2^63 ->
      exists view g', v_make (p ++ rest) = Ok view /\ oid_decode i g view = Ok (true, g') /\ oid_value g' = Ok comps.
Proof.
  intros i f comps Hr (a & b & cs & -> & Ha & Hb & Hcs) Hc Hn. destruct (oid_reachable_held _ _ Hr) as (Hi & Hf & Hz).
  inversion Hc as [|? ? _ Hc1]; subst. inversion Hc1 as [|? ? _ Hc2]; subst. rewrite !zlen_cons in Hn.
  assert (Hok : Forall comp_ok cs).
  { rewrite Forall_forall in *. intros c Hin. split; [apply Hcs; auto|]. apply (Hc2 c Hin). }
  destruct (oid_assign_spec i f a b cs Hi Hf Hz Ha Hb Hok ltac:(lia)) as (f' & E & Hr').
  assert (Hv : forall g, fixed_rep i g (oid_content (a :: b :: cs)) -> oid_value g = Ok (a :: b :: cs)).
  { intros g Hg. unfold oid_value. rewrite (fixed_content_rep _ _ _ Hg). cbn [bind].
    rewrite oid_content_decode by auto. reflexivity. }
  exists f', (f_data f'). split; [exact E|]. split; [auto|]. split; [apply copy_out_writes|]. split; [reflexivity|].
  intros g rest Hz2. destruct Hr' as [Hp El]. destruct (fixed_decode_packet i g _ _ [] rest Hp Hz2) as (v & Ev & Ed).
  exists v. eexists. split; [exact Ev|]. split; [exact Ed|]. apply Hv. split; auto.
Qed.
Example C31_example : exists f, oid_assign (Id universal 6) (fixed_init (Id universal 6)) [1; 2; 840; 113549; 2 ^ 63 - 1] = Ok (true, f) /\
  oid_value f = Ok [1; 2; 840; 113549; 2 ^ 63 - 1] /\
  fixed_ber f = [6; 15; 42; 0x86; 0x48; 0x86; 0xF7; 0x0D; 0xFF; 0xFF; 0xFF; 0xFF; 0xFF; 0xFF; 0xFF; 0xFF; 0x7F].
Proof. eexists. split; [vm_compute; reflexivity|]. split; [vm_compute; reflexivity|]. vm_compute; reflexivity. Qed.
Example C31_hyps : oid_valid [2; 39; 0] /\ Forall in_i64 [2; 39; 0].
Proof. split; [exists 2, 39, [0]; split; [auto|split; [lia|split; [lia|repeat constructor; lia]]]|repeat constructor; lia]. Qed.

(** C32.  The content octets of an accepted valid list: 40 * first + second, then every further component in its
    shortest base-128 form; encoded_object_id_length is their number; and they are what X.690 assigns to the list. *)
Theorem C32_oid_content : forall i f a b cs, oid_reachable i f -> oid_valid (a :: b :: cs) -> Forall in_i64 cs -> zlen cs < 2^57 ->
  exists f' gs, oid_assign i f (a :: b :: cs) = Ok (true, f') /\
    Forall b128_shortest gs /\ map b128_value gs = cs /\
    fixed_content f' = Ok ((40 * a + b) :: concat gs) /\
    encoded_object_id_length (a :: b :: cs) = Ok (1 + zlen (concat gs)) /\
    x690_oid ((40 * a + b) :: concat gs) (a :: b :: cs).
Proof.
  intros i f a b cs Hr (a' & b' & cs' & E0 & Ha & Hb & Hcs) Hc2 Hn. injection E0 as -> -> ->.
  destruct (oid_reachable_held _ _ Hr) as (Hi & Hf & Hz). rename a' into a, b' into b, cs' into cs.
  assert (Hok : Forall comp_ok cs).
  { rewrite Forall_forall in *. intros c Hin. split; [apply Hcs; auto|]. apply (Hc2 c Hin). }
  destruct (oid_assign_spec i f a b cs Hi Hf Hz Ha Hb Hok ltac:(lia)) as (f' & E & Hr').
  assert (Hs : Forall b128_shortest (map comp_octets cs)).
  { apply Forall_map. eapply Forall_impl; [|exact Hok]. intros c. apply comp_octets_shortest. }
  assert (Hm : map b128_value (map comp_octets cs) = cs).
  { rewrite map_map. rewrite <- (map_id cs) at 2. apply map_ext_Forall. eapply Forall_impl; [|exact Hok]. intros c. apply comp_octets_value. }
  exists f', (map comp_octets cs). split; [exact E|]. split; [exact Hs|]. split; [exact Hm|].
  split; [exact (fixed_content_rep _ _ _ Hr')|]. split.
  - rewrite eoil_spec by auto. cbn [oid_content]. rewrite zlen_cons. reflexivity.
  - exists [40 * a + b], (map comp_octets cs), a, b. split; [reflexivity|]. split.
    { split; [exists [], (40 * a + b); split; [reflexivity|split; [constructor|lia]]|cbn [hd]; lia]. }
    split; [exact Hs|]. split; [lia|]. split; [lia|]. split; [lia|]. split; [|rewrite Hm; reflexivity].
    unfold b128_value. cbn [fold_left]. rewrite Z.mod_small; lia.
Qed.
Example C32_example : encoded_object_id_length [1; 2; 840; 113549] = Ok 6. Proof. vm_compute; reflexivity. Qed.

(** C33, refuted: 2.999 (X.690's own example) decodes to 3.16.55, and content whose last subidentifier is cut off is
    accepted. *)
Theorem C33_oid_decode_x690_refuted :
  (x690_oid [0x88; 0x37] [2; 999] /\ decode_object_id [0x88; 0x37] = (true, [3; 16; 55])) /\
  ((forall comps, ~ x690_oid [42; 0x86] comps) /\ decode_object_id [42; 0x86] = (true, [1; 2])).
Proof.
  split; split; [ | vm_compute; reflexivity | | vm_compute; reflexivity].
  - exists [0x88; 0x37], [], 2, 999. split; [reflexivity|]. split.
    { split; [|cbn; lia]. exists [0x88], 0x37. split; [reflexivity|]. split; [repeat constructor; lia|lia]. }
    split; [constructor|]. split; [lia|]. split; [lia|]. split; [lia|]. split; [vm_compute; reflexivity|reflexivity].
  - intros comps (g0 & gs & X & Y & E & [H0 _] & Hgs & _).
    assert (H42 : b128_octets [42]) by (exists [], 42; split; [reflexivity|split; [constructor|lia]]).
    destruct (b128_octets_det [42] g0 [0x86] (concat gs) H42 H0 E) as [<- E2].
    destruct gs as [|g gs]; [discriminate|]. inversion Hgs as [|? ? [Hg _] _]; subst. cbn [concat] in E2.
    destruct Hg as (pre & lst & -> & Hpre & Hlst). rewrite <- app_assoc in E2.
    destruct pre as [|x pre]; cbn [app] in E2; injection E2 as E3 E4; [lia|]. destruct pre; discriminate.
Qed.
(** C33, partial: for every content X.690 8.19 allows, with components below 2^63, decoding returns the components
    X.690 assigns exactly when the first subidentifier is below 120 (so for all of arcs 0 and 1 and for 2.0-2.39). *)
Theorem C33_oid_decode_x690_partial : forall content a b cs, x690_oid content (a :: b :: cs) -> Forall (fun c => c < 2^63) cs ->
  (decode_object_id content = (true, a :: b :: cs) <-> 40 * a + b < 120).
Proof.
  intros content a b cs (g0 & gs & X & Y & -> & [H0 H0s] & Hgs & HX & HY & HXY & Hv & E) Hc.
  injection E as -> -> ->. rewrite Forall_map in Hc.
  assert (Hg : Forall (fun g => b128_octets g /\ b128_value g < 2^63) gs).
  { rewrite Forall_forall in *. intros g Hin. split; [apply Hgs; auto|apply Hc; auto]. }
  assert (Hd := oid_groups gs [] Hg). rewrite !app_nil_r in Hd.
  destruct H0 as (pre & lst & -> & Hpre & Hl). destruct pre as [|d pre].
  - assert (Hb : b128_value [lst] = lst) by (cbn; rewrite Z.mod_small; lia). cbn [app] in Hv. rewrite Hb in Hv.
    cbn [app decode_object_id]. rewrite Hd. split; intros H.
    + injection H as H1 H2. subst lst. Z.div_mod_to_equations. lia.
    + subst lst. f_equal. f_equal; [Z.div_mod_to_equations; lia|]. f_equal. Z.div_mod_to_equations. lia.
  - inversion Hpre as [|? ? Hd1 Hpre']; subst. cbn [app hd] in H0s. cbn [app decode_object_id]. split; intros H.
    + injection H as H1 H2. Z.div_mod_to_equations. lia.
    + exfalso. cbn [app] in Hv. rewrite b128_value_cons, zlen_app, zlen_1 in Hv. pose proof (zlen_nonneg pre).
      pose proof (b128_value_nonneg (pre ++ [lst])) as [Hn _].
      assert (128 ^ (zlen pre + 1) = 128 * 128 ^ zlen pre) as Hp by (rewrite Z.pow_add_r by lia; lia).
      assert (0 < 128 ^ zlen pre) by (apply Z.pow_pos_nonneg; lia).
      assert (1 <= d mod 128) by (Z.div_mod_to_equations; lia). rewrite Hp in Hv. nia.
Qed.
Example C33_example : x690_oid [0x2A; 0x86; 0x48] [1; 2; 840].
Proof.
  exists [0x2A], [[0x86; 0x48]], 1, 2. split; [reflexivity|].
  split; [split; [exists [], 42; split; [reflexivity|split; [constructor|lia]]|cbn; lia]|].
  split; [constructor; [|constructor]; split; [exists [0x86], 0x48; split; [reflexivity|split; [repeat constructor; lia|lia]]|cbn; lia]|].
  split; [lia|]. split; [lia|]. split; [lia|]. split; vm_compute; reflexivity.
Qed.

(** C34, refuted: component_number returns 0 instead of 840 for index 2, reads the second content octet instead of the
    first for index 1, and reads past the content when it has one octet. *)
Theorem C34_oid_component_number_refuted :
  (exists f, oid_assign (Id universal 6) (fixed_init (Id universal 6)) [1; 2; 840] = Ok (true, f) /\
     oid_value f = Ok [1; 2; 840] /\ oid_component_number f 2 = Ok 0 /\ oid_component_number f 1 = Ok 14) /\
  (exists f, oid_assign (Id universal 6) (fixed_init (Id universal 6)) [1; 2] = Ok (true, f) /\
     oid_value f = Ok [1; 2] /\ oid_component_number f 1 = UB).
Proof.
  split; (eexists; split; [vm_compute; reflexivity|]).
  - split; [vm_compute; reflexivity|]. split; vm_compute; reflexivity.
  - split; [vm_compute; reflexivity|]. vm_compute; reflexivity.
Qed.
(** C34, partial: in every state number_of_components() is the size of value(); component_number(0) is its first
    element; for an index from 2 on component_number answers 0 below the count and -1 from it on. *)
Lemma oid_component_loop_spec l : forall k w cur, k <= w -> oid_component_loop l k w = if w <? k + zlen (oid_decode_loop l cur) then 0 else -1.
Proof.
  induction l as [|b l IH]; intros k w cur Hk; cbn [oid_component_loop oid_decode_loop].
  - rewrite zlen_nil. replace (w <? k + 0) with false by lia. reflexivity.
  - destruct (Z.land 0x80 b =? 0); cbn [negb]; [|apply IH; auto]. rewrite zlen_cons.
    pose proof (zlen_nonneg (oid_decode_loop l 0)). destruct (Z.eqb_spec k w).
    + replace (w <? _) with true by lia. reflexivity.
    + rewrite (IH _ _ 0) by lia. replace (k + 1 + zlen (oid_decode_loop l 0)) with (k + (1 + zlen (oid_decode_loop l 0))) by lia. reflexivity.
Qed.
Theorem C34_oid_component_number_partial : forall i f, oid_reachable i f -> exists comps,
  oid_value f = Ok comps /\ oid_number_of_components f = Ok (zlen comps) /\
  oid_component_number f 0 = Ok (match comps with [] => -1 | a :: _ => a end) /\
  (forall n, 2 <= n -> oid_component_number f n = Ok (if n <? zlen comps then 0 else -1)).
Proof.
  intros i f Hr. destruct (oid_reachable_held _ _ Hr) as (Hi & Hf & Hz).
  destruct (zsplit (f_data f) (zlen (f_data f) - f_len f)) as (h & x & E & Eh); [lia|].
  assert (Ex : f_len f = zlen x) by (rewrite E, zlen_app in Eh; lia).
  unfold oid_value, oid_number_of_components, oid_component_number. rewrite (fixed_content_suffix f h x E Ex). cbn [bind].
  eexists. split; [reflexivity|]. destruct x as [|b x].
  - split; [reflexivity|]. split; [reflexivity|]. intros n Hn. cbn [get_component_number decode_object_id snd].
    rewrite zlen_nil. replace (n <? 0) with false by lia. reflexivity.
  - cbn [get_number_of_components get_component_number decode_object_id snd]. rewrite !zlen_cons, (oid_count_decode x 0).
    split; [f_equal; lia|]. split; [reflexivity|]. intros n Hn.
    replace (n =? 0) with false by lia. replace (n =? 1) with false by lia. rewrite (oid_component_loop_spec x 2 n 0) by lia.
    replace (1 + (1 + zlen (oid_decode_loop x 0))) with (2 + zlen (oid_decode_loop x 0)) by lia. reflexivity.
Qed.
(** The index that is left, 1, in every state: -1 if there is no content; past the content if it has one octet; otherwise the second octet modulo 40, which is
    value()'s second element if and only if the first two octets agree modulo 40. *)
Theorem C34_second_component_partial : forall i f, oid_reachable i f -> exists x comps, fixed_content f = Ok x /\ oid_value f = Ok comps /\
  match x with
  | [] => oid_component_number f 1 = Ok (-1)
  | [a] => oid_component_number f 1 = UB
  | a :: b :: _ => oid_component_number f 1 = Ok (b mod 40) /\ (oid_component_number f 1 = Ok (nth 1 comps (-1)) <-> a mod 40 = b mod 40)
  end.
Proof.
  intros i f Hr. destruct (oid_reachable_held _ _ Hr) as (Hi & Hf & Hz).
  destruct (zsplit (f_data f) (zlen (f_data f) - f_len f)) as (h & x & E & Eh); [lia|].
  assert (Ex : f_len f = zlen x) by (rewrite E, zlen_app in Eh; lia).
  exists x. unfold oid_value, oid_component_number. rewrite (fixed_content_suffix f h x E Ex). cbn [bind].
  eexists. split; [reflexivity|]. split; [reflexivity|]. destruct x as [|a [|b x]]; [reflexivity|reflexivity|].
  cbn [get_component_number decode_object_id snd nth]. change (1 =? 0) with false. change (1 =? 1) with true. cbv iota. rewrite (zget_mid [a] b x 1 eq_refl : zget (a :: b :: x) 1 = Ok b). cbn [bind].
  split; [reflexivity|]. split; [intros Q; injection Q as Q; lia|intros ->; reflexivity].
Qed.
Example C34_example : oid_reachable (Id universal 6) (fixed_init (Id universal 6)).
Proof. constructor. cbn. lia. Qed.

(** C35, refuted: a rejected assignment changes the value. *)
Theorem C35_rejected_assign_refuted : exists f f',
  oid_assign (Id universal 6) (fixed_init (Id universal 6)) [1; 2; 840] = Ok (true, f) /\
  oid_assign (Id universal 6) f [1; 2; -1] = Ok (false, f') /\
  oid_value f = Ok [1; 2; 840] /\ oid_value f' = Ok [1; 2].
Proof.
  eexists. eexists. split; [vm_compute; reflexivity|]. split; [vm_compute; reflexivity|]. split; vm_compute; reflexivity.
Qed.
(** C35, partial: after any assignment that does not overflow, accepted or rejected, the object still encodes to one
    complete packet with its own identifier, whose content has the length computed for the given list. *)
Theorem C35_rejected_assign_partial : forall i f comps, oid_reachable i f -> Forall in_i64 comps -> zlen comps < 2^57 ->
  (forall a b cs, comps = a :: b :: cs -> -(2^57) <= a /\ -(2^57) <= b) ->
  exists ok f' x p, oid_assign i f comps = Ok (ok, f') /\ writes (fun buf => Ok (oid_encode f' buf)) p /\
    id_packet i primitive p x [] /\ fixed_content f' = Ok x /\ encoded_object_id_length comps = Ok (zlen x).
Proof.
  intros i f comps Hr Hc Hn Hlo. destruct (oid_reachable_held _ _ Hr) as (Hi & Hf & Hz).
  destruct (oid_assign_gen i f comps Hi Hf Hz Hc Hn) as (f' & y & E & Hr' & El & _).
  { intros a b cs Ec Ha Hb. specialize (Hlo a b cs Ec). split; split; lia. }
  eexists. exists f', y, (f_data f'). split; [exact E|]. split; [apply copy_out_writes|]. split; [apply Hr'|].
  split; [eapply fixed_content_rep; eauto|exact El].
Qed.
Example C35_example : exists f', oid_assign (Id universal 6) (fixed_init (Id universal 6)) [1; 2; -1] = Ok (false, f') /\
  fixed_ber f' = [6; 2; 42; 0].
Proof. eexists. split; [vm_compute; reflexivity|]. vm_compute; reflexivity. Qed.

(** C69, refuted: assign accepts a negative first or second component (1.-2 is stored as 0.38), and with a first
    component below -2^63/40 it overflows. *)
Theorem C69_assign_accepts_only_valid_refuted :
  (exists f, oid_assign (Id universal 6) (fixed_init (Id universal 6)) [1; -2] = Ok (true, f) /\ oid_value f = Ok [0; 38]) /\
  ~ oid_valid [1; -2] /\
  oid_assign (Id universal 6) (fixed_init (Id universal 6)) [-(2^60); 0] = UB.
Proof.
  split; [eexists; split; [vm_compute; reflexivity|]; vm_compute; reflexivity|]. split; [|vm_compute; reflexivity].
  intros (a & b & cs & E & _ & Hb & _). injection E as _ <- _. lia.
Qed.
(** C69, partial: when the first two components are not negative, assign returns true exactly on the valid lists. *)
Theorem C69_assign_accepts_only_valid_partial : forall i f comps ok f', oid_reachable i f -> Forall in_i64 comps -> zlen comps < 2^57 ->
  (forall a b cs, comps = a :: b :: cs -> 0 <= a /\ 0 <= b) ->
  oid_assign i f comps = Ok (ok, f') -> (ok = true <-> oid_valid comps).
Proof.
  intros i f comps ok f' Hr Hc Hn Hlo E. destruct (oid_reachable_held _ _ Hr) as (Hi & Hf & Hz).
  destruct (oid_assign_gen i f comps Hi Hf Hz Hc Hn) as (f2 & y & E2 & _).
  { intros a b cs Ec Ha Hb. specialize (Hlo a b cs Ec). split; split; lia. }
  assert (ok = oid_accepts comps) as -> by congruence. clear - Hlo. split.
  - destruct comps as [|a [|b cs]]; try discriminate. cbn [oid_accepts]. intros H.
    apply andb_true_iff in H as [H H3]. apply andb_true_iff in H as [H1 H2]. destruct (Hlo a b cs eq_refl).
    exists a, b, cs. split; [auto|]. split; [lia|]. split; [lia|]. rewrite forallb_forall in H3. apply Forall_forall.
    intros c Hin. specialize (H3 c Hin). lia.
  - intros (a & b & cs & -> & Ha & Hb & Hcs). cbn [oid_accepts]. replace (a <=? 2) with true by lia. replace (b <=? 39) with true by lia.
    cbn [andb]. apply forallb_forall. intros c Hin. rewrite Forall_forall in Hcs. specialize (Hcs c Hin). lia.
Qed.
Example C69_example : oid_valid [0; 0] /\ ~ oid_valid [0; 40] /\
  exists f', oid_assign (Id universal 6) (fixed_init (Id universal 6)) [0; 40] = Ok (false, f').
Proof.
  split; [exists 0, 0, []; split; [auto|split; [lia|split; [lia|constructor]]]|].
  split; [intros (a & b & cs & E & _ & Hb & _); injection E as <- <- <-; lia|]. eexists. vm_compute; reflexivity.
Qed.

(** C25 for object identifiers. *)
Theorem C25_oid_failed_decode : forall i f view f', oid_decode i f view = Ok (false, f') -> f' = f.
Proof. exact C25_string_failed_decode. Qed.

Print Assumptions C31_oid_round_trip.
Print Assumptions C32_oid_content.
Print Assumptions C33_oid_decode_x690_refuted.
Print Assumptions C33_oid_decode_x690_partial.
Print Assumptions C34_oid_component_number_refuted.
Print Assumptions C34_oid_component_number_partial.
Print Assumptions C35_rejected_assign_refuted.
Print Assumptions C35_rejected_assign_partial.
Print Assumptions C69_assign_accepts_only_valid_refuted.
Print Assumptions C69_assign_accepts_only_valid_partial.
Print Assumptions C25_oid_failed_decode.
