(** Property theorems C14-C18 and C21: Integer and Enumerated. *)
From Verif Require Import Base Ident Spec IdentProofs HeaderProofs View ViewProofs Prims PrimProofs IntProofs.

(** The Integer objects a program can hold, with the value the last successful operation gave them: a default or
    int64_t constructed object, and then any sequence of assignments, copies from Integers with any other identifier,
    and decodes (of any bytes), successful or not. *)
Inductive int_history : ident -> list Z -> Z -> Prop :=
| ih_default i d : wf_ident i -> int_init i = Ok d -> int_history i d 0
| ih_construct i d x : wf_ident i -> in_i64 x -> int_of i x = Ok d -> int_history i d x
| ih_assign i d v d' x : int_history i d v -> in_i64 x -> int_assign i d x = Ok d' -> int_history i d' x
| ih_copy i d v j e w d' : int_history i d v -> int_history j e w -> int_copy i j d e = Ok d' -> int_history i d' w
| ih_decode_failed i d v d' input view : int_history i d v -> bytes input -> tame input -> v_make input = Ok view ->
    int_decode i d view = Ok (false, d') -> int_history i d' v
| ih_decode i d v d' p x extra rest view : int_history i d v -> bytes (p ++ rest) -> tame (p ++ rest) ->
    id_packet i primitive p x extra -> v_make (p ++ rest) = Ok view ->
    int_decode i d view = Ok (true, d') -> int_history i d' (twos_value x).

Lemma int_history_rep i d v : int_history i d v ->
  wf_ident i /\ exists x, small_rep i int_max d x /\ bytes x /\ zlen x <= 8 /\ twos_value x = v.
Proof.
  assert (Hadd : forall i d x v, wf_ident i -> small_rep i int_max d x -> bytes x -> twos_value x = v ->
            wf_ident i /\ exists x, small_rep i int_max d x /\ bytes x /\ zlen x <= 8 /\ twos_value x = v).
  { intros i' d' x' v' Hi Hr Hb Hv. split; auto. exists x'. repeat split; auto.
    apply (small_rep_len _ _ _ _ (small_int_ok _ Hi) Hr). }
  induction 1 as [i d Hi E | i d x Hi Hx E | i d v d' x _ IH Hx E | i d v j e w d' _ IH1 _ IH2 E
    | i d v d' input view _ IH Hb Ht Ev E | i d v d' p x extra rest view _ IH Hb Ht Hp Ev E].
  - destruct (int_init_rep i Hi) as (d' & E' & Hr). assert (d' = d) by congruence; subst.
    apply (Hadd _ _ [0]); auto. bytes_lit.
  - destruct (int_of_rep i x Hi Hx) as (d' & E' & Hr). assert (d' = d) by congruence; subst.
    destruct (int_octets_spec x Hx) as (? & ? & ? & _). eapply Hadd; eauto.
  - destruct IH as (Hi & y & Hr & _). destruct (int_assign_rep i d y x Hi Hr Hx) as (d2 & E' & Hr').
    assert (d2 = d') by congruence; subst. destruct (int_octets_spec x Hx) as (? & ? & ? & _). eapply Hadd; eauto.
  - destruct IH1 as (Hi & y & Hr & _). destruct IH2 as (Hj & z & Hrz & Hbz & Hlz & Hvz).
    unfold int_copy in E. rewrite (small_content_rep _ _ _ _ (small_int_ok _ Hj) Hrz) in E. cbn [bind] in E.
    destruct (small_assign_rep i int_max d y z (small_int_ok _ Hi) Hr Hlz) as (d2 & E' & Hr').
    assert (d2 = d') by congruence; subst. eapply Hadd; eauto.
  - destruct IH as (Hi & y & Hr & Hb' & Hl & Hv).
    destruct (small_decode_spec i int_max d y input (small_int_ok _ Hi) Hr Hb Ht) as (v2 & Ev2 & [H|H]).
    + destruct H as (p & x & extra & rest & d2 & _ & _ & _ & E2 & _). unfold int_decode in E.
      assert (v2 = view) by congruence; subst. congruence.
    + destruct H as [E2 _]. unfold int_decode in E. assert (v2 = view) by congruence; subst.
      assert (d' = d) by congruence; subst. eapply Hadd; eauto.
  - destruct IH as (Hi & y & Hr & Hb' & Hl & Hv).
    destruct (small_decode_spec i int_max d y _ (small_int_ok _ Hi) Hr Hb Ht) as (v2 & Ev2 & [H|H]);
      unfold int_decode in E; assert (v2 = view) by congruence; subst v2.
    + destruct H as (p2 & x2 & extra2 & rest2 & d2 & Eq & Hp2 & Hx2 & E2 & Hr2).
      destruct (id_packet_det _ _ _ _ _ _ _ _ _ _ _ Hp Hp2 Eq) as (<- & <- & <- & <- & _).
      assert (d2 = d') by congruence; subst.
      apply (Hadd _ _ x); auto. apply bytes_app in Hb as [Hbp _].
      destruct i as [c t|oc ot ic it]; cbn [id_packet] in Hp.
      * destruct Hp as [Hp _]. eapply (bytes_content _ _ _ _ _ []); eauto. rewrite app_nil_r; auto.
      * destruct Hp as (q & Hp & Hq). eapply (bytes_content _ _ _ _ _ extra); eauto.
        eapply (bytes_content _ _ _ _ _ []); eauto. rewrite app_nil_r; auto.
    + destruct H as [E2 _]. congruence.
Qed.

(** Decoding what the object encodes to, into any other object with the same identifier. *)
Lemma int_transfer i d x e w rest :
  wf_ident i -> small_rep i int_max d x -> bytes x -> int_history i e w ->
  zlen ((hdr_of i (zlen x) primitive ++ x) ++ rest) < 2^63 ->
  exists view e', v_make ((hdr_of i (zlen x) primitive ++ x) ++ rest) = Ok view /\
    int_decode i e view = Ok (true, e') /\ int_value i e' = Ok (twos_value x).
Proof.
  intros Hi Hr Hb He Hz. destruct (int_history_rep _ _ _ He) as (_ & y & Hre & _).
  pose proof (small_rep_len _ _ _ _ (small_int_ok _ Hi) Hr) as [_ Hl].
  destruct (small_decode_packet i int_max e y _ x [] rest (small_int_ok _ Hi) Hre
              (hdr_of_packet i primitive x Hi ltac:(unfold int_max in *; lia)) Hz Hl) as (v & d' & E1 & E2 & Hr').
  exists v, d'. split; [auto|]. split; [auto|]. apply int_value_rep; auto.
Qed.

(** C14.  Round trip of every int64_t, for every identifier (one or two tags), whatever object it is decoded into and
    whatever follows it in the buffer. *)
Theorem C14_integer_round_trip : forall i x, wf_ident i -> in_i64 x ->
  exists d p, int_of i x = Ok d /\ int_value i d = Ok x /\
    writes (int_encode i d) p /\ int_encoded_length i d = Ok (zlen p) /\
    forall e w rest, int_history i e w -> zlen (p ++ rest) < 2^63 ->
      exists view e', v_make (p ++ rest) = Ok view /\ int_decode i e view = Ok (true, e') /\ int_value i e' = Ok x.
Proof.
  intros i x Hi Hx. destruct (int_of_rep i x Hi Hx) as (d & E & Hr).
  destruct (int_octets_spec x Hx) as (Hb & Hl & Hv & _). pose proof (small_int_ok i Hi) as Hok.
  exists d, (hdr_of i (zlen (int_octets x)) primitive ++ int_octets x).
  split; [auto|]. split; [rewrite (int_value_rep _ _ _ Hi Hr Hb), Hv; reflexivity|].
  split; [eapply small_encode_writes; eauto|]. split; [eapply small_ber_length_rep; eauto|].
  intros e w rest He Hz. destruct (int_transfer i d _ e w rest Hi Hr Hb He Hz) as (v & e' & E1 & E2 & E3).
  rewrite Hv in E3. eauto.
Qed.
(** The same for assignment to an existing object. *)
Theorem C14_integer_assign_round_trip : forall i d0 v0 x, int_history i d0 v0 -> in_i64 x ->
  exists d p, int_assign i d0 x = Ok d /\ int_value i d = Ok x /\
    writes (int_encode i d) p /\ int_encoded_length i d = Ok (zlen p) /\
    forall e w rest, int_history i e w -> zlen (p ++ rest) < 2^63 ->
      exists view e', v_make (p ++ rest) = Ok view /\ int_decode i e view = Ok (true, e') /\ int_value i e' = Ok x.
Proof.
  intros i d0 v0 x Hh Hx. destruct (int_history_rep _ _ _ Hh) as (Hi & y & Hr0 & _).
  destruct (int_assign_rep i d0 y x Hi Hr0 Hx) as (d & E & Hr).
  destruct (int_octets_spec x Hx) as (Hb & Hl & Hv & _). pose proof (small_int_ok i Hi) as Hok.
  exists d, (hdr_of i (zlen (int_octets x)) primitive ++ int_octets x).
  split; [auto|]. split; [rewrite (int_value_rep _ _ _ Hi Hr Hb), Hv; reflexivity|].
  split; [eapply small_encode_writes; eauto|]. split; [eapply small_ber_length_rep; eauto|].
  intros e w rest He Hz. destruct (int_transfer i d _ e w rest Hi Hr Hb He Hz) as (v & e' & E1 & E2 & E3).
  rewrite Hv in E3. eauto.
Qed.
Example C14_example : exists d out, int_of (DoubleId context_specific 3 universal 2) (-129) = Ok d /\
  int_encode (DoubleId context_specific 3 universal 2) d (zrep 8 0) = Ok out /\
  er_buf out = [0xA3; 4; 2; 2; 0xFF; 0x7F; 0; 0] /\ er_len out = 6.
Proof. eexists. eexists. split; [vm_compute; reflexivity|]. vm_compute. auto. Qed.

(** C15.  encode_integer writes the shortest big-endian two's complement form. *)
Theorem C15_integer_minimal : forall out x, in_i64 x ->
  exists content, bytes content /\ 1 <= zlen content <= 8 /\ twos_value content = x /\
    (forall l, bytes l -> l <> [] -> twos_value l = x -> zlen content <= zlen l) /\
    (zlen content <= zlen out -> encode_integer out x = (content ++ zdrop (zlen content) out, zlen content)) /\
    (zlen out < zlen content -> encode_integer out x = (out, 0)).
Proof.
  intros out x Hx. destruct (int_octets_spec x Hx) as (Hb & Hl & Hv & Hr & _). exists (int_octets x).
  split; [exact Hb|]. split; [exact Hl|]. split; [exact Hv|]. split.
  { intros l Hbl Hn E. apply no_redundant_minimal; [exact Hb|exact Hr|exact Hbl|exact Hn|congruence]. }
  rewrite encode_integer_eq by exact Hx. split; intros H.
  - replace (_ <? _) with false by lia. rewrite poke_0. reflexivity.
  - replace (_ <? _) with true by lia. reflexivity.
Qed.
Example C15_example : encode_integer (zrep 4 0) (-32768) = ([0x80; 0; 0; 0], 2) /\ encode_integer [7] 128 = ([7], 0).
Proof. vm_compute. auto. Qed.

(** C16.  decode_integer accepts exactly 1 to 8 octets and sign-extends them. *)
Theorem C16_integer_decoding : forall l out0, bytes l ->
  (1 <= zlen l <= 8 -> decode_integer l out0 = (true, twos_value l) /\ in_i64 (twos_value l)) /\
  (~ 1 <= zlen l <= 8 -> decode_integer l out0 = (false, out0)).
Proof.
  intros l out0 Hb. rewrite decode_integer_eq by auto. split; intros H.
  - replace (_ && _) with true by lia. split; [auto|apply twos_in_i64; auto; lia].
  - replace (_ && _) with false by lia. auto.
Qed.
Example C16_example : decode_integer [0xFF; 0xFF; 0x7F] 5 = (true, -129) /\ decode_integer (zrep 9 1) 5 = (false, 5).
Proof. vm_compute. auto. Qed.

(** C17, refuted: the packet 02 00 (an INTEGER without content octets) is accepted, and the value becomes 0. *)
Theorem C17_integer_rejects_empty_refuted :
  exists d view d', int_of (Id universal 2) 77 = Ok d /\ v_make [2; 0] = Ok view /\
    int_decode (Id universal 2) d view = Ok (true, d') /\ int_value (Id universal 2) d' = Ok 0.
Proof. eexists. eexists. eexists. repeat split; vm_compute; reflexivity. Qed.
(** C17, partial: what decode accepts exactly: packets with the right identifier, primitive, and 0 to 8 content
    octets, the first of which (if any) decide the value; every longer content is rejected.  Only the empty content is
    accepted against X.690. *)
Theorem C17_integer_decode_exact_partial : forall i d v input, int_history i d v -> bytes input -> tame input ->
  exists view, v_make input = Ok view /\
    ((exists p x extra rest d', input = p ++ rest /\ id_packet i primitive p x extra /\ zlen x <= 8 /\
        int_decode i d view = Ok (true, d') /\ int_value i d' = Ok (twos_value x)) \/
     (int_decode i d view = Ok (false, d) /\
        forall p x extra rest, id_packet i primitive p x extra -> input = p ++ rest -> 8 < zlen x)).
Proof.
  intros i d v input Hh Hb Ht. destruct (int_history_rep _ _ _ Hh) as (Hi & y & Hr & _).
  destruct (small_decode_spec i int_max d y input (small_int_ok _ Hi) Hr Hb Ht) as (view & Ev & [H|H]); exists view;
    (split; [auto|]).
  - left. destruct H as (p & x & extra & rest & d' & -> & Hp & Hx & E & Hr'). exists p, x, extra, rest, d'.
    split; [reflexivity|]. split; [exact Hp|]. split; [exact Hx|]. split; [exact E|].
    assert (Hd : int_history i d' (twos_value x)) by (eapply ih_decode; eauto).
    destruct (int_history_rep _ _ _ Hd) as (_ & z & Hrz & Hbz & _ & Hvz).
    rewrite (int_value_rep _ _ _ Hi Hrz Hbz), Hvz. reflexivity.
  - right. destruct H as [E Hno]. split; [auto|]. intros. apply Z.gt_lt. eauto.
Qed.
Example C17_example : tame [2; 2; 1; 0] /\ exists d, int_history (Id universal 2) d 5.
Proof.
  split; [apply tame_check_sound; vm_compute; reflexivity|].
  eexists. eapply ih_construct; [cbn; lia | unfold in_i64; lia | vm_compute; reflexivity].
Qed.

(** C18.  After any history an Integer's value is the one given by the last successful operation, it encodes to one
    well-formed packet of the advertised length whose content denotes that value, and that packet decodes (into any
    Integer with the same identifier) to the same value. *)
Theorem C18_integer_history : forall i d v, int_history i d v ->
  in_i64 v /\ int_value i d = Ok v /\
  exists p content, bytes p /\ id_packet i primitive p content [] /\ twos_value content = v /\ zlen content <= 8 /\
    writes (int_encode i d) p /\ int_encoded_length i d = Ok (zlen p) /\
    forall e w rest, int_history i e w -> zlen (p ++ rest) < 2^63 ->
      exists view e', v_make (p ++ rest) = Ok view /\ int_decode i e view = Ok (true, e') /\ int_value i e' = Ok v.
Proof.
  intros i d v Hh. destruct (int_history_rep _ _ _ Hh) as (Hi & x & Hr & Hb & Hl & Hv). pose proof (small_int_ok i Hi) as Hok.
  split; [subst v; apply twos_in_i64; auto|]. split; [rewrite (int_value_rep _ _ _ Hi Hr Hb), Hv; reflexivity|].
  exists (hdr_of i (zlen x) primitive ++ x), x.
  split; [apply hdr_of_pk_bytes; auto; lia|]. split; [apply hdr_of_packet; auto; lia|].
  split; [auto|]. split; [auto|]. split; [eapply small_encode_writes; eauto|].
  split; [eapply small_ber_length_rep; eauto|].
  intros e w rest He Hz. destruct (int_transfer i d _ e w rest Hi Hr Hb He Hz) as (w' & e' & E1 & E2 & E3).
  rewrite Hv in E3. eauto.
Qed.
(** No operation on a reachable Integer is undefined, and each one leads to a reachable Integer. *)
Theorem C18_integer_history_progress : forall i d v, int_history i d v ->
  (forall x, in_i64 x -> exists d', int_assign i d x = Ok d' /\ int_history i d' x) /\
  (forall j e w, int_history j e w -> exists d', int_copy i j d e = Ok d' /\ int_history i d' w) /\
  (forall input, bytes input -> tame input -> exists view ok d' v', v_make input = Ok view /\
     int_decode i d view = Ok (ok, d') /\ int_history i d' v').
Proof.
  intros i d v Hh. destruct (int_history_rep _ _ _ Hh) as (Hi & y & Hr & _). split; [|split].
  - intros x Hx. destruct (int_assign_rep i d y x Hi Hr Hx) as (d' & E & _). exists d'. split; auto. eapply ih_assign; eauto.
  - intros j e w He. destruct (int_history_rep _ _ _ He) as (Hj & z & Hrz & Hbz & Hlz & Hvz).
    destruct (small_assign_rep i int_max d y z (small_int_ok _ Hi) Hr Hlz) as (d' & E & _).
    assert (E2 : int_copy i j d e = Ok d')
      by (unfold int_copy; rewrite (small_content_rep _ _ _ _ (small_int_ok _ Hj) Hrz); exact E).
    exists d'. split; auto. eapply ih_copy; eauto.
  - intros input Hb Ht. destruct (C17_integer_decode_exact_partial i d v input Hh Hb Ht) as (view & Ev & [H|H]).
    + destruct H as (p & x & extra & rest & d' & -> & Hp & _ & E & _). exists view, true, d', (twos_value x).
      split; auto. split; auto. eapply ih_decode; eauto.
    + destruct H as [E _]. exists view, false, d, v. split; auto.
Qed.
(** A history with a construction, an assignment, a successful and a failed decode, and a copy to another identifier. *)
Example C18_example : exists d, int_history (DoubleId context_specific 1 universal 2) d (-2).
Proof.
  assert (exists d, int_history (Id universal 2) d (-2)) as (d & Hd).
  { eexists. eapply (ih_decode_failed (Id universal 2) _ (-2) _ [4; 0]); [|bytes_lit|apply tame_check_sound; vm_compute; reflexivity|
      vm_compute; reflexivity | vm_compute; reflexivity].
    apply (ih_decode (Id universal 2) (match int_init (Id universal 2) with Ok d => d | _ => [] end) 0 _ [2; 1; 254] [254] [] [9]
       (match v_make [2;1;254;9] with Ok v => v | _ => empty_view end)).
    - apply ih_default; [cbn; lia | vm_compute; reflexivity].
    - bytes_lit.
    - apply tame_check_sound; vm_compute; reflexivity.
    - split; [|reflexivity]. exists [2], [1]. split; [apply (x690_low universal primitive 2); lia|].
      split; [lia|]. split; [apply (x690_short 1); lia|]. split; [cbn; lia|reflexivity].
    - vm_compute; reflexivity.
    - vm_compute; reflexivity. }
  destruct (C18_integer_history_progress (DoubleId context_specific 1 universal 2)
     (match int_init (DoubleId context_specific 1 universal 2) with Ok d => d | _ => [] end) 0) as (_ & Hc & _).
  { apply ih_default; [cbn; lia | vm_compute; reflexivity]. }
  destruct (Hc _ _ _ Hd) as (d' & _ & Hd'). eauto.
Qed.

(** C21.  Every value of an enumeration (underlying type of [w] bits, at most 64) round-trips. *)
Lemma enum_cast_small w n : 0 < w -> - 2^(w-1) <= n < 2^(w-1) -> enum_cast w n = n.
Proof.
  intros Hw Hn. unfold enum_cast. assert (E : 2^w = 2 * 2^(w-1)) by (rewrite <- Z.pow_succ_r by lia; f_equal; lia).
  rewrite E in *. assert (0 < 2^(w-1)) by (apply Z.pow_pos_nonneg; lia). destruct (Z.leb_spec 0 n).
  - rewrite Z.mod_small by lia. destruct (Z.ltb_spec n (2^(w-1))); lia.
  - replace (n mod (2 * 2^(w-1))) with (n + 2 * 2^(w-1)).
    + destruct (Z.ltb_spec (n + 2 * 2^(w-1)) (2^(w-1))); lia.
    + symmetry. replace n with (n + 2 * 2^(w-1) + (-1) * (2 * 2^(w-1))) at 1 by lia. rewrite Z.mod_add by lia. apply Z.mod_small. lia.
Qed.
Theorem C21_enumerated_round_trip : forall w i x, wf_ident i -> 0 < w <= 64 -> - 2^(w-1) <= x < 2^(w-1) ->
  exists d p, enum_of i x = Ok d /\ enum_value w i d = Ok x /\
    writes (enum_encode i d) p /\ enum_encoded_length i d = Ok (zlen p) /\
    forall e y rest, int_history i e y -> zlen (p ++ rest) < 2^63 ->
      exists view e', v_make (p ++ rest) = Ok view /\ enum_decode i e view = Ok (true, e') /\ enum_value w i e' = Ok x.
Proof.
  intros w i x Hi Hw Hx. assert (Hx' : in_i64 x).
  { assert (2^(w-1) <= 2^63) by (apply Z.pow_le_mono_r; lia). unfold in_i64. lia. }
  destruct (C14_integer_round_trip i x Hi Hx') as (d & p & E1 & E2 & E3 & E4 & E5). exists d, p. unfold enum_value.
  split; [exact E1|]. split; [rewrite E2; cbn [bind]; rewrite enum_cast_small by lia; reflexivity|]. split; [exact E3|]. split; [exact E4|].
  intros e y rest He Hz. destruct (E5 e y rest He Hz) as (v & e' & F1 & F2 & F3). exists v, e'. split; [exact F1|]. split; [exact F2|].
  rewrite F3. cbn [bind]. rewrite enum_cast_small by lia. reflexivity.
Qed.
Example C21_example : (exists d, enum_of (Id universal 10) 65536 = Ok d /\ enum_value 32 (Id universal 10) d = Ok 65536) /\
  exists d, enum_of (Id universal 10) (-1) = Ok d /\ enum_value 32 (Id universal 10) d = Ok (-1).
Proof. split; (eexists; split; [vm_compute; reflexivity|]; vm_compute; reflexivity). Qed.
(** C21, the other direction, refuted: what value() reports need not be the number received.  0A 05 01 00 00 00 01 is the
    ENUMERATED value 2^32 + 1; a generated enumeration decodes it successfully and reports its item with number 1. *)
Theorem C21_received_number_refuted : exists view d,
  v_make [10; 5; 1; 0; 0; 0; 1] = Ok view /\ twos_value [1; 0; 0; 0; 1] = 2^32 + 1 /\
  enum_decode (Id universal 10) (small_init (Id universal 10) int_max) view = Ok (true, d) /\ enum_value 32 (Id universal 10) d = Ok 1.
Proof.
  exists (View (Some [10; 5; 1; 0; 0; 0; 1]) 10 2 5). eexists. split; [vm_compute; reflexivity|]. split; [vm_compute; reflexivity|].
  split; [vm_compute; reflexivity|]. vm_compute. reflexivity.
Qed.

Print Assumptions C14_integer_round_trip.
Print Assumptions C14_integer_assign_round_trip.
Print Assumptions C15_integer_minimal.
Print Assumptions C16_integer_decoding.
Print Assumptions C17_integer_rejects_empty_refuted.
Print Assumptions C17_integer_decode_exact_partial.
Print Assumptions C18_integer_history.
Print Assumptions C18_integer_history_progress.
Print Assumptions C21_enumerated_round_trip.
Print Assumptions C21_received_number_refuted.
