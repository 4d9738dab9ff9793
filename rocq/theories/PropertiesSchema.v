(** Property theorems C40-C52: composite types and generated code. *)
From Verif Require Import Base Ident Spec IdentProofs HeaderProofs View ViewProofs Prims PrimProofs ContProofs Schema SchemaSpec SchemaProofs SchemaDecode SchemaRound SchemaSet SchemaMore.

(** ** Types and values used in the examples *)
Definition ex_int (i : ident) : ty := TLeaf (KSmall 8 [0]) i.
Definition ex_str (i : ident) : ty := TLeaf (KFixed []) i.
Definition ex_choice : ty := TChoice CGen None
  (CCons Mand [(universal, 4)] (ex_str (Id universal 4)) (CCons Mand [(context_specific, 7)] (TLeaf KNull (Id context_specific 7)) CNil)).
(** SEQUENCE { a INTEGER, b BOOLEAN OPTIONAL, c [1] EXPLICIT INTEGER DEFAULT .., d CHOICE { x OCTET STRING, y [7] NULL },
    e SET { f SEQUENCE OF INTEGER, g [0] INTEGER OPTIONAL } } *)
Definition ex_set : ty := TSet (Id universal 17) false
  (CCons Mand [(universal, 16)] (TSeqOf (Id universal 16) (ex_int (Id universal 2)))
  (CCons Opt [(context_specific, 0)] (ex_int (Id context_specific 0)) CNil)).
Definition ex_seq : ty := TSeq (Id universal 16)
  (CCons Mand [(universal, 2)] (ex_int (Id universal 2))
  (CCons Opt [(universal, 1)] (TLeaf KBool (Id universal 1))
  (CCons Def [(context_specific, 1)] (ex_int (DoubleId context_specific 1 universal 2))
  (CCons Mand [(universal, 4); (context_specific, 7)] ex_choice
  (CCons Mand [(universal, 17)] ex_set CNil))))).
Ltac schema_check := cbn -[Z.pow]; repeat match goal with
  | |- _ /\ _ => split
  | |- True => exact I
  | |- small_ok _ _ => unfold small_ok; cbn
  | |- bytes _ => unfold bytes
  | |- wf_byte _ => unfold wf_byte
  | |- @eq (list (class * Z)) _ _ => reflexivity
  | |- ?x = ?x => reflexivity
  | |- Forall _ _ => constructor
  | |- _ \/ _ => first [left; reflexivity | right]
  | |- disjoint _ _ => intros ? ?; cbn in *; intuition (subst; discriminate)
  | |- tags_distinct _ => intros ? ? ?; cbn; intuition congruence
  | |- _ <> _ => discriminate
  end; cbn -[Z.pow]; try lia.
Example ex_seq_good : good_schema ex_seq /\ good_schema ex_set.
Proof. split; unfold good_schema; schema_check. Qed.

(** A packet with a one-octet identifier and a one-octet length. *)
Lemma short_pkt p c con t x : ((0 <=? t) && (t <? 31) && (zlen x <? 128)) = true ->
  p = class_num c * 64 + construction_num con * 32 + t :: zlen x :: x -> ber_packet p c con t x.
Proof.
  intros H ->. pose proof (zlen_nonneg x). exists [class_num c * 64 + construction_num con * 32 + t], [zlen x].
  split; [apply x690_low; lia|]. split; [lia|]. split; [apply x690_short; lia|]. split; [rewrite zlen_1; lia|reflexivity].
Qed.

(** * C40, C41: encoded_length and encode *)
(** The objects of a type: a default constructed object is one, every decode (successful or not) leaves one, and
    their members and elements can be replaced by objects of the member's type ([obj] is defined member by member). *)
Theorem C40_default_is_object : forall t, wf_ty t -> obj t (init t).
Proof. exact init_obj. Qed.
Theorem C40_decode_leaves_object : forall t s input v ok s', wf_ty t -> obj t s -> bytes input -> tame input ->
  v_make input = Ok v -> decode t s v = Ok (ok, s') -> obj t s'.
Proof.
  intros t s input v ok s' Hwf Ho Hb Ht Ev E. destruct (assign_good 0 input Hb Ht) as (w & Ew & Hg).
  assert (w = v) by (unfold v_make in Ev; congruence). subst w. eapply decode_obj; eauto.
Qed.
(** encoded_length() is the number of octets encode reports and writes. *)
Theorem C40_encoded_length_exact : forall t s, wf_ty t -> obj t s -> weight s < 2^62 ->
  exists n, encoded_length_of t s = Ok n /\
    forall buffer, zlen buffer < 2^63 -> exists r, encode t s buffer = Ok r /\
      (er_ok r = true -> er_len r = n /\ n <= zlen buffer /\ zdrop n (er_buf r) = zdrop n buffer).
Proof.
  intros t s Hwf Ho Hw. destruct (encode_good t Hwf s Ho Hw) as (p & _ & El & Hwr & _). exists (zlen p). split; [exact El|].
  intros buf Hz. destruct (Hwr buf Hz) as (out & _ & E). rewrite E. eexists. split; [reflexivity|].
  destruct (zlen p <=? zlen buf) eqn:Hle; cbn [er_ok er_len er_buf]; [|discriminate]. intros _. split; [reflexivity|]. split; [lia|].
  apply zdrop_len_eq.
Qed.
(** The octets do not depend on the buffer: they are one encoding p, and with too small a buffer encode fails. *)
Theorem C41_encode_exact : forall t s, wf_ty t -> obj t s -> weight s < 2^62 ->
  exists p, encoded_length_of t s = Ok (zlen p) /\
    forall buffer, zlen buffer < 2^63 ->
      (zlen p <= zlen buffer -> encode t s buffer = Ok (EncResult (p ++ zdrop (zlen p) buffer) true (zlen p))) /\
      (zlen buffer < zlen p -> exists out, encode t s buffer = Ok (EncResult out false 0) /\ zlen out = zlen buffer).
Proof.
  intros t s Hwf Ho Hw. destruct (encode_good t Hwf s Ho Hw) as (p & _ & El & Hwr & _). exists p. split; [exact El|].
  intros buf Hz. destruct (Hwr buf Hz) as (out & Hout & E). rewrite E. split; intros Hle.
  - replace (zlen p <=? zlen buf) with true by lia. reflexivity.
  - replace (zlen p <=? zlen buf) with false by lia. eauto.
Qed.
(** When the object holds a value, the octets are a BER encoding of it (X.690 8.1, 8.9-8.14). *)
Theorem C41_encode_is_ber : forall t s v, wf_ty t -> rep t s v -> weight s < 2^62 ->
  exists p, ber_of t v p /\ forall buffer, zlen buffer < 2^63 -> zlen p <= zlen buffer ->
    encode t s buffer = Ok (EncResult (p ++ zdrop (zlen p) buffer) true (zlen p)).
Proof.
  intros t s v Hwf Hr Hw. destruct (encode_good t Hwf s (rep_obj t s v Hr) Hw) as (p & _ & El & Hwr & Hb). exists p. split; [auto|].
  intros buf Hz Hle. destruct (Hwr buf Hz) as (out & _ & E). rewrite E. replace (zlen p <=? zlen buf) with true by lia. reflexivity.
Qed.
(** A value: { a 5, c 1, d y: NULL, e { f {1, 2} } }. *)
Definition ex_int_state (i : ident) (x : Z) : st := SLeaf (LData (res_or (int_assign i (small_init i 8) x) [])).
Definition ex_state : st := SRec
  [Some (ex_int_state (Id universal 2) 5); None; Some (ex_int_state (DoubleId context_specific 1 universal 2) 1);
   Some (SAlt 1 (SLeaf LNull));
   Some (SRec [Some (SList [ex_int_state (Id universal 2) 1; ex_int_state (Id universal 2) 2]); None])].
Definition ex_val : val := VRec [Some (VPrim [5]); None; Some (VPrim [1]); Some (VAlt 1 (VPrim []));
   Some (VRec [Some (VList [VPrim [1]; VPrim [2]]); None])].
Lemma ex_int_rep i x d : d = ex_int_state i x -> forall y, bytes [y] -> -128 <= x < 128 ->
  ex_int_state i x = SLeaf (LData (hdr_of i 1 primitive ++ [y] ++ zrep 7 0)) -> rep (ex_int i) d (VPrim [y]).
Proof.
  intros -> y Hy Hx E. rewrite E. cbn [ex_int rep leaf_rep]. split; [split; [exact Hy|cbn; lia]|].
  exists (zrep 7 0). split; reflexivity.
Qed.
Ltac int_rep := eapply ex_int_rep; [reflexivity|constructor; [unfold wf_byte; lia|constructor]|split; vm_compute; congruence|vm_compute; reflexivity].
Lemma ex_rep : rep ex_seq ex_state ex_val.
Proof.
  cbn [ex_seq ex_set ex_choice ex_state ex_val rep rep_comps].
  split; [int_rep|]. split; [discriminate|]. split; [int_rep|].
  split; [split; [reflexivity|cbn; split; [split; [constructor|reflexivity]|exact I]]|].
  split; [|exact I]. split; [|split; [discriminate|exact I]].
  constructor; [int_rep|]. constructor; [int_rep|constructor].
Qed.
Example C40_example : wf_ty ex_seq /\ obj ex_seq ex_state /\ weight ex_state < 2^62 /\
  encoded_length_of ex_seq ex_state = Ok 22 /\
  encode ex_seq ex_state (zrep 24 7) = Ok (EncResult [0x30; 20; 2; 1; 5; 0xA1; 3; 2; 1; 1; 0x87; 0; 0x31; 8; 0x30; 6; 2; 1; 1; 2; 1; 2; 7; 7] true 22) /\
  er_ok (res_or (encode ex_seq ex_state (zrep 21 7)) (EncResult [] true 0)) = false.
Proof.
  split; [apply ex_seq_good|]. split; [exact (rep_obj _ _ _ ex_rep)|]. split; [vm_compute; reflexivity|].
  split; [vm_compute; reflexivity|]. split; vm_compute; reflexivity.
Qed.

(** * C42: round trip *)
(** Whatever object is decoded into and whatever follows the encoding.  Partial: [good_schema] asks, beyond unambiguous
    identifiers, that the alternatives of generated CHOICEs differ in their tag numbers ([choices_by_tag]) and that the
    identifiers the generated code tests for are those of the members ([labelled]; see C53 for when they are not). *)
Theorem C42_round_trip_partial : forall t s v, good_schema t -> rep t s v -> weight s < 2^62 ->
  exists p, (forall buffer, zlen buffer < 2^63 -> zlen p <= zlen buffer ->
               encode t s buffer = Ok (EncResult (p ++ zdrop (zlen p) buffer) true (zlen p))) /\
    forall s0 rest, obj t s0 -> zlen (p ++ rest) < 2^63 ->
      exists view s', v_make (p ++ rest) = Ok view /\ decode t s0 view = Ok (true, s') /\ rep t s' v.
Proof.
  intros t s v Hg Hr Hw. destruct (C41_encode_is_ber t s v (proj1 Hg) Hr Hw) as (p & Hb & He). exists p. split; [exact He|].
  intros s0 rest Ho Hz. destruct (ber_of_packet t v p Hb) as (_ & c & con & tag & x & HP & _).
  pose proof (pview_make _ _ _ _ _ rest 0 HP Hz) as Ew.
  destruct (decode_round t Hg v p Hb s0 _ rest Ho Hz Ew) as (s' & E & H). eauto.
Qed.
(** Not only the library's own encodings: every definite-length BER encoding of the value (any length form with up to 8
    length octets, SET members in any order) is decoded to it. *)
Theorem C42_any_encoding_partial : forall t v p s0 rest, good_schema t -> ber_of t v p -> obj t s0 -> zlen (p ++ rest) < 2^63 ->
  exists view s', v_make (p ++ rest) = Ok view /\ decode t s0 view = Ok (true, s') /\ rep t s' v.
Proof.
  intros t v p s0 rest Hg Hb Ho Hz. destruct (ber_of_packet t v p Hb) as (_ & c & con & tag & x & HP & _).
  pose proof (pview_make _ _ _ _ _ rest 0 HP Hz) as Ew.
  destruct (decode_round t Hg v p Hb s0 _ rest Ho Hz Ew) as (s' & E & H). eauto.
Qed.
Example C42_example : good_schema ex_seq /\ rep ex_seq ex_state ex_val /\ weight ex_state < 2^62 /\ obj ex_seq (init ex_seq) /\
  (let p := [0x30; 20; 2; 1; 5; 0xA1; 3; 2; 1; 1; 0x87; 0; 0x31; 8; 0x30; 6; 2; 1; 1; 2; 1; 2] in
   let* w := v_make (p ++ [9; 9]) in decode ex_seq (init ex_seq) w) = Ok (true, ex_state).
Proof.
  split; [apply ex_seq_good|]. split; [apply ex_rep|]. split; [vm_compute; reflexivity|].
  split; [apply init_obj, ex_seq_good|vm_compute; reflexivity].
Qed.
(** Without [choices_by_tag] it fails: CHOICE { a [0] INTEGER, b [APPLICATION 0] INTEGER } is unambiguous, but the
    generated decoder tries the APPLICATION labels first and looks at the tag only: value a is rejected. *)
Definition class_choice : ty := TChoice CGen None
  (CCons Mand [(context_specific, 0)] (ex_int (Id context_specific 0)) (CCons Mand [(application, 0)] (ex_int (Id application 0)) CNil)).
Theorem C42_choice_class_refuted :
  exists t s v p w s', wf_ty t /\ labelled t /\ unambiguous t /\ rep t s v /\
    encode t s (zrep 3 0) = Ok (EncResult p true 3) /\ v_make p = Ok w /\ decode t (init t) w = Ok (false, s').
Proof.
  exists class_choice, (SAlt 0 (ex_int_state (Id context_specific 0) 5)), (VAlt 0 (VPrim [5])), [0x80; 1; 5].
  exists (View (Some [0x80; 1; 5]) 0 2 1). eexists.
  split; [unfold class_choice, ex_int; schema_check|]. split; [unfold class_choice, ex_int; schema_check|].
  split; [unfold class_choice, ex_int; schema_check|].
  split; [cbn [class_choice rep rep_alt]; split; [reflexivity|int_rep]|].
  split; [vm_compute; reflexivity|]. split; [vm_compute; reflexivity|]. vm_compute. reflexivity.
Qed.

(** * C43: distinct values have distinct encodings *)
(** Encodings of one unambiguous type form a prefix code: if an encoding of v1 and one of v2 start the same octet
    string, then v1 = v2.  (No assumption about the decoder.) *)
Theorem C43_encodings_distinct : forall t s1 v1 s2 v2 b1 b2 r1 r2 rest1 rest2,
  wf_ty t -> labelled t -> unambiguous t -> rep t s1 v1 -> rep t s2 v2 -> weight s1 < 2^62 -> weight s2 < 2^62 ->
  zlen b1 < 2^63 -> zlen b2 < 2^63 ->
  encode t s1 b1 = Ok r1 -> er_ok r1 = true -> encode t s2 b2 = Ok r2 -> er_ok r2 = true ->
  ztake (er_len r1) (er_buf r1) ++ rest1 = ztake (er_len r2) (er_buf r2) ++ rest2 ->
  zlen (ztake (er_len r1) (er_buf r1) ++ rest1) < 2^63 -> v1 = v2.
Proof.
  intros t s1 v1 s2 v2 b1 b2 r1 r2 rest1 rest2 Hwf Hl Hu R1 R2 W1 W2 Z1 Z2 E1 O1 E2 O2 Eq Hz.
  assert (A : forall s v b r, rep t s v -> weight s < 2^62 -> zlen b < 2^63 -> encode t s b = Ok r -> er_ok r = true ->
    ber_of t v (ztake (er_len r) (er_buf r))).
  { clear - Hwf. intros s v b r R W Z E O. destruct (encode_good t Hwf s (rep_obj t s v R) W) as (p & _ & _ & Hwr & Hb).
    destruct (Hwr b Z) as (out & _ & E2). rewrite E2 in E. injection E as <-.
    destruct (zlen p <=? zlen b); cbn [er_ok er_len er_buf] in *; [|discriminate]. rewrite ztake_app_exact by reflexivity. auto. }
  eapply (ber_of_unique t Hwf Hl Hu v1 v2 _ _ rest1 rest2); eauto.
Qed.
Example C43_example : wf_ty class_choice /\ labelled class_choice /\ unambiguous class_choice /\
  rep class_choice (SAlt 0 (ex_int_state (Id context_specific 0) 5)) (VAlt 0 (VPrim [5])) /\
  rep class_choice (SAlt 1 (ex_int_state (Id application 0) 5)) (VAlt 1 (VPrim [5])).
Proof.
  split; [unfold class_choice, ex_int; schema_check|]. split; [unfold class_choice, ex_int; schema_check|].
  split; [unfold class_choice, ex_int; schema_check|].
  split; (cbn [class_choice rep rep_alt]; split; [reflexivity|int_rep]).
Qed.

(** * C44: decoding reads only the input *)
(** Partial: [safe] and [guarded] exclude a generated CHOICE without a tag of its own at the top level of the input or
    as a mandatory SEQUENCE member (see the refutation); [tame] excludes inputs whose tag numbers overflow. *)
Theorem C44_decode_in_bounds_partial : forall t s input, wf_ty t -> safe t -> guarded t -> obj t s -> bytes input -> tame input ->
  exists view ok s', v_make input = Ok view /\ decode t s view = Ok (ok, s').
Proof.
  intros t s input Hwf Hs Hg Ho Hb Ht. destruct (assign_good 0 input Hb Ht) as (v & Ev & Hgv).
  destruct (decode_total t Hwf Hs s v Ho Hgv (or_intror Hg)) as (ok & s' & E & _). exists v, ok, s'. auto.
Qed.
(** With a complete packet in front, the restriction at the top level is not needed. *)
Theorem C44_decode_packet_in_bounds_partial : forall t s p c con tag x rest, wf_ty t -> safe t -> obj t s ->
  ber_packet p c con tag x -> bytes (p ++ rest) -> tame (p ++ rest) ->
  exists view ok s', v_make (p ++ rest) = Ok view /\ decode t s view = Ok (ok, s').
Proof.
  intros t s p c con tag x rest Hwf Hs Ho HP Hb Ht. destruct (assign_good 0 _ Hb Ht) as (v & Ev & Hgv).
  pose proof (pview_make _ _ _ _ _ rest 0 HP (proj1 Ht)) as Ew. assert (v = pview p tag x rest) by congruence. subst v.
  destruct (decode_total t Hwf Hs s _ Ho Hgv (or_introl eq_refl)) as (ok & s' & E & _). exists (pview p tag x rest), ok, s'. auto.
Qed.
Example C44_example : wf_ty ex_set /\ safe ex_set /\ guarded ex_set /\ obj ex_set (init ex_set) /\ tame [0x31; 0x84; 1].
Proof.
  split; [apply ex_seq_good|]. split; [cbn; tauto|]. split; [exact I|]. split; [apply init_obj, ex_seq_good|].
  apply tame_check_sound; vm_compute; reflexivity.
Qed.
(** The generated decoder of an untagged CHOICE does not test its view: on empty input, or when it is the mandatory last
    member of a SEQUENCE that ends early, the error message dereferences a null pointer. *)
Theorem C44_untagged_choice_refuted :
  (wf_ty ex_choice /\ good_schema ex_choice /\ exists v, v_make [] = Ok v /\ decode ex_choice (init ex_choice) v = UB) /\
  (wf_ty ex_seq /\ good_schema ex_seq /\ exists v, v_make [0x30; 3; 2; 1; 5] = Ok v /\ decode ex_seq (init ex_seq) v = UB).
Proof.
  assert (A : good_schema ex_choice) by (unfold good_schema, ex_choice, ex_str; schema_check).
  split; [split; [apply A|]; split; [exact A|]|split; [apply ex_seq_good|]; split; [apply ex_seq_good|]];
    (eexists; split; [vm_compute; reflexivity|vm_compute; reflexivity]).
Qed.

(** * C45: the identifier is checked *)
Theorem C45_decode_checks_identifier : forall t s input v s' i, wf_ty t -> obj t s -> bytes input -> tame input ->
  v_make input = Ok v -> decode t s v = Ok (true, s') -> own_id t = Some i ->
  exists p x extra rest, input = p ++ rest /\ id_packet i (own_con t) p x extra.
Proof.
  intros t s input v s' i Hwf Ho Hb Ht Ev E Hi. destruct (assign_good 0 input Hb Ht) as (w & Ew & Hg).
  assert (w = v) by (unfold v_make in Ev; congruence). subst w.
  destruct (decode_sound t Hwf s v s' Ho Hg E) as (H & Hval & _). destruct (H i Hi) as (p & x & extra & rest & Hp & Hz & Ev2).
  exists p, x, extra, rest. split; [|exact Hp].
  destruct (id_packet_outer _ _ _ _ _ Hp) as (y & HP). pose proof (pview_make _ _ _ _ _ rest 0 HP Hz) as E3. unfold v_make in *.
  assert (v = pview p (id_tag i) y rest) by congruence. subst v.
  destruct (v_make_cases 0 input Hb Ht) as [(v & E4 & Hi4 & _)|(p' & c & con & t' & x' & rest' & Einp & HP' & E4)]; [congruence|].
  rewrite E4 in Ev. injection Ev as Em _ _ _. rewrite Einp. exact Em.
Qed.
(** And the packet of an untagged CHOICE has the identifier of one of its alternatives. *)
Theorem C45_choice_checks_identifier : forall g cs s input v s', let t := TChoice g None cs in
  wf_ty t -> labelled t -> obj t s -> bytes input -> tame input -> v_make input = Ok v -> decode t s v = Ok (true, s') ->
  exists p c con tag x rest, input = p ++ rest /\ ber_packet p c con tag x /\ In (c, tag) (comps_ids cs).
Proof.
  intros g cs s input v s' t Hwf Hl Ho Hb Ht Ev E. destruct (assign_good 0 input Hb Ht) as (w & Ew & Hg).
  assert (w = v) by (unfold v_make in Ev; congruence). subst w.
  destruct (decode_sound t Hwf s v s' Ho Hg E) as (_ & _ & H). destruct (H Hl) as (p & c & con & tag & x & rest & -> & HP & Hz & Hin).
  exists p, c, con, tag, x, rest. split; [|auto]. unfold v_make in *.
  destruct (v_make_cases 0 input Hb Ht) as [(v & E4 & Hi4 & _)|(p' & c' & con' & t' & x' & rest' & Einp & HP' & E4)].
  { assert (v = pview p tag x rest) by congruence. subst v. discriminate Hi4. }
  rewrite E4 in Ev. injection Ev as Em _ _ _. rewrite Einp. exact Em.
Qed.
Example C45_example : own_id ex_seq = Some (Id universal 16) /\ own_con ex_seq = constructed /\
  (let* w := v_make [0x30; 20; 2; 1; 5; 0xA1; 3; 2; 1; 1; 0x87; 0; 0x31; 8; 0x30; 6; 2; 1; 1; 2; 1; 2] in decode ex_seq (init ex_seq) w) = Ok (true, ex_state) /\
  tame [0x30; 20; 2; 1; 5; 0xA1; 3; 2; 1; 1; 0x87; 0; 0x31; 8; 0x30; 6; 2; 1; 1; 2; 1; 2].
Proof. split; [reflexivity|]. split; [reflexivity|]. split; [vm_compute; reflexivity|]. apply tame_check_sound; vm_compute; reflexivity. Qed.

(** * C46: Optional and Default *)
(** Encoding: nothing for an empty Optional or a Default that holds its default, the underlying encoding otherwise. *)
Theorem C46_absent_is_omitted : forall k t buffer, k <> Mand ->
  member_encode k (encode t) None buffer = Ok (EncResult buffer true 0) /\ member_length k (encoded_length_of t) None = Ok 0 /\
  forall s, member_encode k (encode t) (Some s) buffer = encode t s buffer /\
            member_length k (encoded_length_of t) (Some s) = encoded_length_of t s.
Proof. intros [] t buffer Hk; [congruence| |]; repeat split. Qed.
(** In a SEQUENCE or SET: the content is the encodings of the members, in order; an absent one contributes no octets. *)
Lemma comps_contents cs : wf_comps cs -> forall ms, obj_comps cs ms -> wcomps ms < 2^62 ->
  exists ps, zlen (concat ps) <= wcomps ms /\ writes_exactly (encode_comps cs ms) (concat ps) /\ length ps = comps_length cs /\
    forall n k ids t m p, nth_comp cs n = Some (k, ids, t) -> nth_error ms n = Some m -> nth_error ps n = Some p ->
      match m with Some s => writes_exactly (encode t s) p | None => p = [] end.
Proof.
  induction cs as [|k ids t cs IH]; intros Hwf ms Ho Hw; destruct ms as [|m ms]; cbn [obj_comps] in Ho; try tauto.
  - exists []. split; [cbn; lia|]. split; [apply writes_nil|]. split; [reflexivity|]. intros n k ids t m p Hn. destruct n; discriminate.
  - destruct Ho as [Hm Hl], Hwf as [Hwt Hwf]. pose proof (wcomps_nonneg ms).
    unfold wcomps, sumz in Hw; cbn [map fold_right] in Hw. change (fold_right _ _ _) with (wcomps ms) in Hw.
    assert (Hc : exists p, zlen p <= match m with Some s => weight s | None => 0 end /\
      writes_exactly (fun b => member_encode k (encode t) m b) p /\
      match m with Some s => writes_exactly (encode t s) p | None => p = [] end).
    { destruct m as [s|].
      - pose proof (weight_pos s). destruct (encode_good t Hwt s Hm ltac:(lia)) as (p & H1 & _ & H3 & _). exists p. auto.
      - exists []. split; [cbn; lia|]. split; [|reflexivity]. cbn [member_encode]. destruct k; [congruence| |]; apply writes_nil. }
    destruct Hc as (p & Hp1 & Hp2 & Hp3).
    destruct (IH Hwf ms Hl) as (ps & I1 & I2 & I3 & I4). { destruct m as [s|]; [pose proof (weight_pos s)|]; lia. }
    exists (p :: ps). cbn [concat]. rewrite zlen_app.
    split; [unfold wcomps, sumz; cbn [map fold_right]; change (fold_right _ _ _) with (wcomps ms); lia|]. split; [|split].
    + pose proof (writes_seq _ _ _ _ Hp2 I2) as Hs. intros buf Hb. destruct (Hs buf Hb) as (out & E1 & E2). exists out. split; [exact E1|].
      rewrite <- E2. cbn [encode_comps member_encode]. destruct m, k; reflexivity.
    + cbn. rewrite I3. reflexivity.
    + intros [|n] k' ids' t' m' p'; cbn [nth_comp nth_error]; [|apply I4].
      intros E1 E2 E3. injection E1 as <- <- <-. injection E2 as <-. injection E3 as <-. exact Hp3.
Qed.
Theorem C46_collection_contents : forall i ext cs ms, wf_comps cs -> wf_ident i -> obj_comps cs ms -> weight (SRec ms) < 2^62 ->
  exists P ps, id_packet i constructed P (concat ps) [] /\ length ps = comps_length cs /\
    writes_exactly (encode (TSeq i cs) (SRec ms)) P /\ writes_exactly (encode (TSet i ext cs) (SRec ms)) P /\
    forall n k ids t m p, nth_comp cs n = Some (k, ids, t) -> nth_error ms n = Some m -> nth_error ps n = Some p ->
      match m with Some s => writes_exactly (encode t s) p | None => p = [] end.
Proof.
  intros i ext cs ms Hwf Hi Ho Hw. cbn [weight] in Hw. change (64 + wcomps ms < 2^62) in Hw.
  destruct (comps_contents cs Hwf ms Ho ltac:(lia)) as (ps & H1 & H2 & H3 & H4).
  destruct (wrap_facts i (concat ps) _ Hi H1 Hw) as (W1 & W2 & W3).
  exists (hdr_of i (zlen (concat ps)) constructed ++ concat ps), ps. split; [exact W3|]. split; [exact H3|].
  assert (A : writes_exactly (enc_wrap i (encode_comps cs ms)) (hdr_of i (zlen (concat ps)) constructed ++ concat ps)) by (apply writes_wrap; auto; lia). split; [exact A|]. split; [exact A|exact H4].
Qed.
(** Decoding an Optional or Default from an invalid view, a packet with one of the type's identifiers, another packet. *)
Theorem C46_decode : forall k t m v, k <> Mand ->
  (is_valid v = false -> member_decode k (type_ids t) (init t) (decode t) m v = Ok (true, None)) /\
  (forall c, is_valid v = true -> v_class v = Ok c -> In (c, v_tag v) (type_ids t) ->
     member_decode k (type_ids t) (init t) (decode t) m v =
       match decode t (init t) v with Ok (ok, s) => Ok (ok, Some s) | UB => UB | NoFuel => NoFuel end) /\
  (forall c, is_valid v = true -> v_class v = Ok c -> ~ In (c, v_tag v) (type_ids t) ->
     member_decode k (type_ids t) (init t) (decode t) m v = Ok (false, m)).
Proof.
  intros k t m v Hk.
  assert (A : forall c, is_valid v = true -> v_class v = Ok c -> member_decode k (type_ids t) (init t) (decode t) m v =
    if has_id (type_ids t) c (v_tag v) then let* (ok, s) := decode t (init t) v in Ok (ok, Some s) else Ok (false, m)).
  { intros c Hv Hc. destruct k; [congruence| |]; cbn [member_decode]; rewrite Hv, Hc; reflexivity. }
  split; [|split].
  - intros Hv. destruct k; [congruence| |]; cbn [member_decode]; rewrite Hv; reflexivity.
  - intros c Hv Hc Hin. rewrite (A c Hv Hc). apply has_id_In in Hin. rewrite Hin. destruct (decode t (init t) v) as [[]| |]; reflexivity.
  - intros c Hv Hc Hin. rewrite (A c Hv Hc). destruct (has_id (type_ids t) c (v_tag v)) eqn:H; [|reflexivity]. apply has_id_In in H. tauto.
Qed.
(** Assigning to a Default: a value equal to the default is omitted from the encoding; any other is encoded; get()
    returns a value equal to what was assigned. *)
Theorem C46_default_assign : forall (eq : st -> st -> bool) t def val buffer, (forall s, eq s s = true) ->
  let m := default_assign eq def val in
  (eq def val = true -> is_default m = true /\ default_get def m = def /\
     member_encode Def (encode t) m buffer = Ok (EncResult buffer true 0) /\ member_length Def (encoded_length_of t) m = Ok 0) /\
  (eq def val = false -> is_default m = false /\ default_get def m = val /\
     member_encode Def (encode t) m buffer = encode t val buffer /\ member_length Def (encoded_length_of t) m = encoded_length_of t val) /\
  eq (default_get def m) val = true.
Proof. intros eq t def val buffer Hr m. unfold m, default_assign. destruct (eq def val) eqn:E; (split; [|split]); try discriminate; auto. Qed.
(** Constructing a Default from a value of another type: as assigning it. *)
Theorem C46_construct_from : forall (eq : st -> st -> bool) t def val buffer, (forall s, eq s s = true) ->
  exists m, default_construct_from eq def val = Ok (m, def) /\ eq (default_get def m) val = true /\
    (eq def val = true -> is_default m = true /\ member_encode Def (encode t) m buffer = Ok (EncResult buffer true 0)) /\
    (eq def val = false -> default_get def m = val /\ member_encode Def (encode t) m buffer = encode t val buffer).
Proof.
  intros eq t def val buffer Hr. exists (default_assign eq def val). split; [reflexivity|]. destruct (C46_default_assign eq t def val buffer Hr) as (A & B & C). split; [exact C|]. split; [intros H; destruct (A H) as (A1 & _ & A2 & _); auto|intros H; destruct (B H) as (_ & B1 & B2 & _); auto].
Qed.
(** The constructor from a value of the underlying type compares with the default before the default exists. *)
Theorem C46_construct_refuted : forall eq def val, default_construct eq def val = UB.
Proof. reflexivity. Qed.
Example C46_example :
  let t := ex_int (Id context_specific 1) in let s := ex_int_state (Id context_specific 1) 5 in
  obj_comps (CCons Opt [(context_specific, 1)] t CNil) [Some s] /\
  encode (TSeq (Id universal 16) (CCons Opt [(context_specific, 1)] t CNil)) (SRec [Some s]) (zrep 5 0) = Ok (EncResult [0x30; 3; 0x81; 1; 5] true 5) /\
  encode (TSeq (Id universal 16) (CCons Opt [(context_specific, 1)] t CNil)) (SRec [None]) (zrep 5 9) = Ok (EncResult [0x30; 0; 9; 9; 9] true 2) /\
  exists v, v_make [0x81; 1; 5] = Ok v /\ good_view v /\ is_valid v = true /\ v_class v = Ok context_specific /\ In (context_specific, v_tag v) (type_ids t).
Proof.
  cbv zeta. split; [|split; [vm_compute; reflexivity|split; [vm_compute; reflexivity|]]].
  - split; [|exact I]. apply rep_obj with (v := VPrim [5]). int_rep.
  - destruct (assign_good 0 [0x81; 1; 5] ltac:(repeat constructor; unfold wf_byte; lia)) as (v & Ev & Hg).
    { apply tame_check_sound; vm_compute; reflexivity. }
    exists v. split; [exact Ev|]. split; [exact Hg|]. vm_compute in Ev. injection Ev as <-. split; [reflexivity|]. split; [reflexivity|].
    left. reflexivity.
Qed.

(** * C47: default values have a single representation *)
(** False: a packet that carries the default explicitly is kept, and encoded again.  SEQUENCE { a INTEGER DEFAULT 5 }. *)
Definition default_seq : ty := TSeq (Id universal 16) (CCons Def [(universal, 2)] (ex_int (Id universal 2)) CNil).
Theorem C47_explicit_default_refuted :
  let five := ex_int_state (Id universal 2) 5 in
  good_schema default_seq /\
  (let* w := v_make [0x30; 3; 2; 1; 5] in decode default_seq (init default_seq) w) = Ok (true, SRec [Some five]) /\
  is_default (Some five) = false /\ default_get five (Some five) = five /\
  encode default_seq (SRec [Some five]) (zrep 5 0) = Ok (EncResult [0x30; 3; 2; 1; 5] true 5) /\
  (let* w := v_make [0x30; 0] in decode default_seq (init default_seq) w) = Ok (true, SRec [None]) /\
  default_get five None = five /\
  encode default_seq (SRec [None]) (zrep 5 0) = Ok (EncResult [0x30; 0; 0; 0; 0] true 2).
Proof.
  cbv zeta. split; [unfold good_schema, default_seq, ex_int; schema_check|].
  split; [vm_compute; reflexivity|]. split; [reflexivity|]. split; [reflexivity|].
  split; [vm_compute; reflexivity|]. split; [vm_compute; reflexivity|]. split; [reflexivity|vm_compute; reflexivity].
Qed.
(** Partial: values that are assigned (not decoded) have one representation each, and so does an absent member. *)
Theorem C47_assigned_default_partial : forall (eq : st -> st -> bool) t def a b,
  (forall x y, eq x y = true -> eq y x = true) -> (forall x y z, eq x y = true -> eq y z = true -> eq x z = true) ->
  eq a b = true ->
  is_default (default_assign eq def a) = is_default (default_assign eq def b) /\
  (is_default (default_assign eq def a) = true <-> eq def a = true) /\
  forall v, is_valid v = false -> member_decode Def (type_ids t) (init t) (decode t) (default_assign eq def a) v = Ok (true, set_to_default).
Proof.
  intros eq t def a b Hs Ht Hab. unfold default_assign.
  assert (E : eq def b = eq def a).
  { destruct (eq def a) eqn:E1.
    - eapply Ht; eauto.
    - destruct (eq def b) eqn:E2; [|reflexivity]. rewrite (Ht def b a E2 (Hs _ _ Hab)) in E1. discriminate. }
  rewrite E. split; [destruct (eq def a); reflexivity|]. split; [destruct (eq def a); cbn; split; congruence|].
  intros v Hv. cbn [member_decode]. rewrite Hv. reflexivity.
Qed.

(** * C48: SET decoding is independent of order *)
(** Packets qs and a permutation qs' of them, each inside its own header: decode succeeds for both or neither, with the
    same object.  The octets after the last packet (if any) do not matter either. *)
Theorem C48_set_order : forall i ext cs ms p p' qs qs' tail tail' extra extra' rest rest' w w',
  obj_comps cs ms -> Permutation qs qs' -> Forall pkt_ok qs -> no_packet tail -> no_packet tail' ->
  id_packet i constructed p (pkts qs ++ tail) extra -> id_packet i constructed p' (pkts qs' ++ tail') extra' ->
  zlen (p ++ rest) < 2^63 -> zlen (p' ++ rest') < 2^63 -> v_make (p ++ rest) = Ok w -> v_make (p' ++ rest') = Ok w' ->
  forall s', decode (TSet i ext cs) (SRec ms) w = Ok (true, s') <-> decode (TSet i ext cs) (SRec ms) w' = Ok (true, s').
Proof.
  assert (A : forall i ext cs ms p p' qs qs' tail tail' extra extra' rest rest' w w',
    obj_comps cs ms -> Permutation qs qs' -> Forall pkt_ok qs -> no_packet tail -> no_packet tail' ->
    id_packet i constructed p (pkts qs ++ tail) extra -> id_packet i constructed p' (pkts qs' ++ tail') extra' ->
    zlen (p ++ rest) < 2^63 -> zlen (p' ++ rest') < 2^63 -> v_make (p ++ rest) = Ok w -> v_make (p' ++ rest') = Ok w' ->
    forall s', decode (TSet i ext cs) (SRec ms) w = Ok (true, s') -> decode (TSet i ext cs) (SRec ms) w' = Ok (true, s')).
  { intros i ext cs ms p p' qs qs' tail tail' extra extra' rest rest' w w' Ho HP Hq Ht Ht' Hp Hp' Hz Hz' Ew Ew' s' E.
    assert (Hq' : Forall pkt_ok qs').
    { apply Forall_forall. intros q Hin. apply (proj1 (Forall_forall _ _) Hq). eapply Permutation_in; [apply Permutation_sym, HP|exact Hin]. }
    destruct cs as [|k ids t cs].
    - destruct (header_packet i constructed p _ extra rest Hp Hz) as (w1 & Ew1 & Hv & Hh & _). assert (w1 = w) by congruence. subst w1.
      destruct (header_packet i constructed p' _ extra' rest' Hp' Hz') as (w1 & Ew1' & Hv' & Hh' & _). assert (w1 = w') by congruence. subst w1.
      cbn [decode] in *. rewrite Hv, Hh in E. rewrite Hv', Hh'. exact E.
    - assert (Hs : exists ms', s' = SRec ms').
      { cbn [decode] in E. destruct (negb (is_valid w)); [congruence|].
        destruct (has_correct_header w i constructed) as [[]| |]; cbn [bind negb] in E; try discriminate.
        2:{ destruct (v_identifier w); cbn [bind] in E; discriminate. }
        cbn [comps_length Nat.eqb] in E. destruct (content_iter i w); cbn [bind] in E; try discriminate.
        destruct (set_loop _ _ _ _ _ _) as [[ok [ms1 c1]]| |]; cbn [bind] in E; try discriminate.
        destruct ok; cbn [negb] in E; [|discriminate]. destruct (set_finish _ _ _). injection E as _ <-. eauto. }
      destruct Hs as (ms' & ->).
      apply (proj1 (set_decode_spec i ext (CCons k ids t cs) ms p qs tail extra rest w Ho ltac:(discriminate) Hp Hq Ht Hz Ew ms')) in E.
      apply (proj2 (set_decode_spec i ext (CCons k ids t cs) ms p' qs' tail' extra' rest' w' Ho ltac:(discriminate) Hp' Hq' Ht' Hz' Ew' ms')).
      destruct E as [E1 E2]. split; [eapply set_final_perm; eauto|]. destruct E2; [auto|]. right. eapply unknown_perm; eauto. }
  intros i ext cs ms p p' qs qs' tail tail' extra extra' rest rest' w w' Ho HP Hq Ht Ht' Hp Hp' Hz Hz' Ew Ew' s'.
  assert (Hq' : Forall pkt_ok qs').
  { apply Forall_forall. intros q Hin. apply (proj1 (Forall_forall _ _) Hq). eapply Permutation_in; [apply Permutation_sym, HP|exact Hin]. }
  split; intros E.
  - exact (A i ext cs ms p p' qs qs' tail tail' extra extra' rest rest' w w' Ho HP Hq Ht Ht' Hp Hp' Hz Hz' Ew Ew' s' E).
  - exact (A i ext cs ms p' p qs' qs tail' tail extra' extra rest' rest w' w Ho (Permutation_sym HP) Hq' Ht' Ht Hp' Hp Hz' Hz Ew' Ew s' E).
Qed.
Example C48_example :
  let q1 := Pkt [0x30; 3; 2; 1; 7] universal constructed 16 [2; 1; 7] in let q2 := Pkt [0x80; 1; 3] context_specific primitive 0 [3] in
  Forall pkt_ok [q1; q2] /\ Permutation [q1; q2] [q2; q1] /\
  id_packet (Id universal 17) constructed [0x31; 8; 0x30; 3; 2; 1; 7; 0x80; 1; 3] (pkts [q1; q2] ++ []) [] /\
  id_packet (Id universal 17) constructed [0x31; 8; 0x80; 1; 3; 0x30; 3; 2; 1; 7] (pkts [q2; q1] ++ []) [] /\
  let s' := SRec [Some (SList [ex_int_state (Id universal 2) 7]); Some (ex_int_state (Id context_specific 0) 3)] in
  (let* w := v_make [0x31; 8; 0x30; 3; 2; 1; 7; 0x80; 1; 3] in decode ex_set (init ex_set) w) = Ok (true, s') /\
  (let* w := v_make [0x31; 8; 0x80; 1; 3; 0x30; 3; 2; 1; 7] in decode ex_set (init ex_set) w) = Ok (true, s').
Proof.
  cbv zeta. split; [|split; [apply perm_swap|]].
  - constructor; [apply short_pkt; reflexivity|constructor; [apply short_pkt; reflexivity|constructor]].
  - split; [split; [apply short_pkt; reflexivity|reflexivity]|]. split; [split; [apply short_pkt; reflexivity|reflexivity]|].
    split; vm_compute; reflexivity.
Qed.

(** * C49: SET decoding, member by member *)
(** For a SET with at least one component: decode succeeds exactly when every component has at most one packet with one
    of its identifiers, a mandatory one exactly one, the packet decodes as the component's type, and (unless the SET is
    extensible) no other packet occurs.  Components without a packet become empty / default whatever they held before. *)
Definition member_result (k : ckind) (t : ty) (m m' : option st) (mine : list pkt) : Prop :=
  match mine with
  | [] => k <> Mand /\ m' = None
  | [q] => exists s0 s', s0 = (match k, m with Mand, Some s => s | _, _ => init t end) /\
             decode t s0 (pkt_view q) = Ok (true, s') /\ m' = Some s'
  | _ => False
  end.
Lemma has_id_sub q cs : pkt_has (comps_ids cs) q = true <-> exists n k ids t, nth_comp cs n = Some (k, ids, t) /\ pkt_has ids q = true.
Proof.
  unfold pkt_has. induction cs as [|k ids t cs IH]; cbn [comps_ids].
  - split; [discriminate|]. intros (n & k & ids & t & H & _). destruct n; discriminate.
  - rewrite has_id_app, orb_true_iff, IH. split.
    + intros [H|(n & k' & ids' & t' & H1 & H2)]; [exists 0%nat, k, ids, t|exists (S n), k', ids', t']; auto.
    + intros ([|n] & k' & ids' & t' & H1 & H2); cbn [nth_comp] in H1; [injection H1 as <- <- <-; auto|right; eauto 6].
Qed.
Lemma member_decode_packet k ids t m m' q : ids = type_ids t -> pkt_ok q -> pkt_has ids q = true ->
  match m with Some _ => True | None => k <> Mand end ->
  (member_decode k (type_ids t) (init t) (decode t) m (pkt_view q) = Ok (true, m') <-> member_result k t m m' [q]).
Proof.
  intros -> Hq Hi Hm. assert (Hv : is_valid (pkt_view q) = true) by reflexivity.
  assert (Hc : v_class (pkt_view q) = Ok (pk_class q)) by (apply (pview_byte0 _ _ _ _ _ [] Hq)).
  assert (Ht : v_tag (pkt_view q) = pk_tag q) by reflexivity.
  assert (A : forall s0, (let* (ok, s) := decode t s0 (pkt_view q) in Ok (ok, Some s)) = Ok (true, m') <->
    exists s', decode t s0 (pkt_view q) = Ok (true, s') /\ m' = Some s').
  { intros s0. destruct (decode t s0 (pkt_view q)) as [[ok s]| |]; cbn [bind]; split; try discriminate.
    - intros H. injection H as -> <-. eauto.
    - intros (s' & H & ->). injection H as -> ->. reflexivity.
    - intros (s' & H & _). discriminate.
    - intros (s' & H & _). discriminate. }
  unfold pkt_has in Hi.
  destruct k; cbn [member_decode member_result]; [destruct m as [s|]; [|congruence]|rewrite Hv, Hc; cbn [bind]; rewrite Ht, Hi..];
    rewrite A; (split; [intros (s' & H1 & H2); eexists _, s'; eauto|intros (s0 & s' & H0 & H1 & H2); subst s0; eauto]).
Qed.
Lemma decode_set_shape i ext cs ms w s' : decode (TSet i ext cs) (SRec ms) w = Ok (true, s') -> exists ms', s' = SRec ms'.
Proof.
  intros E. cbn [decode] in E. destruct (negb (is_valid w)); [discriminate|].
  destruct (has_correct_header w i constructed) as [[]| |]; cbn [bind negb] in E; try discriminate.
  2:{ destruct (v_identifier w); cbn [bind] in E; discriminate. }
  destruct (comps_length cs =? 0)%nat; [injection E as <-; eauto|].
  destruct (content_iter i w); cbn [bind] in E; try discriminate.
  destruct (set_loop _ _ _ _ _ _) as [[ok [ms1 c1]]| |]; cbn [bind] in E; try discriminate.
  destruct ok; cbn [negb] in E; [|discriminate]. destruct (set_finish _ _ _). injection E as _ <-. eauto.
Qed.
Lemma obj_comps_len cs : forall ms, obj_comps cs ms -> length ms = comps_length cs.
Proof. induction cs as [|k ids t cs IH]; intros [|m ms] H; cbn in *; try tauto. f_equal. apply IH. tauto. Qed.
Lemma obj_comps_nth cs : forall ms, obj_comps cs ms -> forall n k ids t m, nth_comp cs n = Some (k, ids, t) -> nth_error ms n = Some m ->
  match m with Some s => obj t s | None => k <> Mand end.
Proof.
  induction cs as [|k ids t cs IH]; intros [|m ms] H n k' ids' t' m' Hn Hm; cbn [obj_comps] in H; try tauto; [destruct n; discriminate|].
  destruct n as [|n]; cbn in Hn, Hm; [injection Hn as <- <- <-; injection Hm as <-; tauto|]. eapply IH; eauto; tauto.
Qed.
Lemma set_final_len cs : forall ms qs ms', set_final cs ms qs ms' -> length ms' = comps_length cs.
Proof. induction cs as [|k ids t cs IH]; intros [|m ms] qs [|m' ms'] H; cbn in *; try tauto. f_equal. eapply IH. apply H. Qed.
Lemma labelled_nth cs : labelled_comps cs -> forall n k ids t, nth_comp cs n = Some (k, ids, t) -> ids = type_ids t /\ labelled t.
Proof.
  induction cs as [|k ids t cs IH]; intros H n k' ids' t' Hn; [destruct n; discriminate|]. destruct H as (H1 & H2 & H3).
  destruct n as [|n]; cbn in Hn; [injection Hn as <- <- <-; auto|eauto].
Qed.
Theorem C49_set_members_partial : forall i ext cs ms p qs tail extra rest w,
  cs <> CNil -> labelled_comps cs -> all_distinct cs -> obj_comps cs ms -> Forall pkt_ok qs -> no_packet tail ->
  id_packet i constructed p (pkts qs ++ tail) extra -> zlen (p ++ rest) < 2^63 -> v_make (p ++ rest) = Ok w ->
  forall s', decode (TSet i ext cs) (SRec ms) w = Ok (true, s') <->
    exists ms', s' = SRec ms' /\ length ms' = comps_length cs /\
      (forall n k ids t m m', nth_comp cs n = Some (k, ids, t) -> nth_error ms n = Some m -> nth_error ms' n = Some m' ->
         member_result k t m m' (filter (pkt_has ids) qs)) /\
      (ext = true \/ forall q, In q qs -> exists n k ids t, nth_comp cs n = Some (k, ids, t) /\ pkt_has ids q = true).
Proof.
  intros i ext cs ms p qs tail extra rest w Hn Hl Hd Ho Hq Ht Hp Hz Ew s'.
  assert (U : unknown cs qs = [] <-> forall q, In q qs -> exists n k ids t, nth_comp cs n = Some (k, ids, t) /\ pkt_has ids q = true).
  { unfold unknown. clear - Hn. split.
    - intros H q Hin. apply has_id_sub. destruct (pkt_has (comps_ids cs) q) eqn:E; [reflexivity|].
      assert (In q []) as []. rewrite <- H. apply filter_In. rewrite E. auto.
    - intros H. destruct (filter _ qs) as [|q l] eqn:E; [reflexivity|]. assert (Hin : In q (q :: l)) by (left; reflexivity).
      rewrite <- E in Hin. apply filter_In in Hin. destruct Hin as [H1 H2]. rewrite (proj2 (has_id_sub q cs) (H q H1)) in H2. discriminate. }
  assert (M : forall n k ids t m m', nth_comp cs n = Some (k, ids, t) -> nth_error ms n = Some m ->
    match filter (pkt_has ids) qs with
    | [] => k <> Mand /\ m' = None
    | [q] => member_decode k (type_ids t) (init t) (decode t) m (pkt_view q) = Ok (true, m')
    | _ => False
    end <-> member_result k t m m' (filter (pkt_has ids) qs)).
  { intros n k ids t m m' H1 H2. destruct (labelled_nth cs Hl n k ids t H1) as [Hi _].
    pose proof (obj_comps_nth cs ms Ho n k ids t m H1 H2) as Hm.
    destruct (filter (pkt_has ids) qs) as [|q [|q2 l]] eqn:E; [reflexivity| |reflexivity].
    assert (Hin : In q (filter (pkt_has ids) qs)) by (rewrite E; left; reflexivity). apply filter_In in Hin. destruct Hin as [Hin1 Hin2].
    apply (member_decode_packet k ids t m m' q Hi); auto; [apply (proj1 (Forall_forall _ _) Hq); auto|]. destruct m; auto. }
  split.
  - intros E. destruct (decode_set_shape _ _ _ _ _ _ E) as (ms' & ->).
    apply (proj1 (set_decode_spec i ext cs ms p qs tail extra rest w Ho Hn Hp Hq Ht Hz Ew ms')) in E. destruct E as [E1 E2].
    exists ms'. split; [reflexivity|]. split; [eapply set_final_len; eauto|]. split.
    + intros n k ids t m m' H1 H2 H3. apply (M n k ids t m m' H1 H2).
      destruct (set_final_nth cs Hd ms qs ms' E1 n k ids t H1) as (a & b & A1 & A2 & A3).
      assert (a = m) by congruence. assert (b = m') by congruence. subst. exact A3.
    + rewrite <- U. exact E2.
  - intros (ms' & -> & H1 & H2 & H3).
    apply (proj2 (set_decode_spec i ext cs ms p qs tail extra rest w Ho Hn Hp Hq Ht Hz Ew ms')). split; [|rewrite U; exact H3].
    apply set_final_build; auto; [apply obj_comps_len; auto|].
    intros n k ids t m m' A1 A2 A3. apply (M n k ids t m m' A1 A2). eapply H2; eauto.
Qed.
(** What is missing: for a SET without components the generated decoder does not look at the content at all, so unknown
    members are accepted although the SET is not extensible. *)
Theorem C49_empty_set_refuted :
  let t := TSet (Id universal 17) false CNil in
  good_schema t /\ (let* w := v_make [0x31; 3; 2; 1; 5] in decode t (init t) w) = Ok (true, SRec []).
Proof. cbv zeta. split; [unfold good_schema; schema_check|vm_compute; reflexivity]. Qed.
Example C49_example : labelled ex_set /\ unambiguous ex_set /\
  (let dec b := let* w := v_make b in let* (ok, _) := decode ex_set (init ex_set) w in Ok ok in
   dec [0x31; 2; 0x30; 0] = Ok true /\ dec [0x31; 3; 0x80; 1; 3] = Ok false (* missing *) /\
   dec [0x31; 4; 0x30; 0; 0x30; 0] = Ok false (* twice *) /\ dec [0x31; 4; 0x30; 0; 5; 0] = Ok false (* unknown *)).
Proof.
  split; [apply ex_seq_good|]. split; [apply ex_seq_good|]. cbv zeta. split; [vm_compute; reflexivity|].
  split; [vm_compute; reflexivity|]. split; vm_compute; reflexivity.
Qed.

(** * C50: SEQUENCE decoding ignores unknown trailing members *)
(** The packets qs, without and with further packets es whose identifiers are none of the SEQUENCE's: decode succeeds
    for both or neither, with the same object. *)
Theorem C50_unknown_trailing_members : forall i cs ms p p' qs es tail tail' extra extra' rest rest' w w',
  wf_comps cs -> labelled_comps cs -> obj_comps cs ms -> Forall pkt_ok qs -> Forall pkt_ok es ->
  (forall q n k ids t, In q es -> nth_comp cs n = Some (k, ids, t) -> ~ In (pk_class q, pk_tag q) ids) ->
  no_packet tail -> no_packet tail' ->
  id_packet i constructed p (pkts qs ++ tail) extra -> id_packet i constructed p' (pkts qs ++ pkts es ++ tail') extra' ->
  bytes (p ++ rest) -> bytes (p' ++ rest') -> tame (pkts qs ++ tail) -> tame (pkts qs ++ pkts es ++ tail') ->
  zlen (p ++ rest) < 2^63 -> zlen (p' ++ rest') < 2^63 -> v_make (p ++ rest) = Ok w -> v_make (p' ++ rest') = Ok w' ->
  forall s', decode (TSeq i cs) (SRec ms) w = Ok (true, s') <-> decode (TSeq i cs) (SRec ms) w' = Ok (true, s').
Proof.
  intros i cs ms p p' qs es tail tail' extra extra' rest rest' w w' Hwf Hl Ho Hq He Hu Ht Ht' Hp Hp' Hb Hb' Htm Htm' Hz Hz' Ew Ew' s'.
  destruct (header_packet i constructed p _ extra rest Hp Hz) as (w1 & Ew1 & Hv & Hh & _). assert (w1 = w) by congruence. subst w1.
  destruct (header_packet i constructed p' _ extra' rest' Hp' Hz') as (w1 & Ew1' & Hv' & Hh' & _). assert (w1 = w') by congruence. subst w1.
  cbn [decode]. rewrite Hv, Hh, Hv', Hh'. cbn [negb bind]. destruct (comps_length cs =? 0)%nat; [reflexivity|].
  rewrite (content_iter_packet _ _ _ _ _ _ _ Hp Hz Ew), (content_iter_packet _ _ _ _ _ _ _ Hp' Hz' Ew').
  assert (Hzx := id_packet_len _ _ _ _ _ Hp). assert (Hzx' := id_packet_len _ _ _ _ _ Hp').
  assert (zlen (pkts qs ++ tail) < 2^63) by (rewrite zlen_app in Hz; pose proof (zlen_nonneg rest); lia).
  assert (zlen (pkts (qs ++ es) ++ tail') < 2^63).
  { unfold pkts in *. rewrite map_app, concat_app, <- app_assoc. rewrite zlen_app in Hz'. pose proof (zlen_nonneg rest'). lia. }
  destruct (pkts_assign qs tail 0 Hq Ht ltac:(assumption)) as (v & E & _).
  destruct (pkts_assign (qs ++ es) tail' 0 (proj2 (Forall_app _ _ _) (conj Hq He)) Ht' ltac:(assumption)) as (v' & E' & _).
  unfold pkts in E'. rewrite map_app, concat_app, <- app_assoc in E'. fold (pkts qs) (pkts es) in E'.
  unfold it_make, v_make. rewrite E, E'. cbn [bind].
  assert (Hbx : forall i con p x extra rest, id_packet i con p x extra -> bytes (p ++ rest) -> bytes x).
  { clear. intros i con p x extra rest Hp Hb. unfold bytes in *. apply Forall_app in Hb. destruct Hb as [Hb _].
    destruct i; cbn [id_packet] in Hp.
    - destruct Hp as [(id & len & _ & _ & _ & _ & ->) _]. rewrite !Forall_app in Hb. tauto.
    - destruct Hp as (q & (id & len & _ & _ & _ & _ & ->) & (id' & len' & _ & _ & _ & _ & ->)). rewrite !Forall_app in Hb. tauto. }
  assert (S : forall ms', decode_seq cs ms (Iter (pkts qs ++ tail) v) = Ok (true, ms') <-> decode_seq cs ms (Iter (pkts qs ++ pkts es ++ tail') v') = Ok (true, ms')).
  { intros ms'. eapply (seq_tail cs Hwf Hl qs es tail tail' ms); eauto.
    - apply Forall_forall. intros q Hin. destruct (pkt_has (comps_ids cs) q) eqn:E3; [|reflexivity]. apply has_id_sub in E3.
      destruct E3 as (n & k & ids & t & H1 & H2). apply has_id_In in H2. exfalso. eapply Hu; eauto.
    - split; [reflexivity|exists 0; exact E].
    - split; [reflexivity|exists 0; exact E']. }
  assert (B : forall r : res (bool * list (option st)), (let* (ok, ms') := r in Ok (ok, SRec ms')) = Ok (true, s') <-> exists ms', r = Ok (true, ms') /\ s' = SRec ms').
  { intros [[ok ms']| |]; cbn [bind]; split; try discriminate.
    - intros H3. injection H3 as -> <-. eauto.
    - intros (m & H3 & ->). injection H3 as -> ->. reflexivity.
    - intros (m & H3 & _). discriminate.
    - intros (m & H3 & _). discriminate. }
  rewrite !B. split; intros (ms' & H1 & H2); exists ms'; (split; [apply S; exact H1|exact H2]).
Qed.
Example C50_example :
  let q := Pkt [2; 1; 5] universal primitive 2 [5] in let e := Pkt [0x89; 0] context_specific primitive 9 [] in
  Forall pkt_ok [q] /\ Forall pkt_ok [e] /\ tame (pkts [q] ++ pkts [e] ++ []) /\
  (forall n k ids t, nth_comp (CCons Def [(universal, 2)] (ex_int (Id universal 2)) CNil) n = Some (k, ids, t) -> ~ In (pk_class e, pk_tag e) ids) /\
  let s' := SRec [Some (ex_int_state (Id universal 2) 5)] in
  (let* w := v_make [0x30; 3; 2; 1; 5] in decode default_seq (init default_seq) w) = Ok (true, s') /\
  (let* w := v_make [0x30; 5; 2; 1; 5; 0x89; 0] in decode default_seq (init default_seq) w) = Ok (true, s').
Proof.
  cbv zeta. split; [constructor; [apply short_pkt; reflexivity|constructor]|].
  split; [constructor; [apply short_pkt; reflexivity|constructor]|]. split; [apply tame_check_sound; vm_compute; reflexivity|].
  split; [|split; vm_compute; reflexivity]. intros [|[|n]] k ids t H; cbn in H; try discriminate. injection H as <- <- <-.
  cbn. intuition discriminate.
Qed.

(** * C51: SEQUENCE OF accepts only well-formed content *)
(** False: octets after the last complete packet that do not form a packet are ignored (both SEQUENCE OF and SEQUENCE). *)
Theorem C51_trailing_garbage_refuted :
  let t := TSeqOf (Id universal 16) (ex_int (Id universal 2)) in
  good_schema t /\ (let* w := v_make [0x30; 4; 2; 1; 5; 2] in decode t (init t) w) = Ok (true, SList [ex_int_state (Id universal 2) 5]) /\
  good_schema default_seq /\
  (let* w := v_make [0x30; 4; 2; 1; 5; 2] in decode default_seq (init default_seq) w) = Ok (true, SRec [Some (ex_int_state (Id universal 2) 5)]).
Proof.
  cbv zeta. split; [unfold good_schema, ex_int; schema_check|]. split; [vm_compute; reflexivity|].
  split; [unfold good_schema, default_seq, ex_int; schema_check|vm_compute; reflexivity].
Qed.
(** Partial: all complete packets at the front of the content are decoded as elements, in order, none skipped; decode
    succeeds exactly if all of them do. *)
Theorem C51_sequence_of_elements_partial : forall i t l0 p x extra rest w,
  id_packet i constructed p x extra -> bytes (p ++ rest) -> tame x -> zlen (p ++ rest) < 2^63 -> v_make (p ++ rest) = Ok w ->
  exists qs tail, x = pkts qs ++ tail /\ Forall pkt_ok qs /\ no_packet tail /\
    forall s', decode (TSeqOf i t) (SList l0) w = Ok (true, s') <->
      exists l, s' = SList l /\ Forall2 (fun q s => decode t (init t) (pkt_view q) = Ok (true, s)) qs l.
Proof.
  intros i t l0 p x extra rest w Hp Hb Htm Hz Ew.
  assert (Hbx : bytes x).
  { unfold bytes in *. apply Forall_app in Hb. destruct Hb as [Hb _]. destruct i; cbn [id_packet] in Hp.
    - destruct Hp as [(id & len & _ & _ & _ & _ & ->) _]. rewrite !Forall_app in Hb. tauto.
    - destruct Hp as (q & (id & len & _ & _ & _ & _ & ->) & (id' & len' & _ & _ & _ & _ & ->)). rewrite !Forall_app in Hb. tauto. }
  destruct (partition_packets (length x) x (le_n _) Hbx Htm) as (qs & tail & E & Hq & Ht & Hlen). fold (pkts qs) in E.
  exists qs, tail. split; [exact E|]. split; [exact Hq|]. split; [exact Ht|]. intros s'.
  destruct (header_packet i constructed p _ extra rest Hp Hz) as (w1 & Ew1 & Hv & Hh & _). assert (w1 = w) by congruence. subst w1.
  cbn [decode]. rewrite Hh. cbn [bind negb]. rewrite (content_iter_packet _ _ _ _ _ _ _ Hp Hz Ew).
  assert (Hzx : zlen x < 2^63). { pose proof (id_packet_len _ _ _ _ _ Hp). rewrite zlen_app in Hz. pose proof (zlen_nonneg rest). lia. }
  rewrite E in Hzx. destruct (pkts_assign qs tail 0 Hq Ht Hzx) as (v & Ev & _). unfold it_make, v_make. rewrite E, Ev. cbn [bind].
  pose proof (fun l => seqof_loop_spec t tail Ht qs (rounds (Iter (pkts qs ++ tail) v)) (Iter (pkts qs ++ tail) v) l Hq
    (conj eq_refl (ex_intro _ 0 Ev)) Hzx) as S.
  assert (Hf : (length qs < rounds (Iter (pkts qs ++ tail) v))%nat) by (unfold rounds; cbn [it_buf]; rewrite <- E; lia).
  destruct (seqof_loop _ _ _) as [[ok l]| |] eqn:El; cbn [bind].
  - split.
    + intros H. injection H as -> <-. exists l. split; [reflexivity|]. apply S; auto.
    + intros (l' & -> & H). apply S in H; auto. injection H as -> ->. reflexivity.
  - split; [discriminate|]. intros (l' & -> & H). apply S in H; auto. discriminate.
  - split; [discriminate|]. intros (l' & -> & H). apply S in H; auto. discriminate.
Qed.

Example C51_example : id_packet (Id universal 16) constructed [0x30; 7; 2; 1; 5; 2; 1; 6; 2] [2; 1; 5; 2; 1; 6; 2] [] /\ tame [2; 1; 5; 2; 1; 6; 2] /\
  (let* w := v_make [0x30; 7; 2; 1; 5; 2; 1; 6; 2] in decode (TSeqOf (Id universal 16) (ex_int (Id universal 2))) (SList []) w) =
    Ok (true, SList [ex_int_state (Id universal 2) 5; ex_int_state (Id universal 2) 6]).
Proof.
  split; [split; [apply short_pkt; reflexivity|reflexivity]|]. split; [apply tame_check_sound; vm_compute; reflexivity|vm_compute; reflexivity].
Qed.

(** * C52: CHOICE decoding selects by class and tag *)
(** Partial: if decode succeeds, the packet has the class and tag of the alternative that was selected. *)
Theorem C52_choice_success_partial : forall g cs s input v n s', let t := TChoice g None cs in
  wf_ty t -> labelled t -> obj t s -> bytes input -> tame input -> v_make input = Ok v -> decode t s v = Ok (true, SAlt n s') ->
  exists k ids ta p c con tag x rest, nth_comp cs n = Some (k, ids, ta) /\ In (c, tag) ids /\
    input = p ++ rest /\ ber_packet p c con tag x.
Proof.
  intros g cs s input v n s' t Hwf Hl Ho Hb Ht Ev E. destruct (assign_good 0 input Hb Ht) as (w & Ew & Hg).
  assert (w = v) by (unfold v_make in Ev; congruence). subst w.
  assert (A : exists m, decode_alt cs m m v = Ok (true, SAlt n s')).
  { unfold t in *. destruct s as [| | |n0 s0]; cbn [obj] in Ho; try tauto. cbn [decode] in E. destruct g; cbn [bind] in E.
    - destruct (select CGen cs universal (v_tag v)) as [m|]; [eauto|]. destruct (v_identifier v); cbn [bind] in E; discriminate.
    - destruct (is_valid v) eqn:Hv; cbn [bind] in E; [|discriminate]. destruct (v_class v) as [c| |]; cbn [bind] in E; try discriminate.
      destruct (select CLib cs c (v_tag v)) as [m|]; [eauto|discriminate]. }
  destruct A as (m & A). destruct Hwf as (_ & _ & Hwf).
  destruct (alt_nth cs Hwf Hl m m v _ Hg A) as (kk & ids & ta & s1 & H1 & H2 & (p & c & con & tag & x & rest & -> & HP & Hz & Hin)).
  injection H2 as <- <-. exists kk, ids, ta, p, c, con, tag, x, rest. split; [exact H1|].
  destruct (labelled_nth cs Hl n kk ids ta H1) as [-> _]. split; [exact Hin|]. split; [|exact HP].
  unfold v_make in Ev. destruct (v_make_cases 0 input Hb Ht) as [(v & E4 & Hi4 & _)|(p' & c' & con' & t' & x' & rest' & Einp & HP' & E4)].
  { assert (v = pview p tag x rest) by congruence. subst v. discriminate Hi4. }
  rewrite E4 in Ev. injection Ev as Em _ _ _. rewrite Einp. exact Em.
Qed.
(** False otherwise: on failure an alternative of another class may have been selected, and what was held is lost. *)
Theorem C52_wrong_class_refuted :
  exists s', good_schema ex_choice /\
    (let* w := v_make [0x07; 0] in decode ex_choice (SAlt 0 (SLeaf (LFixed (fixed_init (Id universal 4))))) w) = Ok (false, s') /\
    s' = SAlt 1 (SLeaf LNull).
Proof.
  eexists. split; [unfold good_schema, ex_choice, ex_str; schema_check|]. split; vm_compute; reflexivity.
Qed.
Example C52_example : (let* w := v_make [0x87; 0] in decode ex_choice (init ex_choice) w) = Ok (true, SAlt 1 (SLeaf LNull)).
Proof. vm_compute. reflexivity. Qed.
