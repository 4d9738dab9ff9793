(** Property theorems C124: generated decoders accept an exact set of inputs ([reads], DecodeSpec.v) and read a
    determined value ([seen]). *)
From Verif Require Import Base Ident Spec IdentProofs HeaderProofs View ViewProofs Prims PrimProofs ContProofs Schema SchemaSpec SchemaProofs SchemaDecode SchemaRound SchemaSet SchemaMore DecodeSpec DecodeExact PropertiesSchema.

(** Something a view can look at: a packet at the start of the input. *)
Definition starts_with_packet (input : list Z) : Prop := exists p c con tag x rest, input = p ++ rest /\ ber_packet p c con tag x.

Lemma starts_valid input v : tame input -> starts_with_packet input -> v_make input = Ok v -> is_valid v = true.
Proof.
  intros Ht (p & c & con & tag & x & rest & -> & HP) E. pose proof (pview_make _ _ _ _ _ rest 0 HP (proj1 Ht)) as Ew.
  assert (v = pview p tag x rest) by (unfold v_make in E; congruence). subst v. reflexivity.
Qed.
(** Decoding succeeds exactly on the inputs that begin with a packet the specification reads as some value, and the
    object then shows this value.
    Partial: [safe], and the choice of the last hypothesis, leave out the generated untagged CHOICE where its decoder
    may run on nothing (C44_untagged_choice_refuted); [tame] leaves out inputs whose tag numbers overflow at a header
    position. *)
Theorem C124_accepts_partial : forall t s input, wf_ty t -> labelled t -> safe t -> obj t s -> bytes input -> tame input ->
  guarded t \/ starts_with_packet input ->
  exists view ok s', v_make input = Ok view /\ decode t s view = Ok (ok, s') /\
    (ok = true <-> exists w p rest, input = p ++ rest /\ reads t w p) /\
    (forall w p rest, input = p ++ rest -> reads t w p -> seen t s' w).
Proof.
  intros t s input Hwf Hl Hs Ho Hb Ht Hg. destruct (decode_accepts t s input Hwf Hl Hs Ho Hb Ht) as (v & Ev & H).
  destruct H as (ok & s' & Ed & H1 & H2); [destruct Hg as [Hg|Hg]; [right; exact Hg|left; eapply starts_valid; eauto]|].
  exists v, ok, s'. auto.
Qed.
(** A packet is read as at most one value, and an object shows at most one. *)
Theorem C124_one_value : forall t w1 w2 p, wf_ty t -> labelled t -> safe t -> bytes p -> tame p ->
  reads t w1 p -> reads t w2 p -> w1 = w2.
Proof. exact reads_fun. Qed.
Theorem C124_object_shows_one_value : forall t s w1 w2, seen t s w1 -> seen t s w2 -> w1 = w2.
Proof. exact seen_fun. Qed.
(** Neither the object decoded into nor the octets behind the packet make a difference. *)
Theorem C124_only_the_packet_matters_partial : forall t s1 s2 p c con tag x rest1 rest2, wf_ty t -> labelled t -> safe t ->
  obj t s1 -> obj t s2 -> ber_packet p c con tag x -> bytes (p ++ rest1) -> bytes (p ++ rest2) -> tame (p ++ rest1) -> tame (p ++ rest2) ->
  exists v1 v2 ok s1' s2', v_make (p ++ rest1) = Ok v1 /\ v_make (p ++ rest2) = Ok v2 /\
    decode t s1 v1 = Ok (ok, s1') /\ decode t s2 v2 = Ok (ok, s2') /\
    (ok = true -> exists w, seen t s1' w /\ seen t s2' w).
Proof.
  intros t s1 s2 p c con tag x r1 r2 Hwf Hl Hs Ho1 Ho2 HP Hb1 Hb2 Ht1 Ht2.
  destruct (C124_accepts_partial t s1 _ Hwf Hl Hs Ho1 Hb1 Ht1) as (v1 & ok1 & t1 & Ev1 & Ed1 & A1 & B1).
  { right. exists p, c, con, tag, x, r1. auto. }
  destruct (C124_accepts_partial t s2 _ Hwf Hl Hs Ho2 Hb2 Ht2) as (v2 & ok2 & t2 & Ev2 & Ed2 & A2 & B2).
  { right. exists p, c, con, tag, x, r2. auto. }
  assert (S1 : forall w q r r', p ++ r = q ++ r' -> reads t w q -> reads t w p).
  { intros w q r r' E Hr. destruct (reads_packet _ _ _ Hr) as (c' & con' & tag' & x' & HQ).
    destruct (ber_packet_det _ _ _ _ _ _ _ _ _ _ _ _ HP HQ E) as (-> & _). exact Hr. }
  assert (ok1 = ok2).
  { destruct ok1, ok2; auto; exfalso.
    - destruct (proj1 A1 eq_refl) as (w & q & r & E & Hr). apply (S1 w q _ _) in E; [|exact Hr].
      discriminate (proj2 A2 (ex_intro _ w (ex_intro _ p (ex_intro _ r2 (conj eq_refl E))))).
    - destruct (proj1 A2 eq_refl) as (w & q & r & E & Hr). apply (S1 w q _ _) in E; [|exact Hr].
      discriminate (proj2 A1 (ex_intro _ w (ex_intro _ p (ex_intro _ r1 (conj eq_refl E))))). }
  subst ok2. exists v1, v2, ok1, t1, t2. repeat (split; [assumption|]). intros ->.
  destruct (proj1 A1 eq_refl) as (w & q & r & E & Hr). apply (S1 w q _ _) in E; [|exact Hr]. exists w. split; [exact (B1 w p r1 eq_refl E)|exact (B2 w p r2 eq_refl E)].
Qed.
(** Every BER encoding of a value (C42's [ber_of]: any length form, any order of the members of a SET) is read as it.
    Partial: primitive contents that look like an overlong tag ([calm_value]) are left out, see C124_wild_content. *)
Theorem C124_encodings_are_read_partial : forall t v p, good_schema t -> safe t -> ber_of t v p -> calm_value v -> zlen p < 2^63 ->
  reads t v p.
Proof. exact encoding_reads. Qed.
Theorem C124_encodings_are_tame_partial : forall t v p, ber_of t v p -> calm_value v -> zlen p < 2^63 -> tame p.
Proof. exact encoding_tame. Qed.

(** ** The hypotheses are met, inputs outside X.690 are accepted and others refused *)
Definition dx_seq : ty := TSeq (Id universal 16)
  (CCons Mand [(universal, 2)] (ex_int (Id universal 2))
  (CCons Opt [(universal, 1)] (TLeaf KBool (Id universal 1))
  (CCons Mand [(universal, 17)] ex_set CNil))).
(** Garbage behind the last member, inside and behind the packet. *)
Definition dx_input : list Z := [0x30; 12; 2; 1; 5; 0x31; 5; 0x30; 3; 2; 1; 7; 0x85; 0x85; 99].
Definition dx_value : val := VRec [Some (VPrim [5]); None; Some (VRec [Some (VList [VPrim [7]]); None])].
Example dx_seq_good : wf_ty dx_seq /\ labelled dx_seq /\ safe dx_seq /\ guarded dx_seq /\ obj dx_seq (init dx_seq) /\ good_schema dx_seq.
Proof.
  assert (A : good_schema dx_seq) by (unfold good_schema, dx_seq, ex_set, ex_int; schema_check).
  split; [apply A|]. split; [apply A|]. split; [cbn; intuition discriminate|]. split; [exact I|]. split; [apply init_obj, A|exact A].
Qed.
Example C124_example : bytes dx_input /\ tame dx_input /\
  (exists s', (let* v := v_make dx_input in decode dx_seq (init dx_seq) v) = Ok (true, s') /\ seen dx_seq s' dx_value) /\
  (exists s', (let* v := v_make [0x30; 3; 2; 1; 5] in decode dx_seq (init dx_seq) v) = Ok (false, s')).
Proof.
  split; [repeat constructor; cbn; lia|]. split; [apply tame_check_sound; vm_compute; reflexivity|]. split; [|vm_compute; eauto].
  eexists. split; [vm_compute; reflexivity|]. cbn. repeat (split; auto; try (vm_compute; reflexivity)).
Qed.
Example C124_example_reads : reads dx_seq dx_value [0x30; 12; 2; 1; 5; 0x31; 5; 0x30; 3; 2; 1; 7; 0x85; 0x85].
Proof.
  destruct dx_seq_good as (Hwf & Hl & Hs & Hg & Ho & _). destruct C124_example as (Hb & Ht & (s' & E & Hse) & _).
  destruct (C124_accepts_partial dx_seq (init dx_seq) dx_input Hwf Hl Hs Ho Hb Ht (or_introl Hg)) as (v & ok & s2 & Ev & Ed & A & B).
  rewrite Ev in E. cbn [bind] in E. assert (ok = true /\ s2 = s') as [-> ->] by (split; congruence).
  destruct (proj1 A eq_refl) as (w & p & rest & Ei & Hr). pose proof (B _ _ _ Ei Hr) as Hw.
  rewrite (seen_fun _ _ _ _ Hse Hw). destruct (reads_packet _ _ _ Hr) as (c & con & tag & x & HP).
  assert (HQ : ber_packet [0x30; 12; 2; 1; 5; 0x31; 5; 0x30; 3; 2; 1; 7; 0x85; 0x85] universal constructed 16 [2; 1; 5; 0x31; 5; 0x30; 3; 2; 1; 7; 0x85; 0x85])
    by (apply short_pkt; reflexivity).
  destruct (ber_packet_det _ _ _ _ _ _ _ _ _ _ [99] _ HQ HP Ei) as (-> & _). exact Hr.
Qed.
(** Why [calm_value]: an OCTET STRING whose content begins like an overlong tag.  Reading this proper encoding runs the
    tag extraction over the content: signed overflow. *)
Example C124_wild_content :
  let x := 0x5F :: repeat 0xFF 10 in
  ber_of (ex_str (Id universal 4)) (VPrim x) (4 :: 11 :: x) /\ ~ calm_content x /\ ~ tame (4 :: 11 :: x).
Proof.
  set (x := 0x5F :: repeat 0xFF 10). assert (HP : ber_packet (4 :: 11 :: x) universal primitive 4 x) by (apply short_pkt; reflexivity).
  split; [|split].
  - cbn [ber_of ex_str]. split; [split; [repeat constructor; cbn; lia|exact I]|]. split; [exact HP|reflexivity].
  - intros H. apply H. exists 0x5F, (repeat 0xFF 10). split; [reflexivity|]. split; [reflexivity|]. split; [vm_compute; discriminate|]. unfold ztake. cbn. repeat constructor; lia.
  - intros (_ & _ & H). apply (H (4 :: 11 :: x) universal primitive 4 x []); [rewrite app_nil_r; constructor|exact HP|vm_compute; reflexivity].
Qed.

(** Which packets a member takes, by the identifiers of its type, is what check_id_match (Identifier.hpp, Choice.hpp 19-31) says: for a type with an identifier that of the identifier, for an untagged choice
    that of one of the alternatives. *)
Lemma has_id_check_id_match : forall i c tag, has_id [outer_id i] c tag = check_id_match i c tag.
Proof. intros i c tag. unfold has_id, outer_id, check_id_match, id_eqb. cbn. now rewrite Bool.orb_false_r. Qed.
Lemma has_id_alternatives : forall f ids t cs c tag, has_id (comps_ids (CCons f ids t cs)) c tag = (has_id ids c tag || has_id (comps_ids cs) c tag)%bool.
Proof. intros. cbn. unfold has_id. apply existsb_app. Qed.
