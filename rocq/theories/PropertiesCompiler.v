(** Property theorems C53-C56: the identifiers and checks of the ASN.1 compiler. *)
From Verif Require Import Base Ident Spec HeaderProofs View ViewProofs Prims PrimProofs Schema SchemaSpec SchemaProofs SchemaDecode
  SchemaRound PropertiesSchema Compiler CompilerSpec CompilerProofs.

(** ** Types used in the examples *)
Definition a_int : aty := APrim (KSmall 8 [0]) 2.
Definition a_bool : aty := APrim KBool 1.
Definition a_str : aty := APrim (KFixed []) 4.
(** In a module with IMPLICIT TAGS:
      Other ::= SEQUENCE { x INTEGER, y CHOICE { p OCTET STRING, q [7] BOOLEAN } OPTIONAL }
      Big ::= SEQUENCE { a [1] Other, b [2] EXPLICIT INTEGER OPTIONAL, c INTEGER DEFAULT 0,
                         d SET { e SEQUENCE OF Other, f [0] INTEGER OPTIONAL }, g [3] CHOICE { h Other, i BOOLEAN } } *)
Definition a_other : aty := ASeq (ACons Mand a_int (ACons Opt (AChoice (ACons Mand a_str
  (ACons Mand (ATagged automatic context_specific 7 a_bool) ANil))) ANil)).
Definition r_other : aty := ADef implicit_ a_other.
Definition a_big : aty := ASeq
  (ACons Mand (ATagged automatic context_specific 1 r_other)
  (ACons Opt (ATagged explicit_ context_specific 2 a_int)
  (ACons Def a_int
  (ACons Mand (ASet false (ACons Mand (ASeqOf false r_other) (ACons Opt (ATagged automatic context_specific 0 a_int) ANil)))
  (ACons Mand (ATagged automatic context_specific 3 (AChoice (ACons Mand r_other (ACons Mand a_bool ANil)))) ANil))))).
Ltac ast_check := cbn -[Z.pow]; repeat match goal with
  | |- _ /\ _ => split
  | |- True => exact I
  | |- bytes _ => unfold bytes
  | |- wf_byte _ => unfold wf_byte
  | |- Forall _ _ => constructor
  | |- NoDup _ => constructor
  | |- ~ In _ _ => cbn; intuition discriminate
  | |- _ \/ _ => first [left; reflexivity | right]
  | |- disjoint _ _ => intros ? ?; cbn in *; intuition (subst; discriminate)
  | |- forall _, _ => intros ?
  | |- _ <> _ => discriminate
  end; cbn -[Z.pow] in *; try lia; try (intuition congruence).
Example a_big_ok : everywhere plain implicit_ a_big /\ everywhere valid_seqs implicit_ a_big /\
  everywhere distinct_members implicit_ a_big /\ everywhere choice_numbers implicit_ a_big /\ accepts implicit_ a_big = true.
Proof. unfold a_big, r_other, a_other, a_int, a_bool, a_str, plain, valid_seqs, distinct_members, choice_numbers. ast_check. Qed.

(** * C54: the SEQUENCE check *)
(** False: the check compares neighbouring optional members only.
    SEQUENCE { a INTEGER OPTIONAL, b BOOLEAN OPTIONAL, c INTEGER OPTIONAL } is accepted, and the encoding of { c 5 }
    decodes, successfully, as { a 5 }. *)
Definition amb_seq : aty := ASeq (ACons Opt a_int (ACons Opt a_bool (ACons Opt a_int ANil))).
Theorem C54_gap_refuted : exists t t' s v p w s',
  compile explicit_ t = Some t' /\ rep t' s v /\ encode t' s (zrep 5 0) = Ok (EncResult p true 5) /\ v_make p = Ok w /\
  decode t' (init t') w = Ok (true, s') /\ rep t' s' (VRec [Some (VPrim [5]); None; None]) /\
  v = VRec [None; None; Some (VPrim [5])].
Proof.
  exists amb_seq, (cpp explicit_ None amb_seq), (SRec [None; None; Some (ex_int_state (Id universal 2) 5)]),
    (VRec [None; None; Some (VPrim [5])]), [0x30; 3; 2; 1; 5], (View (Some [0x30; 3; 2; 1; 5]) 16 2 3),
    (SRec [Some (ex_int_state (Id universal 2) 5); None; None]).
  split; [reflexivity|]. split.
  { cbn [amb_seq a_int a_bool cpp cpp_comps rep rep_comps]. split; [discriminate|]. split; [discriminate|]. split; [|exact I].
    change (rep (ex_int (Id universal 2)) (ex_int_state (Id universal 2) 5) (VPrim [5])). int_rep. }
  split; [vm_compute; reflexivity|]. split; [vm_compute; reflexivity|]. split; [vm_compute; reflexivity|].
  split; [|reflexivity].
  cbn [amb_seq a_int a_bool cpp cpp_comps rep rep_comps]. split; [|split; [discriminate|split; [discriminate|exact I]]].
  change (rep (ex_int (Id universal 2)) (ex_int_state (Id universal 2) 5) (VPrim [5])). int_rep.
Qed.
(** SEQUENCE { a INTEGER OPTIONAL, b INTEGER } is accepted, and the encoding of { b 5 } cannot be decoded. *)
Definition amb_seq2 : aty := ASeq (ACons Opt a_int (ACons Mand a_int ANil)).
Theorem C54_mandatory_next_refuted : exists t t' s v p w s',
  compile explicit_ t = Some t' /\ rep t' s v /\ encode t' s (zrep 5 0) = Ok (EncResult p true 5) /\ v_make p = Ok w /\
  decode t' (init t') w = Ok (false, s').
Proof.
  exists amb_seq2, (cpp explicit_ None amb_seq2), (SRec [None; Some (ex_int_state (Id universal 2) 5)]),
    (VRec [None; Some (VPrim [5])]), [0x30; 3; 2; 1; 5], (View (Some [0x30; 3; 2; 1; 5]) 16 2 3). eexists.
  split; [reflexivity|]. split.
  { cbn [amb_seq2 a_int a_bool cpp cpp_comps rep rep_comps]. split; [discriminate|]. split; [|exact I].
    change (rep (ex_int (Id universal 2)) (ex_int_state (Id universal 2) 5) (VPrim [5])). int_rep. }
  split; [vm_compute; reflexivity|]. split; [vm_compute; reflexivity|]. vm_compute. reflexivity.
Qed.
(** A second CHOICE alternative is not compared either: SEQUENCE { a INTEGER OPTIONAL, b CHOICE { x BOOLEAN, y INTEGER }
    OPTIONAL } is accepted; { b y: 5 } decodes as { a 5 }. *)
Theorem C54_choice_refuted : exists t t' s v p w s',
  compile explicit_ t = Some t' /\ rep t' s v /\ encode t' s (zrep 5 0) = Ok (EncResult p true 5) /\ v_make p = Ok w /\
  decode t' (init t') w = Ok (true, s') /\ rep t' s' (VRec [Some (VPrim [5]); None]) /\ v = VRec [None; Some (VAlt 1 (VPrim [5]))].
Proof.
  set (t := ASeq (ACons Opt a_int (ACons Opt (AChoice (ACons Mand a_bool (ACons Mand a_int ANil))) ANil))).
  exists t, (cpp explicit_ None t), (SRec [None; Some (SAlt 1 (ex_int_state (Id universal 2) 5))]),
    (VRec [None; Some (VAlt 1 (VPrim [5]))]), [0x30; 3; 2; 1; 5], (View (Some [0x30; 3; 2; 1; 5]) 16 2 3),
    (SRec [Some (ex_int_state (Id universal 2) 5); None]).
  split; [reflexivity|]. split.
  { cbn [t a_int a_bool cpp cpp_comps rep rep_comps]. split; [discriminate|]. split; [|exact I].
    change (1%nat = 1%nat /\ rep (ex_int (Id universal 2)) (ex_int_state (Id universal 2) 5) (VPrim [5])). split; [reflexivity|int_rep]. }
  split; [vm_compute; reflexivity|]. split; [vm_compute; reflexivity|]. split; [vm_compute; reflexivity|].
  split; [|reflexivity].
  cbn [t a_int a_bool cpp cpp_comps rep rep_comps]. split; [|split; [discriminate|exact I]].
  change (rep (ex_int (Id universal 2)) (ex_int_state (Id universal 2) 5) (VPrim [5])). int_rep.
Qed.
(** What the check does catch: neighbouring optional members of which the second starts with (the first alternative of)
    an identifier of the first. *)
Fixpoint neighbours_clash (cs : acomps) : Prop :=
  match cs with
  | ACons k1 t1 (ACons k2 t2 cs' as rest) =>
      (k1 <> Mand /\ k2 <> Mand /\ exists x, hd_error (first_tags t2) = Some x /\ In x (first_tags t1)) \/ neighbours_clash rest
  | _ => False
  end.
Lemma check_seq_clash cs : forall m prev, everywhere_comps plain m cs -> neighbours_clash cs -> check_seq_loop m prev cs = false.
Proof.
  induction cs as [|k1 t1 cs IH]; intros m prev H Hc; [destruct Hc|]. destruct H as (Ht & H).
  destruct cs as [|k2 t2 cs]; [destruct Hc|]. destruct Hc as [(Hk1 & Hk2 & x & Hx & Hin)|Hc].
  - destruct H as (Ht2 & H). cbn [check_seq_loop].
    assert (E : existsb (fun p => match outer_tags (info m t2) with a :: _ => cid_eqb p a | [] => false end) (outer_tags (info m t1)) = true).
    { rewrite <- (outer_tags_first m t1 Ht) in Hin. rewrite <- (outer_tags_first m t2 Ht2) in Hx.
      apply in_map_iff in Hin as (a & Ea & Ha). apply existsb_exists. exists a. split; [exact Ha|].
      pose proof (proj1 outer_ids_norm t2 m Ht2) as N2. rewrite <- outer_tags_eq in N2 by exact Ht2.
      pose proof (proj1 outer_ids_norm t1 m Ht) as N1. rewrite <- outer_tags_eq in N1 by exact Ht.
      destruct (outer_tags (info m t2)) as [|b l]; [discriminate|]. cbn in Hx. injection Hx as Hx.
      rewrite Forall_forall in N1. inversion N2; subst. apply cid_eqb_iff; auto. }
    destruct k1, k2; try congruence; rewrite E; destruct (existsb _ prev); reflexivity.
  - pose proof (fun prev => IH m prev H Hc) as E. destruct k1; cbn [check_seq_loop] in *; try rewrite !E; auto;
      destruct (existsb _ prev); auto.
Qed.
Theorem C54_neighbours_rejected_partial : forall m cs, everywhere plain m (ASeq cs) -> neighbours_clash cs -> compile m (ASeq cs) = None.
Proof.
  intros m cs ((Hm & _) & H) Hc. unfold compile. cbv zeta. rewrite (proj1 split_accepts). cbn [accepts]. unfold check_seq. rewrite not_auto by exact Hm. cbn [orb].
  rewrite check_seq_clash by assumption. reflexivity.
Qed.
(** The check never rejects a type that X.680 calls valid (and the generated code then round-trips, next theorem). *)
Theorem C54_valid_accepted_partial : forall m t, everywhere plain m t -> everywhere valid_seqs m t -> everywhere distinct_members m t ->
  compile m t <> None.
Proof. intros m t H1 H2 H3. unfold compile. cbv zeta. rewrite (proj1 split_accepts), (proj1 accepts_valid t m H1 H2 H3). discriminate. Qed.
(** Code generated for an accepted type round-trips every value, if its SEQUENCEs satisfy X.680 25.6 (which the compiler
    does not check) and its CHOICEs differ in tag numbers: whatever references, tags and nesting it has. *)
Theorem C54_compiled_round_trip_partial : forall m t t' s v,
  everywhere plain m t -> everywhere valid_seqs m t -> everywhere choice_numbers m t -> compile m t = Some t' ->
  rep t' s v -> weight s < 2^62 ->
  exists p, (forall buffer, zlen buffer < 2^63 -> zlen p <= zlen buffer ->
               encode t' s buffer = Ok (EncResult (p ++ zdrop (zlen p) buffer) true (zlen p))) /\
    forall s0 rest, obj t' s0 -> zlen (p ++ rest) < 2^63 ->
      exists view s', v_make (p ++ rest) = Ok view /\ decode t' s0 view = Ok (true, s') /\ rep t' s' v.
Proof.
  intros m t t' s v H1 H2 H3 Hc. unfold compile in Hc. cbv zeta in Hc. destruct (accepts m (split m t)) eqn:Ha; [|discriminate]. injection Hc as <-.
  apply C42_round_trip_partial. apply (proj1 cpp_good); auto using split_plain, split_valid, split_numbers. discriminate.
Qed.
Example C54_example : (exists t', compile implicit_ a_big = Some t' /\ good_schema t') /\
  neighbours_clash (ACons Opt a_int (ACons Opt a_int ANil)) /\ everywhere plain explicit_ (ASeq (ACons Opt a_int (ACons Opt a_int ANil))).
Proof.
  destruct a_big_ok as (H1 & H2 & H3 & H4 & H5). split.
  { eexists. split; [reflexivity|]. apply (proj1 cpp_good); auto using split_plain, split_valid, split_numbers. discriminate. }
  split; [|unfold plain, a_int; ast_check].
  left. split; [discriminate|]. split; [discriminate|]. exists (universal, 2). split; [reflexivity|left; reflexivity].
Qed.

(** * C55: duplicate identifiers *)
(** SET and CHOICE definitions are rejected exactly when two members can start with the same tag.  Partial: types with
    tags of class UNIVERSAL are excluded by [plain]. *)
Theorem C55_set_duplicates_partial : forall m ext cs, everywhere plain m (ASet ext cs) -> accepts_comps m cs = true ->
  (compile m (ASet ext cs) = None <-> ~ NoDup (all_first cs)).
Proof.
  intros m ext cs ((Hm & _) & H) Ha. unfold compile. cbv zeta. rewrite (proj1 split_accepts). cbn [accepts]. rewrite Ha, Bool.andb_true_r.
  pose proof (check_set_iff m cs Hm H) as Hi. destruct (check_set m cs); split; intros; try discriminate; auto.
  - exfalso. apply H0. apply Hi. reflexivity.
  - intros Hn. apply Hi in Hn. discriminate.
Qed.
Theorem C55_choice_duplicates_partial : forall m cs, everywhere plain m (AChoice cs) -> accepts_comps m cs = true ->
  (compile m (AChoice cs) = None <-> ~ NoDup (all_first cs)).
Proof.
  intros m cs H Ha. unfold compile. cbv zeta. rewrite (proj1 split_accepts). cbn [accepts]. rewrite Ha, Bool.andb_true_r.
  pose proof (choice_ok_iff m cs H) as Hi. destruct (choice_ok m cs); split; intros; try discriminate; auto.
  - exfalso. apply H0. apply Hi. reflexivity.
  - intros Hn. apply Hi in Hn. discriminate.
Qed.
Example C55_example :
  let dup := ACons Mand a_int (ACons Opt (AChoice (ACons Mand a_str (ACons Mand a_int ANil))) ANil) in
  everywhere plain explicit_ (ASet false dup) /\ everywhere plain explicit_ (AChoice dup) /\ accepts_comps explicit_ dup = true /\
  ~ NoDup (all_first dup) /\ compile explicit_ (ASet false dup) = None /\ compile explicit_ (AChoice dup) = None.
Proof.
  cbv zeta. split; [unfold plain, a_int, a_str; ast_check|]. split; [unfold plain, a_int, a_str; ast_check|]. split; [reflexivity|].
  split; [|split; reflexivity]. cbn. intros H. inversion H as [|? ? Hn _]; subst. apply Hn. cbn. tauto.
Qed.
(** Without that exclusion it is false: SET { a INTEGER, b [UNIVERSAL 2] IMPLICIT BOOLEAN } and the corresponding CHOICE
    are accepted although both members have tag UNIVERSAL 2; the value { a 5, b TRUE } cannot be decoded. *)
Theorem C55_universal_refuted : exists cs, all_first cs = [(universal, 2); (universal, 2)] /\
  compile implicit_ (AChoice cs) <> None /\
  exists t' s v p w s', compile implicit_ (ASet false cs) = Some t' /\ rep t' s v /\
    encode t' s (zrep 8 0) = Ok (EncResult p true 8) /\ v_make p = Ok w /\ decode t' (init t') w = Ok (false, s').
Proof.
  set (cs := ACons Mand a_int (ACons Mand (ATagged automatic universal 2 a_bool) ANil)).
  exists cs. split; [reflexivity|]. split; [discriminate|].
  exists (cpp implicit_ None (ASet false cs)), (SRec [Some (ex_int_state (Id universal 2) 5); Some (SLeaf (LData [2; 1; 255]))]),
    (VRec [Some (VPrim [5]); Some (VPrim [255])]), [0x31; 6; 2; 1; 5; 2; 1; 255], (View (Some [0x31; 6; 2; 1; 5; 2; 1; 255]) 17 2 6).
  eexists. split; [reflexivity|]. split.
  { cbn [cs a_int a_bool cpp cpp_comps rep rep_comps]. split; [|split; [|exact I]].
    - change (rep (ex_int (Id universal 2)) (ex_int_state (Id universal 2) 5) (VPrim [5])). int_rep.
    - change (leaf_rep KBool (Id universal 2) (LData [2; 1; 255]) [255]). split; [|reflexivity].
      split; [constructor; [unfold wf_byte; lia|constructor]|reflexivity]. }
  split; [vm_compute; reflexivity|]. split; [vm_compute; reflexivity|]. vm_compute. reflexivity.
Qed.

(** * C56: tags *)
(** Members of SEQUENCE and SET and alternatives of CHOICE: what is written starts with exactly the tags X.680 gives the
    type, outermost first, whatever references and tags are nested (at most two tags in the result: [one_explicit]).
    [cpp_comps] in Compiler.v shows that this is the code of every member outside AUTOMATIC TAGS; see also the example. *)
Theorem C56_member_tags_partial : forall m t s v, everywhere plain m t -> one_explicit m t -> x680_tags m t <> [] ->
  let t' := member m (split m t) (cpp m None (split m t)) in
  rep t' s v -> weight s < 2^62 ->
  exists p con x, (forall buffer, zlen buffer < 2^63 -> zlen p <= zlen buffer ->
               encode t' s buffer = Ok (EncResult (p ++ zdrop (zlen p) buffer) true (zlen p))) /\
    tagged_octets (x680_tags m t) con p x.
Proof.
  intros m t s v H Ho Hne t' Hr Hw. apply split_plain in H. apply split_one_explicit in Ho. rewrite <- split_x680 in Hne |- *.
  subst t'. set (u := split m t) in *. set (t' := member m u (cpp m None u)) in *.
  destruct (C41_encode_is_ber t' s v (member_wf m u H) Hr Hw) as (p & Hb & He).
  destruct (x680_name m u H Hne) as (i & Ei). pose proof (own_id_member m u H) as Eo. rewrite Ei in Eo.
  destruct (ber_of_own _ _ _ _ Hb Eo) as (x & Hx). exists p, (own_con t'), x. split; [exact He|].
  rewrite <- (info_tags u m i Ho Ei Hne). apply id_packet_tags. exact Hx.
Qed.
(** Type assignments "T ::= t".  Partial also in that a tagged SEQUENCE, SET or CHOICE is excluded (see
    C56_tagged_structure_refuted). *)
Fixpoint untagged (t : aty) : Prop := match t with ATagged _ _ _ _ => False | ADef _ t => untagged t | _ => True end.
Lemma untagged_default t : forall m, untagged t -> ti_default (info m (split m t)) = true.
Proof. induction t as [| | | | |kw c n t IH|m' t IH]; intros m H; try reflexivity; [destruct H|]. apply IH. exact H. Qed.
Lemma gen_named_structured u : forall m, everywhere plain m u -> gen_named u = true -> structured u.
Proof.
  induction u as [| | | | |kw c n t IH|m' t IH]; intros m H; cbn; try discriminate; auto.
  - intros G. apply (IH m); [apply H|exact G].
  - intros G. pose proof (gen_def_named t ltac:(right; exists m, m'; exact (everywhere_here _ _ _ H))) as E.
    apply (IH m'); [apply H|congruence].
Qed.
Theorem C56_type_tags_partial : forall m t t' s v, everywhere plain m t -> one_explicit m t -> x680_tags m t <> [] ->
  (structured t -> untagged t) -> compile m t = Some t' ->
  rep t' s v -> weight s < 2^62 ->
  exists p con x, (forall buffer, zlen buffer < 2^63 -> zlen p <= zlen buffer ->
               encode t' s buffer = Ok (EncResult (p ++ zdrop (zlen p) buffer) true (zlen p))) /\
    tagged_octets (x680_tags m t) con p x.
Proof.
  intros m t t' s v H Ho Hne Hg Hc Hr Hw. unfold compile in Hc. cbv zeta in Hc.
  destruct (accepts m (split m t)); [|discriminate]. injection Hc as <-.
  apply split_plain in H. apply split_one_explicit in Ho. rewrite <- split_x680 in Hne |- *.
  assert (Hg' : structured (split m t) -> ti_default (info m (split m t)) = true)
    by (intros Hs; apply untagged_default, Hg, (split_structured t m), Hs).
  clear Hg. set (u := split m t) in *. set (t' := cpp m None u) in *.
  destruct (C41_encode_is_ber t' s v (proj1 cpp_wf u m None H ltac:(discriminate)) Hr Hw) as (p & Hb & He).
  destruct (x680_name m u H Hne) as (i & Ei).
  pose proof (gen_named_structured u m H) as Hs.
  assert (Eo : own_id t' = Some i).
  { unfold t'. destruct (gen_named u) eqn:Eg.
    - rewrite gen_default_own; auto.
    - rewrite own_id_cpp; [cbn [or_id]; exact Ei|exact H|congruence]. }
  destruct (ber_of_own _ _ _ _ Hb Eo) as (x & Hx). exists p, (own_con t'), x. split; [exact He|].
  rewrite <- (info_tags u m i Ho Ei Hne). apply id_packet_tags. exact Hx.
Qed.
(** T ::= [1] U, U ::= [2] EXPLICIT INTEGER, under IMPLICIT TAGS: tags [1] and INTEGER. *)
Example C56_example :
  let t := ATagged automatic context_specific 1 (ADef implicit_ (ATagged explicit_ context_specific 2 a_int)) in
  let i := DoubleId context_specific 1 universal 2 in
  everywhere plain implicit_ t /\ one_explicit implicit_ t /\ x680_tags implicit_ t = [(context_specific, 1); (universal, 2)] /\
  (structured t -> untagged t) /\ compile implicit_ t = Some (ex_int i) /\
  compile implicit_ (ASeq (ACons Mand t ANil)) = Some (TSeq (Id universal 16) (CCons Mand [(context_specific, 1)]
    (member implicit_ (split implicit_ t) (cpp implicit_ None (split implicit_ t))) CNil)) /\
  rep (ex_int i) (ex_int_state i 5) (VPrim [5]) /\
  encode (ex_int i) (ex_int_state i 5) (zrep 5 0) = Ok (EncResult [0xA1; 3; 2; 1; 5] true 5).
Proof.
  cbv zeta. split; [unfold plain, a_int; ast_check|]. split; [repeat split; discriminate|]. split; [reflexivity|].
  split; [intros []|]. split; [reflexivity|]. split; [reflexivity|]. split; [int_rep|]. vm_compute. reflexivity.
Qed.
(** Without [one_explicit] it fails in three ways: (1) [0] EXPLICIT [1] EXPLICIT INTEGER loses the tag in the middle;
    (2) an explicit tag on a CHOICE adds a tag UNIVERSAL 0 after it, also when it is the default of the module;
    (3) under AUTOMATIC TAGS a tag without keyword is explicit. *)
Theorem C56_three_tags_refuted : exists t t' s, everywhere plain explicit_ t /\
  x680_tags explicit_ t = [(context_specific, 0); (context_specific, 1); (universal, 2)] /\
  compile explicit_ t = Some t' /\ encode t' s (zrep 5 0) = Ok (EncResult [0xA0; 3; 2; 1; 5] true 5).
Proof.
  exists (ATagged explicit_ context_specific 0 (ATagged explicit_ context_specific 1 a_int)), (ex_int (DoubleId context_specific 0 universal 2)),
    (ex_int_state (DoubleId context_specific 0 universal 2) 5).
  split; [unfold plain, a_int; ast_check|]. split; [reflexivity|]. split; [reflexivity|]. vm_compute. reflexivity.
Qed.
(** SEQUENCE { a [1] CHOICE { x INTEGER } } under EXPLICIT TAGS, value { a x: 5 }: X.680 asks for 30 05 A1 03 02 01 05. *)
Theorem C56_explicit_choice_refuted : exists cs t' s,
  let t := ATagged automatic context_specific 1 (AChoice cs) in
  everywhere plain explicit_ t /\ x680_tags explicit_ t = [(context_specific, 1)] /\
  compile explicit_ (ASeq (ACons Mand t ANil)) = Some t' /\
  encode t' (SRec [Some s]) (zrep 9 0) = Ok (EncResult [0x30; 7; 0xA1; 5; 0x20; 3; 2; 1; 5] true 9).
Proof.
  eexists (ACons Mand a_int ANil), _, (SAlt 0 (ex_int_state (Id universal 2) 5)). cbv zeta.
  split; [unfold plain, a_int; ast_check|]. split; [reflexivity|]. split; [reflexivity|]. vm_compute. reflexivity.
Qed.
Theorem C56_automatic_refuted : exists t t' s, x680_tags automatic t = [(context_specific, 1)] /\
  compile automatic t = Some t' /\ encode t' s (zrep 5 0) = Ok (EncResult [0xA1; 3; 2; 1; 5] true 5).
Proof.
  exists (ATagged automatic context_specific 1 a_int), (ex_int (DoubleId context_specific 1 universal 2)),
    (ex_int_state (DoubleId context_specific 1 universal 2) 5). split; [reflexivity|]. split; [reflexivity|]. vm_compute. reflexivity.
Qed.
(** T ::= [5] SEQUENCE { a INTEGER }, and SEQUENCE OF such a type: the tag is lost (test/generated/Sequence.cpp has a
    "TODO: Fixme" for it). *)
Theorem C56_tagged_structure_refuted : exists t t' t'' s, everywhere plain implicit_ t /\ one_explicit implicit_ t /\
  x680_tags implicit_ t = [(context_specific, 5)] /\ compile implicit_ t = Some t' /\ compile implicit_ (ASeqOf false t) = Some t'' /\
  encode t' s (zrep 5 0) = Ok (EncResult [0x30; 3; 2; 1; 5] true 5) /\
  encode t'' (SList [s]) (zrep 7 0) = Ok (EncResult [0x30; 5; 0x30; 3; 2; 1; 5] true 7).
Proof.
  eexists (ATagged automatic context_specific 5 (ASeq (ACons Mand a_int ANil))), _, _,
    (SRec [Some (ex_int_state (Id universal 2) 5)]).
  split; [unfold plain, a_int; ast_check|]. split; [repeat split; discriminate|]. split; [reflexivity|].
  split; [reflexivity|]. split; [reflexivity|]. split; vm_compute; reflexivity.
Qed.

(** * C53: AUTOMATIC TAGS *)
(** False.  Optional members: the decoder of SEQUENCE { a INTEGER OPTIONAL } tests for the universal tag, the encoder
    writes [0]: { a 5 } decodes, successfully, as { }. *)
Theorem C53_optional_refuted : exists t t' s v p w s',
  compile automatic t = Some t' /\ rep t' s v /\ encode t' s (zrep 5 0) = Ok (EncResult p true 5) /\ v_make p = Ok w /\
  decode t' (init t') w = Ok (true, s') /\ v = VRec [Some (VPrim [5])] /\ rep t' s' (VRec [None]).
Proof.
  set (t := ASeq (ACons Opt a_int ANil)).
  exists t, (cpp automatic None t), (SRec [Some (ex_int_state (Id context_specific 0) 5)]),
    (VRec [Some (VPrim [5])]), [0x30; 3; 0x80; 1; 5], (View (Some [0x30; 3; 0x80; 1; 5]) 16 2 3), (SRec [None]).
  split; [reflexivity|]. split.
  { cbn [t a_int cpp cpp_comps rep rep_comps]. split; [|exact I].
    change (rep (ex_int (Id context_specific 0)) (ex_int_state (Id context_specific 0) 5) (VPrim [5])). int_rep. }
  split; [vm_compute; reflexivity|]. split; [vm_compute; reflexivity|]. split; [vm_compute; reflexivity|].
  split; [reflexivity|]. cbn [t a_int cpp cpp_comps rep rep_comps]. split; [discriminate|exact I].
Qed.
(** References to structured types in a SET or CHOICE: encoded with their own tag, expected with the automatic one. *)
Theorem C53_reference_refuted : exists cs,
  (exists t' s v p w s', compile automatic (ASet false cs) = Some t' /\ rep t' s v /\ encode t' s (zrep 4 0) = Ok (EncResult p true 4) /\
     v_make p = Ok w /\ decode t' (init t') w = Ok (false, s')) /\
  (exists t' s v p w s', compile automatic (AChoice cs) = Some t' /\ rep t' s v /\ encode t' s (zrep 2 0) = Ok (EncResult p true 2) /\
     v_make p = Ok w /\ decode t' (init t') w = Ok (false, s')).
Proof.
  exists (ACons Mand (ADef automatic (ASeq ANil)) ANil). split.
  - eexists _, (SRec [Some (SRec [])]), (VRec [Some (VRec [])]), [0x31; 2; 0x30; 0], (View (Some [0x31; 2; 0x30; 0]) 17 2 2), _.
    split; [reflexivity|]. split; [cbn; tauto|]. split; [vm_compute; reflexivity|]. split; [vm_compute; reflexivity|]. vm_compute. reflexivity.
  - eexists _, (SAlt 0 (SRec [])), (VAlt 0 (VRec [])), [0x30; 0], (View (Some [0x30; 0]) 16 2 0), _.
    split; [reflexivity|]. split; [cbn; tauto|]. split; [vm_compute; reflexivity|]. split; [vm_compute; reflexivity|]. vm_compute. reflexivity.
Qed.
(** Without optional members, and without tags on or structured references in SETs and CHOICEs, AUTOMATIC TAGS work. *)
Theorem C53_round_trip_partial : forall t t' s v, everywhere auto_simple automatic t -> compile automatic t = Some t' ->
  rep t' s v -> weight s < 2^62 ->
  exists p, (forall buffer, zlen buffer < 2^63 -> zlen p <= zlen buffer ->
               encode t' s buffer = Ok (EncResult (p ++ zdrop (zlen p) buffer) true (zlen p))) /\
    forall s0 rest, obj t' s0 -> zlen (p ++ rest) < 2^63 ->
      exists view s', v_make (p ++ rest) = Ok view /\ decode t' s0 view = Ok (true, s') /\ rep t' s' v.
Proof.
  intros t t' s v H Hc. unfold compile in Hc. cbv zeta in Hc. destruct (accepts automatic (split automatic t)); [|discriminate]. injection Hc as <-.
  apply C42_round_trip_partial. apply (proj1 cpp_good_auto); auto using split_auto. discriminate.
Qed.
Example C53_example :
  let t := ASeq (ACons Mand a_int (ACons Mand (AChoice (ACons Mand a_int (ACons Mand a_int ANil)))
             (ACons Mand (ADef automatic (ASet false (ACons Opt a_int (ACons Opt a_int ANil)))) ANil))) in
  everywhere auto_simple automatic t /\ compile automatic t <> None.
Proof. cbv zeta. split; [|discriminate]. unfold auto_simple, a_int. ast_check. Qed.
