(** Property theorems C96-C98: recursive types. *)
From Verif Require Import Base Ident Spec IdentProofs HeaderProofs View ViewProofs Prims PrimProofs ContProofs Schema SchemaSpec SchemaProofs SchemaDecode SchemaRound SchemaSet SchemaMore.
From Verif Require Import RecTypes RecSpec RecProofs PropertiesSchema.

(** ** From one deep unfolding to all *)
Lemma transfer env K r d (P : ty -> Prop) m b : well_founded_defs env K -> (forall t t', agree d t t' -> P t -> P t') ->
  ((d + 1) * (K + 2) <= m)%nat -> P (unfolding env b m r) -> eventually env r P.
Proof.
  intros W H Hm HP. exists ((d + 1) * (K + 2))%nat. intros m' b' Hm'. eapply H; [|exact HP]. apply (unfolding_agree env K W); assumption.
Qed.
Lemma at_level env r P b n : eventually env r P -> exists m, (n <= m)%nat /\ forall m', (m <= m')%nat -> P (unfolding env b m' r).
Proof. intros [k H]. exists (Nat.max n k). split; [lia|]. intros m' Hm. apply H. lia. Qed.
Lemma eventually_and env r (P Q : ty -> Prop) : eventually env r P -> eventually env r Q -> eventually env r (fun t => P t /\ Q t).
Proof. intros [n H] [n' H']. exists (Nat.max n n'). intros m b Hm. split; [apply H|apply H']; lia. Qed.
Lemma eventually_mono env r (P Q : ty -> Prop) : (forall t, P t -> Q t) -> eventually env r P -> eventually env r Q.
Proof. intros H [n H']. exists n. auto. Qed.
Lemma decode_transfer env K r s v out m b : well_founded_defs env K -> sized v -> ((reach v + 2) * (K + 2) <= m)%nat ->
  decode (unfolding env b m r) s v = out -> eventually env r (fun t => decode t s v = out).
Proof.
  intros W Hs Hm E. apply (transfer env K r (S (reach v)) _ m b W).
  - intros t t' A <-. symmetry. apply (proj1 decode_agree _ _ _ A); [exact Hs|lia].
  - lia.
  - exact E.
Qed.
Lemma make_reach input v : zlen input < 2^63 -> v_make input = Ok v -> sized v /\ (reach v <= S (length input))%nat.
Proof.
  intros Hz E. destruct (assign_sized _ _ _ E Hz) as [H1 H2]. split; [exact H1|]. unfold reach, is_valid in *. destruct (v_mem v) as [m|]; [|lia].
  specialize (H2 eq_refl). replace m with input by congruence. lia.
Qed.

(** * C96: the generated functions of recursive types give an answer *)
(** Decoding n octets calls the functions of at most (n + 3) * (K + 2) definitions inside each other, whatever they contain:
    what would happen below that depth plays no role. *)
Theorem C96_decode_ends : forall env K r s input view, well_founded_defs env K -> zlen input < 2^63 -> v_make input = Ok view ->
  exists out, forall m b, ((length input + 3) * (K + 2) <= m)%nat -> decode (unfolding env b m r) s view = out.
Proof.
  intros env K r s input view W Hz Ev. destruct (make_reach _ _ Hz Ev) as [Hs Hr].
  set (M := ((length input + 3) * (K + 2))%nat). exists (decode (unfolding env (bot env) M r) s view). intros m b Hm.
  apply (proj1 decode_agree (length input + 2)%nat); [apply (unfolding_agree env K W); unfold M in *; lia|exact Hs|lia].
Qed.
Theorem C96_encode_ends : forall env K r s, well_founded_defs env K ->
  (exists out, eventually env r (fun t => encoded_length_of t s = out)) /\
  forall buffer, exists out, eventually env r (fun t => encode t s buffer = out).
Proof.
  intros env K r s W. split; [|intros buf]; eexists; (eapply (transfer env K r (height s) _ _ (bot env) W); [|apply le_n|reflexivity]).
  - intros t t' A E. rewrite <- E. symmetry. apply (proj1 agree_below _ _ _ A s (le_n _)).
  - intros t t' A E. rewrite <- E. symmetry. apply (proj1 agree_below _ _ _ A s (le_n _)).
Qed.
(** A default constructed object is finite, and a valid object. *)
Theorem C96_construction_ends : forall env K r, good_defs env K -> rgood env r ->
  exists s, eventually env r (fun t => init t = s) /\ eventually env r (fun t => obj t s).
Proof.
  intros env K r G R. pose proof (gd_ends env K G) as W.
  assert (I : exists s, eventually env r (fun t => init t = s)).
  { eexists. eapply (transfer env K r 0 _ _ (bot env) W); [|apply le_n|reflexivity]. intros t t' A E. rewrite <- E. symmetry. eapply agree_init, A. }
  destruct I as [s I]. exists s. split; [exact I|].
  destruct (at_level env r _ (bot env) ((height s + 1) * (K + 2)) I) as (m & Hm & Hi). specialize (Hi m (le_n _)).
  apply (transfer env K r (height s) _ m (bot env) W); [|exact Hm|].
  - intros t t' A. apply (proj1 agree_below _ _ _ A s (le_n _)).
  - rewrite <- Hi. apply init_obj. apply (good_unfolding env K G m r R).
Qed.

(** * C97: memory safety of recursive types *)
(** Partial for the reason C44 is: no CHOICE without a tag where its decoder may be given an empty view. *)
Theorem C97_decode_in_bounds_partial : forall env K r s input, good_defs env K -> (forall x, rsafe env (env x)) ->
  rgood env r -> rsafe env r -> rguarded env r -> eventually env r (fun t => obj t s) -> bytes input -> tame input ->
  exists view ok s', v_make input = Ok view /\
    eventually env r (fun t => decode t s view = Ok (ok, s')) /\ eventually env r (fun t => obj t s').
Proof.
  intros env K r s input G Hsafe R Rs Rg Ho Hb Ht. pose proof (gd_ends env K G) as W.
  destruct (assign_good 0 input Hb Ht) as (v & Ev & Hgv). destruct (make_reach _ _ (proj1 Ht) Ev) as [Hs Hr].
  assert (A : forall m, obj (unfolding env (bot env) m r) s -> exists ok s', decode (unfolding env (bot env) m r) s v = Ok (ok, s') /\ obj (unfolding env (bot env) m r) s').
  { intros m H. exact (decode_total _ (proj1 (good_unfolding env K G m r R)) (safe_unfolding env K G Hsafe m r Rs) s v H Hgv (or_intror (guarded_unfolding env K G m r Rg))). }
  destruct (at_level env r _ (bot env) ((reach v + 2) * (K + 2)) Ho) as (m & Hm & Hobj).
  destruct (A m (Hobj m (le_n _))) as (ok & s' & E & _).
  pose proof (decode_transfer env K r s v _ m (bot env) W Hs Hm E) as Hd. exists v, ok, s'. split; [exact Ev|]. split; [exact Hd|].
  destruct (at_level env r _ (bot env) (Nat.max m ((height s' + 1) * (K + 2))) Hd) as (m2 & Hm2 & Hdec). specialize (Hdec m2 (le_n _)).
  destruct (A m2 (Hobj m2 ltac:(lia))) as (ok2 & s2 & E2 & O2). rewrite Hdec in E2. injection E2 as <- <-.
  apply (transfer env K r (height s') _ m2 (bot env) W); [|lia|exact O2]. intros t t' Ag. apply (proj1 agree_below _ _ _ Ag s' (le_n _)).
Qed.
(** Every decode of a default constructed object, as in a program that receives messages. *)
Theorem C97_fresh_object_partial : forall env K r input, good_defs env K -> (forall x, rsafe env (env x)) ->
  rgood env r -> rsafe env r -> rguarded env r -> bytes input -> tame input ->
  exists s view ok s', eventually env r (fun t => init t = s) /\ v_make input = Ok view /\
    eventually env r (fun t => decode t s view = Ok (ok, s')) /\ eventually env r (fun t => obj t s').
Proof.
  intros env K r input G Hsafe R Rs Rg Hb Ht. destruct (C96_construction_ends env K r G R) as (s & Hi & Ho).
  destruct (C97_decode_in_bounds_partial env K r s input G Hsafe R Rs Rg Ho Hb Ht) as (v & ok & s' & H). exists s, v, ok, s'. tauto.
Qed.

(** * C98: encoding and decoding values of recursive types *)
(** encode writes exactly encoded_length() octets, or fails; when the object holds a value, the octets are a BER encoding of it. *)
Theorem C98_encode_exact : forall env K r s, good_defs env K -> rgood env r -> eventually env r (fun t => obj t s) -> weight s < 2^62 ->
  exists p, eventually env r (fun t => encoded_length_of t s = Ok (zlen p)) /\ zlen p <= weight s /\
    (forall v, eventually env r (fun t => rep t s v) -> eventually env r (fun t => ber_of t v p)) /\
    forall buffer, zlen buffer < 2^63 ->
      (zlen p <= zlen buffer -> eventually env r (fun t => encode t s buffer = Ok (EncResult (p ++ zdrop (zlen p) buffer) true (zlen p)))) /\
      (zlen buffer < zlen p -> exists out, eventually env r (fun t => encode t s buffer = Ok (EncResult out false 0)) /\ zlen out = zlen buffer).
Proof.
  intros env K r s G R Ho Hw. pose proof (gd_ends env K G) as W.
  destruct (at_level env r _ (bot env) ((height s + 1) * (K + 2)) Ho) as (m & Hm & Hobj). specialize (Hobj m (le_n _)).
  destruct (encode_good _ (proj1 (good_unfolding env K G m r R)) s Hobj Hw) as (p & Hp & El & Hwr & Hb). exists p.
  assert (T : forall P : ty -> Prop, (forall t t', same_at t t' s -> P t -> P t') -> P (unfolding env (bot env) m r) -> eventually env r P).
  { intros P H. apply (transfer env K r (height s) P m (bot env) W); [|exact Hm]. intros t t' A. apply H, (proj1 agree_below _ _ _ A s (le_n _)). }
  split; [apply T; [|exact El]; intros t t' (_ & E & _) H; congruence|]. split; [apply Hp|]. split.
  - intros v Hr. destruct (at_level env r _ (bot env) (Nat.max m ((Nat.max (height s) (vheight v) + 1) * (K + 2))) Hr) as (m2 & Hm2 & Hrep). specialize (Hrep m2 (le_n _)).
    assert (Rm : rep (unfolding env (bot env) m r) s v).
    { apply (proj1 agree_below (height s) (unfolding env (bot env) m2 r) _); [apply (unfolding_agree env K W); nia|apply le_n|exact Hrep]. }
    destruct (encode_good _ (proj1 (good_unfolding env K G m2 r R)) s (rep_obj _ _ _ Hrep) Hw) as (p2 & _ & El2 & Hwr2 & Hb2).
    assert (p2 = p).
    { assert (zlen p2 = zlen p). { enough (Ok (zlen p2) = Ok (zlen p)) by congruence. rewrite <- El2, <- El. apply (proj1 agree_below (height s)); [apply (unfolding_agree env K W); nia|apply le_n]. }
      pose proof (zlen_nonneg p). assert (Hz : zlen p < 2^63) by lia.
      destruct (Hwr (zrep (zlen p) 0) ltac:(rewrite zlen_zrep; lia)) as (o1 & _ & E1). destruct (Hwr2 (zrep (zlen p) 0) ltac:(rewrite zlen_zrep; lia)) as (o2 & _ & E2).
      rewrite zlen_zrep in E1, E2 by lia. replace (zlen p <=? zlen p) with true in E1 by lia. replace (zlen p2 <=? zlen p) with true in E2 by lia.
      assert (E : encode (unfolding env (bot env) m r) s (zrep (zlen p) 0) = encode (unfolding env (bot env) m2 r) s (zrep (zlen p) 0)).
      { apply (proj1 agree_below (height s)); [apply (unfolding_agree env K W); nia|apply le_n]. }
      rewrite E1, E2 in E. injection E as E. rewrite !zdrop_all, !app_nil_r in E by (rewrite zlen_zrep; lia). auto. }
    subst p2. apply (transfer env K r (vheight v) _ m2 (bot env) W); [|nia|apply Hb2, Hrep]. intros t t' A. apply (proj1 agree_ber _ _ _ A v p (le_n _)).
  - intros buf Hz. destruct (Hwr buf Hz) as (out & Hout & E). split; intros Hle.
    + apply T; [intros t t' (Q & _) H; rewrite <- Q; exact H|]. rewrite E. replace (zlen p <=? zlen buf) with true by lia. reflexivity.
    + exists out. split; [|exact Hout]. apply T; [intros t t' (Q & _) H; rewrite <- Q; exact H|]. rewrite E. replace (zlen p <=? zlen buf) with false by lia. reflexivity.
Qed.
(** Partial for the reason C42 is: good_defs asks for alternatives with different tag numbers. *)
Theorem C98_any_encoding_partial : forall env K r v p s0 rest, good_defs env K -> rgood env r ->
  eventually env r (fun t => ber_of t v p) -> eventually env r (fun t => obj t s0) -> zlen (p ++ rest) < 2^63 ->
  exists view s', v_make (p ++ rest) = Ok view /\
    eventually env r (fun t => decode t s0 view = Ok (true, s')) /\ eventually env r (fun t => rep t s' v).
Proof.
  intros env K r v p s0 rest G R Hb Ho Hz. pose proof (gd_ends env K G) as W.
  destruct (at_level env r _ (bot env) 0 (eventually_and _ _ _ _ Hb Ho)) as (n & _ & HH).
  assert (A : forall m, (n <= m)%nat -> exists view s', v_make (p ++ rest) = Ok view /\ decode (unfolding env (bot env) m r) s0 view = Ok (true, s') /\ rep (unfolding env (bot env) m r) s' v).
  { intros m Hm. destruct (HH m Hm). apply (C42_any_encoding_partial _ v p s0 rest (good_unfolding env K G m r R)); assumption. }
  destruct (A n (le_n _)) as (view & _ & Ev & _). destruct (make_reach _ _ Hz Ev) as [Hs _].
  destruct (A (Nat.max n ((reach view + 2) * (K + 2))) ltac:(lia)) as (view2 & s' & Ev2 & E & _). replace view2 with view in E by congruence. clear view2 Ev2.
  pose proof (decode_transfer env K r s0 view _ _ (bot env) W Hs (Nat.le_max_r _ _) E) as Hd. exists view, s'. split; [exact Ev|]. split; [exact Hd|].
  destruct (at_level env r _ (bot env) (Nat.max n ((height s' + 1) * (K + 2))) Hd) as (m2 & Hm2 & Hdec). specialize (Hdec m2 (le_n _)).
  destruct (A m2 ltac:(lia)) as (view2 & s2 & Ev2 & E2 & Hr2). replace view2 with view in E2 by congruence. rewrite Hdec in E2. injection E2 as <-.
  apply (transfer env K r (height s') _ m2 (bot env) W); [|lia|exact Hr2]. intros t t' Ag. apply (proj1 agree_below _ _ _ Ag s' (le_n _)).
Qed.
Theorem C98_round_trip_partial : forall env K r s v, good_defs env K -> rgood env r -> eventually env r (fun t => rep t s v) -> weight s < 2^62 ->
  exists p, eventually env r (fun t => ber_of t v p) /\ zlen p <= weight s /\
    (forall buffer, zlen buffer < 2^63 -> zlen p <= zlen buffer ->
       eventually env r (fun t => encode t s buffer = Ok (EncResult (p ++ zdrop (zlen p) buffer) true (zlen p)))) /\
    forall s0 rest, eventually env r (fun t => obj t s0) -> zlen (p ++ rest) < 2^63 ->
      exists view s', v_make (p ++ rest) = Ok view /\
        eventually env r (fun t => decode t s0 view = Ok (true, s')) /\ eventually env r (fun t => rep t s' v).
Proof.
  intros env K r s v G R Hr Hw.
  destruct (C98_encode_exact env K r s G R (eventually_mono _ _ _ _ (fun t => rep_obj t s v) Hr) Hw) as (p & _ & Hp & Hb & He).
  exists p. specialize (Hb v Hr). split; [exact Hb|]. split; [exact Hp|]. split; [intros buf Hz Hle; apply He; assumption|].
  intros s0 rest Ho Hz. apply (C98_any_encoding_partial env K r v p s0 rest G R Hb Ho Hz).
Qed.
(** Different values have different encodings. *)
Theorem C98_encodings_distinct : forall env K r v1 v2 p1 p2 rest1 rest2, good_defs env K -> rgood env r ->
  eventually env r (fun t => ber_of t v1 p1) -> eventually env r (fun t => ber_of t v2 p2) ->
  p1 ++ rest1 = p2 ++ rest2 -> zlen (p1 ++ rest1) < 2^63 -> v1 = v2.
Proof.
  intros env K r v1 v2 p1 p2 rest1 rest2 G R H1 H2 E Hz.
  destruct (at_level env r _ (bot env) 0 (eventually_and _ _ _ _ H1 H2)) as (n & _ & H). specialize (H n (le_n _)).
  destruct (good_unfolding env K G n r R) as (A & B & C & _). eapply ber_of_unique; [exact A|exact B|exact C|apply H|apply H|exact E|exact Hz].
Qed.

(** ** Examples *)
(** A ::= SEQUENCE { v INTEGER, b B OPTIONAL }   B ::= CHOICE { x [0] BOOLEAN, y [1] A } *)
Definition ab : defs := fun x => match x with
  | O => RSeq (Id universal 16) (RCons Mand [(universal, 2)] (RLeaf (KSmall 8 [0]) (Id universal 2))
                                (RCons Opt [(context_specific, 0); (context_specific, 1)] (RName None 1) RNil))
  | _ => RChoice CGen None (RCons Mand [(context_specific, 0)] (RLeaf KBool (Id context_specific 0))
                           (RCons Mand [(context_specific, 1)] (RName (Some (Id context_specific 1)) 0) RNil))
  end.
(** T ::= CHOICE { leaf [0] INTEGER, node [1] SEQUENCE OF T } *)
Definition tree : defs := fun _ =>
  RChoice CGen None (RCons Mand [(context_specific, 0)] (RLeaf (KSmall 8 [0]) (Id context_specific 0))
                    (RCons Mand [(context_specific, 1)] (RSeqOf (Id context_specific 1) (RName None 0)) RNil)).
(** L ::= SEQUENCE { v INTEGER, next [1] L OPTIONAL } *)
Definition linked : defs := fun _ =>
  RSeq (Id universal 16) (RCons Mand [(universal, 2)] (RLeaf (KSmall 8 [0]) (Id universal 2))
                         (RCons Opt [(context_specific, 1)] (RName (Some (Id context_specific 1)) 0) RNil)).
Ltac rec_check := cbn -[Z.pow]; repeat match goal with
  | |- _ /\ _ => split
  | |- True => exact I
  | |- NoDup _ => constructor; [intros X; cbn in X; intuition discriminate|]
  | |- NoDup [] => constructor
  | |- _ \/ _ -> _ => let X := fresh in intros X; repeat (destruct X as [X|X]; [injection X as <- <-|]); [..|contradiction]
  | |- Mand = Mand \/ _ => left; reflexivity
  | |- Opt = Mand \/ _ => right
  | |- forall c t, _ => intros ? ?
  | |- wf_ident _ => unfold wf_ident; cbn -[Z.pow]
  | |- small_ok _ _ => unfold small_ok; cbn
  | |- bytes _ => unfold bytes
  | |- wf_byte _ => unfold wf_byte
  | |- @eq (list (class * Z)) _ _ => reflexivity
  | |- ?x = ?x => reflexivity
  | |- Forall _ _ => constructor
  | |- disjoint _ _ => intros ? ?; cbn in *; intuition (subst; discriminate)
  | |- CGen = CLib \/ _ => right; intros ? ? ?; cbn; intuition congruence
  | |- _ <> _ => discriminate
  end; cbn -[Z.pow]; try lia.
Example ab_good : good_defs ab 1 /\ (forall x, rsafe ab (ab x)) /\ rgood ab (RName None 0) /\ rsafe ab (RName None 0) /\ rguarded ab (RName None 0).
Proof.
  split; [|split; [intros [|x]; rec_check; discriminate|split; [exact I|split; [exact I|exact I]]]]. constructor.
  - split.
    + exists (fun x => match x with O => 0%nat | _ => 1%nat end). intros [|x]; cbn; (split; [lia|]); intros y H; intuition subst; lia.
    + exists (fun _ => 0%nat). intros [|x]; cbn; (split; [lia|]); tauto.
  - intros [|x]; exact I.
  - intros [|x]; rec_check.
Qed.
Example tree_good : good_defs tree 0 /\ (forall x, rsafe tree (tree x)) /\ rgood tree (RName None 0) /\ rsafe tree (RName None 0).
Proof.
  split; [|split; [intros x; rec_check; discriminate|split; exact I]]. constructor.
  - split; exists (fun _ => 0%nat); intros x; cbn; (split; [lia|]); tauto.
  - intros x; exact I.
  - intros x; rec_check.
Qed.
Lemma linked_good : good_defs linked 0 /\ (forall x, rsafe linked (linked x)) /\ rgood linked (RName None 0) /\ rsafe linked (RName None 0) /\ rguarded linked (RName None 0).
Proof.
  split; [|split; [intros x; rec_check; discriminate|split; [exact I|split; exact I]]]. constructor.
  - split; exists (fun _ => 0%nat); intros x; cbn; (split; [lia|]); tauto.
  - intros x; exact I.
  - intros x; rec_check.
Qed.
(** A { v 5, b y: { v 6, b x: TRUE } } *)
Definition ab_state : st := SRec [Some (ex_int_state (Id universal 2) 5);
  Some (SAlt 1 (SRec [Some (ex_int_state (Id universal 2) 6); Some (SAlt 0 (SLeaf (LData [0x80; 1; 0xFF])))]))].
Definition ab_octets : list Z := [0x30; 11; 2; 1; 5; 0xA1; 6; 2; 1; 6; 0x80; 1; 0xFF].
Example C96_example : exists view, v_make ab_octets = Ok view /\
  eventually ab (RName None 0) (fun t => decode t (init t) view = Ok (true, ab_state)) /\
  eventually ab (RName None 0) (fun t => encode t ab_state (zrep 13 0) = Ok (EncResult ab_octets true 13)).
Proof.
  pose proof (gd_ends _ _ (proj1 ab_good)) as W. eexists. split; [vm_compute; reflexivity|]. split.
  - destruct (C96_construction_ends ab 1 (RName None 0) (proj1 ab_good) I) as (s & [n Hi] & _).
    assert (Es : s = init (unfolding ab (bot ab) 3 (RName None 0))).
    { rewrite <- (Hi (Nat.max n 3) (bot ab) (Nat.le_max_l _ _)). apply (agree_init 0). apply (unfolding_agree ab 1 W); lia. }
    assert (D : eventually ab (RName None 0) (fun t => decode t s (View (Some ab_octets) 16 2 11) = Ok (true, ab_state))).
    { apply (decode_transfer ab 1 _ _ _ _ 60 (bot ab) W); [vm_compute; intuition congruence|cbn; lia|]. rewrite Es. vm_compute. reflexivity. }
    destruct D as [n2 D]. exists (Nat.max n n2). intros m b Hm. rewrite (Hi m b) by lia. apply D. lia.
  - eapply (transfer ab 1 _ (height ab_state) _ 60 (bot ab) W); [|vm_compute; lia|vm_compute; reflexivity].
    intros t t' A E. rewrite <- E. symmetry. apply (proj1 agree_below _ _ _ A ab_state (le_n _)).
Qed.
Example C97_example : good_defs ab 1 /\ (forall x, rsafe ab (ab x)) /\ rgood ab (RName None 0) /\ rsafe ab (RName None 0) /\ rguarded ab (RName None 0) /\
  bytes ab_octets /\ tame ab_octets.
Proof.
  destruct ab_good as (A & B & C & D & E). repeat (split; [assumption|]). split; [repeat (constructor; [unfold wf_byte; lia|]); constructor|].
  apply tame_check_sound. vm_compute. reflexivity.
Qed.

(** ** How deep the calls go *)
(** L { v 5, next { v 5, next { ... } } }, n times. *)
Fixpoint chain (n : nat) : st := SRec [Some (ex_int_state (Id universal 2) 5); match n with O => None | S n => Some (chain n) end].
Fixpoint vchain (n : nat) : val := VRec [Some (VPrim [5]); match n with O => None | S n => Some (vchain n) end].
Lemma chain_rep n : forall m b, (n < m)%nat -> forall o, rep (retag o (level linked b m 0)) (chain n) (vchain n).
Proof.
  induction n as [|n IH]; intros [|m] b Hm o; try lia; destruct o as [o|]; cbn [level linked subst subst_comps retag chain vchain rep rep_comps].
  - split; [int_rep|]. split; [discriminate|exact I].
  - split; [int_rep|]. split; [discriminate|exact I].
  - split; [int_rep|]. split; [exact (IH m b ltac:(lia) (Some (Id context_specific 1)))|exact I].
  - split; [int_rep|]. split; [exact (IH m b ltac:(lia) (Some (Id context_specific 1)))|exact I].
Qed.
Lemma chain_weight n : weight (chain n) = 138 + Z.of_nat n * 138.
Proof.
  induction n as [|n IH]; [vm_compute; reflexivity|]. cbn [chain weight map]. unfold sumz at 1. cbn [fold_right]. rewrite IH.
  change (weight (ex_int_state (Id universal 2) 5)) with 74. lia.
Qed.
Lemma vchain_height n : forall t s, rep t s (vchain n) -> (n < height s)%nat.
Proof.
  induction n as [|n IH]; intros t s H.
  - destruct s; cbn; lia.
  - destruct t as [k i|i t|i cs|i ext cs|g o cs], s as [l|l|l|j s]; cbn [vchain rep] in H; try contradiction;
    (destruct cs as [|k1 i1 t1 [|k2 i2 t2 cs]], l as [|m1 [|m2 l]]; cbn [rep_comps] in H; try contradiction; try tauto;
     destruct m2 as [s2|]; [|tauto]; destruct H as (_ & H & _); apply IH in H; cbn [height map list_max fold_right]; cbn; lia).
Qed.
(** Nothing limits the depth: at most 138 octets of input make the decoder of a recursive type call itself once more, from inside
    itself.  (The C++ stack is not modelled; where it is too small for the message, the program crashes.) *)
Theorem C97_nesting_refuted : forall depth, Z.of_nat depth < 2^50 ->
  exists input view s', zlen input <= 138 * (Z.of_nat depth + 1) /\ v_make input = Ok view /\
    eventually linked (RName None 0) (fun t => exists s, obj t s /\ decode t s view = Ok (true, s')) /\ (depth < height s')%nat.
Proof.
  intros n Hn. destruct linked_good as (G & _ & R & _).
  assert (Hr : eventually linked (RName None 0) (fun t => rep t (chain n) (vchain n))).
  { exists (S n). intros m b Hm. unfold unfolding. cbn [subst]. apply chain_rep. lia. }
  assert (Hw : weight (chain n) < 2^62) by (rewrite chain_weight; lia).
  destruct (C98_round_trip_partial linked 0 _ _ _ G R Hr Hw) as (p & _ & Hp & _ & Hd). rewrite chain_weight in Hp, Hw.
  destruct (C96_construction_ends linked 0 _ G R) as (s0 & _ & Ho).
  destruct (Hd s0 [] Ho ltac:(rewrite app_nil_r; lia)) as (view & s' & Ev & Hdec & Hrep). rewrite app_nil_r in Ev.
  exists p, view, s'. split; [lia|]. split; [exact Ev|]. split.
  - eapply eventually_mono; [|exact (eventually_and _ _ _ _ Ho Hdec)]. cbn. intros t [H1 H2]. exists s0. auto.
  - destruct Hrep as [k Hrep]. specialize (Hrep k (bot linked) (le_n _)). apply vchain_height in Hrep. exact Hrep.
Qed.

(** ** Definitions that are never finished *)
(** A ::= CHOICE { a A }: decoding goes on for ever, so that no depth settles the result. *)
Definition endless : defs := fun _ => RChoice CGen None (RCons Mand [(universal, 2)] (RName None 0) RNil).
Theorem C96_endless_definitions_have_no_result : forall s view, v_make [2; 1; 5] = Ok view ->
  ~ exists out, eventually endless (RName None 0) (fun t => decode t (SAlt 0 s) view = out).
Proof.
  intros s view Ev (out & n & H).
  assert (A : forall b ok x, decode (b 0%nat) (init (b 0%nat)) view = Ok (ok, x) -> forall m, exists y, decode (level endless b m 0) (init (level endless b m 0)) view = Ok (ok, y)).
  { clear H n. intros b ok x Hb. induction m as [|m (y & IH)]; [eauto|]. assert (E : view = View (Some [2; 1; 5]) 2 2 1) by (vm_compute in Ev; congruence). subst view.
    cbn -[level]. change (level endless b (S m) 0) with (TChoice CGen None (CCons Mand [(universal, 2)] (level endless b m 0) CNil)). cbn -[level decode]. cbn [decode].
    cbn -[level decode]. rewrite IH. cbn [bind]. eauto. }
  assert (B : forall b ok x m, decode (b 0%nat) (init (b 0%nat)) view = Ok (ok, x) -> exists y, decode (unfolding endless b (S m) (RName None 0)) (SAlt 0 s) view = Ok (ok, y)).
  { intros b ok x m Hb. destruct (A b ok x Hb m) as [y IH]. assert (E : view = View (Some [2; 1; 5]) 2 2 1) by (vm_compute in Ev; congruence). subst view.
    change (unfolding endless b (S m) (RName None 0)) with (TChoice CGen None (CCons Mand [(universal, 2)] (level endless b m 0) CNil)). cbn [decode].
    cbn -[level decode]. rewrite IH. cbn [bind]. eauto. }
  assert (E : view = View (Some [2; 1; 5]) 2 2 1) by (vm_compute in Ev; congruence).
  destruct (B (fun _ => ex_int (Id universal 2)) true (ex_int_state (Id universal 2) 5) n ltac:(subst view; vm_compute; reflexivity)) as [y1 E1].
  destruct (B (fun _ => TLeaf KNull (Id universal 5)) false (SLeaf LNull) n ltac:(subst view; vm_compute; reflexivity)) as [y2 E2].
  rewrite H in E1 by lia. rewrite H in E2 by lia. congruence.
Qed.
