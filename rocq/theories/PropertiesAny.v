(** C130: values of type ANY. *)
From Coq Require Import List ZArith Bool Lia.
From Verif Require Import Base Ident Spec IdentProofs HeaderProofs View ViewProofs Prims PrimProofs ContProofs Schema SchemaSpec SchemaProofs SchemaDecode SchemaRound SchemaMore DecodeSpec DecodeExact PropertiesSchema PropertiesDecode AnyType.
Import ListNotations.
Local Open Scope Z_scope.

(** ** Specification *)
(** Which values of which universal types an ANY holds: the number of the alternative that holds them after decoding, the tag of the type,
    the contents. *)
Inductive any_holds : nat -> Z -> list Z -> Prop :=
| ah_bits x : any_holds 0 3 x
| ah_boolean b : any_holds 1 1 [b]
| ah_character x : any_holds 2 29 x
| ah_generalized x : 10 <= zlen x <= 23 -> any_holds 3 24 x
| ah_integer x : zlen x <= 8 -> any_holds 7 2 x
| ah_null : any_holds 8 5 []
| ah_oid x : any_holds 9 6 x
| ah_octets x : any_holds 10 4 x
| ah_real x : zlen x <= 100 -> any_holds 11 9 x
| ah_utc x : 10 <= zlen x <= 23 -> any_holds 12 23 x
| ah_visible x : any_holds 15 26 x.
(** The alternative that comes back for the one that was encoded: the times share tags. *)
Definition first_alike (n : nat) : nat := match n with 4 | 5 | 6 => 3 | 13 | 14 => 12 | n => n end%nat.

(** ** Proofs *)
Lemma any_wf : wf_ty any.
Proof. unfold any. cbn. repeat (split; try discriminate; try (repeat constructor; lia)). Qed.
Lemma leaf_packet k t l p con x rest : wf_ty (TLeaf k (Id universal t)) -> leaf_inv k (Id universal t) l -> bytes x -> ber_packet p universal con t x -> zlen (p ++ rest) < 2^63 ->
  exists ok l', leaf_decode k (Id universal t) l (pview p t x rest) = Ok (ok, l') /\ (ok = true <-> con = primitive /\ content_ok k x) /\ (ok = true -> leaf_rep k (Id universal t) l' x).
Proof.
  intros [Hi Hk] Hl Hx HP Hz. pose proof (pview_make _ _ _ _ _ rest 0 HP Hz) as Ev. destruct con.
  2:{ assert (Hh : has_correct_header (pview p t x rest) (Id universal t) primitive = Ok false).
      { unfold has_correct_header. destruct (is_valid (pview p t x rest)); [|reflexivity]. destruct (pview_byte0 _ _ _ _ _ rest HP) as (-> & ->). cbn [negb bind construction_eqb]. rewrite andb_false_r. reflexivity. }
      destruct k as [| |max x0|x0|]; destruct l as [d|f|]; cbn [leaf_inv] in Hl; try tauto; cbn [leaf_decode];
        unfold bool_decode, null_decode, small_decode, time_decode, fixed_decode; rewrite ?Hh; cbn [bind negb].
      all: try solve [eexists false, _; split; [reflexivity|]; split; [split; [discriminate|intros [[=] _]]|discriminate]].
      - eexists false, (LData d). split; [|split; [split; [discriminate|intros [[=] _]]|discriminate]]. destruct (is_valid (pview p t x rest)); [|reflexivity]. cbn [negb]. unfold view_has_id, v_identifier.
        destruct (pview_byte0 _ _ _ _ _ rest HP) as (-> & ->). cbn [bind construction_eqb]. rewrite andb_false_r. reflexivity.
      - eexists false, (LFixed f). split; [destruct (_ || _); reflexivity|]. split; [split; [discriminate|intros [[=] _]]|discriminate]. }
  assert (HI : id_packet (Id universal t) primitive p x []) by (split; [exact HP|reflexivity]).
  destruct k as [| |max x0|x0|]; destruct l as [d|f|]; cbn [leaf_inv] in Hl; try tauto; cbn [leaf_decode]; unfold content_ok, leaf_rep.
  - destruct Hl as (b & Hr). destruct (bool_decode_packet _ d b p x [] rest HI Hz Hr) as (v & E & H1 & H2). assert (v = pview p t x rest) by (unfold v_make in E; congruence). subst v.
    destruct (Z.eq_dec (zlen x) 1) as [Hn|Hn]; [|rewrite (H2 Hn); eexists false, _; split; [reflexivity|]; split; [split; [discriminate|tauto]|discriminate]].
    destruct (zlen_1_inv _ Hn) as (c & ->). destruct (H1 c eq_refl) as (d' & -> & Hd). eexists true, _. split; [reflexivity|]. split; [tauto|]. intros _. split; [split; [exact Hx|reflexivity]|exact Hd].
  - destruct (null_decode_packet _ p x [] rest HI Hz) as (v & E & En). assert (v = pview p t x rest) by (unfold v_make in E; congruence). subst v. rewrite En. eexists _, _. split; [reflexivity|].
    destruct x as [|b x]; [cbn; split; [tauto|intros _; repeat split; constructor]|]. rewrite zlen_cons. pose proof (zlen_nonneg x). replace (_ =? 0) with false by lia. split; [split; [discriminate|intros (_ & _ & [=])]|discriminate].
  - destruct Hl as (y & Hr), Hk as (Hok & _). destruct (Z_le_gt_dec (zlen x) max) as [Hn|Hn].
    + destruct (small_decode_packet _ max d y p x [] rest Hok Hr HI Hz Hn) as (v & d' & E & Ed & Hd). assert (v = pview p t x rest) by (unfold v_make in E; congruence). subst v. rewrite Ed. eexists true, _. split; [reflexivity|]. split; [tauto|]. intros _. split; [split; [exact Hx|exact Hn]|exact Hd].
    + pose proof (small_decode_refines _ max d y (pview p t x rest) Hok Hr) as Href. rewrite (small_decode_content_packet _ max p x [] rest _ HI Hz Ev) in Href. replace (zlen x <=? max) with false in Href by lia.
      eexists false, _. split; [rewrite Href; reflexivity|]. split; [split; [discriminate|lia]|discriminate].
  - destruct (fixed_decode_packet _ f p x [] rest HI Hz) as (v & E & Ef). assert (v = pview p t x rest) by (unfold v_make in E; congruence). subst v. rewrite Ef. eexists true, _. split; [reflexivity|]. split; [tauto|]. intros _. split; [split; [exact Hx|exact I]|]. split; [exact HI|reflexivity].
  - unfold time_decode. destruct (fixed_decode_packet _ f p x [] rest HI Hz) as (v & E & Ef). assert (v = pview p t x rest) by (unfold v_make in E; congruence). subst v. rewrite Ef. cbn [bind f_len]. eexists _, _. split; [reflexivity|].
    destruct (_ || _) eqn:B; [split; [split; [discriminate|lia]|discriminate]|]. split; [split; [intros _; split; [reflexivity|]; split; [exact Hx|lia]|auto]|]. intros _. split; [split; [exact Hx|lia]|]. split; [exact HI|reflexivity].
Qed.
Lemma any_selected n k t : nth_error any_types n = Some (k, t) -> find_label (alternatives any_types) universal t = Some (first_alike n) /\ nth_error any_types (first_alike n) = Some (k, t).
Proof. intros E. do 16 (destruct n as [|n]; [injection E as <- <-; split; reflexivity|]). destruct n; discriminate E. Qed.
Lemma any_unselected c t : (c = universal -> forall n k, nth_error any_types n <> Some (k, t)) -> find_label (alternatives any_types) c t = None.
Proof.
  intros H. generalize dependent any_types. induction l as [|(k, u) l IH]; intros H; [reflexivity|]. cbn [alternatives find_label has_id existsb]. rewrite IH by (intros C n k' E; apply (H C (S n) k' E)). unfold id_eqb. cbn [fst snd].
  destruct (class_eqb c universal) eqn:C; [|reflexivity]. apply class_eqb_eq in C. subst c. destruct (t =? u) eqn:E; [|reflexivity]. apply Z.eqb_eq in E. subst u. destruct (H eq_refl 0%nat k eq_refl).
Qed.
Lemma decode_alternatives l n k t j v : nth_error l n = Some (k, t) -> decode_alt (alternatives l) n j v = let* (ok, s) := decode (TLeaf k (Id universal t)) (init (TLeaf k (Id universal t))) v in Ok (ok, SAlt j s).
Proof. revert n. induction l as [|(k', t') l IH]; intros [|n] E; try discriminate; [injection E as -> ->; reflexivity|apply (IH n E)]. Qed.
Lemma rep_alternatives l n k t s v : nth_error l n = Some (k, t) -> (rep_alt (alternatives l) n s v <-> rep (TLeaf k (Id universal t)) s v).
Proof. revert n. induction l as [|(k', t') l IH]; intros [|n] E; try discriminate; [injection E as -> ->; reflexivity|apply (IH n E)]. Qed.
Lemma wf_alternatives l n k t : wf_comps (alternatives l) -> nth_error l n = Some (k, t) -> wf_ty (TLeaf k (Id universal t)).
Proof. revert n. induction l as [|(k', t') l IH]; intros [|n] W E; try discriminate; destruct W as (W & Ws); [injection E as -> ->; exact W|apply (IH n Ws E)]. Qed.
Lemma ber_alternatives l n k t v p : nth_error l n = Some (k, t) -> (ber_alt (alternatives l) n v p <-> ber_of (TLeaf k (Id universal t)) v p).
Proof. revert n. induction l as [|(k', t') l IH]; intros [|n] E; try discriminate; [injection E as -> ->; reflexivity|apply (IH n E)]. Qed.
Lemma any_holds_iff n t x : bytes x -> (any_holds n t x <-> exists k, nth_error any_types n = Some (k, t) /\ first_alike n = n /\ content_ok k x).
Proof.
  intros Hx. split.
  - intros H. destruct H; eexists; (split; [reflexivity|]); (split; [reflexivity|]); split; auto.
  - intros (k & E & F & _ & C). destruct n as [|[|[|[|[|[|[|[|[|[|[|[|[|[|[|[|n]]]]]]]]]]]]]]]]; try discriminate F; [..|destruct n; discriminate E]; injection E as <- <-; cbn in C; try (constructor; assumption).
    + destruct (zlen_1_inv _ C) as (b & ->). constructor.
    + subst x. constructor.
Qed.
Lemma any_decode s p c con t x rest : obj any s -> ber_packet p c con t x -> bytes x -> zlen (p ++ rest) < 2^63 ->
  exists ok s', decode any s (pview p t x rest) = Ok (ok, s') /\
    (ok = true <-> c = universal /\ con = primitive /\ exists n, any_holds n t x) /\ (forall n, ok = true -> any_holds n t x -> rep any s' (VAlt n (VPrim x))).
Proof.
  intros Ho HP Hx Hz. destruct s as [| | |m s]; try destruct Ho. unfold any. cbn [decode]. assert (V : is_valid (pview p t x rest) = true) by reflexivity. rewrite V. cbn [bind]. destruct (pview_byte0 _ _ _ _ _ rest HP) as (-> & _). cbn [bind select]. change (v_tag (pview p t x rest)) with t.
  assert (D : (c = universal /\ exists n k, nth_error any_types n = Some (k, t)) \/ (c = universal -> forall n k, nth_error any_types n <> Some (k, t))).
  { destruct (class_eqb c universal) eqn:C; [apply class_eqb_eq in C|right; intros ->; rewrite class_eqb_refl in C; discriminate]. destruct (in_dec Z.eq_dec t (map snd any_types)) as [I|I].
    - left. split; [exact C|]. apply in_map_iff in I as ((k & u) & <- & I). apply In_nth_error in I as (n & I). eauto.
    - right. intros _ n k E. apply I. apply nth_error_In in E. apply (in_map snd) in E. exact E. }
  destruct D as [(-> & n & k & E)|D].
  - destruct (any_selected _ _ _ E) as (-> & E'). rewrite (decode_alternatives _ _ _ _ _ _ E'). pose proof (wf_alternatives any_types _ _ _ (proj2 (proj2 any_wf)) E') as W.
    destruct (leaf_packet k t (leaf_init k (Id universal t)) p con x rest W (leaf_rep_inv _ _ _ _ (leaf_init_rep _ _ W)) Hx HP Hz) as (ok & l & El & A & R). cbn [decode init]. rewrite El. cbn [bind]. exists ok, (SAlt (first_alike n) (SLeaf l)). split; [reflexivity|].
    assert (U : forall j, any_holds j t x -> j = first_alike n).
    { intros j J. apply any_holds_iff in J as (k2 & E2 & F & _); [|exact Hx]. destruct (any_selected _ _ _ E2) as (L2 & _). destruct (any_selected _ _ _ E) as (L & _). congruence. }
    assert (FF : first_alike (first_alike n) = first_alike n) by (do 16 (destruct n as [|n]; [reflexivity|]); reflexivity). split.
    + rewrite A. split; [intros (-> & C); split; [reflexivity|]; split; [reflexivity|]; exists (first_alike n); apply any_holds_iff; eauto|]. intros (_ & -> & j & J). split; [reflexivity|]. pose proof (U j J). subst j. apply any_holds_iff in J as (k2 & E2 & _ & C); [|exact Hx]. congruence.
    + intros j K J. rewrite (U j J). split; [reflexivity|]. rewrite (rep_alternatives _ _ _ _ _ _ E'). exact (R K).
  - rewrite (any_unselected c t D). cbn [bind]. eexists false, _. split; [reflexivity|]. split; [split; [discriminate|]|discriminate]. intros (-> & _ & n & J). apply any_holds_iff in J as (k & E & _); [|exact Hx]. destruct (D eq_refl n k E).
Qed.

(** ** C130 *)
(** A packet is accepted if and only if it is the primitive encoding of one of eleven universal types, of a length the type has; the object then holds its contents, as the
    alternative of [any_holds]. *)
Theorem C130_accepts : forall s p c con t x rest, obj any s -> ber_packet p c con t x -> bytes x -> zlen (p ++ rest) < 2^63 ->
  exists view ok s', v_make (p ++ rest) = Ok view /\ decode any s view = Ok (ok, s') /\
    (ok = true <-> c = universal /\ con = primitive /\ exists n, any_holds n t x) /\ (forall n, ok = true -> any_holds n t x -> rep any s' (VAlt n (VPrim x))).
Proof.
  intros s p c con t x rest Ho HP Hx Hz. destruct (any_decode s p c con t x rest Ho HP Hx Hz) as (ok & s' & E). exists (pview p t x rest), ok, s'. split; [exact (pview_make _ _ _ _ _ rest 0 HP Hz)|exact E].
Qed.
(** Input that does not begin with a packet is refused, and the object keeps its value. *)
Theorem C130_invalid : forall s v, obj any s -> is_valid v = false -> decode any s v = Ok (false, s).
Proof. intros s v Ho V. destruct s as [| | |n s]; try destruct Ho. unfold any. cbn [decode]. rewrite V. reflexivity. Qed.
(** What was decoded is encoded again as a packet with the same identifier and the same contents. *)
Theorem C130_relay : forall s p c con t x rest s' , obj any s -> ber_packet p c con t x -> bytes x -> zlen (p ++ rest) < 2^63 -> decode any s (pview p t x rest) = Ok (true, s') -> weight s' < 2^62 ->
  exists q, ber_packet q c con t x /\ encoded_length_of any s' = Ok (zlen q) /\ forall buffer, zlen buffer < 2^63 -> zlen q <= zlen buffer -> encode any s' buffer = Ok (EncResult (q ++ zdrop (zlen q) buffer) true (zlen q)).
Proof.
  intros s p c con t x rest s' Ho HP Hx Hz E W. destruct (any_decode s p c con t x rest Ho HP Hx Hz) as (ok & s2 & E2 & A & R). rewrite E in E2. injection E2 as <- <-. destruct (proj1 A eq_refl) as (-> & -> & n & J). specialize (R n eq_refl J).
  destruct (encode_good any any_wf s' (rep_obj _ _ _ R) W) as (q & _ & El & Hwr & Hb). exists q. apply any_holds_iff in J as (k & J & _); [|exact Hx]. specialize (Hb _ R). unfold any in Hb. cbn [ber_of] in Hb. rewrite (ber_alternatives _ _ _ _ _ _ J) in Hb. destruct Hb as (_ & B & _).
  split; [exact B|]. split; [exact El|]. intros buf Hb Hle. destruct (Hwr buf Hb) as (out & _ & ->). replace (zlen q <=? zlen buf) with true by lia. reflexivity.
Qed.
(** An ANY that holds a value of alternative n is encoded as a packet of its type, and decoded from it with the same contents; but the four kinds of time with tag 24, and the three with tag 23,
    come back as the first of them. *)
Theorem C130_round_trip : forall s n x, rep any s (VAlt n (VPrim x)) -> weight s < 2^62 ->
  exists p, (forall buffer, zlen buffer < 2^63 -> zlen p <= zlen buffer -> encode any s buffer = Ok (EncResult (p ++ zdrop (zlen p) buffer) true (zlen p))) /\
    forall s0 rest, obj any s0 -> zlen (p ++ rest) < 2^63 -> exists view s', v_make (p ++ rest) = Ok view /\ decode any s0 view = Ok (true, s') /\ rep any s' (VAlt (first_alike n) (VPrim x)).
Proof.
  intros s n x R W. destruct (C41_encode_is_ber any s _ any_wf R W) as (p & B & He). exists p. split; [exact He|]. intros s0 rest Ho Hz.
  assert (exists k t, nth_error any_types n = Some (k, t)) as (k & t & E).
  { destruct (nth_error any_types n) as [(k, t)|] eqn:E; [eauto|]. exfalso. unfold any in B. cbn [ber_of] in B. revert E B. generalize any_types. clear. intros l. revert n. induction l as [|(k, t) l IH]; intros [|n] E B; try discriminate; try destruct B. exact (IH n E B). }
  unfold any in B. cbn [ber_of] in B. rewrite (ber_alternatives _ _ _ _ _ _ E) in B. destruct B as (C & HP & _). destruct (any_selected _ _ _ E) as (_ & E').
  assert (J : any_holds (first_alike n) t x).
  { apply any_holds_iff; [apply C|]. exists k. split; [exact E'|]. split; [|exact C]. clear. do 16 (destruct n as [|n]; [reflexivity|]); reflexivity. }
  destruct (C130_accepts s0 p universal primitive t x rest Ho HP (proj1 C) Hz) as (view & ok & s' & Ev & Ed & A & Hr). exists view, s'. assert (ok = true) by (apply A; eauto). subst ok. split; [exact Ev|]. split; [exact Ed|]. apply Hr; auto.
Qed.

(** For example 7 as INTEGER, with a length in two octets and something behind it. *)
Example C130_example : ber_packet [2; 0x81; 1; 7] universal primitive 2 [7] /\ any_holds 7 2 [7] /\ obj any (init any) /\
  (let* w := v_make [2; 0x81; 1; 7; 9] in let* (ok, s) := decode any (init any) w in let* r := encode any s (zrep 4 0) in Ok (ok, r)) = Ok (true, EncResult [2; 1; 7; 0] true 3).
Proof.
  split; [exists [2], [0x81; 1]; split; [apply (x690_low universal primitive 2); lia|]; split; [lia|]; split; [apply (x690_long [1]); [bytes_lit|cbn; lia]|]; split; [cbn; lia|reflexivity]|]. split; [constructor; cbn; lia|]. split; [apply init_obj, any_wf|vm_compute; reflexivity].
Qed.

(** *** Not any value *)
(** A SEQUENCE, an item of an ENUMERATED, a UTF8String, a value with a tag, and a string encoded in pieces (X.690 8.7) are refused. *)
Theorem C130_any_value_refuted : Forall (fun p => exists c con t x s, ber_packet p c con t x /\ (let* w := v_make p in decode any (init any) w) = Ok (false, s))
  [[0x30; 0]; [10; 1; 0]; [12; 1; 65]; [0x80; 1; 5]; [0x24; 3; 4; 1; 65]].
Proof.
  repeat (apply Forall_cons; [|]); try apply Forall_nil.
  - exists universal, constructed, 16, []. eexists. split; [apply short_pkt; reflexivity|vm_compute; reflexivity].
  - exists universal, primitive, 10, [0]. eexists. split; [apply short_pkt; reflexivity|vm_compute; reflexivity].
  - exists universal, primitive, 12, [65]. eexists. split; [apply short_pkt; reflexivity|vm_compute; reflexivity].
  - exists context_specific, primitive, 0, [5]. eexists. split; [apply short_pkt; reflexivity|vm_compute; reflexivity].
  - exists universal, constructed, 4, [4; 1; 65]. eexists. split; [apply short_pkt; reflexivity|vm_compute; reflexivity].
Qed.
(** The alternative is not kept: a GeneralizedTime (alternative 6) comes back as a Date (alternative 3). *)
Theorem C130_alternative_refuted : exists s p w s', obj any (SAlt 6 s) /\ encode any (SAlt 6 s) (zrep 17 0) = Ok (EncResult p true 17) /\ v_make p = Ok w /\ decode any (init any) w = Ok (true, SAlt 3 s').
Proof. exists (SLeaf (leaf_init KTime (Id universal 24))). eexists _, _, _. split; [exact I|]. split; [vm_compute; reflexivity|]. split; [vm_compute; reflexivity|]. vm_compute. reflexivity. Qed.
