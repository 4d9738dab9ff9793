(** Property theorems C118-C120: printing and comparing objects of generated types. *)
From Coq Require Import String Ascii.
From Verif Require Import Base Ident View Prims Schema Oid Time Spec SchemaSpec ContProofs Print PrintSpec PrintJson ValueSpec EqualProofs PrintProofs RealValueProofs ValuePrintProofs.
From Verif Require RealModel RealDecimal DecimalSpec RealDecimalProofs PropertiesReal PrimProofs.
From Verif Require Import HeaderProofs PrimProofs.
From Verif Require Import PropertiesSchema PropertiesPrint.
Close Scope string_scope.

(** ** Example *)
(** [ex_seq] of PropertiesSchema.v with names and a default: SEQUENCE { a INTEGER, b BOOLEAN OPTIONAL, c [1] INTEGER DEFAULT 1,
    d CHOICE { x OCTET STRING, y [7] NULL }, e SET { f SEQUENCE OF INTEGER, g [0] INTEGER OPTIONAL } }. *)
Definition nm (s : string) : list Z := lit s.
Definition ex_named : nty := NSeq (Id universal 16)
  (FCons (nm "a") FMand [(universal, 2)] (NLeaf PInt (Id universal 2))
  (FCons (nm "b") FOpt [(universal, 1)] (NLeaf PBool (Id universal 1))
  (FCons (nm "c") (FDef (ex_int_state (DoubleId context_specific 1 universal 2) 1)) [(context_specific, 1)] (NLeaf PInt (DoubleId context_specific 1 universal 2))
  (FCons (nm "d") FMand [(universal, 4); (context_specific, 7)] (NChoice CGen None
    (FCons (nm "x") FMand [(universal, 4)] (NLeaf PText (Id universal 4))
    (FCons (nm "y") FMand [(context_specific, 7)] (NLeaf PNull (Id context_specific 7)) FNil)))
  (FCons (nm "e") FMand [(universal, 17)] (NSet (Id universal 17) false
    (FCons (nm "f") FMand [(universal, 16)] (NList (Id universal 16) (NLeaf PInt (Id universal 2)))
    (FCons (nm "g") FOpt [(context_specific, 0)] (NLeaf PInt (Id context_specific 0)) FNil))) FNil))))).
Lemma ex_named_erase : erase ex_named = ex_seq. Proof. reflexivity. Qed.
Definition ex_meaning : meaning := MRec [Some (MInt 5); None; Some (MInt 1); Some (MAlt 1 MNull);
  Some (MRec [Some (MList [MInt 1; MInt 2]); None])].
Ltac means_check := cbn [ex_named ex_val ex_meaning means fields_mean alt_means leaf_means]; repeat lazymatch goal with
  | |- _ /\ _ => split | |- True => exact I | |- Forall2 _ (_ :: _) _ => apply Forall2_cons | |- Forall2 _ _ _ => apply Forall2_nil
  | |- means _ _ _ => cbn [means leaf_means] | |- _ = _ => reflexivity | |- _ <= _ => vm_compute; discriminate end.
Lemma ex_means : means ex_named ex_val ex_meaning.
Proof. means_check. Qed.
(** The same value with c left to its default. *)
Definition ex_state2 : st := SRec
  [Some (ex_int_state (Id universal 2) 5); None; None; Some (SAlt 1 (SLeaf LNull));
   Some (SRec [Some (SList [ex_int_state (Id universal 2) 1; ex_int_state (Id universal 2) 2]); None])].
Definition ex_val2 : val := VRec [Some (VPrim [5]); None; None; Some (VAlt 1 (VPrim []));
   Some (VRec [Some (VList [VPrim [1]; VPrim [2]]); None])].
Lemma ex_rep2 : rep ex_seq ex_state2 ex_val2.
Proof.
  cbn [ex_seq ex_set ex_choice ex_state2 ex_val2 rep rep_comps].
  split; [int_rep|]. split; [discriminate|]. split; [discriminate|].
  split; [split; [reflexivity|cbn; split; [split; [constructor|reflexivity]|exact I]]|].
  split; [|exact I]. split; [|split; [discriminate|exact I]].
  constructor; [int_rep|]. constructor; [int_rep|constructor].
Qed.
Lemma ex_means2 : means ex_named ex_val2 ex_meaning.
Proof.
  assert (H : exists w, rep (erase (NLeaf PInt (DoubleId context_specific 1 universal 2))) (ex_int_state (DoubleId context_specific 1 universal 2) 1) w /\
    means (NLeaf PInt (DoubleId context_specific 1 universal 2)) w (MInt 1)).
  { exists (VPrim [1]). split; [change (rep (ex_int (DoubleId context_specific 1 universal 2)) (ex_int_state (DoubleId context_specific 1 universal 2) 1) (VPrim [1])); int_rep|split; [split; vm_compute; discriminate|reflexivity]]. }
  unfold ex_val2. means_check. exact H.
Qed.

(** C118.  Printing an object gives a JSON text that says its value.
    Proved for values without times, without quotation marks and backslashes, with declared enumerators, finite reals (shown to
    six digits), and object identifiers whose first octet is below 120; on platforms where std::isprint is defined for negative chars. *)
Theorem C118_printed_object_json_partial : forall e t s v m, glibc e -> wf_ty (erase t) -> rep (erase t) s v -> means t v m -> presentable t m ->
  exists text j, print e t s = Ok (Some text) /\ json_of text = Some j /\ shows_value t m j.
Proof.
  intros e t s v m He Hw Hr Hm Hp. destruct (proj1 (value_prints e He) t s v m Hw Hr Hm Hp) as (text & j & E & Hj & Hs).
  exists text, j. split; [exact E|]. split; [apply reads_json; exact Hj|exact Hs].
Qed.
Example C118_example : glibc linux /\ wf_ty (erase ex_named) /\ rep (erase ex_named) ex_state2 ex_val2 /\ means ex_named ex_val2 ex_meaning /\ presentable ex_named ex_meaning /\
  print linux ex_named ex_state2 =
    Ok (Some (lit "{""a"" : 5, ""b"" : null, ""c"" : 1, ""d"" : null, ""e"" : {""f"" : [1, 2], ""g"" : null}}")).
Proof.
  split; [apply linux_glibc|]. split; [apply ex_seq_good|]. split; [apply ex_rep2|]. split; [apply ex_means2|]. split; [|vm_compute; reflexivity].
  cbn. unfold clean. repeat lazymatch goal with |- _ /\ _ => split | |- True => exact I | |- Forall _ [] => constructor | |- Forall _ _ => constructor end; lia.
Qed.
(** In general it is no JSON, no text at all, or does not tell values apart: a quotation mark; a time; an enumeration number
    that was received but is not declared; a time that was received but cannot be parsed (an exception); the alternatives of a
    CHOICE; a binary octet string; an infinite REAL; two REALs that agree in six digits. *)
Definition text_state (i : ident) (x : list Z) : st := SLeaf (LFixed (res_or (fixed_assign_content i (fixed_init i) x) fixed_empty)).
(** A Real with these contents. *)
Definition real_state (i : ident) (x : list Z) : st := SLeaf (LData (res_or (small_assign_content i (RealModel.real_init i) x) [])).
Theorem C118_printed_object_json_refuted :
  (exists text, print linux (NLeaf PText (Id universal 12)) (text_state (Id universal 12) [34]) = Ok (Some text) /\ json_of text = None) /\
  (exists text, print linux (NLeaf PTime (Id universal 24)) (text_state (Id universal 24) epoch_text) = Ok (Some text) /\ json_of text = None) /\
  print linux (NLeaf (PEnum [(lit "red", 0); (lit "green", 1)]) (Id universal 10)) (ex_int_state (Id universal 10) 2) = Ok (Some (lit """Invalid state!""")) /\
  (exists v s, v_make ([24; 10] ++ lit "yesterday.") = Ok v /\ decode (TLeaf KTime (Id universal 24)) (init (TLeaf KTime (Id universal 24))) v = Ok (true, s) /\
     print linux (NLeaf PTime (Id universal 24)) s = Ok None) /\
  (let choice := NChoice CGen None (FCons (nm "x") FMand [(universal, 2)] (NLeaf PInt (Id universal 2))
                                   (FCons (nm "y") FMand [(context_specific, 7)] (NLeaf PInt (Id context_specific 7)) FNil)) in
   print linux choice (SAlt 0 (ex_int_state (Id universal 2) 5)) = print linux choice (SAlt 1 (ex_int_state (Id context_specific 7) 5))) /\
  print linux (NLeaf PText (Id universal 4)) (text_state (Id universal 4) [0]) = print linux (NLeaf PText (Id universal 4)) (text_state (Id universal 4) [1; 2]) /\
  (exists text, print linux (NLeaf PReal (Id universal 9)) (real_state (Id universal 9) [0x40]) = Ok (Some text) /\ json_of text = None) /\
  print linux (NLeaf PReal (Id universal 9)) (real_state (Id universal 9) (3 :: lit "1234567.E0")) = print linux (NLeaf PReal (Id universal 9)) (real_state (Id universal 9) (3 :: lit "1234568.E0")).
Proof.
  split; [|split; [|split; [|split; [|split; [|split; [|split]]]]]].
  - eexists. split; vm_compute; reflexivity.
  - eexists. split; vm_compute; reflexivity.
  - vm_compute. reflexivity.
  - do 2 eexists. split; [vm_compute; reflexivity|]. split; [vm_compute; reflexivity|]. vm_compute. reflexivity.
  - vm_compute. reflexivity.
  - vm_compute. reflexivity.
  - eexists. split; vm_compute; reflexivity.
  - vm_compute. reflexivity.
Qed.

(** C119.  a == b is true exactly when a and b hold the same value; a DEFAULT member that was left out counts with its default.
    Proved for values the types define: INTEGERs of one to eight octets, enumerations in the range of int, times written as
    YYYYMMDDHHMMSSZ; and for types without REAL, whose operator== is that of C132. *)
Theorem C119_equal_iff_same_value_partial : forall t a b v w m n, without_reals t -> wf_ty (erase t) ->
  rep (erase t) a v -> means t v m -> rep (erase t) b w -> means t w n ->
  m = n /\ equal t a b = Ok (Some true) \/ m <> n /\ equal t a b = Ok (Some false).
Proof.
  intros t a b v w m n Hnr Hw Ha Hm Hb Hn. destruct (proj1 equal_answers t a b v w m n Hnr Hw Ha Hb Hm Hn) as [[H ?]|[H ?]]; tauto.
Qed.
(** So it is an equivalence relation. *)
Theorem C119_equivalence_partial : forall t a b c v w u m n o, without_reals t -> wf_ty (erase t) ->
  rep (erase t) a v -> means t v m -> rep (erase t) b w -> means t w n -> rep (erase t) c u -> means t u o ->
  equal t a a = Ok (Some true) /\ equal t a b = equal t b a /\
  (equal t a b = Ok (Some true) -> equal t b c = Ok (Some true) -> equal t a c = Ok (Some true)).
Proof.
  intros t a b c v w u m n o Hnr Hw Ha Hm Hb Hn Hc Ho.
  destruct (C119_equal_iff_same_value_partial t a a v v m m Hnr Hw Ha Hm Ha Hm) as [[E1 H1]|[E1 H1]]; [|congruence].
  destruct (C119_equal_iff_same_value_partial t a b v w m n Hnr Hw Ha Hm Hb Hn) as [[E2 H2]|[E2 H2]],
    (C119_equal_iff_same_value_partial t b a w v n m Hnr Hw Hb Hn Ha Hm) as [[E3 H3]|[E3 H3]],
    (C119_equal_iff_same_value_partial t b c w u n o Hnr Hw Hb Hn Hc Ho) as [[E4 H4]|[E4 H4]],
    (C119_equal_iff_same_value_partial t a c v u m o Hnr Hw Ha Hm Hc Ho) as [[E5 H5]|[E5 H5]]; rewrite H1, H2, H3, H4, H5;
    (split; [reflexivity|]); (split; [congruence|]); intros; congruence.
Qed.
Example C119_example : without_reals ex_named /\ rep (erase ex_named) ex_state ex_val /\ means ex_named ex_val ex_meaning /\
  rep (erase ex_named) ex_state2 ex_val2 /\ means ex_named ex_val2 ex_meaning /\ ex_state <> ex_state2 /\ equal ex_named ex_state ex_state2 = Ok (Some true).
Proof.
  split; [cbn; tauto|]. split; [apply ex_rep|]. split; [apply ex_means|]. split; [apply ex_rep2|]. split; [apply ex_means2|]. split; [discriminate|vm_compute; reflexivity].
Qed.
(** Not so for received objects in general: a time that cannot be parsed makes the comparison with itself throw (in a
    generated, noexcept operator==: terminate); two times an hour apart are equal, as the zone is not looked at; the INTEGER
    without octets equals 0; the REALs 1 and 1 + 2^-52, and 2 and infinity, are equal, and NaN is not equal to itself. *)
Theorem C119_equal_iff_same_value_refuted :
  (exists v s, v_make ([24; 10] ++ lit "yesterday.") = Ok v /\ decode (TLeaf KTime (Id universal 24)) (init (TLeaf KTime (Id universal 24))) v = Ok (true, s) /\
     equal (NLeaf PTime (Id universal 24)) s s = Ok None) /\
  equal (NLeaf PTime (Id universal 24)) (text_state (Id universal 24) (lit "20240101120000+0000")) (text_state (Id universal 24) (lit "20240101120000+0100")) = Ok (Some true) /\
  (exists v s, v_make [2; 0] = Ok v /\ decode (ex_int (Id universal 2)) (init (ex_int (Id universal 2))) v = Ok (true, s) /\
     equal (NLeaf PInt (Id universal 2)) s (ex_int_state (Id universal 2) 0) = Ok (Some true)) /\
  (let r := NLeaf PReal (Id universal 9) in let real := real_state (Id universal 9) in
   equal r (real [0x80; 0xCC; 0x10; 0; 0; 0; 0; 0; 0]) (real [0x80; 0xCC; 0x10; 0; 0; 0; 0; 0; 1]) = Ok (Some true) /\
   equal r (real [0x40]) (real (1 :: lit "2")) = Ok (Some true) /\ equal r (real [0x42]) (real [0x42]) = Ok (Some false)).
Proof.
  split; [|split; [|split]].
  - do 2 eexists. split; [vm_compute; reflexivity|]. split; [vm_compute; reflexivity|]. vm_compute. reflexivity.
  - vm_compute. reflexivity.
  - do 2 eexists. split; [vm_compute; reflexivity|]. split; [vm_compute; reflexivity|]. vm_compute. reflexivity.
  - cbv zeta. split; [vm_compute; reflexivity|]. split; vm_compute; reflexivity.
Qed.

(** C120.  Decoding what encode wrote, into any object and whatever follows it, gives an object that is == to the original.
    Partial as C42 and C119 are (but REALs are covered, unless they are NaN, which no object is equal to). *)
Theorem C120_decoded_equals_original_partial : forall t s v m, good_schema (erase t) -> rep (erase t) s v -> means t v m -> without_nan m -> weight s < 2^62 ->
  exists p, (forall buffer, zlen buffer < 2^63 -> zlen p <= zlen buffer ->
               encode (erase t) s buffer = Ok (EncResult (p ++ zdrop (zlen p) buffer) true (zlen p))) /\
    forall s0 rest, obj (erase t) s0 -> zlen (p ++ rest) < 2^63 ->
      exists view s', v_make (p ++ rest) = Ok view /\ decode (erase t) s0 view = Ok (true, s') /\
        equal t s s' = Ok (Some true) /\ equal t s' s = Ok (Some true).
Proof.
  intros t s v m Hg Hr Hm Hn Hw. destruct (C42_round_trip_partial (erase t) s v Hg Hr Hw) as (p & He & Hd). exists p. split; [exact He|].
  intros s0 rest Ho Hz. destruct (Hd s0 rest Ho Hz) as (view & s' & E1 & E2 & Hr'). exists view, s'. split; [exact E1|]. split; [exact E2|].
  split; [exact (proj1 equal_same t s s' v m (proj1 Hg) Hr Hr' Hm Hn)|exact (proj1 equal_same t s' s v m (proj1 Hg) Hr' Hr Hm Hn)].
Qed.
Example C120_example : good_schema (erase ex_named) /\ rep (erase ex_named) ex_state2 ex_val2 /\ means ex_named ex_val2 ex_meaning /\ without_nan ex_meaning /\ weight ex_state2 < 2^62.
Proof. split; [apply ex_seq_good|]. split; [apply ex_rep2|]. split; [apply ex_means2|]. split; [cbn; tauto|vm_compute; reflexivity]. Qed.
(** Two objects that are == need not have the same encoding: the default can be present or absent. *)
Theorem C120_equal_but_encoded_differently : exists r1 r2, equal ex_named ex_state ex_state2 = Ok (Some true) /\
  encode (erase ex_named) ex_state (zrep 30 0) = Ok r1 /\ encode (erase ex_named) ex_state2 (zrep 30 0) = Ok r2 /\ er_len r1 = 22 /\ er_len r2 = 17.
Proof. do 2 eexists. split; [vm_compute; reflexivity|]. split; [vm_compute; reflexivity|]. split; [vm_compute; reflexivity|]. split; [vm_compute; reflexivity|]. vm_compute. reflexivity. Qed.

(** ** With REALs *)
(** SEQUENCE { x REAL, y REAL OPTIONAL, z [0] REAL DEFAULT 0.5 }, with x = -2.5 (binary, as a Real writes it), y = 1.5 (decimal: NR2), z left out. *)
Definition ex_reals : nty := NSeq (Id universal 16)
  (FCons (nm "x") FMand [(universal, 9)] (NLeaf PReal (Id universal 9))
  (FCons (nm "y") FOpt [(context_specific, 1)] (NLeaf PReal (Id context_specific 1))
  (FCons (nm "z") (FDef (real_state (Id context_specific 0) (2 :: lit "0.5"))) [(context_specific, 0)] (NLeaf PReal (Id context_specific 0)) FNil))).
Definition ex_binary := [0xC0; 0xCD; 0x14; 0; 0; 0; 0; 0; 0].
Definition ex_reals_state : st := SRec [Some (real_state (Id universal 9) ex_binary); Some (real_state (Id context_specific 1) (2 :: lit "1.5")); None].
Definition ex_reals_val : val := VRec [Some (VPrim ex_binary); Some (VPrim (2 :: lit "1.5")); None].
Definition d_minus_2_5 := [0xC0; 0x04; 0; 0; 0; 0; 0; 0].
Definition d_1_5 := [0x3F; 0xF8; 0; 0; 0; 0; 0; 0].
Definition d_0_5 := [0x3F; 0xE0; 0; 0; 0; 0; 0; 0].
Definition ex_reals_meaning : meaning := MRec [Some (MReal d_minus_2_5); Some (MReal d_1_5); Some (MReal d_0_5)].
Lemma real_state_rep i x : wf_ident i -> bytes x -> zlen x <= 100 -> rep (TLeaf (KSmall 100 []) i) (real_state i x) (VPrim x).
Proof.
  intros Hi Hb Hx. destruct (PropertiesReal.real_reachable_rep i _ (PropertiesReal.rr_default i Hi)) as (_ & y & Hy & _).
  destruct (small_assign_rep i RealModel.real_max _ y x (PropertiesReal.small_real_ok i Hi) Hy Hx) as (d & E & Hd). unfold real_state. rewrite E. cbn [res_or rep leaf_rep]. split; [split; [exact Hb|exact Hx]|exact Hd].
Qed.
Lemma decimal_means b t d : 0 <= b < 64 -> (exists neg N E, DecimalSpec.iso_6093 t neg N E) -> RealDecimal.decode_real_decimal (b :: t) = Some d -> real_means (b :: t) d.
Proof. intros Hb (neg & N & E & Ht) Hd. destruct (RealDecimalProofs.decimal_accepts b t neg N E Ht) as (d' & E' & Hn). assert (d' = d) by congruence. subst d'. eapply means_decimal; eauto. Qed.
Lemma ex_reals_good : good_schema (erase ex_reals).
Proof. unfold ex_reals. cbn [erase erase_fields erase_kind erase_fkind]. unfold good_schema. schema_check. Qed.
Lemma ex_reals_rep : rep (erase ex_reals) ex_reals_state ex_reals_val.
Proof.
  unfold ex_reals, ex_reals_state, ex_reals_val. cbn [erase erase_fields erase_kind erase_fkind rep rep_comps].
  split; [apply real_state_rep; [vm_compute; repeat split; discriminate|repeat constructor; lia|vm_compute; discriminate]|].
  split; [apply real_state_rep; [vm_compute; repeat split; discriminate|repeat constructor; lia|vm_compute; discriminate]|].
  split; [discriminate|exact I].
Qed.
Lemma ex_reals_means : means ex_reals ex_reals_val ex_reals_meaning.
Proof.
  assert (M : forall c f, 48 <= c <= 57 -> 48 <= f <= 57 -> exists neg N E, DecimalSpec.iso_6093 [c; 46; f] neg N E).
  { intros c f Hc Hf. eexists. eexists. eexists. eapply (DecimalSpec.form_2 0 [] false [c; 46; f]); [apply DecimalSpec.no_sign|]. apply (DecimalSpec.is_marked [c] 46 [f]); [repeat constructor; lia|repeat constructor; lia|discriminate|auto]. }
  unfold ex_reals, ex_reals_val, ex_reals_meaning. cbn [means fields_mean leaf_means].
  split; [apply (means_binary 1 0 0 0xCD [0x14; 0; 0; 0; 0; 0; 0] (0x14 * 2^48)); try lia; try (vm_compute; congruence); [split; [reflexivity|repeat constructor; lia]|vm_compute; split; discriminate]|].
  split; [apply decimal_means; [lia|apply (M 49 53); lia|vm_compute; reflexivity]|].
  split; [|exact I]. exists (VPrim (2 :: lit "0.5")).
  split; [apply real_state_rep; [vm_compute; repeat split; discriminate|repeat constructor; lia|vm_compute; discriminate]|].
  apply decimal_means; [lia|apply (M 48 53); lia|vm_compute; reflexivity].
Qed.
(** The hypotheses of C118 and C120 are met by an object with REALs. *)
Example C118_reals_example : good_schema (erase ex_reals) /\ rep (erase ex_reals) ex_reals_state ex_reals_val /\ means ex_reals ex_reals_val ex_reals_meaning /\
  presentable ex_reals ex_reals_meaning /\ without_nan ex_reals_meaning /\ weight ex_reals_state < 2^62 /\
  print linux ex_reals ex_reals_state = Ok (Some (lit "{""x"" : -2.5, ""y"" : 1.5, ""z"" : 0.5}")) /\
  er_len (res_or (encode (erase ex_reals) ex_reals_state (zrep 30 0)) (EncResult [] false 0)) = 19.
Proof.
  split; [apply ex_reals_good|]. split; [apply ex_reals_rep|]. split; [apply ex_reals_means|].
  split; [cbn; unfold clean, dbl_finite; repeat lazymatch goal with |- _ /\ _ => split | |- True => exact I | |- Forall _ [] => constructor | |- Forall _ _ => constructor | |- _ < _ => vm_compute; reflexivity end; lia|].
  split; [cbn [without_nan ex_reals_meaning fold_right]; unfold dbl_nan; repeat split; intros [H _]; vm_compute in H; discriminate|].
  split; [vm_compute; reflexivity|]. split; vm_compute; reflexivity.
Qed.
