(** Proofs about operator== of generated objects. *)
From Coq Require Import String Ascii.
From Verif Require Import Base Ident View Prims Schema Oid Time Spec SchemaSpec IdentProofs HeaderProofs ViewProofs PrimProofs IntProofs ContProofs Print PrintSpec ValueSpec.
From Verif Require Import PropertiesInt PropertiesTime.
Close Scope string_scope.

(** The operator answers whether [P] holds. *)
Definition answers (r : res (option bool)) (P : Prop) : Prop := r = Ok (Some true) /\ P \/ r = Ok (Some false) /\ ~ P.
Lemma answers_and r s P Q : answers r P -> answers s Q -> answers (oand r s) (P /\ Q).
Proof. unfold answers, oand, obind. intros [[-> Hp]|[-> Hp]] [[-> Hq]|[-> Hq]]; cbn [bind]; tauto. Qed.
Lemma answers_iff r P Q : (P <-> Q) -> answers r P -> answers r Q.
Proof. unfold answers. tauto. Qed.
Lemma answers_bool (b : bool) P : (b = true <-> P) -> answers (Ok (Some b)) P.
Proof. unfold answers. intros H. destruct b; [left|right]; (split; [reflexivity|]); [tauto|]. rewrite <- H. discriminate. Qed.

Lemma int_value_rep i d x : small_ok i 8 -> small_rep i 8 d x -> bytes x -> 1 <= zlen x -> int_value i d = Ok (twos_value x).
Proof.
  intros Hok Hr Hb Hl. unfold int_value. rewrite (small_content_rep _ _ _ _ Hok Hr). cbn [bind]. rewrite decode_integer_eq by auto.
  assert (zlen x <= 8) by (destruct Hr as (junk & _ & E); pose proof (zlen_nonneg junk); lia).
  replace (1 <=? zlen x) with true by lia. replace (zlen x <=? 8) with true by lia. reflexivity.
Qed.
Lemma civil_eqb_eq a b : civil_eqb a b = true <-> a = b.
Proof.
  unfold civil_eqb. destruct a as [y m d h i s n], b as [y2 m2 d2 h2 i2 s2 n2]. cbn. rewrite !andb_true_iff, !Z.eqb_eq. split.
  - intros ((((((-> & ->) & ->) & ->) & ->) & ->) & ->). reflexivity.
  - intros [= -> -> -> -> -> -> ->]. tauto.
Qed.
Lemma time_value_utc f t : fixed_content f = Ok (format_civil t ++ [90]) -> civil_ok t = true -> c_ns t = 0 -> time_value f = Ok (Some t).
Proof.
  intros Ec Ht Hn. unfold time_value, time_format_of. rewrite Ec. cbn [bind].
  rewrite read_at_app by (rewrite ?zlen_app, ?format_len; reflexivity || (cbn; lia)). cbn [hd]. change (90 =? 90) with true. cbn [bind].
  rewrite ztake_app_exact by (rewrite zlen_app, format_len; reflexivity). rewrite format_parse by auto. destruct t; cbn in *; subst; reflexivity.
Qed.
Lemma list_eqb_eq a b : list_eqb a b = true <-> a = b.
Proof. unfold list_eqb. destruct (list_eq_dec Z.eq_dec a b); split; congruence. Qed.

Lemma same_length {A B} (R : A -> B -> Prop) l m : Forall2 R l m -> length l = length m.
Proof. induction 1; cbn; congruence. Qed.
Lemma leaf_answers k i l1 l2 x1 x2 m1 m2 : wf_ty (TLeaf (erase_kind k) i) -> leaf_rep (erase_kind k) i l1 x1 -> leaf_rep (erase_kind k) i l2 x2 ->
  leaf_means k x1 m1 -> leaf_means k x2 m2 -> k <> PReal -> answers (leaf_equal k i l1 l2) (m1 = m2).
Proof.
  intros Hw [[Hb1 Hc1] Hr1] [[Hb2 Hc2] Hr2] H1 H2 Hk.
  destruct k; cbn [erase_kind] in *; destruct m1, m2; cbn [leaf_means] in H1, H2; try contradiction;
    destruct l1, l2; try contradiction; cbn [leaf_equal].
  - destruct H1 as (c1 & -> & ->), H2 as (c2 & -> & ->). unfold bool_value. rewrite (bool_last _ _ _ Hr1), (bool_last _ _ _ Hr2). cbn [hd].
    apply answers_bool. rewrite Bool.eqb_true_iff. split; congruence.
  - apply answers_bool. tauto.
  - destruct Hw as (_ & Hok & _). destruct H1 as [L1 ->], H2 as [L2 ->]. rewrite (int_value_rep _ _ _ Hok Hr1), (int_value_rep _ _ _ Hok Hr2) by (auto; lia). cbn [bind].
    apply answers_bool. rewrite Z.eqb_eq. split; congruence.
  - destruct Hw as (_ & Hok & _). destruct H1 as (L1 & -> & R1), H2 as (L2 & -> & R2). unfold enum_value. rewrite (int_value_rep _ _ _ Hok Hr1), (int_value_rep _ _ _ Hok Hr2) by (auto; lia). cbn [bind].
    rewrite !enum_cast_small by (change (32 - 1) with 31; lia). apply answers_bool. rewrite Z.eqb_eq. split; congruence.
  - subst. rewrite (fixed_content_rep _ _ _ Hr1), (fixed_content_rep _ _ _ Hr2). cbn [bind]. apply answers_bool. rewrite list_eqb_eq. split; congruence.
  - subst. rewrite (fixed_content_rep _ _ _ Hr1), (fixed_content_rep _ _ _ Hr2). cbn [bind]. apply answers_bool. rewrite list_eqb_eq. split; congruence.
  - destruct H1 as (O1 & N1 & ->), H2 as (O2 & N2 & ->). unfold obind.
    rewrite (time_value_utc f t), (time_value_utc f0 t0) by (auto; eapply fixed_content_rep; eauto). cbn [bind].
    apply answers_bool. rewrite civil_eqb_eq. split; congruence.
Qed.
Lemma equal_answers :
  (forall t a b v w m n, without_reals t -> wf_ty (erase t) -> rep (erase t) a v -> rep (erase t) b w -> means t v m -> means t w n -> answers (equal t a b) (m = n)) /\
  (forall fs, (forall a b vs ws ms ns, fields_without_reals fs -> wf_comps (erase_fields fs) -> rep_comps (erase_fields fs) a vs -> rep_comps (erase_fields fs) b ws ->
     fields_mean fs vs ms -> fields_mean fs ws ns -> answers (equal_fields fs a b) (ms = ns)) /\
   (forall k a b v w m n, fields_without_reals fs -> wf_comps (erase_fields fs) -> rep_alt (erase_fields fs) k a v -> rep_alt (erase_fields fs) k b w -> alt_means fs k v m -> alt_means fs k w n ->
     answers (equal_alt fs k a b) (m = n))).
Proof.
  apply nty_mutind; cbn [erase erase_fields rep rep_comps rep_alt means fields_mean alt_means wf_ty wf_comps equal equal_fields equal_alt without_reals fields_without_reals].
  - intros k i a b v w m n Hnr Hw Ha Hb Hm Hn. destruct a as [a| | |], v as [x| | |]; try contradiction. destruct b as [b| | |], w as [y| | |]; try contradiction.
    eapply leaf_answers; eauto. intros ->. exact Hnr.
  - intros i t IH a b v w m n Hnr [_ Hw] Ha Hb Hm Hn. destruct a as [|a| |], v as [|v| |]; try contradiction. destruct b as [|b| |], w as [|w| |]; try contradiction.
    destruct m as [| | | | | | | |ms| |]; try contradiction. destruct n as [| | | | | | | |ns| |]; try contradiction.
    assert (HL : forall ms ns, Forall2 (means t) v ms -> Forall2 (means t) w ns -> length a = length b -> answers (equal_lists (equal t) a b) (ms = ns)).
    { clear Hm Hn ms ns. revert b w Hb. induction Ha as [|a1 v1 a v H1 _ IHa]; intros b w Hb ms ns Hm Hn Hl; inversion Hm; subst; destruct Hb as [|b1 w1 b w Hbw Hb]; try discriminate; inversion Hn; subst; cbn [equal_lists].
      - left; auto.
      - eapply answers_iff; [|apply answers_and; [eapply (IH a1 b1); eauto | apply (IHa b w Hb); eauto]]. split; [intros [-> ->]; reflexivity|intros [= -> ->]; auto]. }
    destruct (Nat.eqb_spec (length a) (length b)) as [El|El].
    + eapply answers_iff; [|apply HL; eauto]. split; [intros ->; reflexivity|intros [= ->]; reflexivity].
    + right. split; [reflexivity|]. intros [= ->]. apply same_length in Ha, Hb, Hm, Hn. congruence.
  - intros i fs [IH _] a b v w m n Hnr [_ Hw] Ha Hb Hm Hn. destruct a as [| |a|], v as [| |v|]; try contradiction. destruct b as [| |b|], w as [| |w|]; try contradiction.
    destruct m as [| | | | | | | | |ms|]; try contradiction. destruct n as [| | | | | | | | |ns|]; try contradiction.
    eapply answers_iff; [|eapply IH; eauto]. split; [intros ->; reflexivity|intros [= ->]; reflexivity].
  - intros i ext fs [IH _] a b v w m n Hnr [_ Hw] Ha Hb Hm Hn. destruct a as [| |a|], v as [| |v|]; try contradiction. destruct b as [| |b|], w as [| |w|]; try contradiction.
    destruct m as [| | | | | | | | |ms|]; try contradiction. destruct n as [| | | | | | | | |ns|]; try contradiction.
    eapply answers_iff; [|eapply IH; eauto]. split; [intros ->; reflexivity|intros [= ->]; reflexivity].
  - intros g o fs [_ IH] a b v w m n Hnr (_ & _ & Hw) Ha Hb Hm Hn. destruct a as [| | |k1 a], v as [| | |k2 v]; try contradiction. destruct b as [| | |k3 b], w as [| | |k4 w]; try contradiction.
    destruct m as [| | | | | | | | | |k5 m]; try contradiction. destruct n as [| | | | | | | | | |k6 n]; try contradiction.
    destruct Ha as [<- Ha], Hb as [<- Hb], Hm as [<- Hm], Hn as [<- Hn].
    destruct (Nat.eqb_spec k1 k3) as [<-|E].
    + eapply answers_iff; [|eapply IH; eauto]. split; [intros ->; reflexivity|intros [= ->]; reflexivity].
    + right. split; [reflexivity|]. congruence.
  - split.
    + intros a b vs ws ms ns _ _ Ha Hb Hm Hn. destruct a, vs; try contradiction. destruct b, ws; try contradiction. destruct ms; try contradiction. destruct ns; try contradiction. left; auto.
    + intros k a b v w m n _ _ Ha. contradiction.
  - intros name k ids t IHt fs [IHf IHa]. split.
    + intros a b vs ws ms ns [Hnt Hnr] [Hwt Hw] Ha Hb Hm Hn. destruct a as [|a1 a], vs as [|v1 vs]; try contradiction. destruct b as [|b1 b], ws as [|w1 ws]; try contradiction.
      destruct ms as [|m1 ms]; [destruct v1; contradiction|]. destruct ns as [|n1 ns]; [destruct w1; contradiction|].
      destruct Ha as [Ha1 Ha], Hb as [Hb1 Hb], Hm as [Hm1 Hm], Hn as [Hn1 Hn].
      apply (answers_iff _ (m1 = n1 /\ ms = ns)); [split; [intros [-> ->]; reflexivity|intros [= -> ->]; auto]|].
      apply answers_and; [|eapply IHf; eauto].
      destruct k as [| |d].
      * destruct a1 as [a1|], v1 as [v1|]; try contradiction; try (exfalso; apply Ha1; reflexivity). destruct b1 as [b1|], w1 as [w1|]; try contradiction; try (exfalso; apply Hb1; reflexivity).
        destruct m1 as [m1|]; try contradiction. destruct n1 as [n1|]; try contradiction.
        eapply answers_iff; [|eapply IHt; eauto]. split; [intros ->; reflexivity|intros [= ->]; reflexivity].
      * destruct a1 as [a1|], v1 as [v1|]; try contradiction; destruct b1 as [b1|], w1 as [w1|]; try contradiction; destruct m1 as [m1|]; try contradiction; destruct n1 as [n1|]; try contradiction.
        -- eapply answers_iff; [|eapply IHt; eauto]. split; [intros ->; reflexivity|intros [= ->]; reflexivity].
        -- right. split; [reflexivity|discriminate].
        -- right. split; [reflexivity|discriminate].
        -- left. auto.
      * assert (HA : exists m v, m1 = Some m /\ rep (erase t) (default_get d a1) v /\ means t v m).
        { destruct a1 as [a1|], v1 as [v1|]; try contradiction; destruct m1 as [m1|]; try contradiction; cbn [default_get]; [eauto 10|]. destruct Hm1 as (x & ? & ?). eauto 10. }
        assert (HB : exists n w, n1 = Some n /\ rep (erase t) (default_get d b1) w /\ means t w n).
        { destruct b1 as [b1|], w1 as [w1|]; try contradiction; destruct n1 as [n1|]; try contradiction; cbn [default_get]; [eauto 10|]. destruct Hn1 as (x & ? & ?). eauto 10. }
        destruct HA as (m & v & -> & ? & ?), HB as (n & w & -> & ? & ?).
        eapply answers_iff; [|eapply IHt; eauto]. split; [intros ->; reflexivity|intros [= ->]; reflexivity].
    + intros n a b v w m1 n1 [Hnt Hnr] [Hwt Hw] Ha Hb Hm Hn. destruct n as [|n]; [eapply IHt; eauto|eapply IHa; eauto].
Qed.
