(** Proofs about printing generated objects. *)
From Coq Require Import String Ascii.
From Verif Require Import Base Ident View Prims Schema Oid Time Spec SchemaSpec IdentProofs HeaderProofs ViewProofs PrimProofs IntProofs ContProofs Print PrintSpec PrintJson ValueSpec.
From Verif Require Import PropertiesInt PropertiesOid PropertiesOidExact PrintProofs EqualProofs.
From Verif Require RealPrint PropertiesRealPrint RealValueProofs.
Close Scope string_scope.

Lemma clean_plain l : clean l -> Forall plain_char l. Proof. exact (fun H => H). Qed.
Lemma find_item items n : In n (map snd items) -> exists name, find (fun p : list Z * Z => snd p =? n) items = Some (name, n) /\ In (name, n) items.
Proof.
  induction items as [|[a k] items IH]; cbn [map snd In find]; [contradiction|]. intros H. destruct (Z.eqb_spec k n) as [->|Hk].
  - exists a. auto.
  - destruct H as [H|H]; [congruence|]. destruct (IH H) as (name & E & Hin). eauto.
Qed.
Lemma twos_8 x : bytes x -> 1 <= zlen x <= 8 -> - 2^63 <= twos_value x < 2^63.
Proof.
  intros Hb Hl. pose proof (twos_range x Hb ltac:(intros ->; cbn in Hl; lia)). assert (256 ^ zlen x <= 256 ^ 8) by (apply Z.pow_le_mono_r; lia).
  change (256 ^ 8) with (2 * 2^63) in *. lia.
Qed.
Lemma ints_read l : Forall (fun n => - 2^63 <= n < 2^63) l -> exists js, Forall2 reads (map show_int l) js /\ Forall2 is_int js l.
Proof.
  induction 1 as [|n l Hn _ (js & A & B)]; [exists []; split; constructor|].
  destruct (reads_int n) as (j & Hj & Hi); [lia|]. exists (j :: js). split; constructor; auto.
Qed.
Lemma oid_shown x comps : x690_oid x comps -> hd 0 x < 120 -> Forall (fun n => n < 2^63) comps ->
  decode_object_id x = (true, comps) /\ Forall (fun n => - 2^63 <= n < 2^63) comps.
Proof.
  intros Ho H120 Hc. pose proof Ho as Ho'. destruct Ho' as (g0 & gs & X & Y & Ex & [[pre [lst [Eg [Hpre Hlst]]]] _] & _ & HX & HY & HXY & Hv & ->).
  destruct pre as [|d pre]; [|exfalso; subst; inversion Hpre; subst; cbn [app hd] in H120; lia].
  subst g0. cbn [app] in Hv. assert (Hbv : b128_value [lst] = lst) by (cbn; rewrite Z.mod_small; lia). rewrite Hbv in Hv.
  subst x. cbn [app hd] in H120. inversion Hc as [|? ? _ Hc1]; subst. inversion Hc1 as [|? ? _ Hc2]; subst.
  split; [apply (proj2 (C33_oid_decode_x690_partial _ _ _ _ Ho Hc2)); lia|].
  constructor; [lia|]. constructor; [lia|]. rewrite Forall_map in *. eapply Forall_impl; [|exact Hc2]. cbn. intros g Hg.
  pose proof (HeaderProofs.b128_value_nonneg g). lia.
Qed.
Lemma leaf_prints e k i l x m : glibc e -> wf_ty (TLeaf (erase_kind k) i) -> leaf_rep (erase_kind k) i l x -> leaf_means k x m -> leaf_presentable k m ->
  exists s j, print_leaf e k i l = Ok (Some s) /\ reads s j /\ leaf_shows k m j.
Proof.
  intros He Hw [[Hb Hc] Hr] Hm Hp.
  destruct k; cbn [erase_kind] in *; destruct m; cbn [leaf_means] in Hm; try contradiction; destruct l; try contradiction; cbn [print_leaf leaf_shows leaf_presentable] in *.
  - destruct Hm as (c & -> & ->). unfold print_bool. do 2 eexists. split; [reflexivity|]. split; [apply reads_bool|]. unfold bool_value. rewrite (bool_last _ _ _ Hr). reflexivity.
  - do 2 eexists. split; [reflexivity|]. split; [apply reads_null|reflexivity].
  - destruct Hw as (_ & Hok & _). destruct Hm as [L ->]. unfold print_integer. rewrite (int_value_rep _ _ _ Hok Hr) by (auto; lia). cbn [bind].
    pose proof (twos_8 x Hb L). destruct (reads_int (twos_value x)) as (j & Hj & Hi); [lia|]. eauto.
  - destruct Hw as (_ & Hok & _). destruct Hm as (L & -> & R). unfold print_enum, enum_value. rewrite (int_value_rep _ _ _ Hok Hr) by (auto; lia). cbn [bind].
    rewrite enum_cast_small by (change (32 - 1) with 31; lia). destruct Hp as [Hin Hcl]. destruct (find_item items _ Hin) as (name & E & Hi). unfold enum_to_string. rewrite E. cbn [fst].
    do 2 eexists. split; [reflexivity|]. split; [apply reads_string|exists name; auto]. rewrite Forall_forall in Hcl. apply clean_plain, (Hcl _ Hi).
  - subst. unfold print_string. rewrite (fixed_content_rep _ _ _ Hr). cbn [bind]. destruct (print_octets_reads e x He Hb) as (s & -> & Hs). cbn [bind].
    destruct Hs as (j & Hj & Hs); [|eauto]. intros Hpr. specialize (Hp Hpr). unfold clean in Hp. rewrite Forall_forall in Hp. split; intros H; specialize (Hp _ H); lia.
  - subst. unfold print_oid, oid_value. rewrite (fixed_content_rep _ _ _ Hr). cbn [bind]. destruct Hp as (H120 & comps & Ho & Hcs). destruct (oid_shown x comps Ho H120 Hcs) as [-> Hrg]. cbn [snd].
    destruct (ints_read comps Hrg) as (js & Hjs & Hi). do 2 eexists. split; [reflexivity|]. split; [apply reads_array; exact Hjs|]. eauto 10.
  - destruct Hw as (Hi & _). destruct (RealValueProofs.real_means_value 0 i d0 x d Hi Hr Hb Hm) as (V & D). unfold RealPrint.print_real. rewrite V. cbn [bind].
    destruct (PropertiesRealPrint.print_double_finite d D Hp) as (N & E & J & S). do 2 eexists. split; [reflexivity|]. split; [eapply PropertiesRealPrint.json_number_reads, J|]. do 3 eexists. split; [reflexivity|]. split; [exact J|exact S].
Qed.
Lemma value_prints e : glibc e ->
  (forall t a v m, wf_ty (erase t) -> rep (erase t) a v -> means t v m -> presentable t m ->
     exists s j, print e t a = Ok (Some s) /\ reads s j /\ shows_value t m j) /\
  (forall fs, (forall a vs ms, wf_comps (erase_fields fs) -> rep_comps (erase_fields fs) a vs -> fields_mean fs vs ms -> presentable_fields fs ms ->
      exists ss kjs, print_fields e fs a = Ok (Some ss) /\ Forall2 mreads ss kjs /\ shows_fields fs ms kjs) /\
   (forall k a v m, wf_comps (erase_fields fs) -> rep_alt (erase_fields fs) k a v -> alt_means fs k v m -> presentable_alt fs k m ->
      exists s j, print_alt e fs k a = Ok (Some s) /\ reads s j /\ shows_alt fs k m j)).
Proof.
  intros He.
  assert (Hobj : forall fs a vs ms, wf_comps (erase_fields fs) -> rep_comps (erase_fields fs) a vs -> fields_mean fs vs ms -> presentable_fields fs ms ->
      (exists ss kjs, print_fields e fs a = Ok (Some ss) /\ Forall2 mreads ss kjs /\ shows_fields fs ms kjs) ->
      exists s j, obind (print_fields e fs a) (fun ss => Ok (Some (txt "{" ++ joined ss ++ txt "}"))) = Ok (Some s) /\ reads s j /\
        match j with JObj kjs => shows_fields fs ms kjs | _ => False end).
  { intros fs a vs ms _ _ _ _ (ss & kjs & -> & Hr & Hs). unfold obind. cbn [bind]. eexists. exists (JObj kjs). split; [reflexivity|]. split; [|exact Hs].
    change (txt "{" ++ joined ss ++ txt "}") with ([123] ++ [] ++ joined ss ++ [] ++ [125]). apply reads_object; [constructor|constructor|exact Hr]. }
  apply nty_mutind; cbn [erase erase_fields rep rep_comps rep_alt means fields_mean alt_means wf_ty wf_comps print print_fields print_alt presentable presentable_fields presentable_alt shows_fields shows_alt].
  - intros k i a v m Hw Ha Hm Hp. destruct a as [a| | |], v as [x| | |]; try contradiction. eapply leaf_prints; eauto.
  - intros i t IH a v m [_ Hw] Ha Hm Hp. destruct a as [|a| |], v as [|v| |]; try contradiction. destruct m as [| | | | | | | |ms| |]; try contradiction.
    assert (HL : exists ss js, print_list (print e t) a = Ok (Some ss) /\ Forall2 reads ss js /\ Forall2 (shows_value t) ms js).
    { revert ms Hm Hp. induction Ha as [|a1 v1 a v H1 _ IHa]; intros ms Hm Hp; inversion Hm; subst; cbn [print_list]; [exists [], []; repeat split; constructor|].
      inversion Hp; subst. destruct (IH a1 v1 y Hw H1 ltac:(assumption) ltac:(assumption)) as (s & j & -> & Hr & Hs). unfold obind at 1. cbn [bind].
      destruct (IHa l' ltac:(assumption) ltac:(assumption)) as (ss & js & -> & Hrs & Hss). unfold obind. cbn [bind].
      exists (s :: ss), (j :: js). repeat split; constructor; auto. }
    destruct HL as (ss & js & -> & Hr & Hs). unfold obind. cbn [bind]. exists (txt "[" ++ joined ss ++ txt "]"), (JArr js). split; [reflexivity|]. split; [apply reads_array; exact Hr|exact Hs].
  - intros i fs [IH _] a v m [_ Hw] Ha Hm Hp. destruct a as [| |a|], v as [| |v|]; try contradiction. destruct m as [| | | | | | | | |ms|]; try contradiction.
    destruct (Hobj fs a v ms Hw Ha Hm Hp (IH a v ms Hw Ha Hm Hp)) as (s & j & E & Hr & Hs). exists s, j. split; [exact E|]. split; [exact Hr|]. destruct j; try contradiction. exact Hs.
  - intros i ext fs [IH _] a v m [_ Hw] Ha Hm Hp. destruct a as [| |a|], v as [| |v|]; try contradiction. destruct m as [| | | | | | | | |ms|]; try contradiction.
    destruct (Hobj fs a v ms Hw Ha Hm Hp (IH a v ms Hw Ha Hm Hp)) as (s & j & E & Hr & Hs). exists s, j. split; [exact E|]. split; [exact Hr|]. destruct j; try contradiction. exact Hs.
  - intros g o fs [_ IH] a v m (_ & _ & Hw) Ha Hm Hp. destruct a as [| | |k1 a], v as [| | |k2 v]; try contradiction. destruct m as [| | | | | | | | | |k5 m]; try contradiction.
    destruct Ha as [<- Ha], Hm as [<- Hm]. destruct (IH k1 a v m Hw Ha Hm Hp) as (s & j & E & Hr & Hs). exists s, j. split; [exact E|]. split; [exact Hr|]. exact Hs.
  - split.
    + intros a vs ms _ Ha Hm _. destruct a, vs; try contradiction. destruct ms; try contradiction. exists [], []. repeat split. constructor.
    + contradiction.
  - intros name k ids t IHt fs [IHf IHa]. split.
    + intros a vs ms [Hwt Hw] Ha Hm Hp. destruct a as [|a1 a], vs as [|v1 vs]; try contradiction. destruct ms as [|m1 ms]; [destruct v1; contradiction|].
      destruct Ha as [Ha1 Ha], Hm as [Hm1 Hm], Hp as (Hn & Hp1 & Hp). destruct (IHf a vs ms Hw Ha Hm Hp) as (ss & kjs & -> & Hrs & Hss).
      match goal with |- context [obind ?o (fun a => obind (Ok (Some ss)) _)] => set (one := o) end.
      assert (H1 : exists s j, one = Ok (Some s) /\ reads s j /\ match m1 with Some m => shows_value t m j | None => j = JNull end).
      { unfold one. destruct k as [| |d].
        - destruct a1 as [a1|], v1 as [v1|]; try contradiction; try (exfalso; apply Ha1; reflexivity). destruct m1 as [m1|]; try contradiction. eapply IHt; eauto.
        - destruct a1 as [a1|], v1 as [v1|]; try contradiction; destruct m1 as [m1|]; try contradiction; [eapply IHt; eauto|].
          exists (txt "null"), JNull. split; [reflexivity|]. split; [apply reads_null|reflexivity].
        - destruct a1 as [a1|], v1 as [v1|]; try contradiction; destruct m1 as [m1|]; try contradiction; [eapply IHt; eauto|].
          destruct Hm1 as (w & ? & ?). eapply IHt; eauto. }
      destruct H1 as (s & j & -> & Hr & Hs). unfold obind. cbn [bind]. eexists. exists ((name, j) :: kjs). split; [reflexivity|]. split; [|auto].
      constructor; [|exact Hrs]. change ([34] ++ name ++ txt """ : " ++ s) with ([34] ++ name ++ [34] ++ [32] ++ [58] ++ [32] ++ s).
      apply member_reads; [exact Hn|repeat constructor..|exact Hr].
    + intros n a v m1 [Hwt Hw] Ha Hm Hp. destruct n as [|n]; [eapply IHt; eauto|eapply IHa; eauto].
Qed.
