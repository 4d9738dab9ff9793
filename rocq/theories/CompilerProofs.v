(** Proofs about identifiers assigned by the compiler. *)
From Verif Require Import Base Ident HeaderProofs PrimProofs SchemaSpec.
From Verif Require Export CompilerSpec.

Ltac inv H := inversion H; subst; clear H.
Lemma not_auto m : m <> automatic -> is_automatic m = false.
Proof. destruct m; cbn; congruence. Qed.
Lemma everywhere_here P m t : everywhere P m t -> P m t.
Proof. destruct t; cbn [everywhere]; tauto. Qed.

(** ** outer_identifiers, identifier and the specification agree *)
Lemma outer_ids_first :
  (forall t m, everywhere plain m t -> map cid_id (outer_ids m t) = first_tags t) /\
  (forall cs m i, m <> automatic -> everywhere_comps plain m cs -> map cid_id (outer_ids_choice m i cs) = all_first cs).
Proof.
  apply aty_mutind.
  - reflexivity.
  - reflexivity.
  - reflexivity.
  - reflexivity.
  - intros cs IH m (H & Hc). cbn [outer_ids first_tags]. apply IH; [apply H|exact Hc].
  - reflexivity.
  - intros m' t IH m (H & Hc). cbn [outer_ids first_tags]. apply IH. exact Hc.
  - reflexivity.
  - intros k t IH cs IHcs m i Hm (Ht & Hc). cbn [outer_ids_choice all_first]. rewrite not_auto by exact Hm.
    rewrite map_app, IH by exact Ht. rewrite IHcs by auto. reflexivity.
Qed.
Lemma first_tags_nonempty :
  (forall t m, everywhere plain m t -> first_tags t <> []) /\
  (forall cs m, everywhere_comps plain m cs -> cs <> ANil -> all_first cs <> []).
Proof.
  apply aty_mutind; try discriminate.
  - intros cs IH m (H & Hc). apply (IH m); [exact Hc|apply H].
  - intros m' t IH m (H & Hc). apply (IH m'). exact Hc.
  - congruence.
  - intros k t IH cs IHcs m (Ht & Hc) _. cbn [all_first]. intros E. apply app_eq_nil in E. apply (IH m); tauto.
Qed.
Lemma choice_ids_plain cs m i : m <> automatic -> choice_ids m i cs = outer_ids_choice m i cs.
Proof.
  intros Hm. revert i. induction cs as [|k t cs IH]; intros i; [reflexivity|]. cbn [choice_ids outer_ids_choice].
  rewrite not_auto by exact Hm. rewrite IH. reflexivity.
Qed.
Lemma outer_tags_eq t : forall m, everywhere plain m t -> outer_tags (info m t) = outer_ids m t.
Proof.
  induction t as [| | | |cs|kw c n t IH|m' t IH]; intros m H; try reflexivity.
  - cbn [info outer_ids]. unfold outer_tags. cbn [ti_outer ti_choice]. destruct H as ((Hm & Hn) & Hc).
    rewrite choice_ids_plain by exact Hm. pose proof (proj2 first_tags_nonempty cs m Hc Hn) as Hne.
    rewrite <- (proj2 outer_ids_first cs m 0 Hm Hc) in Hne. destruct (outer_ids_choice m 0 cs); [exfalso; apply Hne; reflexivity|reflexivity].
  - cbn [info outer_ids]. match goal with |- context [if ?b then _ else _] => destruct b end; reflexivity.
  - apply IH. apply H.
Qed.
Lemma outer_tags_first m t : everywhere plain m t -> map cid_id (outer_tags (info m t)) = first_tags t.
Proof. intros H. rewrite outer_tags_eq by exact H. apply outer_ids_first. exact H. Qed.

(** ** Names *)
Lemma info_nondefault t : forall m, ti_default (info m t) = false ->
  exists i, ti_name (info m t) = Some i /\ map cid_id (outer_tags (info m t)) = [outer_id i].
Proof.
  induction t as [| | | | |kw c n t IH|m' t IH]; intros m H; try discriminate.
  - cbn [info]. match goal with |- context [if ?b then _ else _] => destruct b end; eexists; split; reflexivity.
  - apply IH. exact H.
Qed.
Lemma info_tagged m kw c n t : ti_default (info m (ATagged kw c n t)) = false.
Proof. cbn [info]. match goal with |- context [if ?b then _ else _] => destruct b end; reflexivity. Qed.
Lemma info_wf t : forall m i, everywhere plain m t -> 0 <= c_tag (ti_inner (info m t)) < 2^63 /\
  (ti_name (info m t) = Some i -> wf_ident i).
Proof.
  induction t as [| | | |cs|kw c n t IH|m' t IH]; intros m i H.
  - cbn. destruct H as ((_ & _ & Hu) & _). split; [exact Hu|]. intros [= <-]. exact Hu.
  - cbn. destruct set; (split; [lia|]; intros [= <-]; cbn; lia).
  - cbn. split; [lia|]; intros [= <-]; cbn; lia.
  - cbn. split; [lia|]; intros [= <-]; cbn; lia.
  - split; [cbn; lia|]. cbn [info]. unfold ti_name. cbn [ti_outer ti_choice ti_inner].
    destruct (choice_ids m 0 cs); [|discriminate]. intros [= <-]. cbn; lia.
  - cbn [info]. destruct H as ((Hm & Hc & Hn) & Ht). specialize (IH m i Ht) as (IH & _).
    match goal with |- context [if ?b then _ else _] => destruct b end; cbn [ti_inner c_tag tag_cid].
    + split; [exact IH|]. intros [= <-]. cbn [wf_ident]. split; assumption.
    + split; [assumption|]. intros [= <-]. cbn [wf_ident]. assumption.
  - apply IH. apply H.
Qed.

(** ** Generated types *)
Lemma gen_def_named t : (forall m, plain m (ADef m t)) \/ (exists m m', plain m (ADef m' t)) -> gen_def t = gen_named t.
Proof.
  intros H. assert (Hp : match t with ATagged _ _ _ (ATagged _ _ _ _) => False | _ => True end)
    by (destruct H as [H|(m & m' & H)]; [specialize (H explicit_) as (_ & H)|destruct H as (_ & H)]; destruct t; cbn in *; auto;
        destruct t; auto).
  destruct t; try reflexivity. destruct t; try reflexivity. destruct Hp.
Qed.
Definition generated_ty (t : ty) : Prop := match t with TSeq _ _ | TSet _ _ _ | TChoice _ _ _ => True | _ => False end.
Lemma cpp_shape t : forall m ov, everywhere plain m t ->
  if gen_named t then generated_ty (cpp m ov t)
  else exists i, or_id ov (ti_name (info m t)) = Some i /\ type_ids (cpp m ov t) = [outer_id i].
Proof.
  induction t as [| | | |cs|kw c n t IH|m' t IH]; intros m ov H; cbn [gen_named is_generated].
  - exists (get_id ov (Id universal u)). destruct ov; split; reflexivity.
  - exists (get_id ov (Id universal (if set then 17 else 16))). destruct ov, set; split; reflexivity.
  - exact I.
  - exact I.
  - exact I.
  - cbn [cpp]. destruct H as (_ & H). destruct (info_nondefault (ATagged kw c n t) m) as (i & Ei & _); [apply info_tagged|].
    rewrite Ei. specialize (IH m (or_id ov (Some i)) H). destruct (gen_named t); [exact IH|].
    destruct IH as (j & Ej & Et). exists j. split; [|exact Et]. destruct ov; exact Ej.
  - cbn [cpp]. rewrite gen_def_named by (right; exists m, m'; exact (everywhere_here _ _ _ H)).
    destruct H as (_ & H). cbn [info].
    destruct (gen_named t) eqn:Eg.
    + specialize (IH m' None H). exact IH.
    + specialize (IH m' (or_id ov (ti_name (info m' t))) H). destruct IH as (j & Ej & Et).
      exists j. split; [|exact Et]. destruct ov; [exact Ej|]. cbn [or_id] in *. destruct (ti_name (info m' t)); exact Ej.
Qed.
Lemma with_id_ids i t : generated_ty t -> type_ids (with_id (Some i) t) = [outer_id i].
Proof. destruct t; cbn; tauto. Qed.

(** ** The labels of the generated code are the identifiers of the members *)
Lemma comps_ids_choice cs : forall m i, m <> automatic -> everywhere_comps plain m cs ->
  comps_ids (cpp_comps InChoice m i cs) = all_first cs.
Proof.
  induction cs as [|k t cs IH]; intros m i Hm H; [reflexivity|]. destruct H as (Ht & H).
  cbn [cpp_comps comps_ids all_first labels]. rewrite not_auto by exact Hm. rewrite IH by auto.
  rewrite (proj1 outer_ids_first) by exact Ht. reflexivity.
Qed.
Lemma cpp_default_ids t : forall m, everywhere plain m t -> gen_named t = true -> ti_default (info m t) = true ->
  type_ids (cpp m None t) = first_tags t.
Proof.
  induction t as [| | | |cs|kw c n t IH|m' t IH]; intros m H Hg Hd; try reflexivity.
  - destruct H as ((Hm & _) & H). cbn [cpp type_ids first_tags]. apply comps_ids_choice; auto.
  - rewrite info_tagged in Hd. discriminate.
  - pose proof (gen_def_named t ltac:(right; exists m, m'; exact (everywhere_here _ _ _ H))) as Eg.
    destruct H as (_ & H). cbn [cpp first_tags gen_named] in *. rewrite Hg. apply IH; [exact H| |exact Hd]. congruence.
Qed.
Lemma member_ids m t : everywhere plain m t -> type_ids (member m t (cpp m None t)) = first_tags t.
Proof.
  intros H. unfold member. pose proof (cpp_shape t m None H) as Hs. destruct (gen_named t) eqn:Eg; cbn [andb].
  - destruct (ti_default (info m t)) eqn:Ed; cbn [negb]; [apply cpp_default_ids; auto|].
    destruct (info_nondefault t m Ed) as (i & -> & E). rewrite with_id_ids by exact Hs.
    rewrite <- E. apply outer_tags_first. exact H.
  - destruct Hs as (i & Ei & Et). rewrite Et. cbn [or_id] in Ei.
    assert (E : map cid_id (outer_tags (info m t)) = [outer_id i]).
    { unfold ti_name in Ei. unfold outer_tags. destruct (ti_outer (info m t)); [inv Ei; reflexivity|].
      destruct (ti_choice (info m t)); [inv Ei; reflexivity|discriminate]. }
    rewrite <- E. apply outer_tags_first. exact H.
Qed.

(** ** Duplicates *)
Definition cid_norm (a : cid) : Prop := (c_class a <> universal /\ c_univ a = 0) \/ (c_class a = universal /\ c_univ a = c_tag a).
Lemma class_eqb_iff a b : class_eqb a b = true <-> a = b.
Proof. destruct a, b; cbn; split; congruence. Qed.
Lemma cid_eqb_iff a b : cid_norm a -> cid_norm b -> (cid_eqb a b = true <-> cid_id a = cid_id b).
Proof.
  destruct a as [c t u], b as [c' t' u']. unfold cid_norm, cid_eqb, cid_id. cbn [c_class c_tag c_univ].
  rewrite !Bool.andb_true_iff, class_eqb_iff. intros H1 H2. split.
  - intros ((-> & H) & _). apply Z.eqb_eq in H. subst. reflexivity.
  - intros [= -> ->]. rewrite !Z.eqb_eq. destruct H1 as [[]|[]], H2 as [[]|[]]; subst; intuition congruence.
Qed.
Lemma has_dup_iff ids : Forall cid_norm ids -> (has_dup ids = false <-> NoDup (map cid_id ids)).
Proof.
  induction 1 as [|a ids Ha H IH]; cbn [has_dup map]; [split; [constructor|reflexivity]|].
  rewrite Bool.orb_false_iff, IH, NoDup_cons_iff. apply and_iff_compat_r.
  rewrite in_map_iff. split.
  - intros E (b & Eb & Hb). assert (existsb (cid_eqb a) ids = true); [|congruence].
    apply existsb_exists. exists b. split; [exact Hb|]. rewrite Forall_forall in H. apply cid_eqb_iff; auto.
  - intros E. apply Bool.not_true_iff_false. intros Ex. apply existsb_exists in Ex as (b & Hb & Eb). apply E. exists b.
    rewrite Forall_forall in H. apply cid_eqb_iff in Eb; auto.
Qed.
Lemma outer_ids_norm :
  (forall t m, everywhere plain m t -> Forall cid_norm (outer_ids m t)) /\
  (forall cs m i, m <> automatic -> everywhere_comps plain m cs -> Forall cid_norm (outer_ids_choice m i cs)).
Proof.
  assert (U : forall u, cid_norm (univ_cid u)) by (intros; right; split; reflexivity).
  apply aty_mutind; cbn [outer_ids outer_ids_choice].
  - intros. apply Forall_cons; [exact (U _)|constructor].
  - intros. apply Forall_cons; [exact (U _)|constructor].
  - intros. apply Forall_cons; [exact (U _)|constructor].
  - intros. apply Forall_cons; [exact (U _)|constructor].
  - intros cs IH m (H & Hc). apply IH; [apply H|exact Hc].
  - intros kw c n t _ m ((_ & Hc & _) & _). apply Forall_cons; [left; split; [exact Hc|reflexivity]|constructor].
  - intros m' t IH m (_ & H). apply IH. exact H.
  - constructor.
  - intros k t IH cs IHcs m i Hm (Ht & H). rewrite not_auto by exact Hm. apply Forall_app. auto.
Qed.
Lemma set_ids_spec cs : forall m, m <> automatic -> everywhere_comps plain m cs ->
  map cid_id (set_ids m cs) = all_first cs /\ Forall cid_norm (set_ids m cs).
Proof.
  induction cs as [|k t cs IH]; intros m Hm H; [split; [reflexivity|constructor]|]. destruct H as (Ht & H).
  cbn [set_ids all_first]. destruct (IH m Hm H) as (E & F). rewrite map_app, outer_tags_first, E by exact Ht.
  split; [reflexivity|]. apply Forall_app. split; [|exact F]. rewrite outer_tags_eq by exact Ht. apply outer_ids_norm. exact Ht.
Qed.
Lemma check_set_iff m cs : m <> automatic -> everywhere_comps plain m cs -> (check_set m cs = true <-> NoDup (all_first cs)).
Proof.
  intros Hm H. unfold check_set. rewrite not_auto by exact Hm. cbn [orb]. rewrite Bool.negb_true_iff.
  destruct (set_ids_spec cs m Hm H) as (E & F). rewrite has_dup_iff by exact F. rewrite E. reflexivity.
Qed.
Lemma choice_ok_iff m cs : everywhere plain m (AChoice cs) -> (choice_ok m cs = true <-> NoDup (all_first cs)).
Proof.
  intros H. unfold choice_ok. rewrite Bool.negb_true_iff. rewrite has_dup_iff.
  - rewrite outer_tags_first by exact H. reflexivity.
  - rewrite outer_tags_eq by exact H. apply (proj1 outer_ids_norm). exact H.
Qed.

(** ** The generated code is a good schema *)
Definition good (t : ty) : Prop := wf_ty t /\ labelled t /\ unambiguous t /\ choices_by_tag t.
Lemma with_id_good i t : wf_ident i -> good t -> good (with_id (Some i) t).
Proof.
  intros Hi (H1 & H2 & H3 & H4). destruct t; unfold good; cbn [with_id wf_ty labelled unambiguous choices_by_tag] in *; tauto.
Qed.
Lemma wf_get_id ov i : wf_ident i -> (forall j, ov = Some j -> wf_ident j) -> wf_ident (get_id ov i).
Proof. intros H Ho. destruct ov; cbn; auto. Qed.
Lemma NoDup_app_disjoint (a b : list (class * Z)) : NoDup (a ++ b) -> disjoint a b /\ NoDup b.
Proof.
  induction a as [|x a IH]; cbn; intros H; [split; [intros ? []|exact H]|]. inv H. destruct (IH H3) as (D & N). split; [|exact N].
  intros y [<-|Hy] Hb; [apply H2, in_or_app; auto|exact (D y Hy Hb)].
Qed.
Lemma labels_ids w m i k t : m <> automatic -> everywhere plain m t ->
  labels w m i k t (member m t (cpp m None t)) = first_tags t.
Proof.
  intros Hm H. unfold labels. rewrite not_auto by exact Hm. pose proof (proj1 outer_ids_first t m H) as E.
  destruct w, k; try exact E. apply member_ids. exact H.
Qed.
Lemma comps_ids_cpp w cs : forall m i, m <> automatic -> everywhere_comps plain m cs ->
  comps_ids (cpp_comps w m i cs) = all_first cs /\ next_ids (cpp_comps w m i cs) = follow cs.
Proof.
  induction cs as [|k t cs IH]; intros m i Hm H; [split; reflexivity|]. destruct H as (Ht & H).
  cbn [cpp_comps comps_ids next_ids all_first follow]. rewrite not_auto by exact Hm. destruct (IH m (i + 1) Hm H) as (E1 & E2).
  rewrite labels_ids by assumption. rewrite E1, E2. split; [reflexivity|]. destruct k; reflexivity.
Qed.
Lemma seq_distinct_cpp w cs : forall m i, m <> automatic -> everywhere_comps plain m cs -> seq_valid cs ->
  seq_distinct (cpp_comps w m i cs).
Proof.
  induction cs as [|k t cs IH]; intros m i Hm H Hv; [exact I|]. destruct H as (Ht & H). destruct Hv as (Hd & Hv).
  cbn [cpp_comps seq_distinct]. rewrite not_auto by exact Hm. rewrite labels_ids by assumption.
  split; [|apply IH; assumption]. destruct (comps_ids_cpp w cs m (i + 1) Hm H) as (_ & ->). exact Hd.
Qed.
Lemma all_distinct_cpp w cs : forall m i, m <> automatic -> everywhere_comps plain m cs -> NoDup (all_first cs) ->
  all_distinct (cpp_comps w m i cs).
Proof.
  induction cs as [|k t cs IH]; intros m i Hm H Hv; [exact I|]. destruct H as (Ht & H).
  cbn [all_first] in Hv. apply NoDup_app_disjoint in Hv as (Hd & Hv).
  cbn [cpp_comps all_distinct]. rewrite not_auto by exact Hm. rewrite labels_ids by assumption.
  split; [|apply IH; assumption]. destruct (comps_ids_cpp w cs m (i + 1) Hm H) as (-> & _). exact Hd.
Qed.
Definition good_comps (cs : comps) : Prop := wf_comps cs /\ labelled_comps cs /\ unambiguous_comps cs /\ choices_by_tag_comps cs.
Lemma cpp_good :
  (forall t m ov, everywhere plain m t -> everywhere valid_seqs m t -> everywhere choice_numbers m t -> accepts m t = true ->
     (forall j, ov = Some j -> wf_ident j) -> good (cpp m ov t)) /\
  (forall cs w m i, m <> automatic -> everywhere_comps plain m cs -> everywhere_comps valid_seqs m cs ->
     everywhere_comps choice_numbers m cs -> accepts_comps m cs = true -> good_comps (cpp_comps w m i cs)).
Proof.
  apply aty_mutind.
  - intros k u m ov H _ _ _ Ho. destruct H as ((_ & Hk & Hu) & _). pose proof (wf_get_id ov (Id universal u) Hu Ho) as Hi.
    unfold good. cbn [cpp wf_ty labelled unambiguous choices_by_tag]. repeat split; auto.
    destruct k; cbn [kind_ok] in Hk; auto. destruct Hk as (Hz & Hb). pose proof (zlen_nonneg x0).
    split; [|split; [lia|exact Hb]].
    split; [exact Hi|]. split; [lia|]. destruct (get_id ov (Id universal u)) as [|oc ot ic it]; cbn [small_fits wf_ident] in *; [lia|].
    pose proof (ehl1_range it 0 ltac:(lia)). lia.
  - intros set t IH m ov H Hv Hc Ha Ho. unfold good. cbn [cpp wf_ty labelled unambiguous choices_by_tag].
    destruct (IH m None ltac:(apply H) ltac:(apply Hv) ltac:(apply Hc) Ha ltac:(discriminate)) as (G1 & G2 & G3 & G4).
    repeat split; auto. apply wf_get_id; [destruct set; cbn; lia|exact Ho].
  - intros cs IH m ov ((Hm & _) & H) (Hv0 & Hv) (_ & Hc) Ha Ho. cbn [accepts] in Ha. apply Bool.andb_true_iff in Ha as (_ & Ha).
    destruct (IH InSeq m 0 Hm H Hv Hc Ha) as (G1 & G2 & G3 & G4).
    unfold good. cbn [cpp wf_ty labelled unambiguous choices_by_tag]. repeat split; auto.
    + apply wf_get_id; [cbn; lia|exact Ho].
    + apply seq_distinct_cpp; assumption.
  - intros ext cs IH m ov ((Hm & _) & H) (_ & Hv) (_ & Hc) Ha Ho. cbn [accepts] in Ha. apply Bool.andb_true_iff in Ha as (Hs & Ha).
    destruct (IH InSet m 0 Hm H Hv Hc Ha) as (G1 & G2 & G3 & G4).
    unfold good. cbn [cpp wf_ty labelled unambiguous choices_by_tag]. repeat split; auto.
    + apply wf_get_id; [cbn; lia|exact Ho].
    + apply all_distinct_cpp; auto. apply (check_set_iff m cs Hm H). exact Hs.
  - intros cs IH m ov H (_ & Hv) (Hn & Hc) Ha Ho. pose proof H as ((Hm & Hne) & Hp).
    cbn [accepts] in Ha. apply Bool.andb_true_iff in Ha as (Hs & Ha).
    destruct (IH InChoice m 0 Hm Hp Hv Hc Ha) as (G1 & G2 & G3 & G4).
    unfold good. cbn [cpp wf_ty labelled unambiguous choices_by_tag]. repeat split; auto.
    + destruct ov; auto.
    + destruct cs; [congruence|discriminate].
    + apply all_distinct_cpp; auto. apply (choice_ok_iff m cs H). exact Hs.
    + right. intros c1 c2 n. destruct (comps_ids_cpp InChoice cs m 0 Hm Hp) as (-> & _). apply Hn.
  - intros kw c n t IH m ov H (_ & Hv) (_ & Hc) Ha Ho. cbn [cpp]. apply IH; auto; [apply H|].
    intros j. destruct ov; cbn [or_id]; [auto|]. apply (info_wf (ATagged kw c n t) m j H).
  - intros m' t IH m ov H (_ & Hv) (_ & Hc) Ha Ho. cbn [cpp].
    destruct (gen_def t); (apply IH; auto; [apply H|]); [discriminate|].
    intros j. destruct ov; cbn [or_id]; [auto|]. apply (info_wf (ADef m' t) m j H).
  - intros. repeat split.
  - intros k t IH cs IHcs w m i Hm (Ht & H) (Hvt & Hv) (Hct & Hc) Ha. cbn [accepts_comps] in Ha.
    apply Bool.andb_true_iff in Ha as (Hat & Ha). cbn [cpp_comps]. rewrite not_auto by exact Hm.
    assert (G : good (member m t (cpp m None t))).
    { pose proof (IH m None Ht Hvt Hct Hat ltac:(discriminate)) as G. unfold member.
      destruct (gen_named t && negb (ti_default (info m t)))%bool; [|exact G].
      destruct (ti_name (info m t)) as [j|] eqn:Ej; [|exact G]. apply with_id_good; [|exact G].
      apply (info_wf t m j Ht). exact Ej. }
    destruct G as (G1 & G2 & G3 & G4). destruct (IHcs w m (i + 1) Hm H Hv Hc Ha) as (F1 & F2 & F3 & F4).
    repeat split; auto. rewrite labels_ids by assumption. symmetry. apply member_ids. exact Ht.
Qed.

(** ** Valid types are accepted *)
Lemma check_seq_loop_ok cs : forall m prev, everywhere_comps plain m cs ->
  (forall x, In x (map cid_id prev) -> In x (follow cs) -> False) ->
  Forall cid_norm prev -> seq_valid cs -> check_seq_loop m prev cs = true.
Proof.
  induction cs as [|k t cs IH]; intros m prev H Hd Hn Hv; [reflexivity|]. destruct H as (Ht & H). destruct Hv as (Hk & Hv).
  cbn [check_seq_loop follow] in *. pose proof (outer_tags_first m t Ht) as Ef.
  assert (En : Forall cid_norm (outer_tags (info m t))) by (rewrite outer_tags_eq by exact Ht; apply outer_ids_norm; exact Ht).
  assert (Ee : k <> Mand -> existsb (fun p => match outer_tags (info m t) with a :: _ => cid_eqb p a | [] => false end) prev = false).
  { intros Hk'. apply Bool.not_true_iff_false. intros Ex. apply existsb_exists in Ex as (p & Hp & Ep).
    destruct (outer_tags (info m t)) as [|a l] eqn:Eo; [discriminate|]. rewrite Forall_forall in Hn. inv En.
    apply cid_eqb_iff in Ep; auto. apply (Hd (cid_id a)).
    - rewrite <- Ep. apply in_map. exact Hp.
    - rewrite <- Ef. destruct k; [congruence| |]; cbn [map app]; left; reflexivity. }
  destruct k.
  - apply IH; auto.
  - rewrite Ee by discriminate. apply IH; auto. intros x Hx. rewrite Ef in Hx. destruct Hk as [|Hk]; [discriminate|]. apply (Hk x Hx).
  - rewrite Ee by discriminate. apply IH; auto. intros x Hx. rewrite Ef in Hx. destruct Hk as [|Hk]; [discriminate|]. apply (Hk x Hx).
Qed.
Lemma accepts_valid :
  (forall t m, everywhere plain m t -> everywhere valid_seqs m t -> everywhere distinct_members m t -> accepts m t = true) /\
  (forall cs m, everywhere_comps plain m cs -> everywhere_comps valid_seqs m cs -> everywhere_comps distinct_members m cs ->
     accepts_comps m cs = true).
Proof.
  apply aty_mutind; cbn [accepts accepts_comps]; auto.
  - intros set t IH m (_ & H1) (_ & H2) (_ & H3). apply IH; assumption.
  - intros cs IH m ((Hm & _) & H1) (Hs & H2) (_ & H3). rewrite IH by assumption. unfold check_seq. rewrite not_auto by exact Hm.
    rewrite check_seq_loop_ok; auto.
  - intros ext cs IH m ((Hm & _) & H1) (_ & H2) (Hs & H3). rewrite IH by assumption.
    rewrite (proj2 (check_set_iff m cs Hm H1) Hs). reflexivity.
  - intros cs IH m H (_ & H2) (Hs & H3). rewrite IH; [|apply H|assumption|assumption].
    rewrite (proj2 (choice_ok_iff m cs H) Hs). reflexivity.
  - intros kw c n t IH m (_ & H1) (_ & H2) (_ & H3). apply IH; assumption.
  - intros m' t IH m (_ & H1) (_ & H2) (_ & H3). apply IH; assumption.
  - intros k t IH cs IHcs m (T1 & H1) (T2 & H2) (T3 & H3). rewrite IH, IHcs by assumption. reflexivity.
Qed.

(** ** Tags *)
Lemma info_tags t : forall m i, one_explicit m t -> ti_name (info m t) = Some i ->
  (x680_tags m t = [] -> False) -> id_tags i = x680_tags m t.
Proof.
  intros m i. revert m. rename t into t1. assert (G : forall m t, one_explicit m t ->
     match x680_tags m t with
     | [] => ti_outer (info m t) = None
     | [a] => ti_outer (info m t) = None /\ ti_choice (info m t) = [] /\ cid_id (ti_inner (info m t)) = a
     | [a; b] => exists o, ti_outer (info m t) = Some o /\ cid_id o = a /\ cid_id (ti_inner (info m t)) = b
     | _ => False
     end).
  { clear. intros m t0; revert m. induction t0 as [| |cs|ext cs|cs|kw c n t IH|m' t IH]; intros m H; try (repeat split; reflexivity).
    - cbn [one_explicit] in H. destruct H as (Hk & He & H). specialize (IH m H). cbn [x680_tags info].
      assert (Ex : x680_explicit m kw = match kw with
        | explicit_ => true | implicit_ => false
        | automatic => match m with explicit_ | automatic => true | implicit_ => false end end).
      { destruct kw, m; try reflexivity. exfalso. apply Hk; reflexivity. }
      rewrite <- Ex. clear Ex. destruct (x680_explicit m kw); cbn [orb].
      + specialize (He eq_refl). destruct (x680_tags m t) as [|a [|b l]]; try discriminate He.
        destruct IH as (E1 & E2 & E3). eexists. cbn [ti_outer ti_inner]. split; [reflexivity|]. split; [reflexivity|exact E3].
      + destruct (x680_tags m t) as [|a [|b [|]]]; cbn [tl].
        * rewrite IH. cbn. repeat split; reflexivity.
        * destruct IH as (-> & _ & _). cbn. repeat split; reflexivity.
        * destruct IH as (o & -> & _ & E). eexists. cbn [ti_outer ti_inner]. split; [reflexivity|]. split; [reflexivity|exact E].
        * destruct IH.
    - apply IH. exact H. }
  intros m H Hi Hne. specialize (G m t1 H). unfold ti_name in Hi. destruct (x680_tags m t1) as [|a [|b [|]]].
  - exfalso. apply Hne. reflexivity.
  - destruct G as (E1 & E2 & E3). rewrite E1, E2 in Hi. inv Hi. reflexivity.
  - destruct G as (o & E1 & E2 & E3). rewrite E1 in Hi. inv Hi. reflexivity.
  - destruct G.
Qed.
Lemma x680_name m t : everywhere plain m t -> x680_tags m t <> [] -> exists i, ti_name (info m t) = Some i.
Proof.
  intros _. revert m. induction t as [| |cs|ext cs|cs|kw c n t IH|m' t IH]; intros m H; try (eexists; reflexivity).
  - exfalso. apply H. reflexivity.
  - destruct (info_nondefault (ATagged kw c n t) m) as (i & E & _); [apply info_tagged|]. eauto.
  - apply IH. exact H.
Qed.
Lemma own_id_cpp t : forall m ov, everywhere plain m t -> (gen_named t = true -> is_generated t = true) ->
  own_id (cpp m ov t) = or_id ov (ti_name (info m t)).
Proof.
  induction t as [| | | |cs|kw c n t IH|m' t IH]; intros m ov H Hg.
  - destruct ov; reflexivity.
  - destruct ov, set; reflexivity.
  - destruct ov; reflexivity.
  - destruct ov; reflexivity.
  - cbn [cpp own_id]. destruct ov; [reflexivity|]. cbn [or_id info]. unfold ti_name. cbn [ti_outer ti_choice].
    destruct H as ((Hm & Hn) & H). rewrite choice_ids_plain by exact Hm.
    pose proof (proj2 first_tags_nonempty cs m H Hn) as Hne. rewrite <- (proj2 outer_ids_first cs m 0 Hm H) in Hne.
    destruct (outer_ids_choice m 0 cs); [exfalso; apply Hne; reflexivity|reflexivity].
  - cbn [cpp]. destruct (info_nondefault (ATagged kw c n t) m) as (i & -> & _); [apply info_tagged|].
    rewrite IH; [|apply H|exact Hg]. destruct ov; reflexivity.
  - pose proof (gen_def_named t ltac:(right; exists m, m'; exact (everywhere_here _ _ _ H))) as Eg.
    cbn [cpp gen_named is_generated] in *. destruct (gen_def t) eqn:Ed; [discriminate (Hg eq_refl)|].
    rewrite IH; [|apply H|congruence]. cbn [info]. destruct ov; [reflexivity|]. cbn [or_id].
    destruct (ti_name (info m' t)); reflexivity.
Qed.
Lemma gen_default_own t : forall m, everywhere plain m t -> gen_named t = true -> ti_default (info m t) = true ->
  own_id (cpp m None t) = ti_name (info m t).
Proof.
  induction t as [| | | |cs|kw c n t IH|m' t IH]; intros m H Hg Hd; try discriminate.
  - reflexivity.
  - reflexivity.
  - apply own_id_cpp; auto.
  - rewrite info_tagged in Hd. discriminate.
  - pose proof (gen_def_named t ltac:(right; exists m, m'; exact (everywhere_here _ _ _ H))) as Eg.
    cbn [cpp gen_named] in *. rewrite Hg. apply IH; [apply H|congruence|exact Hd].
Qed.
Lemma own_id_member m t : everywhere plain m t -> own_id (member m t (cpp m None t)) = ti_name (info m t).
Proof.
  intros H. unfold member. destruct (gen_named t) eqn:Eg; cbn [andb].
  - destruct (ti_default (info m t)) eqn:Ed; cbn [negb]; [apply gen_default_own; auto|].
    destruct (info_nondefault t m Ed) as (i & -> & _). pose proof (cpp_shape t m None H) as Hs. rewrite Eg in Hs.
    destruct (cpp m None t); cbn in *; tauto.
  - rewrite own_id_cpp; [reflexivity|exact H|congruence].
Qed.
Lemma id_packet_tags i con p x : id_packet i con p x [] -> tagged_octets (id_tags i) con p x.
Proof.
  destruct i; cbn [id_packet id_tags tagged_octets]; [tauto|]. intros (q & H1 & H2). exists q. rewrite app_nil_r in H1. tauto.
Qed.
Lemma ber_of_own t v p i : ber_of t v p -> own_id t = Some i -> exists x, id_packet i (own_con t) p x [].
Proof.
  destruct t as [k j|j t|j cs|j ext cs|g [j|] cs], v; cbn [ber_of own_id own_con]; try tauto; intros H [= <-].
  - destruct H. eauto.
  - destruct H as (ps & _ & H). eauto.
  - destruct H as (ps & _ & H). eauto.
  - destruct H as (ps & qs & _ & _ & H). eauto.
  - destruct H as (q & _ & H). eauto.
Qed.

(** ** Well-formedness of the generated code needs no validity *)
Lemma with_id_wf i t : wf_ident i -> wf_ty t -> wf_ty (with_id (Some i) t).
Proof. intros Hi H. destruct t; cbn [with_id wf_ty] in *; tauto. Qed.
Lemma cpp_wf :
  (forall t m ov, everywhere plain m t -> (forall j, ov = Some j -> wf_ident j) -> wf_ty (cpp m ov t)) /\
  (forall cs w m i, m <> automatic -> everywhere_comps plain m cs -> wf_comps (cpp_comps w m i cs)).
Proof.
  apply aty_mutind.
  - intros k u m ov H Ho. destruct H as ((_ & Hk & Hu) & _). pose proof (wf_get_id ov (Id universal u) Hu Ho) as Hi.
    cbn [cpp wf_ty]. split; [exact Hi|].
    destruct k; cbn [kind_ok] in Hk; auto. destruct Hk as (Hz & Hb). pose proof (zlen_nonneg x0).
    split; [|split; [lia|exact Hb]].
    split; [exact Hi|]. split; [lia|]. destruct (get_id ov (Id universal u)) as [|oc ot ic it]; cbn [small_fits wf_ident] in *; [lia|].
    pose proof (ehl1_range it 0 ltac:(lia)). lia.
  - intros set t IH m ov H Ho. cbn [cpp wf_ty]. split; [apply wf_get_id; [destruct set; cbn; lia|exact Ho]|].
    apply IH; [apply H|discriminate].
  - intros cs IH m ov ((Hm & _) & H) Ho. cbn [cpp wf_ty]. split; [apply wf_get_id; [cbn; lia|exact Ho]|]. apply IH; assumption.
  - intros ext cs IH m ov ((Hm & _) & H) Ho. cbn [cpp wf_ty]. split; [apply wf_get_id; [cbn; lia|exact Ho]|]. apply IH; assumption.
  - intros cs IH m ov ((Hm & Hne) & H) Ho. cbn [cpp wf_ty]. split; [destruct ov; auto|].
    split; [destruct cs; [congruence|discriminate]|]. apply IH; assumption.
  - intros kw c n t IH m ov H Ho. cbn [cpp]. apply IH; auto; [apply H|].
    intros j. destruct ov; cbn [or_id]; [auto|]. apply (info_wf (ATagged kw c n t) m j H).
  - intros m' t IH m ov H Ho. cbn [cpp]. destruct (gen_def t); (apply IH; auto; [apply H|]); [discriminate|].
    intros j. destruct ov; cbn [or_id]; [auto|]. apply (info_wf (ADef m' t) m j H).
  - intros. exact I.
  - intros k t IH cs IHcs w m i Hm (Ht & H). cbn [cpp_comps wf_comps]. split; [|apply IHcs; assumption]. rewrite not_auto by exact Hm.
    pose proof (IH m None Ht ltac:(discriminate)) as G. unfold member.
    destruct (gen_named t && negb (ti_default (info m t)))%bool; [|exact G].
    destruct (ti_name (info m t)) as [j|] eqn:Ej; [|exact G]. apply with_id_wf; [|exact G].
    apply (info_wf t m j Ht). exact Ej.
Qed.
Lemma member_wf m t : everywhere plain m t -> wf_ty (member m t (cpp m None t)).
Proof.
  intros H. pose proof (proj1 cpp_wf t m None H ltac:(discriminate)) as G. unfold member.
  destruct (gen_named t && negb (ti_default (info m t)))%bool; [|exact G].
  destruct (ti_name (info m t)) as [j|] eqn:Ej; [|exact G]. apply with_id_wf; [|exact G]. apply (info_wf t m j H). exact Ej.
Qed.

(** ** AUTOMATIC TAGS *)
Lemma info_wf_auto t : forall m i, everywhere auto_simple m t -> 0 <= c_tag (ti_inner (info m t)) < 2^63 /\
  (ti_name (info m t) = Some i -> wf_ident i).
Proof.
  induction t as [| | | |cs|kw c n t IH|m' t IH]; intros m i H.
  - cbn. destruct H as ((_ & _ & Hu) & _). split; [exact Hu|]. intros [= <-]. exact Hu.
  - cbn. destruct set; (split; [lia|]; intros [= <-]; cbn; lia).
  - cbn. split; [lia|]; intros [= <-]; cbn; lia.
  - cbn. split; [lia|]; intros [= <-]; cbn; lia.
  - split; [cbn; lia|]. cbn [info]. unfold ti_name. cbn [ti_outer ti_choice ti_inner].
    destruct (choice_ids m 0 cs); [|discriminate]. intros [= <-]. cbn; lia.
  - cbn [info]. destruct H as ((Hm & Hn) & Ht). specialize (IH m i Ht) as (IH & _).
    match goal with |- context [if ?b then _ else _] => destruct b end; cbn [ti_inner c_tag tag_cid].
    + split; [exact IH|]. intros [= <-]. cbn [wf_ident]. split; assumption.
    + split; [assumption|]. intros [= <-]. cbn [wf_ident]. assumption.
  - apply IH. apply H.
Qed.
Lemma gen_def_named_auto t m m' : auto_simple m (ADef m' t) -> gen_def t = gen_named t.
Proof.
  intros (_ & H). destruct t; try reflexivity. destruct t; try reflexivity. destruct H.
Qed.
(** A member that is not a reference to a structured type, and not tagged, carries the automatic tag. *)
Lemma gen_named_structured t : forall m, everywhere auto_simple m t -> gen_named t = true -> structured t.
Proof.
  induction t as [| | | |cs|kw c n t IH|m' t IH]; intros m H Hg; try discriminate; try exact I.
  - exact (IH m ltac:(apply H) Hg).
  - pose proof (gen_def_named_auto t m m' (everywhere_here _ _ _ H)) as E. cbn [gen_named] in Hg.
    apply (IH m'); [apply H|congruence].
Qed.
Lemma nongen_ids t : forall m i, everywhere auto_simple m t -> gen_named t = false -> type_ids (cpp m (Some i) t) = [outer_id i].
Proof.
  induction t as [| | | |cs|kw c n t IH|m' t IH]; intros m i H Hg; try discriminate; try reflexivity.
  - cbn [cpp or_id]. apply IH; [apply H|exact Hg].
  - pose proof (gen_def_named_auto t m m' (everywhere_here _ _ _ H)) as E. cbn [gen_named cpp] in *. rewrite Hg.
    apply IH; [apply H|congruence].
Qed.
Lemma auto_member_ids m t i : everywhere auto_simple m t ->
  match t with ATagged _ _ _ _ => False | ADef _ _ => ~ structured t | _ => True end ->
  type_ids (member m t (cpp m (Some (Id context_specific i)) t)) = [(context_specific, i)].
Proof.
  intros H Ht. unfold member. destruct t; try reflexivity; [destruct Ht|].
  destruct (gen_named (ADef m0 t)) eqn:Eg; [destruct (Ht (gen_named_structured _ _ H Eg))|]. cbn [andb].
  rewrite nongen_ids by assumption. reflexivity.
Qed.
Definition auto_comps_ok (w : where_) (cs : acomps) : Prop :=
  match w with
  | InSeq => all_comps (fun k _ => k = Mand) cs
  | _ => all_comps (fun _ t => match t with ATagged _ _ _ _ => False | ADef _ _ => ~ structured t | _ => True end) cs
  end.
Lemma auto_ids w cs : w <> InSeq -> forall i, forall x, In x (comps_ids (cpp_comps w automatic i cs)) ->
  exists j, x = (context_specific, j) /\ i <= j.
Proof.
  intros Hw. induction cs as [|k t cs IH]; intros i x; [intros []|]. cbn [cpp_comps comps_ids].
  rewrite in_app_iff. intros [H|H].
  - exists i. destruct w; [congruence| |]; cbn in H; destruct H as [<-|[]]; split; reflexivity || lia.
  - destruct (IH (i + 1) x H) as (j & -> & Hj). exists j. split; [reflexivity|lia].
Qed.
Lemma auto_distinct w cs : w <> InSeq -> forall i, all_distinct (cpp_comps w automatic i cs).
Proof.
  intros Hw. induction cs as [|k t cs IH]; intros i; [exact I|]. cbn [cpp_comps all_distinct]. split; [|apply IH].
  intros x Hx Hc. apply auto_ids in Hc as (j & -> & Hj); [|exact Hw]. destruct w; [congruence| |]; cbn in Hx; destruct Hx as [[= <-]|[]]; lia.
Qed.
Lemma auto_seq_distinct cs : all_comps (fun k _ => k = Mand) cs -> forall i, seq_distinct (cpp_comps InSeq automatic i cs).
Proof.
  induction cs as [|k t cs IH]; intros H i; [exact I|]. destruct H as (-> & H). cbn [cpp_comps seq_distinct].
  split; [left; reflexivity|apply IH; exact H].
Qed.
Lemma cpp_good_auto :
  (forall t m ov, everywhere auto_simple m t -> (forall j, ov = Some j -> wf_ident j) -> good (cpp m ov t)) /\
  (forall cs w i, everywhere_comps auto_simple automatic cs -> auto_comps_ok w cs -> 0 <= i -> i + Z.of_nat (acomps_length cs) < 2^32 ->
     good_comps (cpp_comps w automatic i cs)).
Proof.
  apply aty_mutind.
  - intros k u m ov H Ho. destruct H as ((_ & Hk & Hu) & _). pose proof (wf_get_id ov (Id universal u) Hu Ho) as Hi.
    unfold good. cbn [cpp wf_ty labelled unambiguous choices_by_tag]. repeat split; auto.
    destruct k; cbn [kind_ok] in Hk; auto. destruct Hk as (Hz & Hb). pose proof (zlen_nonneg x0).
    split; [|split; [lia|exact Hb]].
    split; [exact Hi|]. split; [lia|]. destruct (get_id ov (Id universal u)) as [|oc ot ic it]; cbn [small_fits wf_ident] in *; [lia|].
    pose proof (ehl1_range it 0 ltac:(lia)). lia.
  - intros set t IH m ov H Ho. unfold good. cbn [cpp wf_ty labelled unambiguous choices_by_tag].
    destruct (IH m None ltac:(apply H) ltac:(discriminate)) as (G1 & G2 & G3 & G4).
    repeat split; auto. apply wf_get_id; [destruct set; cbn; lia|exact Ho].
  - intros cs IH m ov ((-> & Hl & Hs) & H) Ho.
    destruct (IH InSeq 0 H Hs ltac:(lia) ltac:(lia)) as (G1 & G2 & G3 & G4).
    unfold good. cbn [cpp wf_ty labelled unambiguous choices_by_tag]. repeat split; auto.
    + apply wf_get_id; [cbn; lia|exact Ho].
    + apply auto_seq_distinct. exact Hs.
  - intros ext cs IH m ov ((-> & Hl & Hs) & H) Ho.
    destruct (IH InSet 0 H Hs ltac:(lia) ltac:(lia)) as (G1 & G2 & G3 & G4).
    unfold good. cbn [cpp wf_ty labelled unambiguous choices_by_tag]. repeat split; auto.
    + apply wf_get_id; [cbn; lia|exact Ho].
    + apply auto_distinct. discriminate.
  - intros cs IH m ov ((-> & Hl & Hne & Hs) & H) Ho.
    destruct (IH InChoice 0 H Hs ltac:(lia) ltac:(lia)) as (G1 & G2 & G3 & G4).
    unfold good. cbn [cpp wf_ty labelled unambiguous choices_by_tag]. repeat split; auto.
    + destruct ov; auto.
    + destruct cs; [congruence|discriminate].
    + apply auto_distinct. discriminate.
    + right. intros c1 c2 n H1 H2. apply auto_ids in H1 as (? & [= -> _] & _); [|discriminate].
      apply auto_ids in H2 as (? & [= -> _] & _); [reflexivity|discriminate].
  - intros kw c n t IH m ov H Ho. cbn [cpp]. apply IH; auto; [apply H|].
    intros j. destruct ov; cbn [or_id]; [auto|]. apply (info_wf_auto (ATagged kw c n t) m j H).
  - intros m' t IH m ov H Ho. cbn [cpp].
    destruct (gen_def t); (apply IH; auto; [apply H|]); [discriminate|].
    intros j. destruct ov; cbn [or_id]; [auto|]. apply (info_wf_auto (ADef m' t) m j H).
  - intros. repeat split.
  - intros k t IH cs IHcs w i (Ht & H) Hok Hi Hl. cbn [acomps_length] in Hl. cbn [cpp_comps is_automatic].
    assert (G : good (member automatic t (cpp automatic (Some (Id context_specific i)) t))).
    { pose proof (IH automatic (Some (Id context_specific i)) Ht ltac:(intros j [= <-]; cbn; lia)) as G. unfold member.
      destruct (gen_named t && negb (ti_default (info automatic t)))%bool; [|exact G].
      destruct (ti_name (info automatic t)) as [j|] eqn:Ej; [|exact G]. apply with_id_good; [|exact G].
      apply (info_wf_auto t automatic j Ht). exact Ej. }
    assert (Hok' : auto_comps_ok w cs) by (destruct w; apply Hok).
    destruct G as (G1 & G2 & G3 & G4). destruct (IHcs w (i + 1) H Hok' ltac:(lia) ltac:(lia)) as (F1 & F2 & F3 & F4).
    repeat split; auto. destruct w.
    + destruct Hok as (-> & _). reflexivity.
    + cbn [labels is_automatic]. symmetry. apply auto_member_ids; [exact Ht|apply Hok].
    + cbn [labels is_automatic]. symmetry. apply auto_member_ids; [exact Ht|apply Hok].
Qed.

(** ** Splitting nested structures *)
Lemma split_first : (forall t m, first_tags (split m t) = first_tags t) /\ (forall cs m, all_first (split_comps m cs) = all_first cs).
Proof.
  apply aty_mutind; try reflexivity.
  - intros cs IH m. cbn [split first_tags]. apply IH.
  - intros m' t IH m. cbn [split first_tags]. apply IH.
  - intros k t IH cs IHcs m. cbn [split_comps all_first]. rewrite IH, IHcs. reflexivity.
Qed.
Lemma split_follow cs m : follow (split_comps m cs) = follow cs.
Proof.
  induction cs as [|k t cs IH]; [reflexivity|]. cbn [split_comps follow]. rewrite (proj1 split_first), IH. reflexivity.
Qed.
Lemma split_prefixed m t : is_prefixed (split m t) = is_prefixed t.
Proof. destruct t; reflexivity. Qed.
Lemma split_outer : (forall t m, outer_ids m (split m t) = outer_ids m t) /\
  (forall cs m i, outer_ids_choice m i (split_comps m cs) = outer_ids_choice m i cs).
Proof.
  apply aty_mutind; try reflexivity.
  - intros cs IH m. cbn [split outer_ids]. apply IH.
  - intros m' t IH m. cbn [split outer_ids]. apply IH.
  - intros k t IH cs IHcs m i. cbn [split_comps outer_ids_choice]. rewrite IH, IHcs. reflexivity.
Qed.
Lemma split_choice_ids cs : forall m i, choice_ids m i (split_comps m cs) = choice_ids m i cs.
Proof.
  induction cs as [|k t cs IH]; intros m i; [reflexivity|]. cbn [split_comps choice_ids].
  rewrite split_prefixed, (proj1 split_outer), IH. reflexivity.
Qed.
Lemma unnamed_info m t : info m (unnamed m t) = info m t.
Proof. destruct t; reflexivity. Qed.
Lemma split_info t : forall m, info m (split m t) = info m t.
Proof.
  induction t as [| | | |cs|kw c n t IH|m' t IH]; intros m; try reflexivity.
  - cbn [split info]. rewrite split_choice_ids. reflexivity.
  - cbn [split info]. rewrite unnamed_info, IH. reflexivity.
  - apply IH.
Qed.
Lemma split_x680 t : forall m, x680_tags m (split m t) = x680_tags m t.
Proof.
  induction t as [| | | |cs|kw c n t IH|m' t IH]; intros m; try reflexivity.
  - cbn [split x680_tags]. replace (x680_tags m (unnamed m (split m t))) with (x680_tags m (split m t)); [rewrite IH; reflexivity|].
    destruct (split m t); reflexivity.
  - apply IH.
Qed.
Lemma unnamed_accepts m t : accepts m (unnamed m t) = accepts m t.
Proof. destruct t; reflexivity. Qed.
Lemma split_check_seq cs : forall m prev, check_seq_loop m prev (split_comps m cs) = check_seq_loop m prev cs.
Proof.
  induction cs as [|k t cs IH]; intros m prev; [reflexivity|]. cbn [split_comps check_seq_loop]. rewrite split_info, !IH. reflexivity.
Qed.
Lemma split_set_ids cs m : set_ids m (split_comps m cs) = set_ids m cs.
Proof. induction cs as [|k t cs IH]; [reflexivity|]. cbn [split_comps set_ids]. rewrite split_info, IH. reflexivity. Qed.
Lemma split_accepts : (forall t m, accepts m (split m t) = accepts m t) /\ (forall cs m, accepts_comps m (split_comps m cs) = accepts_comps m cs).
Proof.
  apply aty_mutind; try reflexivity.
  - intros set t IH m. cbn [split accepts]. rewrite unnamed_accepts. apply IH.
  - intros cs IH m. cbn [split accepts]. unfold check_seq. rewrite split_check_seq, IH. reflexivity.
  - intros ext cs IH m. cbn [split accepts]. unfold check_set. rewrite split_set_ids, IH. reflexivity.
  - intros cs IH m. cbn [split accepts]. unfold choice_ok. cbn [info]. rewrite split_choice_ids, IH. reflexivity.
  - intros kw c n t IH m. cbn [split accepts]. rewrite unnamed_accepts. apply IH.
  - intros m' t IH m. cbn [split accepts]. apply IH.
  - intros k t IH cs IHcs m. cbn [split_comps accepts_comps]. rewrite IH, IHcs. reflexivity.
Qed.
(** Conditions on nodes survive. *)
Lemma split_everywhere (P : mode -> aty -> Prop) :
  (forall m t, P m t -> P m (split m t)) ->
  (forall m t, P m t -> match t with ASeq _ | ASet _ _ | AChoice _ => P m (ADef m t) | _ => True end) ->
  (forall t m, everywhere P m t -> everywhere P m (split m t)) /\
  (forall cs m, everywhere_comps P m cs -> everywhere_comps P m (split_comps m cs)).
Proof.
  intros HP HU.
  assert (U : forall m t, everywhere P m t -> everywhere P m (unnamed m t)).
  { intros m t H. pose proof (everywhere_here _ _ _ H) as Hh. specialize (HU m t Hh).
    destruct t; cbn [unnamed]; try exact H; (split; [exact HU|exact H]). }
  apply aty_mutind.
  - intros k u m H. exact H.
  - intros set t IH m H. pose proof (HP _ _ (everywhere_here _ _ _ H)) as Hh. destruct H as (_ & H). split; [exact Hh|]. apply U, IH, H.
  - intros cs IH m H. pose proof (HP _ _ (everywhere_here _ _ _ H)) as Hh. destruct H as (_ & H). split; [exact Hh|]. apply IH, H.
  - intros ext cs IH m H. pose proof (HP _ _ (everywhere_here _ _ _ H)) as Hh. destruct H as (_ & H). split; [exact Hh|]. apply IH, H.
  - intros cs IH m H. pose proof (HP _ _ (everywhere_here _ _ _ H)) as Hh. destruct H as (_ & H). split; [exact Hh|]. apply IH, H.
  - intros kw c n t IH m H. pose proof (HP _ _ (everywhere_here _ _ _ H)) as Hh. destruct H as (_ & H). split; [exact Hh|]. apply U, IH, H.
  - intros m' t IH m H. pose proof (HP _ _ (everywhere_here _ _ _ H)) as Hh. destruct H as (_ & H). split; [exact Hh|]. apply IH, H.
  - intros m H. exact H.
  - intros k t IH cs IHcs m (Ht & H). split; [apply IH, Ht|apply IHcs, H].
Qed.
Lemma split_two_tags m t :
  match t with ATagged _ _ _ (ATagged _ _ _ _) => False | _ => True end ->
  match split m t with ATagged _ _ _ (ATagged _ _ _ _) => False | _ => True end.
Proof.
  destruct t as [| | | | |kw c n t|]; cbn [split]; auto. intros H. destruct t; cbn [split unnamed]; auto.
Qed.
Lemma split_plain m t : everywhere plain m t -> everywhere plain m (split m t).
Proof.
  apply split_everywhere; clear.
  - intros m t (Hm & H). split; [exact Hm|]. destruct t; cbn [split] in *; auto.
    + destruct cs; [congruence|discriminate].
    + assert (H' : match t with ATagged _ _ _ (ATagged _ _ _ _) => False | _ => True end) by (destruct t; auto; destruct t; auto).
      pose proof (split_two_tags m0 t H') as S. destruct (split m0 t); auto.
  - intros m t (Hm & H). destruct t; auto; (split; [exact Hm|exact I]).
Qed.
Lemma split_valid m t : everywhere valid_seqs m t -> everywhere valid_seqs m (split m t).
Proof.
  apply split_everywhere; clear.
  - intros m t H. destruct t; cbn [split valid_seqs] in *; auto. induction cs as [|k t cs IH]; [exact I|]. destruct H as (H1 & H2).
    cbn [split_comps seq_valid]. rewrite (proj1 split_first), split_follow. auto.
  - intros m t H. destruct t; exact I.
Qed.
Lemma split_distinct m t : everywhere distinct_members m t -> everywhere distinct_members m (split m t).
Proof.
  apply split_everywhere; clear.
  - intros m t H. destruct t; cbn [split distinct_members] in *; auto; rewrite (proj2 split_first); exact H.
  - intros m t H. destruct t; exact I.
Qed.
Lemma split_numbers m t : everywhere choice_numbers m t -> everywhere choice_numbers m (split m t).
Proof.
  apply split_everywhere; clear.
  - intros m t H. destruct t; cbn [split choice_numbers] in *; auto. rewrite (proj2 split_first). exact H.
  - intros m t H. destruct t; exact I.
Qed.
Lemma split_one_explicit t : forall m, one_explicit m t -> one_explicit m (split m t).
Proof.
  induction t as [| | | |cs|kw c n t IH|m' t IH]; intros m H; auto.
  - destruct H as (H1 & H2 & H3). specialize (IH m H3). cbn [split one_explicit].
    assert (E : x680_tags m (unnamed m (split m t)) = x680_tags m t) by (rewrite <- (split_x680 t m); destruct (split m t); reflexivity).
    rewrite E. split; [exact H1|]. split; [exact H2|]. destruct (split m t); exact IH.
  - apply IH. exact H.
Qed.
Lemma split_structured t : forall m, structured (split m t) <-> structured t.
Proof.
  induction t as [| | | |cs|kw c n t IH|m' t IH]; intros m; try (cbn; tauto).
  - rewrite <- (IH m). cbn [split]. unfold structured. cbn [base]. destruct (split m t); cbn; tauto.
  - rewrite <- (IH m'). reflexivity.
Qed.
Lemma split_comps_length m cs : acomps_length (split_comps m cs) = acomps_length cs.
Proof. induction cs; cbn; congruence. Qed.
Lemma split_all_comps (P : ckind -> aty -> Prop) m cs : (forall k t, P k t -> P k (split m t)) ->
  all_comps P cs -> all_comps P (split_comps m cs).
Proof. intros HP. induction cs as [|k t cs IH]; cbn [all_comps split_comps]; [auto|]. intros (H1 & H2). auto. Qed.
Lemma split_auto m t : everywhere auto_simple m t -> everywhere auto_simple m (split m t).
Proof.
  assert (C : forall m (k : ckind) t, (match t with ATagged _ _ _ _ => False | ADef _ _ => ~ structured t | _ => True end) ->
            (match split m t with ATagged _ _ _ _ => False | ADef _ _ => ~ structured (split m t) | _ => True end)).
  { intros m0 k0 t0. destruct t0; auto. intros H. cbn [split] in *. intros Hs. apply H. apply (split_structured (ADef m1 t0) m0). exact Hs. }
  apply split_everywhere; clear -C.
  - intros m t (Hm & H). split; [exact Hm|]. destruct t; cbn [split] in *; auto.
    + rewrite split_comps_length. destruct H as (H1 & H2). split; [exact H1|]. apply split_all_comps; auto.
    + rewrite split_comps_length. destruct H as (H1 & H2). split; [exact H1|]. apply split_all_comps; auto. intros k; apply (C m k).
    + rewrite split_comps_length. destruct H as (H1 & H2 & H3). split; [exact H1|]. split; [destruct cs; [congruence|discriminate]|].
      apply split_all_comps; auto. intros k; apply (C m k).
    + assert (H' : match t with ATagged _ _ _ (ATagged _ _ _ _) => False | _ => True end) by (destruct t; auto; destruct t; auto).
      pose proof (split_two_tags m0 t H') as S. destruct (split m0 t); auto.
  - intros m t (Hm & H). destruct t; auto; (split; [exact Hm|exact I]).
Qed.
