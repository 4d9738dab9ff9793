(** C94, C95: object classes. *)
From Verif Require Import Base CompilerPasses PassesSpec PassesProofs PassParams PassClass PassClassNames PropertiesPasses.
Local Open Scope string_scope.
Local Open Scope list_scope.

(** * C94: resolve_object_classes *)
(** Missing from "resolve_object_classes keeps every type's meaning": modules that are not [classes_ok]; the refutations below
    show the pass wrong for some of them. *)
Theorem C94_classes_meaning_partial : forall tr tr', classes_ok tr -> resolve_object_classes tr = Done tr' ->
  forall md m r, same_meaning (forget_imports tr) md (PRef m r []) (forget_imports tr') md (PRef m r []).
Proof.
  intros tr tr' W H md m r. destruct (object_class_names tr) as [names| | |] eqn:E; [|unfold resolve_object_classes in H; rewrite E in H; discriminate..].
  destruct (names_sound tr W names E) as (d & Hd). eapply class_same; eauto. apply or_direct. constructor.
Qed.
Lemma odirect_field_free tr t' : forall md t, odirect tr md t t' -> field_free t'.
Proof.
  induction t' as [e k|m r ps IH|s cs IH|s t' IH|l IH|g t' IH|m c fs] using ptyp_induct; intros md t H.
  - exact I.
  - exact I.
  - inversion H as [| |? cs0 ? F| | |]; subst. cbn [field_free]. apply fold_and. clear H. revert cs0 F. induction IH as [|c l Hc _ IHl]; intros cs0 F; [constructor|].
    inversion F as [|c0 ? l0 ? F1 F2]; subst. constructor; [|eapply IHl; eauto].
    inversion F1 as [? ? ? ? ? P|? D]; subst; [|eapply Hc; eauto]. cbn in Hc. inversion P; subst; eapply Hc; eauto.
  - inversion H as [| | |? ? ? P| |]; subst. cbn [field_free]. inversion P; subst; eapply IH; eauto.
  - inversion H as [| | | |l0 ? F|]; subst. cbn [field_free]. apply fold_and. clear H. revert l0 F. induction IH as [|c l Hc _ IHl]; intros cs0 F; [constructor|].
    inversion F as [|c0 ? l0 ? [_ P] F2]; subst. constructor; [|eapply IHl; eauto]. inversion P; subst; eapply Hc; eauto.
  - inversion H as [| | | | |? ? ? P]; subst. cbn [field_free]. inversion P; subst; eapply IH; eauto.
  - inversion H.
Qed.
(** Afterwards there are no classes, no fields of classes in types, and no other names of classes. *)
Theorem C94_classes_gone : forall tr tr', classes_ok tr -> aliases_ok tr -> resolve_object_classes tr = Done tr' ->
  forall x a, In x tr' -> In a (pm_assigns x) ->
    match p_spec a with
    | PTypeA t => field_free t /\ forall q r, t = PRef q r [] -> ~ names_class tr (match q with Some y => y | None => pm_name x end) r
    | PValueA (PRef q r _) _ => ~ names_class tr (match q with Some y => y | None => pm_name x end) r
    | PClassA _ => False
    | _ => True
    end.
Proof.
  intros tr tr' W Wa H x a Hx Ha. unfold resolve_object_classes in H. destruct (object_class_names tr) as [names| | |] eqn:En; cbn [obind] in H; try discriminate.
  destruct (omap _ tr) as [tr1| | |] eqn:E; cbn [obind] in H; try discriminate. injection H as <-. apply in_map_iff in Hx as (y & <- & Hy). cbn [pm_assigns pm_name] in *.
  apply filter_In in Ha as [Ha Hrem]. apply negb_true_iff in Hrem. apply omap_Forall2 in E. destruct (Forall2_in_r _ _ _ _ E Hy) as (m & Hm & K). cbn beta in K.
  destruct (omap (class_free_assign tr (pm_name m)) (pm_assigns m)) as [l| | |] eqn:El; cbn in K; try discriminate. injection K as <-. cbn [pm_assigns pm_name] in *.
  apply omap_Forall2 in El. destruct (Forall2_in_r _ _ _ _ El Ha) as (b & Hb & K).
  assert (Hnot : forall q r ps, defined_class (pm_name m) names (PRef q r ps) = false -> ~ names_class tr (match q with Some y => y | None => pm_name m end) r).
  { intros q r ps Hf Hc. cbn in Hf. pose proof (complete_class tr W Wa names En _ _ Hc) as Hin. apply mem_in in Hin. unfold ref_module in Hf. congruence. }
  destruct (related tr W (pm_name m) b a K (ex_intro _ m (conj Hm (conj Hb eq_refl)))) as (_ & _ & R).
  unfold removed in Hrem. destruct (p_spec b) as [t|t v|fs|] eqn:Eb.
  - destruct R as (t' & Et & R). rewrite Et in *. split.
    + inversion R as [? ? D|? ? ? ? ? ? ? ? ? ? ? ? ? D]; subst; eapply odirect_field_free; eauto.
    + intros q r ->. eapply Hnot; eauto.
  - rewrite R in *. destruct t; auto. eapply Hnot; eauto.
  - rewrite R in Hrem. discriminate.
  - rewrite R. exact I.
Qed.
Lemma concrete_done tr md t : (exists t', object_class_to_concrete tr md t = Done t') <-> fields_known tr md t.
Proof.
  induction t as [e k|m r ps IH|s cs IH|s t IH|l IH|g t IH|m c fs] using ptyp_induct; cbn [object_class_to_concrete fields_known].
  - split; eauto.
  - split; eauto.
  - rewrite obind_done, omap_done, fold_and. apply Forall_iff_ext. eapply Forall_impl; [|exact IH]. intros [x t o d|t] H; cbn [on_comp] in H.
    + rewrite obind_done. exact H.
    + split; eauto.
  - rewrite obind_done. exact IH.
  - rewrite obind_done, omap_done, fold_and. apply Forall_iff_ext. eapply Forall_impl; [|exact IH]. intros a H. cbn in H. rewrite obind_done. exact H.
  - rewrite obind_done. exact IH.
  - unfold create_concrete_type. rewrite forget_target. split.
    + intros (y & H). destruct (plookup tr md m c) as [a| | |]; cbn [obind] in H; try discriminate. destruct (p_spec a) as [| |fields|] eqn:Es; try discriminate.
      destruct fs as [|f [|]]; try discriminate. destruct (find _ fields) as [x|] eqn:Ef; [|discriminate]. destruct (f_type x) as [u|] eqn:Eu; [|discriminate]. repeat eexists; eauto.
    + intros (q & a & fields & f & x & u & H1 & H2 & -> & H3 & H4). destruct (plookup tr md m c) as [b| | |]; try discriminate. injection H1 as _ ->. cbn [obind]. rewrite H2, H3, H4. eauto.
Qed.
Lemma ofold_done {A S} (f : S -> A -> out S) l : (forall x, (forall s, exists s', f s x = Done s') \/ (forall s, f s x = Throw)) ->
  forall s, (exists s', ofold f l s = Done s') <-> Forall (fun x => forall s, exists s', f s x = Done s') l.
Proof.
  intros Hf. induction l as [|x l IH]; intros s.
  - split; [constructor|]. intros _. exists s. reflexivity.
  - cbn. fold (ofold f l). destruct (Hf x) as [H|H].
    + destruct (H s) as (s1 & E). rewrite E. cbn [obind]. rewrite (IH s1). split; [intros K; constructor; assumption|intros K; inversion K; assumption].
    + rewrite H. split; [intros (y & K); discriminate|]. intros K. inversion K as [|? ? K1 _]; subst. destruct (K1 s) as (y & K2). rewrite H in K2. discriminate.
Qed.
(** The pass throws exactly when a type or value assignment refers to nothing, or a class field is not known. *)
Theorem C94_classes_accepted : forall tr, (forall m a, In m tr -> In a (pm_assigns m) -> p_params a = []) ->
  ((exists tr', resolve_object_classes tr = Done tr') <->
   forall m a, In m tr -> In a (pm_assigns m) ->
     (forall q r ps, p_spec a = PTypeA (PRef q r ps) \/ (exists v, p_spec a = PValueA (PRef q r ps) v) -> target_of (forget_imports tr) (pm_name m) q r <> Nowhere) /\
     (forall t, p_spec a = PTypeA t -> fields_known tr (pm_name m) t)).
Proof.
  intros tr Hp. unfold resolve_object_classes.
  assert (Hn : (exists s, object_class_names tr = Done s) <-> forall m a, In m tr -> In a (pm_assigns m) ->
     forall q r ps, p_spec a = PTypeA (PRef q r ps) \/ (exists v, p_spec a = PValueA (PRef q r ps) v) -> target_of (forget_imports tr) (pm_name m) q r <> Nowhere).
  { split.
    - intros (s & E) m a Hm Ha q r ps Hs. destruct (names_closed tr s E) as [C _]. destruct (C m a Hm Ha) as (s1 & s2 & _ & S & _). unfold scan_assign in S. rewrite (Hp m a Hm Ha) in S. cbn [existsb] in S.
      rewrite forget_target. destruct Hs as [Hs|(v & Hs)]; rewrite Hs in S; destruct (plookup tr (pm_name m) q r); cbn in S; discriminate.
    - intros H. destruct (names_ends tr) as [E|E]; [exfalso|exact E].
      assert (Hscan : forall s, scan tr s <> Throw).
      { intros s Et. unfold scan in Et.
        assert (K : forall m s, In m tr -> exists s', ofold (scan_assign tr (pm_name m)) (pm_assigns m) s = Done s').
        { intros m t Hm. assert (G : forall a, In a (pm_assigns m) -> forall s, exists s', scan_assign tr (pm_name m) s a = Done s').
          { intros a Ha u. unfold scan_assign. rewrite (Hp m a Hm Ha). cbn [existsb]. pose proof (H m a Hm Ha) as Q. destruct (p_spec a) as [[|q r ps| | | | |]|[|q r ps| | | | |] v|fs|]; try (eexists; reflexivity).
            - specialize (Q q r ps (or_introl eq_refl)). rewrite forget_target in Q. destruct (plookup tr (pm_name m) q r); try (destruct (Q eq_refl)). cbn. eauto.
            - specialize (Q q r ps (or_intror (ex_intro _ v eq_refl))). rewrite forget_target in Q. destruct (plookup tr (pm_name m) q r); try (destruct (Q eq_refl)). cbn. eauto. }
          revert t G. induction (pm_assigns m) as [|a l IH]; intros t G; [exists t; reflexivity|]. cbn. destruct (G a (or_introl eq_refl) t) as (t1 & ->). cbn. apply IH. intros b Hb. apply G. right. exact Hb. }
        assert (K2 : forall T s, incl T tr -> exists s', ofold (fun s m => ofold (scan_assign tr (pm_name m)) (pm_assigns m) s) T s = Done s').
        { induction T as [|m T IH]; intros t Hi; [exists t; reflexivity|]. cbn. destruct (K m t (Hi m (or_introl eq_refl))) as (t1 & ->). cbn. apply IH. intros y Hy. apply Hi. right. exact Hy. }
        destruct (K2 tr s (incl_refl tr)) as (s1 & E1). rewrite E1 in Et. discriminate. }
      unfold object_class_names in E. revert E. generalize (class_rounds tr). intros fuel. generalize (@nil string). induction fuel as [|fuel IH]; intros s E; [discriminate|].
      cbn [scan_loop] in E. destruct (scan tr s) as [s1| | |] eqn:Es; cbn [obind] in E; try discriminate; [|destruct (Hscan s Es)]. destruct (Nat.ltb _ _); [eapply IH; eauto|discriminate]. }
  assert (Ht : (exists tr1, omap (fun m => do l <- omap (class_free_assign tr (pm_name m)) (pm_assigns m); Done (PModule (pm_name m) (pm_imports m) l)) tr = Done tr1) <->
     forall m a, In m tr -> In a (pm_assigns m) -> forall t, p_spec a = PTypeA t -> fields_known tr (pm_name m) t).
  { rewrite omap_done, Forall_forall. split.
    - intros H m a Hm Ha t Es. specialize (H m Hm). apply obind_done, omap_done in H. rewrite Forall_forall in H. specialize (H a Ha). unfold class_free_assign in H. rewrite Es in H. apply obind_done in H. apply concrete_done, H.
    - intros H m Hm. apply obind_done, omap_done, Forall_forall. intros a Ha. unfold class_free_assign. specialize (H m a Hm Ha). destruct (p_spec a); eauto. apply obind_done, concrete_done. apply H. reflexivity. }
  split.
  - intros (tr' & H). destruct (object_class_names tr) as [names| | |]; cbn [obind] in H; try discriminate. destruct (omap _ tr) as [tr1| | |]; cbn [obind] in H; try discriminate.
    intros m a Hm Ha. split; [eapply (proj1 Hn); eauto|eapply (proj1 Ht); eauto].
  - intros H. destruct (proj2 Hn (fun m a Hm Ha => proj1 (H m a Hm Ha))) as (names & ->). destruct (proj2 Ht (fun m a Hm Ha => proj2 (H m a Hm Ha))) as (tr1 & E). cbn [obind]. rewrite E. cbn. eauto.
Qed.
(** * C95: get_object_class_names *)
(** It always ends, and finds exactly the classes, their other names, and their objects. *)
Theorem C95_class_names_ends : forall tr, object_class_names tr = Throw \/ exists s, object_class_names tr = Done s.
Proof. exact names_ends. Qed.
Theorem C95_class_names_exact : forall tr s, classes_ok tr -> aliases_ok tr -> governors_ok tr -> object_class_names tr = Done s ->
  forall md r, In (qualified md r) s <-> names_class tr md r \/ names_object tr md r.
Proof.
  intros tr s W Wa Wg H md r. split.
  - intros Hin. apply (good_mem tr W s); [apply names_good; assumption|apply mem_in, Hin].
  - intros [K|K]; [eapply complete_class; eauto|eapply complete_object; eauto].
Qed.
(** Of the names a module imports, resolve_object_classes removes exactly those of classes and objects (C94). *)
Theorem C94_imports_kept : forall tr tr', classes_ok tr -> aliases_ok tr -> governors_ok tr -> resolve_object_classes tr = Done tr' ->
  Forall2 (fun m m' => pm_name m' = pm_name m /\
    Forall2 (fun i i' => fst i' = fst i /\ forall r, In r (snd i') <-> In r (snd i) /\ ~ names_class tr (fst i) r /\ ~ names_object tr (fst i) r)
      (pm_imports m) (pm_imports m')) tr tr'.
Proof.
  intros tr tr' W Wa Wg H. unfold resolve_object_classes in H. destruct (object_class_names tr) as [names| | |] eqn:En; cbn [obind] in H; try discriminate.
  destruct (omap _ tr) as [tr1| | |] eqn:E; cbn [obind] in H; try discriminate. injection H as <-. apply omap_Forall2 in E.
  pose proof (C95_class_names_exact tr names W Wa Wg En) as X. clear En. unfold remove_object_classes.
  assert (G : forall T T1, Forall2 (fun m y => (do l <- omap (class_free_assign tr (pm_name m)) (pm_assigns m); Done (PModule (pm_name m) (pm_imports m) l)) = Done y) T T1 ->
    Forall2 (fun m m' => pm_name m' = pm_name m /\
    Forall2 (fun i i' => fst i' = fst i /\ forall r, In r (snd i') <-> In r (snd i) /\ ~ names_class tr (fst i) r /\ ~ names_object tr (fst i) r)
      (pm_imports m) (pm_imports m')) T (remove_object_classes T1 names)); [|apply G, E].
  induction 1 as [|m y T T1 K _ IH]; [constructor|]. constructor; [|exact IH].
  destruct (omap (class_free_assign tr (pm_name m)) (pm_assigns m)) as [l| | |]; cbn in K; try discriminate. injection K as <-. cbn [pm_name pm_imports]. split; [reflexivity|].
  induction (pm_imports m) as [|i is IHi]; [constructor|]. constructor; [|exact IHi]. cbn [fst snd]. split; [reflexivity|]. intros r. rewrite filter_In, negb_true_iff.
  specialize (X (fst i) r). rewrite <- mem_in in X. destruct (mem (qualified (fst i) r) names).
  - split; [intros [_ ?]; discriminate|]. intros (_ & K1 & K2). destruct (proj1 X eq_refl); tauto.
  - split; [|tauto]. intros [K _]. split; [exact K|]. split; intros Q; [discriminate (proj2 X (or_introl Q))|discriminate (proj2 X (or_intror Q))].
Qed.
(** N: CLS ::= CLASS { &id INTEGER, &Type }, ALIAS ::= CLS, obj CLS ::= {...}, T ::= SEQUENCE { id CLS.&id, more T OPTIONAL };
    M: IMPORTS CLS, T FROM N; U ::= SEQUENCE OF T (after split_imports). *)
Definition class_n := PAssign "CLS" (PClassA [CField "id" (Some int_t); CField "Type" None]) [].
Definition type_t := PAssign "T" (PTypeA (PRecord false [PComp "id" (PField None "CLS" ["id"]) false None; PComp "more" (PRef None "T" []) true None])) [].
Definition import_of (q r : string) := PAssign r (PTypeA (PRef (Some q) r [])) [].
Definition use_u := PAssign "U" (PTypeA (PListOf false (PRef None "T" []))) [].
Definition tree10 : ptree :=
  [PModule "M" [("N", ["CLS"; "T"])] [use_u; import_of "N" "CLS"; import_of "N" "T"];
   PModule "N" [] [class_n; PAssign "ALIAS" (PTypeA (PRef None "CLS" [])) []; PAssign "obj" (PValueA (PRef None "CLS" []) 0) []; type_t]].
Example C94_example : classes_ok tree10 /\ aliases_ok tree10 /\ governors_ok tree10 /\ resolve_object_classes tree10 =
  Done [PModule "M" [("N", ["T"])] [use_u; import_of "N" "T"];
        PModule "N" [] [PAssign "T" (PTypeA (PRecord false [PComp "id" int_t false None; PComp "more" (PRef None "T" []) true None])) []]].
Proof.
  split; [|split; [|split; [|reflexivity]]].
  - constructor.
    + split; [|unfold tree10; repeat constructor; discriminate]. cbn. repeat constructor; cbn; intuition discriminate.
    + intros m Hm. unfold tree10 in *; in_cases; cbn [pm_assigns map p_name]; (split; [repeat constructor; cbn; intuition discriminate|repeat constructor; cbn; discriminate]).
    + split; intros m a Hm Ha; unfold tree10 in *; in_cases; in_cases; cbn; auto. intros f t [<-|[<-|[]]] [= <-]; exact I.
    + intros m a t Hm Ha Es. unfold tree10 in *; in_cases; in_cases; cbn in Es; try discriminate; injection Es as <-; cbn; auto.
    + intros m a fs f t Hm Ha Es Hf Et. unfold tree10 in *; in_cases; in_cases; cbn in Es; try discriminate; injection Es as <-. in_cases; cbn in Et; try discriminate; injection Et as <-; exact I.
    + intros m a q r ps Hm Ha Es. unfold tree10 in *; in_cases; in_cases; cbn in Es; try discriminate; injection Es as <- <- <-; cbn; auto.
    + intros m i r Hm Hi Hr. unfold tree10 in *; in_cases; cbn [pm_imports In] in Hi; in_cases; cbn [snd In] in Hr; in_cases; reflexivity.
  - intros m a Hm Ha. unfold tree10 in *; in_cases; in_cases; cbn; auto; right; (split; [reflexivity|]); eexists; (split; [left; reflexivity|]); cbn; auto.
  - intros m a q r ps b u v Hm Ha Hs md Ht. unfold tree10 in *; in_cases; in_cases; cbn in Hs; destruct Hs as [Hs|(w & Hs)]; try discriminate; injection Hs as <- <- <-;
      cbn in Ht; injection Ht as <- <-; cbn; discriminate.
Qed.
(** Refutations: types with a meaning that the pass does not accept ... *)
(** A field of a class under another name: ALIAS.&id. *)
Definition tree11 : ptree := [PModule "N" [] [class_n; PAssign "ALIAS" (PTypeA (PRef None "CLS" [])) []; PAssign "T" (PTypeA (PField None "ALIAS" ["id"])) []]].
Theorem C94_aliased_class_refuted : exists tr n, resolve_object_classes tr = Throw /\ meaningful (den n tr "N" [] (PRef None "T" [])) = true.
Proof. exists tree11, 9%nat. split; reflexivity. Qed.
(** A field of an imported class, as split_imports leaves it. *)
Definition tree12 : ptree := [PModule "M" [("N", ["CLS"])] [PAssign "T" (PTypeA (PField None "CLS" ["id"])) []]; PModule "N" [] [class_n]].
Theorem C94_imported_class_refuted : exists tr n, resolve_object_classes (import_all tr) = Throw /\ meaningful (den n tr "M" [] (PRef None "T" [])) = true.
Proof. exists tree12, 9%nat. split; reflexivity. Qed.
(** ... or that it changes. *)
(** N: CLS ::= CLASS { &id Local }, Local ::= INTEGER; M: T ::= N.CLS.&id, Local ::= BOOLEAN: T becomes M's Local. *)
Definition tree13 : ptree := [PModule "M" [] [PAssign "T" (PTypeA (PField (Some "N") "CLS" ["id"])) []; PAssign "Local" (PTypeA (PLeaf false 1%Z)) []];
  PModule "N" [] [PAssign "CLS" (PClassA [CField "id" (Some (PRef None "Local" []))]) []; PAssign "Local" (PTypeA int_t) []]].
Theorem C94_other_module_refuted : exists tr tr' n, resolve_object_classes tr = Done tr' /\ meaningful (den n tr "M" [] (PRef None "T" [])) = true /\
  ~ same_meaning tr "M" (PRef None "T" []) tr' "M" (PRef None "T" []).
Proof. exists tree13. eexists. exists 9%nat. split; [reflexivity|]. split; [reflexivity|]. eapply (changes _ _ _ _ _ 9 9); try reflexivity. discriminate. Qed.
(** M: B ::= CLASS { }, A ::= N.B; N: B ::= INTEGER: A is taken for another name of M's B, and the type D ::= A
    is removed. *)
Definition tree14 : ptree := [PModule "M" [] [PAssign "B" (PClassA []) []; PAssign "A" (PTypeA (PRef (Some "N") "B" [])) []; PAssign "D" (PTypeA (PRef None "A" [])) []];
  PModule "N" [] [PAssign "B" (PTypeA int_t) []]].
Theorem C94_type_removed_refuted : exists tr tr' n, resolve_object_classes tr = Done tr' /\ meaningful (den n tr "M" [] (PRef None "D" [])) = true /\
  ~ same_meaning tr "M" (PRef None "D" []) tr' "M" (PRef None "D" []).
Proof. exists tree14. eexists. exists 9%nat. split; [reflexivity|]. split; [reflexivity|]. eapply (changes _ _ _ _ _ 9 9); try reflexivity. discriminate. Qed.
(** CLS ::= CLASS { &id INTEGER }, CLT ::= CLASS { &x CLS.&id }, T ::= CLT.&x becomes CLS.&id, and CLS is removed. *)
Definition tree15 : ptree := [PModule "N" [] [class_n; PAssign "CLT" (PClassA [CField "x" (Some (PField None "CLS" ["id"]))]) []; PAssign "T" (PTypeA (PField None "CLT" ["x"])) []]].
Theorem C94_field_of_field_refuted : exists tr tr' n, resolve_object_classes tr = Done tr' /\ meaningful (den n tr "N" [] (PRef None "T" [])) = true /\
  ~ same_meaning tr "N" (PRef None "T" []) tr' "N" (PRef None "T" []).
Proof. exists tree15. eexists. exists 9%nat. split; [reflexivity|]. split; [reflexivity|]. eapply (changes _ _ _ _ _ 9 9); try reflexivity. discriminate. Qed.
(** Another name of another name of a class of a different module, without an import, is missed: M: A ::= N.ALIAS. *)
Definition tree16 : ptree := [PModule "M" [] [PAssign "A" (PTypeA (PRef (Some "N") "ALIAS" [])) []]; PModule "N" [] [class_n; PAssign "ALIAS" (PTypeA (PRef None "CLS" [])) []]].
Theorem C95_other_module_refuted : exists tr s, object_class_names tr = Done s /\ names_class tr "M" "A" /\ ~ In (qualified "M" "A") s.
Proof.
  exists tree16. eexists. split; [reflexivity|]. split.
  - eapply nc_alias; [reflexivity|reflexivity|]. cbn. eapply nc_alias; [reflexivity|reflexivity|]. eapply nc_class; reflexivity.
  - cbn. intuition discriminate.
Qed.
