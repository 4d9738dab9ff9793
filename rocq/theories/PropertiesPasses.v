(** C91-...: the compiler's first passes keep the meaning of the types (PassesSpec.v). *)
From Coq Require Import Permutation.
From Verif Require Import Base CompilerPasses PassesSpec PassesProofs PassParams PassNest.
Local Open Scope string_scope.
Local Open Scope list_scope.

Lemma Forall2_in_r {A B} (P : A -> B -> Prop) l l' y : Forall2 P l l' -> In y l' -> exists x, In x l /\ P x y.
Proof. induction 1 as [|a b l l' H _ IH]; [intros []|]. intros [->|Hy]; [exists a; cbn; auto|]. destruct (IH Hy) as (x & H1 & H2). exists x. cbn. auto. Qed.
(** * C91: parameterized types *)
(** Missing from "resolve_parameters keeps every type's meaning": modules that are not [parameters_ok]; the refutations
    below show the pass wrong for some of them. *)
Theorem C91_parameters_meaning_partial : forall tr tr', parameters_ok tr -> resolve_parameters tr = Done tr' ->
  forall md m r, same_meaning tr md (PRef m r []) tr' md (PRef m r []).
Proof. intros tr tr' W H md m r. apply resolve_same; auto. apply pr_direct. constructor. reflexivity. Qed.
(** Afterwards there are no templates and no actual parameters. *)
Theorem C91_parameters_gone : forall tr tr', parameters_ok tr -> resolve_parameters tr = Done tr' ->
  forall x a, In x tr' -> In a (pm_assigns x) -> p_params a = [] /\ forall t, p_spec a = PTypeA t -> param_free t.
Proof.
  intros tr tr' W H x a Hx Ha. unfold resolve_parameters in H. destruct (omap _ tr) as [tr1| | |] eqn:E; cbn [obind] in H; try discriminate.
  injection H as <-. apply in_map_iff in Hx as (y & <- & Hy). cbn [pm_assigns] in Ha. apply filter_In in Ha as [Ha Ht].
  assert (Hp : p_params a = []) by (unfold is_template in Ht; destruct (p_params a); [reflexivity|discriminate]).
  split; [exact Hp|]. intros t Es. apply omap_Forall2 in E.
  assert (K : exists m, In m tr /\ (do l <- omap (concrete_assign tr (pm_name m)) (pm_assigns m); Done (PModule (pm_name m) (pm_imports m) l)) = Done y).
  { destruct (Forall2_in_r _ _ _ _ E Hy) as (m & K1 & K2). exists m. auto. }
  destruct K as (m & Hm & K). destruct (omap (concrete_assign tr (pm_name m)) (pm_assigns m)) as [l| | |] eqn:El; cbn in K; try discriminate.
  injection K as <-. cbn [pm_assigns] in Ha. apply omap_Forall2 in El.
  assert (K : exists b, In b (pm_assigns m) /\ concrete_assign tr (pm_name m) b = Done a).
  { destruct (Forall2_in_r _ _ _ _ El Ha) as (m' & K1 & K2). exists m'. auto. }
  destruct K as (b & Hb & K). destruct (concrete_assign_facts _ _ _ _ K) as (_ & Hp2 & F). rewrite Hp in Hp2. symmetry in Hp2.
  destruct (p_spec b) as [u| | |] eqn:Eb; [|rewrite Es in F; discriminate..].
  assert (Et : is_template b = false) by (unfold is_template; rewrite Hp2; reflexivity). rewrite Et in F. destruct F as (t' & F1 & F2).
  rewrite Es in F1. injection F1 as <-. eapply prel_param_free. eapply pc_rel; eauto. eapply (po_types tr W); eauto.
Qed.
(** The pass throws exactly when some type that is not a template itself has a reference that is not [instantiable]. *)
Theorem C91_parameters_accepted : forall tr, (exists tr', resolve_parameters tr = Done tr') <->
  forall x a t, In x tr -> In a (pm_assigns x) -> p_params a = [] -> p_spec a = PTypeA t -> instantiable tr (pm_name x) t.
Proof.
  intros tr. unfold resolve_parameters. rewrite (obind_done _ (fun tr' => map (fun m => PModule (pm_name m) (pm_imports m) (filter (fun a => negb (is_template a)) (pm_assigns m))) tr')).
  rewrite omap_done, Forall_forall. split.
  - intros H x a t Hx Ha Hp Es. specialize (H x Hx). apply obind_done, omap_done in H. rewrite Forall_forall in H. destruct (H a Ha) as (a' & H').
    apply pc_done. destruct (concrete_assign_facts _ _ _ _ H') as (_ & _ & F). rewrite Es in F. unfold is_template in F. rewrite Hp in F. destruct F as (t' & _ & F). eauto.
  - intros H x Hx. apply obind_done, omap_done, Forall_forall. intros a Ha. unfold concrete_assign, is_template. specialize (H x a).
    destruct (p_spec a) as [t| | |]; eauto. destruct (p_params a); eauto. apply obind_done, pc_done. apply H; auto.
Qed.

(** List{X} ::= SEQUENCE OF X; A ::= SEQUENCE { a List{INTEGER}, b B OPTIONAL }; B ::= CHOICE { a A, n List{A} } *)
Definition int_t := PLeaf false 2%Z.
Definition template1 := PAssign "List" (PTypeA (PListOf false (PRef None "X" []))) [(None, "X")].
Definition recursive_a := PAssign "A" (PTypeA (PRecord false [PComp "a" (PRef None "List" [int_t]) false None; PComp "b" (PRef None "B" []) true None])) [].
Definition recursive_b := PAssign "B" (PTypeA (PChoice [("a", PRef None "A" []); ("n", PRef None "List" [PRef None "A" []])])) [].
Definition tree1 : ptree := [PModule "M" [] [recursive_a; template1; recursive_b]].
Ltac in_cases := cbn [In pm_assigns] in *; repeat match goal with H : _ \/ _ |- _ => destruct H as [<-|H] | H : False |- _ => destruct H end; cbn [pm_assigns In] in *.
Example C91_example : parameters_ok tree1 /\ resolve_parameters tree1 =
  Done [PModule "M" [] [PAssign "A" (PTypeA (PRecord false [PComp "a" (PListOf false int_t) false None; PComp "b" (PRef None "B" []) true None])) [];
                        PAssign "B" (PTypeA (PChoice [("a", PRef None "A" []); ("n", PListOf false (PRef None "A" []))])) []]].
Proof.
  split; [|reflexivity]. constructor.
  - intros m Hm. unfold tree1 in *; in_cases. cbn. repeat constructor; cbn; intuition discriminate.
  - intros m a t Hm Ha Hp Es. unfold tree1 in *; in_cases; in_cases; cbn in Hp, Es; try discriminate; injection Es as <-; cbn; intuition auto.
  - intros m a t Hm Ha Hp Es. unfold tree1 in *; in_cases; in_cases; cbn in Hp, Es; try congruence. injection Es as <-. cbn. repeat constructor; cbn; intuition.
  - intros m a Hm Ha Hp. unfold tree1 in *; in_cases; in_cases; cbn in *; congruence.
  - intros m a fs f t Hm Ha Es. unfold tree1 in *; in_cases; in_cases; cbn in *; discriminate.
Qed.

(** Refutations: the pass accepts the modules and changes a type that has a meaning. *)
Lemma changes tr tr' md m r n k d : den n tr md [] (PRef m r []) = d -> no_bot d = true -> no_bot (den k tr' md [] (PRef m r [])) = true ->
  den k tr' md [] (PRef m r []) <> d -> ~ same_meaning tr md (PRef m r []) tr' md (PRef m r []).
Proof.
  intros <- H1 H2 H3 S. destruct (same_meaning_total _ _ _ _ _ _ _ S H1) as (j & Hj). apply H3. rewrite <- Hj. apply dle_total; [|exact H2].
  destruct (Nat.le_ge_cases k j) as [L|L]; [apply den_le, L|]. rewrite <- Hj in H1.
  pose proof (den_le j k tr' md [] (PRef m r []) L) as Q. rewrite (dle_total _ _ Q H1). apply dle_refl.
Qed.
(** A ::= List{List{INTEGER}}: the inner use is left in place, its template removed. *)
Definition tree2 : ptree := [PModule "M" [] [template1; PAssign "A" (PTypeA (PRef None "List" [PRef None "List" [int_t]])) []]].
Theorem C91_nested_actual_refuted : exists tr tr' n, resolve_parameters tr = Done tr' /\
  meaningful (den n tr "M" [] (PRef None "A" [])) = true /\ ~ same_meaning tr "M" (PRef None "A" []) tr' "M" (PRef None "A" []).
Proof. exists tree2. eexists. exists 9%nat. split; [reflexivity|]. split; [reflexivity|]. eapply (changes _ _ _ _ _ 9 9); try reflexivity. discriminate. Qed.
(** A ::= SEQUENCE { COMPONENTS OF Pair{INTEGER} }. *)
Definition tree3 : ptree := [PModule "M" [] [PAssign "Pair" (PTypeA (PRecord false [PComp "x" (PRef None "X" []) false None])) [(None, "X")];
  PAssign "A" (PTypeA (PRecord false [PCompOf (PRef None "Pair" [int_t])])) []]].
Theorem C91_components_of_refuted : exists tr tr' n, resolve_parameters tr = Done tr' /\
  meaningful (den n tr "M" [] (PRef None "A" [])) = true /\ ~ same_meaning tr "M" (PRef None "A" []) tr' "M" (PRef None "A" []).
Proof. exists tree3. eexists. exists 9%nat. split; [reflexivity|]. split; [reflexivity|]. eapply (changes _ _ _ _ _ 9 9); try reflexivity. discriminate. Qed.
(** M: A ::= N.Pair{INTEGER}, Other ::= BOOLEAN; N: Pair{X} ::= SEQUENCE { x X, y Other }, Other ::= NULL: A gets M's Other. *)
Definition tree4 : ptree := [PModule "M" [] [PAssign "A" (PTypeA (PRef (Some "N") "Pair" [int_t])) []; PAssign "Other" (PTypeA (PLeaf false 1%Z)) []];
  PModule "N" [] [PAssign "Pair" (PTypeA (PRecord false [PComp "x" (PRef None "X" []) false None; PComp "y" (PRef None "Other" []) false None])) [(None, "X")];
                  PAssign "Other" (PTypeA (PLeaf false 5%Z)) []]].
Theorem C91_other_module_refuted : exists tr tr' n, resolve_parameters tr = Done tr' /\
  meaningful (den n tr "M" [] (PRef None "A" [])) = true /\ ~ same_meaning tr "M" (PRef None "A" []) tr' "M" (PRef None "A" []).
Proof. exists tree4. eexists. exists 9%nat. split; [reflexivity|]. split; [reflexivity|]. eapply (changes _ _ _ _ _ 9 9); try reflexivity. discriminate. Qed.
(** Types with a meaning that make the pass throw: an imported template, and a template that uses another. *)
Definition tree5 : ptree := [PModule "M" [("N", ["List"])] [PAssign "A" (PTypeA (PRef None "List" [int_t])) []]; PModule "N" [] [template1]].
Definition tree6 : ptree := [PModule "M" [] [template1; PAssign "Lists" (PTypeA (PListOf false (PRef None "List" [PRef None "Y" []]))) [(None, "Y")];
  PAssign "A" (PTypeA (PRef None "Lists" [int_t])) []]].
Theorem C91_imported_template_refuted : exists tr n, resolve_parameters tr = Throw /\ meaningful (den n tr "M" [] (PRef None "A" [])) = true.
Proof. exists tree5, 9%nat. split; reflexivity. Qed.
Theorem C91_template_in_template_refuted : exists tr n, resolve_parameters tr = Throw /\ meaningful (den n tr "M" [] (PRef None "A" [])) = true.
Proof. exists tree6, 9%nat. split; reflexivity. Qed.

(** * C92: imports *)
Lemma import_module tr q : pfind_module (forget_imports (import_all tr)) q =
  match pfind_module tr q with Some x => Some (PModule q [] (split_imports (pm_assigns x) (pm_imports x))) | None => None end.
Proof.
  induction tr as [|x tr IH]; [reflexivity|]. cbn [pfind_module import_all forget_imports map pm_name pm_assigns pm_imports].
  destruct (String.eqb_spec (pm_name x) q) as [<-|]; [reflexivity|exact IH].
Qed.
Lemma pfind_app l l' r : pfind (l ++ l') r = match pfind l r with Some a => Some a | None => pfind l' r end.
Proof. induction l as [|a l IH]; cbn; [reflexivity|]. destruct (String.eqb (p_name a) r); [reflexivity|exact IH]. Qed.
Lemma import_find l imports r : pfind (split_imports l imports) r =
  match pfind l r with
  | Some a => Some a
  | None => match find_import imports r with Some q => Some (PAssign r (PTypeA (PRef (Some q) r [])) []) | None => None end
  end.
Proof.
  unfold split_imports. rewrite pfind_app. destruct (pfind l r); [reflexivity|]. unfold find_import.
  induction imports as [|[q ns] imports IH]; [reflexivity|]. cbn [flat_map fst snd]. rewrite pfind_app. cbn [find snd].
  assert (E : pfind (map (fun n => PAssign n (PTypeA (PRef (Some q) n [])) []) ns) r = if existsb (String.eqb r) ns then Some (PAssign r (PTypeA (PRef (Some q) r [])) []) else None).
  { clear. induction ns as [|n ns IH]; [reflexivity|]. cbn. rewrite String.eqb_sym. destruct (String.eqb_spec r n) as [->|]; [reflexivity|exact IH]. }
  rewrite E. destruct (existsb (String.eqb r) ns); [reflexivity|exact IH].
Qed.
Lemma import_target tr md m r : target_of (forget_imports (import_all tr)) md m r =
  match target_of tr md m r with
  | Imported q => Found (match m with Some x => x | None => md end) (PAssign r (PTypeA (PRef (Some q) r [])) [])
  | x => x
  end.
Proof.
  unfold target_of. rewrite import_module. destruct (pfind_module tr _) as [x|] eqn:E; [|reflexivity]. cbn [pm_assigns pm_imports pm_name].
  rewrite import_find. rewrite (pfind_module_name _ _ _ E). destruct (pfind (pm_assigns x) r); [reflexivity|]. destruct (find_import (pm_imports x) r); reflexivity.
Qed.
Lemma target_in tr md m r q a : target_of tr md m r = Found q a -> exists x, In x tr /\ In a (pm_assigns x) /\ pm_name x = q /\ p_name a = r.
Proof.
  unfold target_of. destruct (pfind_module tr _) as [x|] eqn:E; [|discriminate]. destruct (pfind (pm_assigns x) r) as [b|] eqn:Eb; [|destruct (find_import _ _); discriminate].
  intros [= <- ->]. exists x. split; [eapply pfind_module_in; eauto|]. apply pfind_name in Eb as [E1 E2]. auto.
Qed.
Lemma den_ref_any n : forall tr md md' env env' q r, den n tr md env (PRef (Some q) r []) = den n tr md' env' (PRef (Some q) r []).
Proof.
  induction n as [|n IH]; intros; [reflexivity|]. cbn [den]. change (target_of tr md' (Some q) r) with (target_of tr md (Some q) r).
  destruct (target_of tr md (Some q) r) as [x a|x|]; [reflexivity| |reflexivity]. apply IH.
Qed.
Lemma den_field_any n : forall tr md md' env env' q c fs, den n tr md env (PField (Some q) c fs) = den n tr md' env' (PField (Some q) c fs).
Proof.
  induction n as [|n IH]; intros; [reflexivity|]. cbn [den]. change (target_of tr md' (Some q) c) with (target_of tr md (Some q) c).
  destruct (target_of tr md (Some q) c) as [x a|x|]; [reflexivity| |reflexivity]. apply IH.
Qed.
Lemma import_den tr : tree_param_free tr -> forall n md t, param_free t -> den n (forget_imports (import_all tr)) md [] t = den n tr md [] t.
Proof.
  intros W. induction n as [|n IH]; intros md t Ht; [reflexivity|]. destruct t as [e k|m r ps|s cs|s t|l|g t|m c fs]; cbn [param_free] in Ht; cbn [den].
  - reflexivity.
  - subst ps. assert (E : match m with Some _ => @None closure | None => env_find [] r end = None) by (destruct m; reflexivity). rewrite E.
    rewrite import_target. destruct (target_of tr md m r) as [q a|q|] eqn:Et; [| |reflexivity].
    + destruct (p_spec a) as [body| | |] eqn:Es; try reflexivity. destruct (p_params a); [|reflexivity]. cbn. apply IH.
      destruct (target_in _ _ _ _ _ _ Et) as (x & H1 & H2 & _). pose proof (W x a H1 H2) as K. rewrite Es in K. exact K.
    + cbn [p_spec p_params length Nat.eqb map combine]. rewrite IH by reflexivity. apply den_ref_any.
  - f_equal. apply map_ext_in. intros c Hc. apply fold_and in Ht. rewrite Forall_forall in Ht. specialize (Ht c Hc). destruct c; rewrite IH by exact Ht; reflexivity.
  - rewrite IH by exact Ht. reflexivity.
  - f_equal. apply map_ext_in. intros c Hc. apply fold_and in Ht. rewrite Forall_forall in Ht. specialize (Ht c Hc). cbn in Ht. rewrite IH by exact Ht. reflexivity.
  - rewrite IH by exact Ht. reflexivity.
  - assert (E : match m with Some _ => @None closure | None => env_find [] c end = None) by (destruct m; reflexivity). rewrite E.
    rewrite import_target. destruct (target_of tr md m c) as [q a|q|] eqn:Et; [| |reflexivity].
    + destruct (p_params a); [|reflexivity]. destruct (p_spec a) as [body| |fields|] eqn:Es; try reflexivity.
      * destruct body as [| m' c' [|]| | | | |]; try reflexivity. apply IH. exact I.
      * destruct fs as [|f [|]]; try reflexivity. destruct (find _ fields) as [y|] eqn:Ef; [|reflexivity]. destruct (f_type y) as [t|] eqn:Eft; [|reflexivity].
        apply IH. destruct (target_in _ _ _ _ _ _ Et) as (x & H1 & H2 & _). pose proof (W x a H1 H2) as K. rewrite Es in K. apply find_some in Ef as [Ef _]. eapply K; eauto.
    + cbn [p_spec p_params]. rewrite IH by exact I. apply den_field_any.
Qed.
(** After split_imports has run on every module, the modules mean without their imports what they meant with them. *)
Theorem C92_imports_meaning : forall tr, tree_param_free tr -> forall md t, param_free t ->
  same_meaning tr md t (forget_imports (import_all tr)) md t.
Proof. intros tr W md t Ht. split; intros n; exists n; rewrite import_den by assumption; apply dle_refl. Qed.
(** ResolveType.cpp's resolve, which does not look at imports, then finds exactly the names that are defined or imported. *)
Theorem C92_imports_resolve : forall tr md m r, (exists a, plookup (import_all tr) md m r = Done a) <-> target_of tr md m r <> Nowhere.
Proof.
  intros tr md m r. unfold plookup, target_of, ref_module. set (q := match m with Some x => x | None => md end).
  assert (E : pfind_module (import_all tr) q = match pfind_module tr q with Some x => Some (PModule q (pm_imports x) (split_imports (pm_assigns x) (pm_imports x))) | None => None end).
  { clear. induction tr as [|x tr IH]; [reflexivity|]. cbn [pfind_module import_all map pm_name pm_assigns pm_imports]. destruct (String.eqb_spec (pm_name x) q) as [<-|]; [reflexivity|exact IH]. }
  rewrite E. destruct (pfind_module tr q) as [x|]; [|split; [intros (a & H); discriminate|congruence]].
  cbn [pm_assigns]. rewrite import_find. destruct (pfind (pm_assigns x) r); [split; [discriminate|eauto]|].
  destruct (find_import (pm_imports x) r); [split; [discriminate|eauto]|]. split; [intros (a & H); discriminate|congruence].
Qed.
Definition tree7 : ptree := [PModule "M" [("N", ["A"; "B"])] [PAssign "C" (PTypeA (PListOf false (PRef None "B" []))) []];
  PModule "N" [("M", ["C"])] [PAssign "A" (PTypeA int_t) []; PAssign "B" (PTypeA (PChoice [("c", PRef None "C" []); ("a", PRef None "A" [])])) []]].
Example C92_example : tree_param_free tree7 /\ target_of tree7 "M" None "B" = Imported "N" /\ param_free (PRef None "B" []).
Proof. split; [|split; reflexivity]. intros m a Hm Ha. unfold tree7 in *. in_cases; in_cases; cbn; auto. Qed.

(** * C93: nested structures *)
(** split_nested_structures keeps every type's meaning (here: of every name; the new definitions are found under names that
    nothing else uses).  [n], [n']: the counter before and after, an int. *)
Theorem C93_nesting_meaning : forall tr tr' n n', nesting_ok tr -> (0 <= n)%Z -> nest_all tr n = (tr', n') -> (n' < 2^31)%Z ->
  forall md m r, ~ made_up r -> same_meaning tr md (PRef m r []) tr' md (PRef m r []).
Proof.
  intros tr tr' n n' W H0 H H1 md m r Hr. destruct (nest_tables tr n tr' n' W H0 H1 H) as (tabs & F & Fn).
  apply (nest_same tr tr' tabs W F Fn). apply nr_direct. constructor. exact Hr.
Qed.
(** Afterwards no list type or tag has a structure inside, and the names in each module are still different. *)
Theorem C93_nesting_flat : forall tr tr' n n', nesting_ok tr -> (0 <= n)%Z -> nest_all tr n = (tr', n') -> (n' < 2^31)%Z ->
  forall x a t, In x tr' -> In a (pm_assigns x) -> p_spec a = PTypeA t -> flat t.
Proof.
  intros tr tr' n n' W H0 H H1 x a t Hx Ha Es. destruct (nest_tables tr n tr' n' W H0 H1 H) as (tabs & F & _).
  destruct (Forall2_in_r _ _ _ _ F Hx) as (m & _ & R). destruct (mr_all _ _ _ R a Ha) as [(p & P1 & ->)|(b & B1 & _ & _ & B2)].
  - cbn in Es. injection Es as <-. pose proof (mr_flat _ _ _ R) as Q. rewrite Forall_forall in Q. apply Q, P1.
  - destruct (p_spec b); [|rewrite Es in B2; discriminate..]. destruct B2 as (t' & E & _ & Hf). rewrite Es in E. injection E as ->. exact Hf.
Qed.
Lemma split_nested_names md l : forall n l' n', Forall nassign_ok l -> split_nested md l n = (l', n') -> exists tab,
  gen_from n tab /\ n' = (n + Z.of_nat (length tab))%Z /\ Permutation (map p_name l') (map fst tab ++ map p_name l).
Proof.
  induction l as [|a l IH]; intros n l' n' Hok H.
  - injection H as <- <-. exists []. split; [constructor|]. split; [cbn; lia|constructor].
  - inversion Hok as [|? ? (_ & _ & Hs) Hl]; subst. cbn [split_nested] in H.
    assert (K : forall n1 new a', gen_from n new -> n1 = (n + Z.of_nat (length new))%Z -> p_name a' = p_name a ->
      (let '(l', n) := split_nested md l n1 in (map (fun p => PAssign (fst p) (PTypeA (snd p)) []) (rev new) ++ a' :: l', n)) = (l', n') ->
      exists tab, gen_from n tab /\ n' = (n + Z.of_nat (length tab))%Z /\ Permutation (map p_name l') (map fst tab ++ map p_name (a :: l))).
    { intros n1 new a' G1 G2 Na E. destruct (split_nested md l n1) as [l2 n2] eqn:El. injection E as <- <-.
      destruct (IH n1 l2 n2 Hl El) as (tab & T1 & T2 & T3). exists (new ++ tab). split; [apply gen_from_app; [exact G1|rewrite <- G2; exact T1]|].
      split; [rewrite T2, G2, app_length; lia|]. rewrite !map_app. cbn [map]. rewrite Na, map_map. cbn. rewrite map_rev. rewrite <- app_assoc.
      apply Permutation_app; [apply Permutation_sym, Permutation_rev|]. apply Permutation_cons_app. exact T3. }
    destruct (p_spec a) as [t|t v|fs|] eqn:Es.
    + destruct (find_nested md t (n, [])) as [t' [n1 nested]] eqn:Ef. destruct Hs as [Hs1 Hs2].
      destruct (find_nested_rel md t (n, []) t' (n1, nested) Hs1 Hs2 Ef) as (new & (E1 & E2 & E3 & E4) & _). cbn in E1, E2, E3. subst nested.
      apply (K n1 new (PAssign (p_name a) (PTypeA t') (p_params a))); auto.
    + apply (K n [] a); [constructor|cbn; lia|reflexivity|exact H].
    + apply (K n [] a); [constructor|cbn; lia|reflexivity|exact H].
    + apply (K n [] a); [constructor|cbn; lia|reflexivity|exact H].
Qed.
Theorem C93_nesting_names : forall tr tr' n n', nesting_ok tr -> (0 <= n)%Z -> nest_all tr n = (tr', n') -> (n' < 2^31)%Z ->
  (forall x, In x tr -> NoDup (map p_name (pm_assigns x))) -> forall x, In x tr' -> NoDup (map p_name (pm_assigns x)).
Proof.
  intros tr tr' n n' W H0 H H1 Hd x Hx. destruct (nest_all_rel tr n tr' n' (fun m a => nesting_ok_assign tr m a W) H) as [_ F].
  destruct (Forall2_in_r _ _ _ _ F Hx) as (m & Hm & _ & _ & k & k' & Hk & Hk' & E).
  assert (Hok : Forall nassign_ok (pm_assigns m)) by (apply Forall_forall; intros a Ha; eapply nesting_ok_assign; eauto).
  destruct (split_nested_names _ _ _ _ _ Hok E) as (tab & T1 & T2 & T3). apply Permutation_sym in T3. eapply Permutation_NoDup; [exact T3|].
  assert (Hnd : NoDup (map fst tab)) by (apply (gen_from_nodup k tab); [lia|lia|exact T1]). clear T3. specialize (Hd m Hm).
  assert (Hdis : forall r, In r (map fst tab) -> ~ In r (map p_name (pm_assigns m))).
  { intros r Hr1 Hr2. apply in_map_iff in Hr1 as (p & <- & Hp). apply in_map_iff in Hr2 as (a & Ea & Ha). rewrite Forall_forall in Hok. destruct (Hok a Ha) as (_ & Hm2 & _).
    apply Hm2. rewrite Ea. exact (gen_made_up _ _ _ T1 Hp). }
  revert Hnd Hdis. induction (map fst tab) as [|r l IH]; cbn [app]; intros Hnd Hdis; [exact Hd|]. inversion Hnd as [|? ? N1 N2]; subst. constructor.
  - rewrite in_app_iff. intros [Hin|Hin]; [exact (N1 Hin)|]. eapply Hdis; [left; reflexivity|exact Hin].
  - apply IH; [exact N2|]. intros q Hq. apply Hdis. right. exact Hq.
Qed.
Lemma not_made_up r : String.prefix "Unnamed" r = false -> ~ made_up r.
Proof. intros H (p & n & Hp & ->). cbn in Hp. repeat destruct Hp as [<-|Hp]; try destruct Hp; cbn in H; discriminate. Qed.
(** A ::= SEQUENCE OF SEQUENCE { x [0] CHOICE { a A, n INTEGER } } *)
Definition tree8 : ptree := [PModule "M" [] [PAssign "A" (PTypeA (PListOf false (PRecord false [PComp "x" (PTagged 0 (PChoice [("a", PRef None "A" []); ("n", int_t)])) true None]))) []]].
Example C93_example : nesting_ok tree8 /\ nest_all tree8 0 =
  ([PModule "M" [] [PAssign "UnnamedSequence1" (PTypeA (PRecord false [PComp "x" (PTagged 0 (PRef (Some "M") "UnnamedChoice0" [])) true None])) [];
                    PAssign "UnnamedChoice0" (PTypeA (PChoice [("a", PRef None "A" []); ("n", int_t)])) [];
                    PAssign "A" (PTypeA (PListOf false (PRef (Some "M") "UnnamedSequence1" []))) []]], 2%Z).
Proof.
  split; [|reflexivity]. split; [repeat constructor; intros []|]. split.
  - intros m a Hm Ha. unfold tree8 in *. in_cases; in_cases; cbn; auto.
  - intros m a Hm Ha. unfold tree8 in *. in_cases; in_cases. cbn [p_params p_name p_spec]. split; [reflexivity|]. split; [apply not_made_up; reflexivity|].
    cbn. repeat split; apply not_made_up; reflexivity.
Qed.
(** A type of the user's may have such a name, and then the meaning changes:
    A ::= SET OF SET { x INTEGER }, UnnamedSet0 ::= BOOLEAN, B ::= SEQUENCE { u UnnamedSet0 }. *)
Definition tree9 : ptree := [PModule "M" [] [PAssign "A" (PTypeA (PListOf true (PRecord true [PComp "x" int_t false None]))) [];
  PAssign "UnnamedSet0" (PTypeA (PLeaf false 1%Z)) []; PAssign "B" (PTypeA (PRecord false [PComp "u" (PRef None "UnnamedSet0" []) false None])) []]].
Theorem C93_name_clash_refuted : exists tr tr' n' k, (forall x, In x tr -> NoDup (map p_name (pm_assigns x))) /\ nest_all tr 0 = (tr', n') /\
  meaningful (den k tr "M" [] (PRef None "B" [])) = true /\ ~ same_meaning tr "M" (PRef None "B" []) tr' "M" (PRef None "B" []).
Proof.
  exists tree9. eexists. eexists. exists 9%nat. split; [|split; [reflexivity|split; [reflexivity|]]].
  - intros x [<-|[]]. cbn. repeat constructor; cbn; intuition discriminate.
  - eapply (changes _ _ _ _ _ 9 9); try reflexivity. discriminate.
Qed.
