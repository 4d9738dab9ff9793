(** Proofs about resolve_parameters. *)
From Verif Require Import Base CompilerPasses PassesSpec PassesProofs.
Local Open Scope string_scope.
Local Open Scope list_scope.

Lemma fold_and {A} (P : A -> Prop) l : fold_right and True (map P l) <-> Forall P l.
Proof. induction l as [|x l IH]; cbn; [split; [constructor|auto]|]. rewrite IH. split; [intros [H1 H2]; constructor; auto|intros H; inversion H; auto]. Qed.
(** ** the relation between a type before and after *)
Definition env_of (md : string) (sub : list (string * ptyp)) : list (string * closure) := map (fun p => (fst p, Clo md [] (snd p))) sub.
Definition sub_find (sub : list (string * ptyp)) (r : string) : option ptyp := match find (fun p => String.eqb (fst p) r) sub with Some p => Some (snd p) | None => None end.
Lemma env_find_of md sub r : env_find (env_of md sub) r = match sub_find sub r with Some u => Some (Clo md [] u) | None => None end.
Proof.
  unfold env_find, env_of, sub_find. induction sub as [|[x u] sub IH]; cbn; [reflexivity|]. destruct (String.eqb x r); [reflexivity|exact IH].
Qed.
Lemma sub_find_none sub r : ~ In r (map fst sub) -> sub_find sub r = None.
Proof.
  unfold sub_find. induction sub as [|[x u] sub IH]; cbn; [reflexivity|]. intros H. destruct (String.eqb_spec x r); [tauto|]. apply IH. tauto.
Qed.
Section relation.
  Context (tr : ptree).
  Inductive direct (md : string) (sub : list (string * ptyp)) : ptyp -> ptyp -> Prop :=
  | dr_leaf e k : direct md sub (PLeaf e k) (PLeaf e k)
  | dr_ref m r : (m = None -> sub_find sub r = None) -> direct md sub (PRef m r []) (PRef m r [])
  | dr_field m c fs : (m = None -> sub_find sub c = None) -> direct md sub (PField m c fs) (PField m c fs)
  | dr_record s cs cs' : Forall2 (crel md sub) cs cs' -> direct md sub (PRecord s cs) (PRecord s cs')
  | dr_list s t t' : prel md sub t t' -> direct md sub (PListOf s t) (PListOf s t')
  | dr_choice l l' : Forall2 (fun a b => fst a = fst b /\ prel md sub (snd a) (snd b)) l l' -> direct md sub (PChoice l) (PChoice l')
  | dr_tagged g t t' : prel md sub t t' -> direct md sub (PTagged g t) (PTagged g t')
  with prel (md : string) (sub : list (string * ptyp)) : ptyp -> ptyp -> Prop :=
  | pr_direct t t' : direct md sub t t' -> prel md sub t t'
  | pr_dummy r u : sub_find sub r = Some u -> direct md [] u u -> prel md sub (PRef None r []) u
  | pr_template m r ps a body t' : sub = [] -> ps <> [] -> target_of tr md m r = Found md a -> p_spec a = PTypeA body ->
      length (p_params a) = length ps -> direct md (combine (dummies a) ps) body t' -> prel md sub (PRef m r ps) t'
  with crel (md : string) (sub : list (string * ptyp)) : pcomp -> pcomp -> Prop :=
  | cr_comp n t t' o d : prel md sub t t' -> crel md sub (PComp n t o d) (PComp n t' o d)
  | cr_compof t : direct md sub t t -> crel md sub (PCompOf t) (PCompOf t).

  (** types without parameters and dummies are related to themselves *)
  Lemma direct_self md sub t : param_free t -> avoids (map fst sub) t -> direct md sub t t.
  Proof.
    induction t as [e k|m r ps IH|s cs IH|s t IH|l IH|g t IH|m c fs] using ptyp_induct; cbn [param_free avoids]; intros Hp Ha.
    - constructor.
    - subst ps. constructor. intros E. apply sub_find_none, Ha, E.
    - constructor. apply fold_and in Hp, Ha. revert Hp Ha. induction IH as [|c l Hc _ IHl]; intros Hp Ha; [constructor|].
      inversion Hp as [|? ? P1 P2]; subst. inversion Ha as [|? ? A1 A2]; subst. constructor; [|apply IHl; assumption].
      destruct c; cbn in *; constructor; [apply pr_direct|]; apply Hc; assumption.
    - constructor. apply pr_direct, IH; assumption.
    - constructor. apply fold_and in Hp, Ha. revert Hp Ha. induction IH as [|c l Hc _ IHl]; intros Hp Ha; [constructor|].
      inversion Hp as [|? ? P1 P2]; subst. inversion Ha as [|? ? A1 A2]; subst. constructor; [|apply IHl; assumption].
      split; [reflexivity|apply pr_direct, Hc; assumption].
    - constructor. apply pr_direct, IH; assumption.
    - constructor. intros E. apply sub_find_none, Ha, E.
  Qed.
  Lemma avoids_nil t : avoids [] t.
  Proof.
    induction t as [e k|m r ps IH|s cs IH|s t IH|l IH|g t IH|m c fs] using ptyp_induct; cbn; auto.
    - split; [auto|]. apply fold_and. exact IH.
    - apply fold_and. induction IH as [|c l Hc _ IHl]; constructor; [|exact IHl]. destruct c; exact Hc.
    - apply fold_and. induction IH as [|c l Hc _ IHl]; constructor; [|exact IHl]. exact Hc.
  Qed.
  Lemma direct_free md t : param_free t -> direct md [] t t.
  Proof. intros H. apply direct_self; [exact H|apply avoids_nil]. Qed.

  (** ** the pass gives related types *)
  Lemma pm_find_nodup sub r : NoDup (map fst sub) -> pm_find sub r = sub_find sub r.
  Proof.
    unfold pm_find, sub_find. induction sub as [|[x u] sub IH]; cbn; [reflexivity|]. intros H. inversion H as [|? ? H1 H2]; subst.
    assert (Ha : forall l1 l2 : list (string * ptyp), find (fun p => String.eqb (fst p) r) (l1 ++ l2) =
      match find (fun p => String.eqb (fst p) r) l1 with Some p => Some p | None => find (fun p => String.eqb (fst p) r) l2 end).
    { clear. induction l1 as [|y l1 IH]; intros l2; cbn; [reflexivity|]. destruct (String.eqb (fst y) r); [reflexivity|apply IH]. }
    rewrite Ha. cbn. specialize (IH H2). destruct (String.eqb_spec x r) as [->|Hne].
    - assert (En : find (fun p => String.eqb (fst p) r) (rev sub) = None).
      { destruct (find _ (rev sub)) as [p|] eqn:E; [|reflexivity]. apply find_some in E as [E1 E2]. apply String.eqb_eq in E2.
        exfalso. apply H1. rewrite <- E2. apply in_map. apply in_rev. exact E1. }
      rewrite En. reflexivity.
    - destruct (find _ (rev sub)) as [p|]; exact IH.
  Qed.
  Lemma rp_rel md sub : NoDup (map fst sub) -> Forall (fun p => param_free (snd p)) sub ->
    forall t t', dummies_ok (map fst sub) t -> resolve_parameterized sub t = Done t' ->
      prel md sub t t' /\ (~ bare_ref t -> direct md sub t t').
  Proof.
    intros Hn Hf t. induction t as [e k|m r ps IH|s cs IH|s t IH|l IH|g t IH|m c fs] using ptyp_induct; cbn [resolve_parameterized dummies_ok bare_ref]; intros t' Hd H.
    - injection H as <-. split; [apply pr_direct|]; constructor.
    - split; [|tauto]. destruct ps as [|? ?]; [|discriminate]. destruct m as [m|].
      + injection H as <-. apply pr_direct. constructor. discriminate.
      + rewrite (pm_find_nodup sub r Hn) in H. destruct (sub_find sub r) as [u|] eqn:E.
        * injection H as <-. apply pr_dummy; [exact E|]. apply direct_free. unfold sub_find in E. destruct (find _ sub) as [p|] eqn:Ef; [|discriminate].
          injection E as <-. apply find_some in Ef as [Ef _]. eapply Forall_forall in Hf; eauto.
        * injection H as <-. apply pr_direct. constructor. auto.
    - destruct (omap _ cs) as [cs'| | |] eqn:E; cbn in H; try discriminate. injection H as <-.
      apply omap_Forall2 in E. apply fold_and in Hd.
      assert (K : direct md sub (PRecord s cs) (PRecord s cs')).
      { constructor. revert Hd E. revert cs'. induction IH as [|c l Hc _ IHl]; intros cs' Hd E; inversion E as [|? c' ? l' E1 E2]; subst; [constructor|].
        inversion Hd as [|? ? D1 D2]; subst. constructor; [|apply IHl; assumption].
        destruct c as [x t o d|t]; cbn in *.
        - destruct (resolve_parameterized sub t) as [u| | |]; cbn in E1; try discriminate. injection E1 as <-. constructor. apply Hc; auto.
        - injection E1 as <-. constructor. destruct D1. apply direct_self; assumption. }
      split; [apply pr_direct, K|intros _; exact K].
    - destruct (resolve_parameterized sub t) as [u| | |]; cbn in H; try discriminate. injection H as <-.
      assert (K : direct md sub (PListOf s t) (PListOf s u)) by (constructor; apply IH; auto).
      split; [apply pr_direct, K|intros _; exact K].
    - destruct (omap _ l) as [l'| | |] eqn:E; cbn in H; try discriminate. injection H as <-.
      apply omap_Forall2 in E. apply fold_and in Hd.
      assert (K : direct md sub (PChoice l) (PChoice l')).
      { constructor. revert Hd E. revert l'. induction IH as [|c l Hc _ IHl]; intros l' Hd E; inversion E as [|? c' ? l2 E1 E2]; subst; [constructor|].
        inversion Hd as [|? ? D1 D2]; subst. constructor; [|apply IHl; assumption].
        destruct (resolve_parameterized sub (snd c)) as [u| | |]; cbn in E1; try discriminate. injection E1 as <-. split; [reflexivity|]. apply Hc; auto. }
      split; [apply pr_direct, K|intros _; exact K].
    - destruct (resolve_parameterized sub t) as [u| | |]; cbn in H; try discriminate. injection H as <-.
      assert (K : direct md sub (PTagged g t) (PTagged g u)) by (constructor; apply IH; auto).
      split; [apply pr_direct, K|intros _; exact K].
    - injection H as <-. assert (K : direct md sub (PField m c fs) (PField m c fs)) by (constructor; intros E; apply sub_find_none, Hd, E).
      split; [apply pr_direct, K|intros _; exact K].
  Qed.
End relation.

Lemma pfind_module_in tr m x : pfind_module tr m = Some x -> In x tr.
Proof. induction tr as [|y tr IH]; cbn; [discriminate|]. destruct (String.eqb (pm_name y) m); [intros [= <-]; auto|auto]. Qed.
Lemma plookup_found tr md m r a : plookup tr md m r = Done a -> target_of tr md m r = Found (ref_module md m) a /\
  exists x, In x tr /\ In a (pm_assigns x) /\ pm_name x = ref_module md m.
Proof.
  unfold plookup, target_of, ref_module. set (q := match m with Some x => x | None => md end). destruct (pfind_module tr q) as [x|] eqn:E; [|discriminate].
  destruct (pfind (pm_assigns x) r) as [b|] eqn:Eb; [|discriminate]. intros [= ->]. rewrite (pfind_module_name _ _ _ E).
  split; [reflexivity|]. exists x. split; [eapply pfind_module_in; eauto|]. split; [eapply pfind_name; eauto|eapply pfind_module_name; eauto].
Qed.
Lemma pc_rel tr md : parameters_ok tr -> forall t t', actuals_ok md t -> parameterized_to_concrete tr md t = Done t' -> prel tr md [] t t'.
Proof.
  intros W t. induction t as [e k|m r ps IH|s cs IH|s t IH|l IH|g t IH|m c fs] using ptyp_induct; cbn [parameterized_to_concrete actuals_ok]; intros t' Ha H.
  - injection H as <-. apply pr_direct. constructor.
  - destruct ps as [|p ps]; [injection H as <-; apply pr_direct; constructor; reflexivity|]. destruct Ha as [Ha|[Hm Hf]]; [discriminate|].
    destruct (plookup tr md m r) as [a| | |] eqn:El; cbn [obind] in H; try discriminate.
    destruct (Nat.eqb_spec (length (p_params a)) (length (p :: ps))) as [Hlen|]; [|discriminate].
    destruct (p_spec a) as [body| | |] eqn:Eb; try discriminate.
    destruct (plookup_found _ _ _ _ _ El) as (Ht & x & Hx & Hxa & Hxn).
    assert (Em : ref_module md m = md) by (destruct Hm as [->| ->]; reflexivity). rewrite Em in *.
    assert (Hne : p_params a <> []) by (intros E; rewrite E in Hlen; discriminate).
    destruct (po_templates tr W x a body Hx Hxa Hne Eb) as (Hnd & Hdo & Hbr).
    assert (Ef : map fst (combine (dummies a) (p :: ps)) = dummies a).
    { assert (Hl : length (dummies a) = length (p :: ps)) by (unfold dummies; rewrite map_length; exact Hlen). revert Hl. generalize (dummies a) (p :: ps). clear.
      induction l as [|x l IH]; intros [|y m] H; cbn in *; try discriminate; [reflexivity|]. f_equal. apply IH. lia. }
    eapply pr_template; eauto; [discriminate|]. eapply rp_rel; [| | |exact H|exact Hbr].
    + fold (dummies a). rewrite Ef. exact Hnd.
    + apply fold_and in Hf. fold (dummies a). apply Forall_forall. intros [y u] Hy. apply in_combine_r in Hy. eapply Forall_forall in Hf; eauto.
    + fold (dummies a). rewrite Ef. exact Hdo.
  - destruct (omap _ cs) as [cs'| | |] eqn:E; cbn in H; try discriminate. injection H as <-. apply omap_Forall2 in E. apply fold_and in Ha.
    apply pr_direct. constructor. revert Ha E. revert cs'. induction IH as [|c l Hc _ IHl]; intros cs' Ha E; inversion E as [|? c' ? l' E1 E2]; subst; [constructor|].
    inversion Ha as [|? ? D1 D2]; subst. constructor; [|apply IHl; assumption].
    destruct c as [x t o d|t]; cbn in *.
    + destruct (parameterized_to_concrete tr md t) as [u| | |]; cbn in E1; try discriminate. injection E1 as <-. constructor. apply Hc; auto.
    + injection E1 as <-. constructor. apply direct_free, D1.
  - destruct (parameterized_to_concrete tr md t) as [u| | |]; cbn in H; try discriminate. injection H as <-. apply pr_direct. constructor. apply IH; auto.
  - destruct (omap _ l) as [l'| | |] eqn:E; cbn in H; try discriminate. injection H as <-. apply omap_Forall2 in E. apply fold_and in Ha.
    apply pr_direct. constructor. revert Ha E. revert l'. induction IH as [|c l Hc _ IHl]; intros l' Ha E; inversion E as [|? c' ? l2 E1 E2]; subst; [constructor|].
    inversion Ha as [|? ? D1 D2]; subst. constructor; [|apply IHl; assumption].
    destruct (parameterized_to_concrete tr md (snd c)) as [u| | |]; cbn in E1; try discriminate. injection E1 as <-. split; [reflexivity|]. apply Hc; auto.
  - destruct (parameterized_to_concrete tr md t) as [u| | |]; cbn in H; try discriminate. injection H as <-. apply pr_direct. constructor. apply IH; auto.
  - injection H as <-. apply pr_direct. constructor. reflexivity.
Qed.

(** ** the new tree *)
Lemma is_template_iff a : is_template a = true <-> p_params a <> [].
Proof. unfold is_template. destruct (p_params a); split; congruence. Qed.
Lemma concrete_assign_facts tr md a a' : concrete_assign tr md a = Done a' ->
  p_name a' = p_name a /\ p_params a' = p_params a /\
  match p_spec a with
  | PTypeA t => if is_template a then p_spec a' = p_spec a else exists t', p_spec a' = PTypeA t' /\ parameterized_to_concrete tr md t = Done t'
  | s => p_spec a' = s
  end.
Proof.
  unfold concrete_assign. destruct (p_spec a) as [t| | |] eqn:E; [|intros [= <-]; auto..].
  destruct (is_template a); [intros [= <-]; auto|]. destruct (parameterized_to_concrete tr md t) as [u| | |]; cbn; try discriminate.
  intros [= <-]. cbn. eauto.
Qed.
Lemma resolve_modules tr tr' : resolve_parameters tr = Done tr' -> forall q,
  match pfind_module tr q with
  | None => pfind_module tr' q = None
  | Some x => exists l, omap (concrete_assign tr q) (pm_assigns x) = Done l /\
      pfind_module tr' q = Some (PModule q (pm_imports x) (filter (fun a => negb (is_template a)) l))
  end.
Proof.
  unfold resolve_parameters. destruct (omap _ tr) as [tr1| | |] eqn:E; cbn [obind]; try discriminate. intros [= <-] q.
  assert (K : forall T T1, Forall2 (fun m y => (do l <- omap (concrete_assign tr (pm_name m)) (pm_assigns m); Done (PModule (pm_name m) (pm_imports m) l)) = Done y) T T1 ->
    match pfind_module T q with
    | None => pfind_module (map (fun m => PModule (pm_name m) (pm_imports m) (filter (fun a => negb (is_template a)) (pm_assigns m))) T1) q = None
    | Some x => exists l, omap (concrete_assign tr q) (pm_assigns x) = Done l /\
        pfind_module (map (fun m => PModule (pm_name m) (pm_imports m) (filter (fun a => negb (is_template a)) (pm_assigns m))) T1) q = Some (PModule q (pm_imports x) (filter (fun a => negb (is_template a)) l))
    end).
  { induction 1 as [|m y T T1 H1 _ IH]; [reflexivity|]. destruct (omap (concrete_assign tr (pm_name m)) (pm_assigns m)) as [l| | |] eqn:El; cbn [obind] in H1; try discriminate.
    injection H1 as <-. cbn [pfind_module map pm_name pm_imports pm_assigns]. destruct (String.eqb_spec (pm_name m) q) as [<-|]; [|exact IH]. exists l. auto. }
  apply K. apply omap_Forall2. exact E.
Qed.
Lemma resolve_find tr md l l' r : NoDup (map p_name l) -> omap (concrete_assign tr md) l = Done l' ->
  match pfind l r with
  | None => pfind (filter (fun a => negb (is_template a)) l') r = None
  | Some a => if is_template a then pfind (filter (fun a => negb (is_template a)) l') r = None
              else exists a', concrete_assign tr md a = Done a' /\ pfind (filter (fun a => negb (is_template a)) l') r = Some a'
  end.
Proof.
  intros Hn E. apply omap_Forall2 in E. revert Hn. induction E as [|a a' l l' H1 E IH]; intros Hn; [reflexivity|].
  cbn in Hn. inversion Hn as [|? ? Hn1 Hn2]; subst. specialize (IH Hn2). destruct (concrete_assign_facts _ _ _ _ H1) as (Na & Np & _).
  assert (Et : is_template a' = is_template a) by (unfold is_template; rewrite Np; reflexivity).
  cbn [pfind filter]. rewrite Et. destruct (String.eqb_spec (p_name a) r) as [Er|Er].
  - assert (Hnone : pfind l r = None).
    { destruct (pfind l r) as [b|] eqn:Eb; [|reflexivity]. apply pfind_name in Eb as [E1 E2]. exfalso. apply Hn1. rewrite Er, <- E1. apply in_map, E2. }
    destruct (is_template a); cbn [negb].
    + rewrite Hnone in IH. exact IH.
    + exists a'. split; [exact H1|]. cbn [pfind]. rewrite Na, Er, String.eqb_refl. reflexivity.
  - destruct (is_template a); cbn [negb]; [exact IH|]. cbn [pfind]. rewrite Na. destruct (String.eqb_spec (p_name a) r); [contradiction|]. exact IH.
Qed.
(** what a name means before and after *)
Lemma resolve_target tr tr' : parameters_ok tr -> resolve_parameters tr = Done tr' -> forall md m r,
  match target_of tr md m r with
  | Found q a => if is_template a then target_of tr' md m r = Nowhere
                 else exists a', concrete_assign tr q a = Done a' /\ target_of tr' md m r = Found q a' /\ exists x, In x tr /\ In a (pm_assigns x) /\ pm_name x = q
  | Imported q => target_of tr' md m r = Imported q
  | Nowhere => target_of tr' md m r = Nowhere
  end.
Proof.
  intros W H md m r. unfold target_of. set (q := match m with Some x => x | None => md end). pose proof (resolve_modules _ _ H q) as K.
  destruct (pfind_module tr q) as [x|] eqn:E; [|rewrite K; reflexivity]. destruct K as (l & El & K). rewrite K. cbn [pm_assigns pm_imports pm_name].
  pose proof (pfind_module_in _ _ _ E) as Hin. pose proof (pfind_module_name _ _ _ E) as Hxn.
  pose proof (resolve_find tr q (pm_assigns x) l r (po_names tr W x Hin) El) as F.
  destruct (pfind (pm_assigns x) r) as [a|] eqn:Ea.
  - destruct (is_template a) eqn:Et.
    + rewrite F. apply is_template_iff in Et. apply pfind_name in Ea as [Ea1 Ea2]. pose proof (po_imports tr W x a Hin Ea2 Et) as Hi. rewrite Ea1 in Hi. rewrite Hi. reflexivity.
    + destruct F as (a' & F1 & F2). rewrite F2. exists a'. rewrite Hxn. split; [exact F1|]. split; [reflexivity|]. exists x. apply pfind_name in Ea as [_ Ea]. auto.
  - rewrite F. destruct (find_import (pm_imports x) r); reflexivity.
Qed.

(** ** the meaning is kept *)
Lemma combine_env md names ps : combine names (map (Clo md []) ps) = env_of md (combine names ps).
Proof. unfold env_of. revert ps. induction names as [|x names IH]; intros [|p ps]; cbn; [reflexivity..|]. f_equal. apply IH. Qed.
Section simulation.
  Context (tr tr' : ptree) (W : parameters_ok tr) (Hr : resolve_parameters tr = Done tr').
  (** a class's field types and an assignment's type *)
  Lemma found_type q a a' : concrete_assign tr q a = Done a' -> is_template a = false -> (exists x, In x tr /\ In a (pm_assigns x) /\ pm_name x = q) ->
    p_params a = [] /\ p_params a' = [] /\
    match p_spec a with
    | PTypeA body => exists body', p_spec a' = PTypeA body' /\ prel tr q [] body body'
    | PClassA fs => p_spec a' = PClassA fs /\ forall f t, In f fs -> f_type f = Some t -> direct tr q [] t t
    | s => p_spec a' = s
    end.
  Proof.
    intros H Ht (x & Hx & Ha & Hq). destruct (concrete_assign_facts _ _ _ _ H) as (_ & Hp & K).
    assert (E : p_params a = []) by (unfold is_template in Ht; destruct (p_params a); congruence).
    split; [exact E|]. split; [congruence|]. destruct (p_spec a) as [body| |fs|] eqn:Es; try exact K.
    - rewrite Ht in K. destruct K as (body' & K1 & K2). exists body'. split; [exact K1|]. eapply pc_rel; eauto. rewrite <- Hq. eapply (po_types tr W); eauto.
    - split; [exact K|]. intros f t Hf Hft. apply direct_free. eapply (po_classes tr W); eauto.
  Qed.
  Lemma template_body q m r a body (ps : list ptyp) md : target_of tr q m r = Found md a -> p_spec a = PTypeA body -> length (p_params a) = length ps -> ps <> [] ->
    ~ bare_ref body.
  Proof.
    intros Ht Hb Hl Hne. unfold target_of in Ht.
    destruct (pfind_module tr _) as [y|] eqn:Ey; [|discriminate]. destruct (pfind (pm_assigns y) r) as [b|] eqn:Eb; [|destruct (find_import _ _); discriminate].
    injection Ht as _ <-. apply (po_templates tr W y b body); [eapply pfind_module_in; eauto|eapply pfind_name; eauto| |exact Hb].
    intros E0. rewrite E0 in Hl. destruct ps; [congruence|discriminate].
  Qed.
  Lemma template_step k md m r p ps a body : target_of tr md m r = Found md a -> p_spec a = PTypeA body -> length (p_params a) = length (p :: ps) ->
    den (S k) tr md (env_of md []) (PRef m r (p :: ps)) = den k tr md (env_of md (combine (dummies a) (p :: ps))) body.
  Proof. intros Ht Hb Hl. rewrite <- combine_env. unfold dummies. cbn [den]. rewrite Ht, Hb, Hl, Nat.eqb_refl. destruct m; reflexivity. Qed.
  Lemma forward n : forall k md sub t t', (n <= k)%nat -> prel tr md sub t t' -> dle (den n tr md (env_of md sub) t) (den k tr' md [] t').
  Proof.
    induction n as [|n IH]; intros k md sub t t' Hk H; [constructor|]. destruct k as [|k]; [lia|]. assert (Hk' : (n <= k)%nat) by lia.
    assert (Hk2 : (n <= S k)%nat) by lia.
    inversion H as [? ? D|r u Hs Du|m r ps a body ? Hsub Hne Ht Hb Hl D]; subst; clear H.
    - inversion D as [e q|m r Hs|m c fs Hs|s cs cs' F|s t1 t1' P|l l' F|g t1 t1' P]; subst; clear D; cbn [den].
      + constructor.
      + assert (E : match m with None => env_find (env_of md sub) r | Some _ => None end = None).
        { destruct m; [reflexivity|]. rewrite env_find_of, Hs; reflexivity. }
        assert (E' : match m with None => env_find [] r | Some _ => None end = None) by (destruct m; reflexivity).
        rewrite E, E'. pose proof (resolve_target tr tr' W Hr md m r) as T. destruct (target_of tr md m r) as [q a|q|].
        * destruct (is_template a) eqn:Et.
          -- rewrite T. unfold is_template in Et. destruct (p_params a); [discriminate|]. cbn. destruct (p_spec a); constructor.
          -- destruct T as (a' & Ca & T & X). rewrite T. destruct (found_type q a a' Ca Et X) as (P1 & P2 & F). rewrite P1, P2.
             destruct (p_spec a) as [body| | |]; [|rewrite F; constructor| |rewrite F; constructor].
             ++ destruct F as (body' & -> & F). cbn [length map combine Nat.eqb]. apply (IH k q [] body body' Hk' F).
             ++ destruct F as [-> _]. constructor.
        * rewrite T. apply IH; [exact Hk'|]. apply pr_direct. constructor. discriminate.
        * rewrite T. constructor.
      + assert (E : match m with None => env_find (env_of md sub) c | Some _ => None end = None).
        { destruct m; [reflexivity|]. rewrite env_find_of, Hs; reflexivity. }
        assert (E' : match m with None => env_find [] c | Some _ => None end = None) by (destruct m; reflexivity).
        rewrite E, E'. pose proof (resolve_target tr tr' W Hr md m c) as T. destruct (target_of tr md m c) as [q a|q|].
        * destruct (is_template a) eqn:Et.
          -- rewrite T. unfold is_template in Et. destruct (p_params a); [discriminate|]. constructor.
          -- destruct T as (a' & Ca & T & X). rewrite T. destruct (found_type q a a' Ca Et X) as (P1 & P2 & F). rewrite P1, P2.
             destruct (p_spec a) as [body| |fields|]; [|rewrite F; constructor| |rewrite F; constructor].
             ++ destruct F as (body' & -> & F). inversion F as [? ? D|? ? Hs0 Du|m' r' ps a0 b0 ? Hsub Hne Ht Hb Hl D]; subst; [|discriminate|].
                ** inversion D; subst; try constructor. apply (IH k q []); [exact Hk'|]. apply pr_direct. constructor. reflexivity.
                ** destruct ps; [congruence|]. pose proof (template_body q m' r' a0 b0 _ _ Ht Hb Hl ltac:(discriminate)) as Hbr.
                   inversion D; subst; try constructor. destruct (Hbr I).
             ++ destruct F as [-> F]. destruct fs as [|f [|]]; try constructor. destruct (find _ fields) as [x|] eqn:Ef; [|constructor].
                destruct (f_type x) as [t|] eqn:Eft; [|constructor]. apply find_some in Ef as [Ef _]. apply (IH k q [] t t Hk'). apply pr_direct, (F x t Ef Eft).
        * rewrite T. apply IH; [exact Hk'|]. apply pr_direct. constructor. discriminate.
        * rewrite T. constructor.
      + constructor. eapply Forall2_map_rel; [|exact F]. intros x y C. inversion C; subst; constructor; apply IH; auto. apply pr_direct. assumption.
      + constructor. apply IH; assumption.
      + constructor. eapply Forall2_map_rel; [|exact F]. intros x y [C1 C2]. split; [exact C1|]. apply IH; assumption.
      + constructor. apply IH; assumption.
    - cbn [den]. rewrite env_find_of, Hs. apply (IH (S k) md [] t' t' Hk2). apply pr_direct. assumption.
    - destruct ps as [|p ps]; [congruence|]. rewrite template_step with (a := a) (body := body) by assumption. apply IH; [exact Hk2|apply pr_direct, D].
  Qed.
  Lemma backward_direct n : (forall k md sub t t', (2 * n <= k)%nat -> prel tr md sub t t' -> dle (den n tr' md [] t') (den k tr md (env_of md sub) t)) ->
    forall k md sub t t', (2 * n <= k)%nat -> direct tr md sub t t' -> dle (den (S n) tr' md [] t') (den (S k) tr md (env_of md sub) t).
  Proof.
    intros IH k md sub t t' Hk' D. inversion D as [e q|m r Hs|m c fs Hs|s cs cs' F|s t1 t1' P|l l' F|g t1 t1' P]; subst; clear D; cbn [den].
    - constructor.
    - assert (E : match m with None => env_find (env_of md sub) r | Some _ => None end = None).
      { destruct m; [reflexivity|]. rewrite env_find_of, Hs; reflexivity. }
      assert (E' : match m with None => env_find [] r | Some _ => None end = None) by (destruct m; reflexivity).
      rewrite E, E'. pose proof (resolve_target tr tr' W Hr md m r) as T. destruct (target_of tr md m r) as [q a|q|].
      + destruct (is_template a) eqn:Et.
        * rewrite T. unfold is_template in Et. destruct (p_params a); [discriminate|]. cbn. destruct (p_spec a); constructor.
        * destruct T as (a' & Ca & T & X). rewrite T. destruct (found_type q a a' Ca Et X) as (P1 & P2 & F). rewrite P1, P2.
          destruct (p_spec a) as [body| | |]; [|rewrite F; constructor| |rewrite F; constructor].
          -- destruct F as (body' & -> & F). cbn [length map combine Nat.eqb]. apply (IH k q [] body body' Hk' F).
          -- destruct F as [-> _]. constructor.
      + rewrite T. apply IH; [exact Hk'|]. apply pr_direct. constructor. discriminate.
      + rewrite T. constructor.
    - assert (E : match m with None => env_find (env_of md sub) c | Some _ => None end = None).
      { destruct m; [reflexivity|]. rewrite env_find_of, Hs; reflexivity. }
      assert (E' : match m with None => env_find [] c | Some _ => None end = None) by (destruct m; reflexivity).
      rewrite E, E'. pose proof (resolve_target tr tr' W Hr md m c) as T. destruct (target_of tr md m c) as [q a|q|].
      + destruct (is_template a) eqn:Et.
        * rewrite T. unfold is_template in Et. destruct (p_params a); [discriminate|]. constructor.
        * destruct T as (a' & Ca & T & X). rewrite T. destruct (found_type q a a' Ca Et X) as (P1 & P2 & F). rewrite P1, P2.
          destruct (p_spec a) as [body| |fields|]; [|rewrite F; constructor| |rewrite F; constructor].
          -- destruct F as (body' & -> & F). inversion F as [? ? D|? ? Hs0 Du|m' r' ps a0 b0 ? Hsub Hne Ht Hb Hl D]; subst; [|discriminate|].
             ++ inversion D; subst; try constructor. apply (IH k q []); [exact Hk'|]. apply pr_direct. constructor. reflexivity.
             ++ destruct ps; [congruence|]. pose proof (template_body q m' r' a0 b0 _ _ Ht Hb Hl ltac:(discriminate)) as Hbr.
                inversion D; subst; try constructor. destruct (Hbr I).
          -- destruct F as [-> F]. destruct fs as [|f [|]]; try constructor. destruct (find _ fields) as [x|] eqn:Ef; [|constructor].
             destruct (f_type x) as [t|] eqn:Eft; [|constructor]. apply find_some in Ef as [Ef _]. apply (IH k q [] t t Hk'). apply pr_direct, (F x t Ef Eft).
      + rewrite T. apply IH; [exact Hk'|]. apply pr_direct. constructor. discriminate.
      + rewrite T. constructor.
    - constructor. eapply Forall2_map_rel'; [|exact F]. intros x y C. inversion C; subst; constructor; apply IH; auto. apply pr_direct. assumption.
    - constructor. apply IH; assumption.
    - constructor. eapply Forall2_map_rel'; [|exact F]. intros x y [C1 C2]. split; [symmetry; exact C1|]. apply IH; assumption.
    - constructor. apply IH; assumption.
  Qed.
  Lemma backward n : forall k md sub t t', (2 * n <= k)%nat -> prel tr md sub t t' -> dle (den n tr' md [] t') (den k tr md (env_of md sub) t).
  Proof.
    induction n as [|n IH]; intros k md sub t t' Hk H; [constructor|]. destruct k as [|[|k]]; [lia..|].
    pose proof (backward_direct n IH) as BD.
    inversion H as [? ? D|r u Hs Du|m r ps a body ? Hsub Hne Ht Hb Hl D]; subst; clear H.
    - apply BD; [lia|exact D].
    - change (den (S (S k)) tr md (env_of md sub) (PRef None r [])) with
        (match env_find (env_of md sub) r with
         | Some (Clo md' env' t') => den (S k) tr md' env' t'
         | None => match target_of tr md None r with
                   | Found md' a => match p_spec a with
                                    | PTypeA body => if Nat.eqb (length (p_params a)) 0 then den (S k) tr md' (combine (map snd (p_params a)) []) body else DErr
                                    | _ => DErr end
                   | Imported md' => den (S k) tr md (env_of md sub) (PRef (Some md') r [])
                   | Nowhere => DErr end end).
      rewrite env_find_of, Hs. apply (BD k md [] t' t'); [lia|exact Du].
    - destruct ps as [|p ps]; [congruence|]. rewrite template_step with (a := a) (body := body) by assumption. apply BD; [lia|exact D].
  Qed.
  Lemma resolve_same md t t' : prel tr md [] t t' -> same_meaning tr md t tr' md t'.
  Proof.
    intros H. split; intros n.
    - exists n. apply (forward n n md [] t t' (le_n n) H).
    - exists (2 * n)%nat. apply (backward n (2 * n) md [] t t' (le_n _) H).
  Qed.
End simulation.
(** ** nothing parameterized is left *)
Lemma direct_param_free tr t' : forall md sub t, direct tr md sub t t' -> param_free t'.
Proof.
  induction t' as [e k|m r ps IH|s cs IH|s t' IH|l IH|g t' IH|m c fs] using ptyp_induct; intros md sub t H.
  - exact I.
  - inversion H; reflexivity.
  - inversion H as [| | |? cs0 ? F| | |]; subst. cbn [param_free]. apply fold_and. clear H. revert cs0 F. induction IH as [|c l Hc _ IHl]; intros cs0 F; [constructor|].
    inversion F as [|c0 ? l0 ? F1 F2]; subst. constructor; [|eapply IHl; eauto].
    inversion F1 as [? ? ? ? ? P|? D]; subst; [|eapply Hc; eauto]. cbn in Hc. inversion P; subst; eapply Hc; eauto.
  - inversion H as [| | | |? ? ? P| |]; subst. cbn [param_free]. inversion P; subst; eapply IH; eauto.
  - inversion H as [| | | | |l0 ? F|]; subst. cbn [param_free]. apply fold_and. clear H. revert l0 F. induction IH as [|c l Hc _ IHl]; intros cs0 F; [constructor|].
    inversion F as [|c0 ? l0 ? [_ P] F2]; subst. constructor; [|eapply IHl; eauto]. inversion P; subst; eapply Hc; eauto.
  - inversion H as [| | | | | |? ? ? P]; subst. cbn [param_free]. inversion P; subst; eapply IH; eauto.
  - exact I.
Qed.
Lemma prel_param_free tr t' md sub t : prel tr md sub t t' -> param_free t'.
Proof. intros H. inversion H; subst; eapply direct_param_free; eauto. Qed.
(** ** when the pass throws *)
Lemma omap_done {A B} (f : A -> out B) l : (exists l', omap f l = Done l') <-> Forall (fun x => exists y, f x = Done y) l.
Proof.
  split.
  - intros (l' & H). apply omap_Forall2 in H. induction H; constructor; eauto.
  - induction 1 as [|x l (y & Hy) _ (l' & IH)]; [exists []; reflexivity|]. exists (y :: l'). cbn. rewrite Hy. cbn. fold (omap f l). rewrite IH. reflexivity.
Qed.
Lemma obind_done {A B} (m : out A) (f : A -> B) : (exists y, obind m (fun x => Done (f x)) = Done y) <-> exists x, m = Done x.
Proof. destruct m; cbn; split; intros (y & H); try discriminate; eauto. Qed.
Lemma Forall_iff_ext {A} (P Q : A -> Prop) l : Forall (fun x => P x <-> Q x) l -> (Forall P l <-> Forall Q l).
Proof. induction 1 as [|x l H _ IH]; split; intros K; constructor; inversion K; subst; tauto. Qed.
Lemma rp_done params t : (exists t', resolve_parameterized params t = Done t') <-> nested_free t.
Proof.
  induction t as [e k|m r ps IH|s cs IH|s t IH|l IH|g t IH|m c fs] using ptyp_induct; cbn [resolve_parameterized nested_free].
  - split; eauto.
  - destruct ps; [|split; [intros (y & H); discriminate|discriminate]]. split; [reflexivity|intros _].
    destruct m; [eauto|]. destruct (pm_find params r); eauto.
  - rewrite obind_done, omap_done, fold_and. apply Forall_iff_ext. eapply Forall_impl; [|exact IH]. intros [x t o d|t] H; cbn [on_comp] in H.
    + rewrite obind_done. exact H.
    + split; eauto.
  - rewrite obind_done. exact IH.
  - rewrite obind_done, omap_done, fold_and. apply Forall_iff_ext. eapply Forall_impl; [|exact IH]. intros a H. cbn in H. rewrite obind_done. exact H.
  - rewrite obind_done. exact IH.
  - split; eauto.
Qed.
Lemma pc_done tr md t : (exists t', parameterized_to_concrete tr md t = Done t') <-> instantiable tr md t.
Proof.
  induction t as [e k|m r ps IH|s cs IH|s t IH|l IH|g t IH|m c fs] using ptyp_induct; cbn [parameterized_to_concrete instantiable].
  - split; eauto.
  - destruct ps as [|p ps]; [split; eauto|]. split.
    + intros (y & H). right. destruct (plookup tr md m r) as [a| | |] eqn:El; cbn [obind] in H; try discriminate. apply plookup_found in El as [El _].
      destruct (Nat.eqb_spec (length (p_params a)) (length (p :: ps))) as [Hl|]; [|discriminate]. destruct (p_spec a) as [body| | |] eqn:Eb; try discriminate.
      exists (ref_module md m), a, body. repeat (split; [assumption|]). eapply rp_done. eauto.
    + intros [|(q & a & body & Ht & Hb & Hl & Hn)]; [discriminate|].
      assert (El : plookup tr md m r = Done a).
      { unfold target_of in Ht. unfold plookup, ref_module. destruct (pfind_module tr _) as [x|]; [|discriminate].
        destruct (pfind (pm_assigns x) r); [congruence|]. destruct (find_import _ _); discriminate. }
      rewrite El. cbn [obind]. rewrite Hl, Nat.eqb_refl, Hb. apply rp_done. exact Hn.
  - rewrite obind_done, omap_done, fold_and. apply Forall_iff_ext. eapply Forall_impl; [|exact IH]. intros [x t o d|t] H; cbn [on_comp] in H.
    + rewrite obind_done. exact H.
    + split; eauto.
  - rewrite obind_done. exact IH.
  - rewrite obind_done, omap_done, fold_and. apply Forall_iff_ext. eapply Forall_impl; [|exact IH]. intros a H. cbn in H. rewrite obind_done. exact H.
  - rewrite obind_done. exact IH.
  - split; eauto.
Qed.
