(** Proofs about resolve_object_classes. *)
From Verif Require Import Base CompilerPasses PassesSpec PassesProofs PassParams.
Local Open Scope string_scope.
Local Open Scope list_scope.

Lemma no_dot_app a b : no_dot (a ++ String dot b)%string -> False.
Proof. induction a as [|c a IH]; cbn; [intros [H _]; apply H; reflexivity|intros [_ H]; exact (IH H)]. Qed.
Lemma qualified_inj q x m r : no_dot m -> no_dot r -> qualified q x = qualified m r -> q = m /\ x = r.
Proof.
  unfold qualified. revert m. induction q as [|c q IH]; intros [|c' m] H H' E; cbn in *.
  - injection E as E. auto.
  - injection E as E1 E2. destruct H as [H _]. destruct H. symmetry. exact E1.
  - injection E as E1 E2. subst r. destruct (no_dot_app _ _ H').
  - injection E as E1 E2. destruct H as [_ H]. destruct (IH m H H' E2). subst. auto.
Qed.
Lemma mem_in x s : mem x s = true <-> In x s.
Proof. unfold mem. rewrite existsb_exists. split; [intros (y & H & E); apply String.eqb_eq in E; subst; exact H|intros H; exists x; split; [exact H|apply String.eqb_refl]]. Qed.
Lemma add_in x y s : In y (add x s) <-> y = x \/ In y s.
Proof. unfold add. destruct (mem x s) eqn:E; [apply mem_in in E; split; [auto|intros [->|H]; auto]|]. cbn. split; intros [H|H]; auto. Qed.

Lemma forget_module tr q : pfind_module (forget_imports tr) q = match pfind_module tr q with Some x => Some (PModule (pm_name x) [] (pm_assigns x)) | None => None end.
Proof. induction tr as [|x tr IH]; [reflexivity|]. cbn. destruct (String.eqb (pm_name x) q); [reflexivity|exact IH]. Qed.
Lemma forget_target tr md m r : target_of (forget_imports tr) md m r = match plookup tr md m r with Done a => Found (ref_module md m) a | _ => Nowhere end.
Proof.
  unfold target_of, plookup, ref_module. rewrite forget_module. destruct (pfind_module tr _) as [x|] eqn:E; [|reflexivity].
  cbn. rewrite (pfind_module_name _ _ _ E). destruct (pfind (pm_assigns x) r); reflexivity.
Qed.
Lemma plookup_local tr m a : NoDup (map pm_name tr) -> In m tr -> NoDup (map p_name (pm_assigns m)) -> In a (pm_assigns m) -> plookup tr (pm_name m) None (p_name a) = Done a.
Proof.
  intros H1 H2 H3 H4. unfold plookup, ref_module.
  assert (E : pfind_module tr (pm_name m) = Some m).
  { clear -H1 H2. induction tr as [|x tr IH]; [destruct H2|]. cbn in *. inversion H1 as [|? ? N1 N2]; subst. destruct (String.eqb_spec (pm_name x) (pm_name m)) as [E|].
    - destruct H2 as [->|H2]; [reflexivity|]. destruct N1. rewrite E. apply in_map, H2.
    - destruct H2 as [->|H2]; [congruence|]. apply IH; assumption. }
  rewrite E.
  assert (E2 : pfind (pm_assigns m) (p_name a) = Some a).
  { clear -H3 H4. induction (pm_assigns m) as [|x l IH]; [destruct H4|]. cbn in *. inversion H3 as [|? ? N1 N2]; subst. destruct (String.eqb_spec (p_name x) (p_name a)) as [E|].
    - destruct H4 as [->|H4]; [reflexivity|]. destruct N1. rewrite E. apply in_map, H4.
    - destruct H4 as [->|H4]; [congruence|]. apply IH; assumption. }
  rewrite E2. reflexivity.
Qed.
(** ** names that are no types *)
Section names.
  Context (tr : ptree) (W : classes_ok tr).
  Notation TR := (forget_imports tr).
  Definition errs (d : nat) (md : string) (t : ptyp) : Prop := forall k, (d <= k)%nat -> den k TR md [] t = DErr.
  Lemma errs_small d md t n : errs d md t -> den n TR md [] t = DBot \/ den n TR md [] t = DErr.
  Proof.
    intros H. pose proof (den_le n (n + d) TR md [] t ltac:(lia)) as L. rewrite (H (n + d)%nat) in L by lia. inversion L; auto.
  Qed.
  Lemma errs_more d d' md t : (d <= d')%nat -> errs d md t -> errs d' md t.
  Proof. intros L H k Hk. apply H. lia. Qed.
  Lemma ref_den k md m r : den k TR md [] (PRef m r []) = den k TR (ref_module md m) [] (PRef None r []).
  Proof.
    destruct k as [|k]; [reflexivity|]. cbn [den]. assert (E : match m with Some _ => @None closure | None => env_find [] r end = None) by (destruct m; reflexivity). rewrite E.
    rewrite !forget_target. cbn [env_find find]. assert (E2 : plookup tr (ref_module md m) None r = plookup tr md m r) by reflexivity. rewrite E2.
    destruct (plookup tr md m r); reflexivity.
  Qed.
  Lemma errs_ref d md m r : errs d (ref_module md m) (PRef None r []) <-> errs d md (PRef m r []).
  Proof. split; intros H k Hk; [rewrite ref_den|rewrite <- (ref_den k md m r)]; apply H, Hk. Qed.
  Lemma errs_not_type md m r a : plookup tr md m r = Done a -> (forall t, p_spec a <> PTypeA t) -> errs 1 md (PRef m r []).
  Proof.
    intros E H k Hk. destruct k as [|k]; [lia|]. cbn [den]. rewrite forget_target, E. destruct m; cbn; destruct (p_spec a) as [t| | |]; try reflexivity; destruct (H t eq_refl).
  Qed.
  Lemma errs_alias d md m r a q r' : plookup tr md m r = Done a -> p_params a = [] -> p_spec a = PTypeA (PRef q r' []) -> errs d (ref_module md m) (PRef q r' []) ->
    errs (S d) md (PRef m r []).
  Proof.
    intros E Hp Hs H k Hk. destruct k as [|k]; [lia|]. cbn [den]. rewrite forget_target, E, Hs, Hp. destruct m; cbn [env_find find]; cbn [length Nat.eqb map combine]; apply H; lia.
  Qed.
  (** what is known of a set of names *)
  Definition sound (d : nat) (s : list string) : Prop := forall x, In x s -> exists m r, x = qualified m r /\ In m (map pm_name tr) /\ no_dot r /\ errs d m (PRef None r []).
  Lemma module_no_dot m : In m (map pm_name tr) -> no_dot m.
  Proof. intros H. apply in_map_iff in H as (x & <- & Hx). destruct (co_modules tr W) as [_ F]. rewrite Forall_forall in F. apply F, Hx. Qed.
  Lemma sound_mem d s m r : sound d s -> mem (qualified m r) s = true -> errs d m (PRef None r []).
  Proof.
    intros H E. apply mem_in in E. destruct (H _ E) as (m' & r' & Eq & Hm' & Hd & He). apply qualified_inj in Eq; [|apply module_no_dot; assumption|assumption]. destruct Eq; subst. exact He.
  Qed.
  Lemma sound_add d s m r : sound d s -> In m (map pm_name tr) -> no_dot r -> errs d m (PRef None r []) -> sound d (add (qualified m r) s).
  Proof. intros H Hm Hr He x Hx. apply add_in in Hx as [->|Hx]; [exists m, r; auto|apply H, Hx]. Qed.
  Lemma sound_more d d' s : (d <= d')%nat -> sound d s -> sound d' s.
  Proof. intros L H x Hx. destruct (H x Hx) as (m & r & A & B & C & D). exists m, r. split; [exact A|]. split; [exact B|]. split; [exact C|]. eapply errs_more; eauto. Qed.
  Lemma param_free_type m a mm r ps : In m tr -> In a (pm_assigns m) -> p_spec a = PTypeA (PRef mm r ps) -> ps = [].
  Proof. intros Hm Ha Hs. destruct (co_free tr W) as [F _]. specialize (F m a Hm Ha). rewrite Hs in F. exact F. Qed.
  Lemma scan_assign_sound d m a s s' : In m tr -> In a (pm_assigns m) -> sound d s -> scan_assign tr (pm_name m) s a = Done s' -> exists d', (d <= d')%nat /\ sound d' s'.
  Proof.
    intros Hm Ha Hs H. assert (Hmn : In (pm_name m) (map pm_name tr)) by (apply in_map, Hm).
    pose proof (plookup_local tr m a (proj1 (co_modules tr W)) Hm (proj1 (co_names tr W m Hm)) Ha) as El.
    assert (Hnd : no_dot (p_name a)) by (destruct (co_names tr W m Hm) as [_ Fd]; rewrite Forall_forall in Fd; apply Fd, Ha).
    pose proof (proj2 (co_free tr W) m a Hm Ha) as Hp.
    assert (Knt : (forall t, p_spec a <> PTypeA t) -> exists d', (d <= d')%nat /\ sound d' (add (qualified (pm_name m) (p_name a)) s)).
    { intros Hn. exists (S d). split; [lia|]. apply sound_add; [eapply sound_more; [|exact Hs]; lia|exact Hmn|exact Hnd|]. eapply errs_more; [|eapply errs_not_type; eauto]. lia. }
    assert (Kok : exists d', (d <= d')%nat /\ sound d' s) by (exists d; split; [lia|exact Hs]).
    unfold scan_assign in H. destruct (p_spec a) as [t|t v|fs|] eqn:Es.
    - destruct t as [|q r ps| | | | |]; try (injection H as <-; exact Kok). rewrite Hp in H. cbn [existsb] in H.
      destruct (plookup tr (pm_name m) q r) as [b| | |] eqn:Eb; cbn [obind] in H; try discriminate. injection H as <-.
      pose proof (param_free_type m a q r ps Hm Ha Es). subst ps.
      destruct (is_class b || mem (qualified (pm_name m) r) s)%bool eqn:Ec; [|exact Kok].
      apply orb_true_iff in Ec as [Ec|Ec].
      + assert (Hn : forall t, p_spec b <> PTypeA t) by (unfold is_class in Ec; destruct (p_spec b); congruence).
        exists (S (S d)). split; [lia|]. apply sound_add; [eapply sound_more; [|exact Hs]; lia|exact Hmn|exact Hnd|].
        eapply errs_alias; eauto. eapply errs_more; [|eapply errs_not_type; eauto]. lia.
      + assert (Hcase : (q = None \/ q = Some (pm_name m)) \/ r = p_name a).
        { destruct q as [q|]; [|auto]. destruct (co_alias tr W m a q r [] Hm Ha Es) as [->| ->]; auto. }
        destruct Hcase as [Hq| ->].
        * exists (S d). split; [lia|]. apply sound_add; [eapply sound_more; [|exact Hs]; lia|exact Hmn|exact Hnd|]. eapply errs_alias; eauto. apply errs_ref.
          assert (Eq : ref_module (ref_module (pm_name m) None) q = pm_name m) by (destruct Hq as [->| ->]; reflexivity). rewrite Eq. eapply sound_mem; eauto.
        * exists d. split; [lia|]. intros x Hx. apply add_in in Hx as [->|Hx]; [apply Hs, mem_in, Ec|apply Hs, Hx].
    - destruct t as [|q r ps| | | | |]; try (injection H as <-; exact Kok). destruct (existsb _ (p_params a)); [injection H as <-; exact Kok|].
      destruct (plookup tr (pm_name m) q r) as [b| | |] eqn:Eb; cbn [obind] in H; try discriminate. injection H as <-.
      destruct (is_class b || mem (qualified (pm_name m) r) s)%bool; [|exact Kok]. apply Knt. discriminate.
    - injection H as <-. apply Knt. discriminate.
    - injection H as <-. exact Kok.
  Qed.
  Lemma ofold_inv {A S} (P : nat -> S -> Prop) (f : S -> A -> out S) l : (forall d x s s', In x l -> P d s -> f s x = Done s' -> exists d', (d <= d')%nat /\ P d' s') ->
    forall d s s', P d s -> ofold f l s = Done s' -> exists d', (d <= d')%nat /\ P d' s'.
  Proof.
    induction l as [|x l IH]; intros Hf d s s' Hs H; [injection H as <-; exists d; auto|]. cbn in H. destruct (f s x) as [s1| | |] eqn:E; cbn in H; try discriminate.
    destruct (Hf d x s s1 (or_introl eq_refl) Hs E) as (d1 & L1 & P1). fold (ofold f l s1) in H.
    destruct (IH (fun d x s s' Hx => Hf d x s s' (or_intror Hx)) d1 s1 s' P1 H) as (d2 & L2 & P2). exists d2. split; [lia|exact P2].
  Qed.
  Lemma fold_inv {A S} (P : nat -> S -> Prop) (f : S -> A -> S) l : (forall d x s, In x l -> P d s -> exists d', (d <= d')%nat /\ P d' (f s x)) ->
    forall d s, P d s -> exists d', (d <= d')%nat /\ P d' (fold_left f l s).
  Proof.
    induction l as [|x l IH]; intros Hf d s Hs; [exists d; auto|]. cbn. destruct (Hf d x s (or_introl eq_refl) Hs) as (d1 & L1 & P1).
    destruct (IH (fun d x s Hx => Hf d x s (or_intror Hx)) d1 _ P1) as (d2 & L2 & P2). exists d2. split; [lia|exact P2].
  Qed.
  Lemma scan_imports_sound d s : sound d s -> exists d', (d <= d')%nat /\ sound d' (scan_imports tr s).
  Proof.
    intros Hs. unfold scan_imports. eapply (fold_inv sound); [|exact Hs]. clear d s Hs. intros d m s Hm Hs.
    eapply (fold_inv sound); [|exact Hs]. clear d s Hs. intros d i s Hi Hs. eapply (fold_inv sound); [|exact Hs]. clear d s Hs. intros d r s Hr Hs.
    destruct (mem (qualified (fst i) r) s) eqn:E; [|exists d; auto]. pose proof (sound_mem d s _ _ Hs E) as He.
    pose proof (co_imports tr W m i r Hm Hi Hr) as Ei. apply pfind_name in Ei as [_ Ei].
    pose proof (plookup_local tr m _ (proj1 (co_modules tr W)) Hm (proj1 (co_names tr W m Hm)) Ei) as El. cbn [p_name] in El.
    exists (S d). split; [lia|]. apply sound_add; [eapply sound_more; [|exact Hs]; lia|apply in_map, Hm| |].
    - destruct (co_names tr W m Hm) as [_ Fd]. rewrite Forall_forall in Fd. apply (Fd _ Ei).
    - eapply errs_alias; [exact El|reflexivity|reflexivity|]. apply errs_ref. exact He.
  Qed.
  Lemma scan_sound d s s' : sound d s -> scan tr s = Done s' -> exists d', (d <= d')%nat /\ sound d' s'.
  Proof.
    intros Hs H. unfold scan in H. destruct (ofold _ tr s) as [s1| | |] eqn:E; cbn in H; try discriminate. injection H as <-.
    destruct (ofold_inv sound _ tr (fun d m s s' Hm P Q => ofold_inv sound _ (pm_assigns m) (fun d a s s' Ha => scan_assign_sound d m a s s' Hm Ha) d s s' P Q) d s s1 Hs E) as (d1 & L1 & P1).
    destruct (scan_imports_sound d1 s1 P1) as (d2 & L2 & P2). exists d2. split; [lia|exact P2].
  Qed.
  Lemma scan_loop_sound fuel : forall d s s', sound d s -> scan_loop fuel tr s = Done s' -> exists d', sound d' s'.
  Proof.
    induction fuel as [|fuel IH]; intros d s s' Hs H; [discriminate|]. cbn [scan_loop] in H. destruct (scan tr s) as [s1| | |] eqn:E; cbn [obind] in H; try discriminate.
    destruct (scan_sound d s s1 Hs E) as (d1 & _ & P1). destruct (Nat.ltb _ _); [eapply IH; eauto|]. injection H as <-. eauto.
  Qed.
  Lemma names_sound s : object_class_names tr = Done s -> exists d, sound d s.
  Proof. apply (scan_loop_sound _ 0). intros x []. Qed.
End names.

(** ** the relation *)
Section relation.
  Context (tr : ptree).
  Inductive odirect (md : string) : ptyp -> ptyp -> Prop :=
  | od_leaf e k : odirect md (PLeaf e k) (PLeaf e k)
  | od_ref m r : odirect md (PRef m r []) (PRef m r [])
  | od_record s cs cs' : Forall2 (ocomp md) cs cs' -> odirect md (PRecord s cs) (PRecord s cs')
  | od_list s t t' : orel md t t' -> odirect md (PListOf s t) (PListOf s t')
  | od_choice l l' : Forall2 (fun a b => fst a = fst b /\ orel md (snd a) (snd b)) l l' -> odirect md (PChoice l) (PChoice l')
  | od_tagged g t t' : orel md t t' -> odirect md (PTagged g t) (PTagged g t')
  with orel (md : string) : ptyp -> ptyp -> Prop :=
  | or_direct t t' : odirect md t t' -> orel md t t'
  | or_field m c a f fields x u : plookup tr md m c = Done a -> ref_module md m = md -> p_params a = [] -> p_spec a = PClassA fields ->
      find (fun x => String.eqb (f_name x) f) fields = Some x -> f_type x = Some u -> odirect md u u -> orel md (PField m c [f]) u
  with ocomp (md : string) : pcomp -> pcomp -> Prop :=
  | oc_comp n t t' o d : orel md t t' -> ocomp md (PComp n t o d) (PComp n t' o d)
  | oc_compof t : odirect md t t -> ocomp md (PCompOf t) (PCompOf t).
  Lemma odirect_self md t : param_free t -> field_free t -> odirect md t t.
  Proof.
    induction t as [e k|m r ps IH|s cs IH|s t IH|l IH|g t IH|m c fs] using ptyp_induct; cbn [param_free field_free]; intros Hp Hn.
    - constructor.
    - subst ps. constructor.
    - constructor. apply fold_and in Hp, Hn. revert Hp Hn. induction IH as [|c l Hc _ IHl]; intros Hp Ha; [constructor|].
      inversion Hp as [|? ? P1 P2]; subst. inversion Ha as [|? ? A1 A2]; subst. constructor; [|apply IHl; assumption].
      destruct c; cbn in *; constructor; [apply or_direct|]; apply Hc; assumption.
    - constructor. apply or_direct, IH; assumption.
    - constructor. apply fold_and in Hp, Hn. revert Hp Hn. induction IH as [|c l Hc _ IHl]; intros Hp Ha; [constructor|].
      inversion Hp as [|? ? P1 P2]; subst. inversion Ha as [|? ? A1 A2]; subst. constructor; [|apply IHl; assumption].
      split; [reflexivity|apply or_direct, Hc; assumption].
    - constructor. apply or_direct, IH; assumption.
    - destruct Hn.
  Qed.
  Context (W : classes_ok tr).
  Lemma concrete_rel md t : forall t', param_free t -> fields_local md t -> object_class_to_concrete tr md t = Done t' -> orel md t t'.
  Proof.
    induction t as [e k|m r ps IH|s cs IH|s t IH|l IH|g t IH|m c fs] using ptyp_induct; cbn [param_free fields_local object_class_to_concrete]; intros t' Hp Hl H.
    - injection H as <-. apply or_direct. constructor.
    - injection H as <-. subst ps. apply or_direct. constructor.
    - destruct (omap _ cs) as [cs'| | |] eqn:E; cbn in H; try discriminate. injection H as <-. apply omap_Forall2 in E. apply fold_and in Hp, Hl.
      apply or_direct. constructor. revert Hp Hl E. revert cs'. induction IH as [|c l Hc _ IHl]; intros cs' Hp Hl E; inversion E as [|? c' ? l' E1 E2]; subst; [constructor|].
      inversion Hl as [|? ? D1 D2]; subst. inversion Hp as [|? ? P1 P2]; subst. constructor; [|apply IHl; assumption].
      destruct c as [x t o d|t]; cbn in *.
      + destruct (object_class_to_concrete tr md t) as [u| | |]; cbn in E1; try discriminate. injection E1 as <-. constructor. apply Hc; auto.
      + injection E1 as <-. constructor. apply odirect_self; assumption.
    - destruct (object_class_to_concrete tr md t) as [u| | |]; cbn in H; try discriminate. injection H as <-. apply or_direct. constructor. apply IH; auto.
    - destruct (omap _ l) as [l'| | |] eqn:E; cbn in H; try discriminate. injection H as <-. apply omap_Forall2 in E. apply fold_and in Hp, Hl.
      apply or_direct. constructor. revert Hp Hl E. revert l'. induction IH as [|c l Hc _ IHl]; intros l' Hp Hl E; inversion E as [|? c' ? l2 E1 E2]; subst; [constructor|].
      inversion Hl as [|? ? D1 D2]; subst. inversion Hp as [|? ? P1 P2]; subst. constructor; [|apply IHl; assumption].
      destruct (object_class_to_concrete tr md (snd c)) as [u| | |]; cbn in E1; try discriminate. injection E1 as <-. split; [reflexivity|]. apply Hc; auto.
    - destruct (object_class_to_concrete tr md t) as [u| | |]; cbn in H; try discriminate. injection H as <-. apply or_direct. constructor. apply IH; auto.
    - unfold create_concrete_type in H. destruct (plookup tr md m c) as [a| | |] eqn:El; cbn [obind] in H; try discriminate.
      destruct (p_spec a) as [| |fields|] eqn:Es; try discriminate. destruct fs as [|f [|]]; try discriminate.
      destruct (find _ fields) as [x|] eqn:Ef; [|discriminate]. destruct (f_type x) as [u|] eqn:Eu; [|discriminate]. injection H as <-.
      assert (Eq : ref_module md m = md) by (destruct Hl as [->| ->]; reflexivity). destruct (plookup_found _ _ _ _ _ El) as (_ & y & Hy & Hya & _).
      eapply or_field; eauto; [eapply (proj2 (co_free tr W)); eauto|]. apply find_some in Ef as [Ef _]. apply odirect_self.
      + pose proof (proj1 (co_free tr W) y a Hy Hya) as K. rewrite Es in K. eapply K; eauto.
      + eapply (co_fields tr W); eauto.
  Qed.
End relation.
(** ** lookups in the new tree *)
Lemma class_free_facts tr md a a' : class_free_assign tr md a = Done a' -> p_name a' = p_name a /\ p_params a' = p_params a /\
  match p_spec a with PTypeA t => exists t', p_spec a' = PTypeA t' /\ object_class_to_concrete tr md t = Done t' | s => p_spec a' = s end.
Proof.
  unfold class_free_assign. destruct (p_spec a) as [t| | |] eqn:E; [|intros [= <-]; auto..]. destruct (object_class_to_concrete tr md t) as [u| | |]; cbn; try discriminate.
  intros [= <-]. cbn. eauto.
Qed.
Section lookups.
  Context (tr tr' : ptree) (names : list string) (W : classes_ok tr) (Hn : object_class_names tr = Done names) (Hr : resolve_object_classes tr = Done tr').
  Lemma class_modules q : match pfind_module tr q with
    | None => pfind_module tr' q = None
    | Some x => exists l im, omap (class_free_assign tr q) (pm_assigns x) = Done l /\ pfind_module tr' q = Some (PModule q im (filter (fun a => negb (removed q names a)) l))
    end.
  Proof.
    unfold resolve_object_classes in Hr. rewrite Hn in Hr. cbn [obind] in Hr. destruct (omap _ tr) as [tr1| | |] eqn:E; cbn [obind] in Hr; try discriminate.
    injection Hr as <-.
    assert (K : forall T T1, Forall2 (fun m y => (do l <- omap (class_free_assign tr (pm_name m)) (pm_assigns m); Done (PModule (pm_name m) (pm_imports m) l)) = Done y) T T1 ->
      match pfind_module T q with
      | None => pfind_module (remove_object_classes T1 names) q = None
      | Some x => exists l im, omap (class_free_assign tr q) (pm_assigns x) = Done l /\ pfind_module (remove_object_classes T1 names) q = Some (PModule q im (filter (fun a => negb (removed q names a)) l))
      end).
    { induction 1 as [|m y T T1 H1 _ IH]; [reflexivity|].
      destruct (omap (class_free_assign tr (pm_name m)) (pm_assigns m)) as [l| | |] eqn:El; cbn [obind] in H1; try discriminate. injection H1 as <-.
      cbn [pfind_module remove_object_classes map pm_name pm_imports pm_assigns]. destruct (String.eqb_spec (pm_name m) q) as [<-|]; [|exact IH]. exists l. eexists. split; [exact El|reflexivity]. }
    apply K. apply omap_Forall2. exact E.
  Qed.
  Lemma class_find q l l' r : NoDup (map p_name l) -> omap (class_free_assign tr q) l = Done l' ->
    match pfind l r with
    | None => pfind (filter (fun a => negb (removed q names a)) l') r = None
    | Some a => exists a', class_free_assign tr q a = Done a' /\ In a l /\ pfind (filter (fun a => negb (removed q names a)) l') r = if removed q names a' then None else Some a'
    end.
  Proof.
    intros Hd E. apply omap_Forall2 in E. revert Hd. clear Hr. induction E as [|a a' l l' H1 E IH]; intros Hd; [reflexivity|].
    cbn in Hd. inversion Hd as [|? ? Hn1 Hn2]; subst. specialize (IH Hn2). destruct (class_free_facts _ _ _ _ H1) as (Na & _).
    cbn [pfind filter]. destruct (String.eqb_spec (p_name a) r) as [Er|Er].
    - assert (Hnone : pfind l r = None).
      { destruct (pfind l r) as [b|] eqn:Eb; [|reflexivity]. apply pfind_name in Eb as [E1 E2]. exfalso. apply Hn1. rewrite Er, <- E1. apply in_map, E2. }
      rewrite Hnone in IH. exists a'. split; [exact H1|]. split; [left; reflexivity|]. destruct (removed q names a'); cbn [negb]; [exact IH|]. cbn [pfind]. rewrite Na, Er, String.eqb_refl. reflexivity.
    - assert (K : pfind (if negb (removed q names a') then a' :: filter (fun a => negb (removed q names a)) l' else filter (fun a => negb (removed q names a)) l') r = pfind (filter (fun a => negb (removed q names a)) l') r).
      { destruct (negb _); [|reflexivity]. cbn [pfind]. rewrite Na. destruct (String.eqb_spec (p_name a) r); [contradiction|reflexivity]. }
      rewrite K. destruct (pfind l r); [|exact IH]. destruct IH as (b' & B1 & B2 & B3). exists b'. split; [exact B1|]. split; [right; exact B2|exact B3].
  Qed.
  Lemma class_lookup md m r :
    match plookup tr md m r with
    | Done a => exists a', class_free_assign tr (ref_module md m) a = Done a' /\
        plookup tr' md m r = (if removed (ref_module md m) names a' then Throw else Done a') /\ exists x, In x tr /\ In a (pm_assigns x) /\ pm_name x = ref_module md m
    | _ => plookup tr' md m r = Throw
    end.
  Proof.
    unfold plookup. set (q := ref_module md m). pose proof (class_modules q) as K. destruct (pfind_module tr q) as [x|] eqn:E; [|rewrite K; reflexivity].
    destruct K as (l & im & El & K). rewrite K. cbn [pm_assigns]. pose proof (pfind_module_in _ _ _ E) as Hin.
    pose proof (class_find q (pm_assigns x) l r (proj1 (co_names tr W x Hin)) El) as F. destruct (pfind (pm_assigns x) r) as [a|]; [|rewrite F; reflexivity].
    destruct F as (a' & F1 & F2 & F3). rewrite F3. exists a'. split; [exact F1|]. split; [destruct (removed q names a'); reflexivity|]. exists x. split; [exact Hin|]. split; [exact F2|]. eapply pfind_module_name; eauto.
  Qed.
End lookups.
(** ** the meaning *)
Section simulation.
  Context (tr tr' : ptree) (names : list string) (d : nat) (W : classes_ok tr) (Hn : object_class_names tr = Done names) (Hr : resolve_object_classes tr = Done tr') (Hs : sound tr d names).
  Notation TR := (forget_imports tr).
  Notation TR' := (forget_imports tr').
  Lemma errs_type k md m r a t : plookup tr md m r = Done a -> p_params a = [] -> p_spec a = PTypeA t -> errs tr k (ref_module md m) t -> errs tr (S k) md (PRef m r []).
  Proof.
    intros E Hp Es H j Hj. destruct j as [|j]; [lia|]. cbn [den]. rewrite forget_target, E, Es, Hp. destruct m; cbn [env_find find]; cbn [length Nat.eqb map combine]; apply H; lia.
  Qed.
  Lemma field_den k md m c a f fields x u : plookup tr md m c = Done a -> ref_module md m = md -> p_params a = [] -> p_spec a = PClassA fields ->
    find (fun x => String.eqb (f_name x) f) fields = Some x -> f_type x = Some u -> den (S k) TR md [] (PField m c [f]) = den k TR md [] u.
  Proof. intros E Em Hp Es Ef Eu. cbn [den]. rewrite forget_target, E, Em, Hp, Es, Ef, Eu. destruct m; reflexivity. Qed.
  Lemma related q a a' : class_free_assign tr q a = Done a' -> (exists x, In x tr /\ In a (pm_assigns x) /\ pm_name x = q) ->
    p_params a = [] /\ p_params a' = [] /\ match p_spec a with PTypeA t => exists t', p_spec a' = PTypeA t' /\ orel tr q t t' | s => p_spec a' = s end.
  Proof.
    intros H (x & Hx & Ha & Hq). destruct (class_free_facts _ _ _ _ H) as (_ & Hp & K). pose proof (proj2 (co_free tr W) x a Hx Ha) as Hp0. split; [exact Hp0|]. split; [congruence|].
    destruct (p_spec a) as [t| | |] eqn:Es; try exact K. destruct K as (t' & K1 & K2). exists t'. split; [exact K1|]. apply concrete_rel; auto.
    - pose proof (proj1 (co_free tr W) x a Hx Ha) as F. rewrite Es in F. exact F.
    - rewrite <- Hq. eapply (co_local tr W); eauto.
  Qed.
  Lemma removed_errs md m r a a' : plookup tr md m r = Done a -> class_free_assign tr (ref_module md m) a = Done a' -> (exists x, In x tr /\ In a (pm_assigns x) /\ pm_name x = ref_module md m) ->
    removed (ref_module md m) names a' = true -> errs tr (S (S d)) md (PRef m r []).
  Proof.
    intros El Hc Hx Hrem. destruct (related _ _ _ Hc Hx) as (P1 & P2 & R). destruct (p_spec a) as [t| | |] eqn:Es.
    2-4: eapply errs_more; [|eapply errs_not_type; [exact El|rewrite Es; discriminate]]; lia.
    destruct R as (t' & E' & R). unfold removed in Hrem. rewrite E', P2 in Hrem.
    assert (Href : exists m' r', t' = PRef m' r' [] /\ errs tr d (ref_module md m) t').
    { assert (K : exists m' r' ps', t' = PRef m' r' ps') by (destruct t'; try discriminate; eauto). destruct K as (m' & r' & ps' & ->).
      assert (ps' = []) as ->.
      { inversion R as [? ? D|? ? ? ? ? ? ? ? ? ? ? ? ? D]; subst; inversion D; reflexivity. }
      exists m', r'. split; [reflexivity|]. apply errs_ref. cbn [defined_class] in Hrem. eapply sound_mem; eauto. }
    destruct Href as (m' & r' & -> & He).
    eapply errs_type; [exact El|exact P1|exact Es|].
    inversion R as [? ? D|m1 c a1 f fields x ? K1 K2 K3 K4 K5 K6 D]; subst.
    - inversion D; subst. eapply errs_more; [|exact He]. lia.
    - intros k Hk. destruct k as [|k]; [lia|]. rewrite (field_den k _ m1 c a1 f fields x (PRef m' r' [])) by assumption. apply He. lia.
  Qed.
  Lemma oforward n : forall k md t t', (n <= k)%nat -> orel tr md t t' -> dle (den n TR md [] t) (den k TR' md [] t').
  Proof.
    induction n as [|n IH]; intros k md t t' Hk H; [constructor|]. destruct k as [|k]; [lia|]. assert (Hk' : (n <= k)%nat) by lia.
    inversion H as [? ? D|m1 c a1 f fields x ? K1 K2 K3 K4 K5 K6 D]; subst; clear H.
    2: { rewrite (field_den n _ m1 c a1 f fields x t') by assumption. apply IH; [lia|apply or_direct, D]. }
    inversion D as [e q|m r|s cs cs' G|s t1 t1' P|l l' G|g t1 t1' P]; subst; clear D.
    - constructor.
    - pose proof (class_lookup tr tr' names W Hn Hr md m r) as T. destruct (plookup tr md m r) as [a| | |] eqn:El.
      + destruct T as (a' & T1 & T2 & T3). destruct (removed (ref_module md m) names a') eqn:Erem.
        * assert (E' : den (S k) TR' md [] (PRef m r []) = DErr) by (cbn [den]; rewrite forget_target, T2; destruct m; reflexivity). rewrite E'.
          destruct (errs_small tr _ _ _ (S n) (removed_errs md m r a a' El T1 T3 Erem)) as [-> | ->]; constructor.
        * destruct (related _ _ _ T1 T3) as (P1 & P2 & R). cbn [den]. rewrite !forget_target, El, T2.
          assert (E : match m with Some _ => @None closure | None => env_find [] r end = None) by (destruct m; reflexivity). rewrite E. rewrite P1, P2.
          destruct (p_spec a) as [body| | |]; [|rewrite R; constructor..]. destruct R as (body' & -> & R). cbn. apply IH; [exact Hk'|exact R].
      + cbn [den]. rewrite !forget_target, El, T. destruct m; constructor.
      + cbn [den]. rewrite !forget_target, El, T. destruct m; constructor.
      + cbn [den]. rewrite !forget_target, El, T. destruct m; constructor.
    - cbn [den]. constructor. eapply Forall2_map_rel; [|exact G]. intros x y C. inversion C; subst; constructor; apply IH; auto; apply or_direct; assumption.
    - cbn [den]. constructor. apply IH; assumption.
    - cbn [den]. constructor. eapply Forall2_map_rel; [|exact G]. intros x y [C1 C2]. split; [exact C1|]. apply IH; [assumption|exact C2].
    - cbn [den]. constructor. apply IH; assumption.
  Qed.
  Lemma obackward n : forall k md t t', (2 * n + d + 2 <= k)%nat -> orel tr md t t' -> dle (den n TR' md [] t') (den k TR md [] t).
  Proof.
    induction n as [|n IH]; intros k md t t' Hk H; [constructor|]. destruct k as [|k]; [lia|].
    assert (BD : forall k t t', (2 * n + d + 3 <= k)%nat -> odirect tr md t t' -> dle (den (S n) TR' md [] t') (den k TR md [] t)).
    { clear k t t' Hk H. intros k t t' Hk D. destruct k as [|k]; [lia|]. assert (Hk' : (2 * n + d + 2 <= k)%nat) by lia.
      inversion D as [e q|m r|s cs cs' G|s t1 t1' P|l l' G|g t1 t1' P]; subst; clear D.
      - constructor.
      - pose proof (class_lookup tr tr' names W Hn Hr md m r) as T. destruct (plookup tr md m r) as [a| | |] eqn:El.
        + destruct T as (a' & T1 & T2 & T3). destruct (removed (ref_module md m) names a') eqn:Erem.
          * rewrite (removed_errs md m r a a' El T1 T3 Erem) by lia. cbn [den]. rewrite forget_target, T2. destruct m; constructor.
          * destruct (related _ _ _ T1 T3) as (P1 & P2 & R). cbn [den]. rewrite !forget_target, El, T2.
            assert (E : match m with Some _ => @None closure | None => env_find [] r end = None) by (destruct m; reflexivity). rewrite E. rewrite P1, P2.
            destruct (p_spec a) as [body| | |]; [|rewrite R; constructor..]. destruct R as (body' & -> & R). cbn. apply IH; [exact Hk'|exact R].
        + cbn [den]. rewrite !forget_target, El, T. destruct m; constructor.
        + cbn [den]. rewrite !forget_target, El, T. destruct m; constructor.
        + cbn [den]. rewrite !forget_target, El, T. destruct m; constructor.
      - cbn [den]. constructor. eapply Forall2_map_rel'; [|exact G]. intros x y C. inversion C; subst; constructor; apply IH; auto; apply or_direct; assumption.
      - cbn [den]. constructor. apply IH; assumption.
      - cbn [den]. constructor. eapply Forall2_map_rel'; [|exact G]. intros x y [C1 C2]. split; [symmetry; exact C1|]. apply IH; [assumption|exact C2].
      - cbn [den]. constructor. apply IH; assumption. }
    inversion H as [? ? D|m1 c a1 f fields x ? K1 K2 K3 K4 K5 K6 D]; subst; clear H.
    - apply BD; [lia|exact D].
    - rewrite (field_den k _ m1 c a1 f fields x t') by assumption. apply BD; [lia|exact D].
  Qed.
  Lemma class_same md t t' : orel tr md t t' -> same_meaning TR md t TR' md t'.
  Proof.
    intros H. split; intros n.
    - exists n. apply (oforward n n md t t' (le_n _) H).
    - exists (2 * n + d + 2)%nat. apply (obackward n _ md t t' (le_n _) H).
  Qed.
End simulation.
