(** What the passes of Frontend.v keep of value assignments, of definitions that name a plain type, and of the components of SEQUENCEs and
    SETs; and the order that they leave. *)
From Coq Require Import List String ZArith Bool Permutation Lia.
From Verif Require Import Base CompilerNames CompilerTree CompilerPasses Ident View Prims Schema ParserTree ParserFile Compiler Elab ElabProofs Frontend FrontOrder FrontNest PassesSpec PassNest TreeSpec PropertiesTree FrontPasses.
From Verif Require Import Frontend FrontNest FrontPasses ParserTree Elab.
Import ListNotations.
Local Open Scope string_scope.
Local Open Scope list_scope.

(** ** One assignment *)
Definition untouched (u : type) : bool := match u with TSimple _ | TInteger _ | TEnumerated _ _ | TRef (Defined _ _ []) => true | _ => false end.
Definition tracks (a a' : assignment) : Prop :=
  a_name a' = a_name a /\ a_parameters a' = a_parameters a /\
  match a_specific a with
  | AType t => (untouched t = true -> a' = a) /\
      (forall set cs ext, t = TRecord set cs ext -> exists cs', a_specific a' = AType (TRecord set cs' ext) /\
         forall x u o d, untouched u = true -> In (Comp x u o d None) cs -> In (Comp x u o d None) cs')
  | AValue _ _ => a' = a
  | _ => True
  end.
Lemma tracks_refl a : tracks a a.
Proof. split; [reflexivity|]. split; [reflexivity|]. destruct (a_specific a) as [t| | |] eqn:E; auto. split; [auto|]. intros set cs ext ->. exists cs. split; [first [exact E|reflexivity]|auto]. Qed.
Lemma tracks_trans a b c : tracks a b -> tracks b c -> tracks a c.
Proof.
  intros (A1 & A2 & A3) (B1 & B2 & B3). split; [congruence|]. split; [congruence|]. destruct (a_specific a) as [t|t v| |] eqn:E; auto.
  - destruct A3 as (A3 & A4). split.
    + intros U. rewrite (A3 U), E in B3. destruct B3 as (B3 & _). exact (B3 U).
    + intros set cs ext Et. destruct (A4 set cs ext Et) as (cs1 & E1 & H1). rewrite E1 in B3. destruct B3 as (_ & B4). destruct (B4 set cs1 ext eq_refl) as (cs2 & E2 & H2). exists cs2. split; [exact E2|]. intros x u o d U I. apply H2, H1; assumption.
  - subst b. rewrite E in B3. exact B3.
Qed.
Lemma concrete_untouched tr md u : untouched u = true -> to_concrete tr md u = Done u.
Proof. destruct u as [| | | | | | | |[? ? [|]]]; cbn; intros U; try discriminate U; reflexivity. Qed.
Lemma class_untouched tr md u : untouched u = true -> classes_to_concrete tr md u = Done u.
Proof. destruct u as [| | | | | | | |[? ? [|]]]; cbn; intros U; try discriminate U; reflexivity. Qed.
Lemma nested_untouched md u s : untouched u = true -> Frontend.find_nested md u s = (u, s).
Proof. destruct u as [| | | | | | | |[? ? [|]]]; cbn; intros U; try discriminate U; reflexivity. Qed.
Lemma comps_tracked (f : type -> out type) cs cs' : (forall u, untouched u = true -> f u = Done u) ->
  omap (fun c => match c with Comp n u o d co => do u' <- f u; Done (Comp n u' o d co) end) cs = Done cs' ->
  forall x u o d, untouched u = true -> In (Comp x u o d None) cs -> In (Comp x u o d None) cs'.
Proof.
  intros H E x u o d U I. apply omap_forall2 in E. destruct (Forall2_in_l _ _ _ _ E I) as (c' & I' & Ec). cbn beta iota in Ec. rewrite (H u U) in Ec. cbn in Ec. injection Ec as <-. exact I'.
Qed.
Lemma concrete_tracks tr md a a' : concrete tr md a = Done a' -> tracks a a'.
Proof.
  destruct a as [x [t| | |] ps]; unfold concrete; cbn [a_specific]; intros E; try (injection E as <-; apply tracks_refl).
  destruct (is_template _); [injection E as <-; apply tracks_refl|]. apply obind_ok in E as (t' & E1 & E). injection E as <-. split; [reflexivity|]. split; [reflexivity|]. cbn [a_specific]. split.
  - intros U. rewrite (concrete_untouched _ _ _ U) in E1. injection E1 as <-. reflexivity.
  - intros set cs ext ->. cbn [to_concrete] in E1. apply obind_ok in E1 as (cs' & E1 & E). injection E as <-. exists cs'. split; [reflexivity|]. eapply comps_tracked; [apply concrete_untouched|exact E1].
Qed.
Lemma class_free_tracks tr md a a' : class_free tr md a = Done a' -> tracks a a'.
Proof.
  destruct a as [x [t| | |] ps]; unfold class_free; cbn [a_specific]; intros E; try (injection E as <-; apply tracks_refl).
  apply obind_ok in E as (t' & E1 & E). injection E as <-. split; [reflexivity|]. split; [reflexivity|]. cbn [a_specific]. split.
  - intros U. rewrite (class_untouched _ _ _ U) in E1. injection E1 as <-. reflexivity.
  - intros set cs ext ->. cbn [classes_to_concrete] in E1. apply obind_ok in E1 as (cs' & E1 & E). injection E as <-. exists cs'. split; [reflexivity|]. eapply comps_tracked; [apply class_untouched|exact E1].
Qed.
Lemma expand_comps_in tr md name cs : forall cs', expand_comps tr md name cs = Done cs' -> forall c, In c cs -> is_comp_of c = false -> In c cs'.
Proof.
  induction cs as [|c0 cs IH]; intros cs' E c I N; [destruct I|]. cbn [expand_comps] in E. apply obind_ok in E as (l & E1 & E). apply obind_ok in E as (r & E2 & E). injection E as <-. apply in_or_app.
  destruct I as [->|I]; [left|right; eapply IH; eassumption]. apply filter_In. split; [apply in_or_app; right; left; reflexivity|]. rewrite N. reflexivity.
Qed.
Lemma expand_assign_tracks tr md a a' : expand_assign tr md a = Done a' -> tracks a a'.
Proof.
  destruct a as [x [[| | | | |[|] cs ext| | |]| | |] ps]; unfold expand_assign; cbn [a_specific]; intros E; try (injection E as <-; apply tracks_refl).
  apply obind_ok in E as (cs' & E1 & E). injection E as <-. split; [reflexivity|]. split; [reflexivity|]. cbn [a_specific]. split; [discriminate|]. intros set cs0 ext0 [= <- <- <-].
  exists cs'. split; [reflexivity|]. intros y u o d U I. eapply expand_comps_in; [exact E1|exact I|reflexivity].
Qed.
Lemma nested_tracks md a t s t' s' : a_specific a = AType t -> Frontend.find_nested md t s = (t', s') -> tracks a (Assign (a_name a) (AType t') (a_parameters a)).
Proof.
  intros Ea E. split; [reflexivity|]. split; [reflexivity|]. rewrite Ea. split.
  - intros U. rewrite (nested_untouched _ _ _ U) in E. injection E as <- <-. rewrite <- Ea. destruct a; reflexivity.
  - intros set cs ext ->. cbn [Frontend.find_nested] in E. match type of E with context [nmap ?f cs s] => set (g := f) in E end. destruct (nmap g cs s) as [cs' s1] eqn:Ec. injection E as <- <-. exists cs'. split; [reflexivity|].
    intros x u o d U I. clear Ea. revert s cs' s1 Ec. induction cs as [|c cs IH]; intros s cs' s1 Ec; [destruct I|]. cbn [nmap] in Ec. fold (nmap g) in Ec. destruct (g c s) as [c' s2] eqn:Eg. destruct (nmap g cs s2) as [cs2 s3] eqn:E2. injection Ec as <- <-.
    destruct I as [->|I]; [left|right; eapply IH; eassumption]. unfold g in Eg. rewrite (nested_untouched _ _ _ U) in Eg. injection Eg as <- _. reflexivity.
Qed.
Lemma split_tracks md l : forall n a, In a l -> exists a', In a' (fst (Frontend.split_nested md l n)) /\ tracks a a'.
Proof.
  induction l as [|b l IH]; intros n a I; [destruct I|]. cbn [Frontend.split_nested]. destruct (a_specific b) as [t| | |] eqn:Eb.
  - destruct (Frontend.find_nested md t (n, [])) as [t' [n1 nested]] eqn:F. specialize (IH n1). destruct (Frontend.split_nested md l n1) as [l1 n2]. cbn [fst] in *. destruct I as [<-|I].
    + eexists. split; [apply in_or_app; right; left; reflexivity|]. eapply nested_tracks; eassumption.
    + destruct (IH a I) as (a' & I' & T). exists a'. split; [apply in_or_app; right; right; exact I'|exact T].
  - specialize (IH n). destruct (Frontend.split_nested md l n) as [l1 n2]. cbn [fst] in *. destruct I as [<-|I]; [exists b; split; [left; reflexivity|apply tracks_refl]|]. destruct (IH a I) as (a' & I' & T). exists a'. split; [right; exact I'|exact T].
  - specialize (IH n). destruct (Frontend.split_nested md l n) as [l1 n2]. cbn [fst] in *. destruct I as [<-|I]; [exists b; split; [left; reflexivity|apply tracks_refl]|]. destruct (IH a I) as (a' & I' & T). exists a'. split; [right; exact I'|exact T].
  - specialize (IH n). destruct (Frontend.split_nested md l n) as [l1 n2]. cbn [fst] in *. destruct I as [<-|I]; [exists b; split; [left; reflexivity|apply tracks_refl]|]. destruct (IH a I) as (a' & I' & T). exists a'. split; [right; exact I'|exact T].
Qed.

(** ** Trees *)
Definition tracked (m m' : module) : Prop := m_name m' = m_name m /\ forall a, In a (m_assigns m) -> a_parameters a = [] -> exists a', In a' (m_assigns m') /\ tracks a a'.
Lemma tracked_trans a b c : tracked a b -> tracked b c -> tracked a c.
Proof.
  intros (A1 & A2) (B1 & B2). split; [congruence|]. intros x I P. destruct (A2 x I P) as (y & Iy & Ty). destruct Ty as (T1 & T2 & T3). destruct (B2 y Iy) as (z & Iz & Tz); [congruence|]. exists z. split; [exact Iz|]. eapply tracks_trans; [|exact Tz]. split; [exact T1|]. split; [exact T2|exact T3].
Qed.
Lemma parameters_tracked tr tr' : Frontend.resolve_parameters tr = Done tr' -> Forall2 tracked tr tr'.
Proof.
  intros E. unfold Frontend.resolve_parameters in E. apply obind_ok in E as (tr1 & E1 & E). injection E as <-. apply omap_forall2 in E1. apply Forall2_map_r. eapply Forall2_impl2; [|exact E1]. intros m m1 E. apply obind_ok in E as (l & E & [= <-]).
  apply omap_forall2 in E. split; [reflexivity|]. intros a I P. destruct (Forall2_in_l _ _ _ _ E I) as (a' & I' & Ea). pose proof (concrete_tracks _ _ _ _ Ea) as T. exists a'. split; [|exact T]. cbn [m_assigns with_assigns].
  apply filter_In. split; [exact I'|]. destruct T as (_ & T & _). unfold is_template. rewrite T, P. reflexivity.
Qed.
Lemma split_tracked : forall tr n tr', split_modules tr n = Done tr' -> Forall2 tracked tr tr'.
Proof.
  induction tr as [|m tr IH]; intros n tr' E; cbn [split_modules] in E; [injection E as <-; constructor|]. apply obind_ok in E as (? & _ & E). pose proof (split_tracks (m_name m) (with_imports m) n) as S. destruct (Frontend.split_nested (m_name m) (with_imports m) n) as [l' n'].
  destruct (2^31 <=? n')%Z; [discriminate|]. apply obind_ok in E as (tr2 & E & E2). injection E2 as <-. constructor; [|eapply IH; exact E]. split; [reflexivity|]. intros a I _. apply S. unfold with_imports. apply in_or_app. left. exact I.
Qed.
Lemma expand_module_tracked before m after : forall todo done_ l, expand_module before m done_ todo after = Done l -> exists l2, l = rev done_ ++ l2 /\ Forall2 tracks todo l2.
Proof.
  induction todo as [|a todo IH]; intros done_ l E; cbn [expand_module] in E; [injection E as <-; exists []; rewrite app_nil_r; split; [reflexivity|constructor]|].
  apply obind_ok in E as (a' & E1 & E). apply IH in E as (l2 & -> & F). exists (a' :: l2). cbn [rev]. rewrite <- app_assoc. split; [reflexivity|]. constructor; [eapply expand_assign_tracks; exact E1|exact F].
Qed.
Lemma expand_tree_tracked : forall after before tr', expand_tree before after = Done tr' -> exists l, tr' = rev before ++ l /\ Forall2 tracked after l.
Proof.
  induction after as [|m after IH]; intros before tr' E; cbn [expand_tree] in E; [injection E as <-; exists []; rewrite app_nil_r; split; [reflexivity|constructor]|].
  apply obind_ok in E as (l & E1 & E). apply IH in E as (l2 & -> & F). exists (with_assigns m l :: l2). cbn [rev]. rewrite <- app_assoc. split; [reflexivity|]. constructor; [|exact F].
  apply expand_module_tracked in E1 as (l3 & -> & F3). split; [reflexivity|]. intros a I _. exact (Forall2_in_l _ _ _ _ F3 I).
Qed.
Lemma classes_tracked tr tr' : no_classes tr -> resolve_object_classes tr = Done tr' -> Forall2 tracked tr tr'.
Proof.
  intros H E. unfold resolve_object_classes in E. apply obind_ok in E as (names & E1 & E). apply (names_none tr names H) in E1. subst names. apply obind_ok in E as (tr1 & E1 & E). injection E as <-.
  apply omap_forall2, Forall2_with_in in E1. unfold remove_object_classes. apply Forall2_map_r. eapply Forall2_impl2; [|exact E1]. intros m m1 (Hm & E). apply obind_ok in E as (l & E & [= <-]). apply omap_forall2 in E.
  split; [reflexivity|]. intros a I _. cbn [m_assigns with_assigns m_name]. destruct (Forall2_in_l _ _ _ _ E I) as (a' & I' & Ea). exists a'. split; [|eapply class_free_tracks; exact Ea]. apply filter_In. split; [exact I'|].
  rewrite removed_none; [reflexivity|]. destruct (class_free_kept _ _ _ _ Ea) as (_ & K & _). rewrite K. eapply H; eassumption.
Qed.

(** ** SETs without names as default values *)
Definition named_default (d : option value) : bool := match d with Some (VDefined _) => true | _ => false end.
Fixpoint calm (t : type) : bool :=
  match t with
  | TRecord set cs _ => forallb (fun c => match c with Comp _ u _ d _ => calm u && negb (set && named_default d) end) cs
  | TListOf _ _ u | TTagged _ _ u => calm u
  | ParserTree.TChoice alts => forallb (fun a => calm (snd a)) alts
  | TRef (Defined _ _ args) => forallb calm args
  | TSimple _ | TInteger _ | TEnumerated _ _ | TField _ _ => true
  end.
Definition calm_comps (cs : list component) : bool := forallb (fun c => match c with Comp _ u _ _ _ => calm u end) cs.
(** At the top of a definition a SET may have them, unless it is a template. *)
Definition calm_assign (a : assignment) : bool :=
  match a_specific a with
  | AType (TRecord set cs ext) => if is_template a then calm (TRecord set cs ext) else calm_comps cs
  | AType t | AValue t _ => calm t
  | _ => true
  end.
Definition calm_tree (tr : list module) : Prop := forall m a, In m tr -> In a (m_assigns m) -> calm_assign a = true.
Lemma calm_record set cs ext : calm (TRecord set cs ext) = true -> calm_comps cs = true.
Proof. cbn [calm]. unfold calm_comps. rewrite !forallb_forall. intros H [x u o d co] I. specialize (H _ I). cbn beta iota in H. apply andb_prop in H. apply H. Qed.
Lemma calm_outline t : calm t = true -> ~ set_default (outline t).
Proof.
  induction t as [k|l|l b|d l|alts IH|set cs ext IH|set n u IH|g kw u IH|[m r args]] using type_induct; cbn [calm outline]; intros C H; inversion H; subst.
  - match goal with I : In _ (map _ alts) |- _ => apply in_map_iff in I as ([x u] & [= <- <-] & J) end. rewrite Forall_forall in IH. rewrite forallb_forall in C. apply (IH _ J (C _ J)). assumption.
  - match goal with I : In _ (map _ cs) |- _ => apply in_map_iff in I as ([x u o' d [co|]] & E & J) end; [discriminate E|]. injection E as <- <- <- E <-. rewrite forallb_forall in C. specialize (C _ J). cbn beta iota in C.
    apply andb_prop in C as (_ & C). destruct d as [[]|]; cbn in E, C; discriminate.
  - match goal with I : In _ (map _ cs) |- _ => apply in_map_iff in I as ([x u o' d0 [co|]] & E & J) end; [discriminate E|]. injection E as <- <- <- E <-. rewrite forallb_forall in C. specialize (C _ J). cbn beta iota in C.
    apply andb_prop in C as (C & _). rewrite Forall_forall in IH. apply (IH _ J C). assumption.
  - apply (IH C). assumption.
  - apply (IH C). assumption.
Qed.
Lemma calm_no_nested a : calm_assign a = true -> a_parameters a = [] -> no_nested_set_default (outline_assign a).
Proof.
  destruct a as [x [t|t v| |] ps]; unfold calm_assign, no_nested_set_default, outline_assign; cbn [a_specific a_parameters CompilerTree.a_spec a_name]; intros C E; try exact I; [|apply calm_outline; exact C].
  subst ps. assert (G : calm t = true -> ~ set_default (outline t)) by apply calm_outline.
  destruct t as [k|l|l b|d l|alts|set cs ext|set n u|g kw u|[m r args]]; cbn [outline] in *; try (apply G; exact C). cbn [is_template a_parameters] in C.
  intros n t o d st I. apply in_map_iff in I as ([y u o' d' [co|]] & E & I); [discriminate E|]. injection E as _ <- _ _ _. unfold calm_comps in C. rewrite forallb_forall in C. apply calm_outline. exact (C _ I).
Qed.
(** *** the passes *)
Lemma calm_omap_comps (f : type -> out type) set cs cs' ext : Forall (fun c => match c with Comp _ u _ _ _ => calm u = true -> forall u', f u = Done u' -> calm u' = true end) cs ->
  omap (fun c => match c with Comp n u o d co => do u' <- f u; Done (Comp n u' o d co) end) cs = Done cs' ->
  (calm (TRecord set cs ext) = true -> calm (TRecord set cs' ext) = true) /\ (calm_comps cs = true -> calm_comps cs' = true).
Proof.
  intros H E. apply omap_forall2 in E. unfold calm_comps. cbn [calm]. induction E as [|[x u o d co] c' cs cs' E _ IH]; [split; auto|]. inversion H as [|? ? H1 H2]; subst. destruct (IH H2) as (I1 & I2). apply obind_ok in E as (u' & E & E2). injection E2 as <-. cbn [forallb].
  split; intros C; apply andb_prop in C as (C1 & C2).
  - apply andb_prop in C1 as (C0 & C1). rewrite (H1 C0 _ E), C1, (I1 C2). reflexivity.
  - rewrite (H1 C1 _ E), (I2 C2). reflexivity.
Qed.
Lemma calm_omap_alts (f : type -> out type) alts alts' : Forall (fun e => calm (snd e) = true -> forall u', f (snd e) = Done u' -> calm u' = true) alts ->
  omap (fun a : string * type => do u' <- f (snd a); Done (fst a, u')) alts = Done alts' -> forallb (fun a => calm (snd a)) alts = true -> forallb (fun a => calm (snd a)) alts' = true.
Proof.
  intros H E. apply omap_forall2 in E. induction E as [|[x u] c' cs cs' E _ IH]; [auto|]. inversion H as [|? ? H1 H2]; subst. apply obind_ok in E as (u' & E & E2). injection E2 as <-. cbn [forallb fst snd] in *.
  intros C; apply andb_prop in C as (C1 & C2). rewrite (H1 C1 _ E), (IH H2 C2). reflexivity.
Qed.
Lemma instantiate_calm ps t : (forall p, In p ps -> calm (snd p) = true) -> calm t = true -> forall t', Frontend.instantiate ps t = Done t' -> calm t' = true.
Proof.
  intros P. induction t as [k|l|l b|d l|alts IH|set cs ext IH|set n u IH|g kw u IH|[m r args]] using type_induct; cbn [Frontend.instantiate]; intros C t' E; try (injection E as <-; exact C).
  - apply obind_ok in E as (l' & E1 & E). injection E as <-. cbn [calm] in *. eapply calm_omap_alts; [|exact E1|exact C]. exact IH.
  - apply obind_ok in E as (l' & E1 & E). injection E as <-. eapply calm_omap_comps; [|exact E1|exact C]. exact IH.
  - apply obind_ok in E as (l' & E1 & E). injection E as <-. cbn [calm] in *. eauto.
  - apply obind_ok in E as (l' & E1 & E). injection E as <-. cbn [calm] in *. eauto.
  - destruct args as [|a args]; [|discriminate]. destruct m; [injection E as <-; exact C|]. unfold param_find in E. destruct (find _ (rev ps)) as [p|] eqn:F; cbn in E; injection E as <-; [|exact C]. apply find_some in F as (F & _). apply P. apply in_rev. exact F.
Qed.
Lemma in_combine_snd {A B} (l : list A) (l' : list B) p : In p (combine l l') -> In (snd p) l'. Proof. destruct p as [a b]. intros H. apply in_combine_r in H. exact H. Qed.
Lemma to_concrete_calm tr md t : calm_tree tr -> calm t = true -> forall t', to_concrete tr md t = Done t' -> calm t' = true.
Proof.
  intros P. induction t as [k|l|l b|d l|alts IH|set cs ext IH|set n u IH|g kw u IH|[m r args]] using type_induct; cbn [to_concrete]; intros C t' E; try (injection E as <-; exact C).
  - apply obind_ok in E as (l' & E1 & E). injection E as <-. cbn [calm] in *. eapply calm_omap_alts; [|exact E1|exact C]. exact IH.
  - apply obind_ok in E as (l' & E1 & E). injection E as <-. eapply calm_omap_comps; [|exact E1|exact C]. exact IH.
  - apply obind_ok in E as (l' & E1 & E). injection E as <-. cbn [calm] in *. eauto.
  - apply obind_ok in E as (l' & E1 & E). injection E as <-. cbn [calm] in *. eauto.
  - destruct args as [|a args]; [injection E as <-; exact C|]. apply obind_ok in E as (b & E1 & E). destruct (Nat.eqb _ _) eqn:L; [|discriminate]. apply Nat.eqb_eq in L. destruct (a_specific b) as [body| | |] eqn:Eb; try discriminate.
    revert E. apply instantiate_calm.
    + intros p I. apply in_combine_snd in I. cbn [calm] in C. rewrite forallb_forall in C. apply C, I.
    + unfold resolve in E1. apply obind_ok in E1 as (m0 & E0 & E1). unfold olift in E0, E1. destruct (module_named tr _) as [m1|] eqn:F0; [|discriminate]. injection E0 as ->. destruct (assign_named _ r) as [b1|] eqn:F1; [|discriminate]. injection E1 as ->.
      apply find_some in F0 as (F0 & _). apply find_some in F1 as (F1 & _). pose proof (P _ _ F0 F1) as K. unfold calm_assign, is_template in K. rewrite Eb in K. destruct (a_parameters b); [discriminate L|]. destruct body; exact K.
Qed.
Lemma resolve_parameters_calm tr tr' : calm_tree tr -> Frontend.resolve_parameters tr = Done tr' -> calm_tree tr' /\ forall m a, In m tr' -> In a (m_assigns m) -> a_parameters a = [].
Proof.
  intros P E. unfold Frontend.resolve_parameters in E. apply obind_ok in E as (tr1 & E1 & E). injection E as <-. apply omap_forall2, Forall2_with_in in E1.
  assert (K : forall m a, In m (map (fun m => with_assigns m (filter (fun a => negb (is_template a)) (m_assigns m))) tr1) -> In a (m_assigns m) -> calm_assign a = true /\ a_parameters a = []).
  { intros m a Hm Ha. apply in_map_iff in Hm as (m1 & <- & Hm). cbn [m_assigns with_assigns] in Ha. apply filter_In in Ha as (Ha & Ht). destruct (Forall2_in_r _ _ _ _ E1 Hm) as (m0 & Hm0 & _ & E). apply obind_ok in E as (l & E & [= <-]). cbn [m_assigns with_assigns] in Ha.
    apply omap_forall2 in E. destruct (Forall2_in_r _ _ _ _ E Ha) as (a0 & Ha0 & Ec). pose proof (P _ _ Hm0 Ha0) as C. assert (Hp : a_parameters a = []) by (unfold is_template in Ht; destruct (a_parameters a); [reflexivity|discriminate]). split; [|exact Hp].
    destruct a0 as [x [t|t v| |] ps]; unfold concrete in Ec; cbn [a_specific] in Ec; try (injection Ec as <-; exact C).
    destruct (is_template _) eqn:T in Ec; [injection Ec as <-; exact C|]. apply obind_ok in Ec as (t' & Et & Ec). injection Ec as <-. cbn [a_name a_parameters] in *. subst ps.
    pose proof (fun G => to_concrete_calm tr _ t P G _ Et) as G. unfold calm_assign in *. cbn [a_specific is_template a_parameters] in *.
    destruct t as [k|l0|l0 b|d l0|alts|set cs ext|set n u|g kw u|[mo r args]]; try (cbn [to_concrete] in Et; injection Et as <-; exact C).
    - specialize (G C). destruct t'; try exact G. apply calm_record in G. exact G.
    - cbn [to_concrete] in Et. apply obind_ok in Et as (cs' & E2 & Et). injection Et as <-. eapply (calm_omap_comps _ false cs cs' false); [|exact E2|exact C]. apply Forall_forall. intros [y u o d co] _ Cu u' Eu. eapply to_concrete_calm; eassumption.
    - specialize (G C). destruct t'; try exact G. apply calm_record in G. exact G.
    - specialize (G C). destruct t'; try exact G. apply calm_record in G. exact G.
    - specialize (G C). destruct t'; try exact G. apply calm_record in G. exact G. }
  split; intros m a Hm Ha; apply (K m a Hm Ha).
Qed.
Definition calm_state (s : nest_state) : Prop := forall p, In p (snd s) -> calm (snd p) = true.
Lemma hoist_calm md t s t' s' : calm t = true -> calm_state s -> Frontend.hoist md t s = (t', s') -> calm t' = true /\ calm_state s'.
Proof.
  intros C S. unfold Frontend.hoist. destruct (Frontend.unnamed_prefix t) as [p|]; intros [= <- <-]; [|split; assumption]. split; [reflexivity|]. intros q I. cbn [snd] in I. apply in_app_or in I as [I|[<-|[]]]; [apply S, I|exact C].
Qed.
Lemma nest_calm md t : calm t = true -> forall s t' s', calm_state s -> Frontend.find_nested md t s = (t', s') -> calm t' = true /\ calm_state s'.
Proof.
  induction t as [k|l|l b|d l|alts IH|set cs ext IH|set n u IH|g kw u IH|[m r args]] using type_induct; cbn [Frontend.find_nested]; intros C s t' s' S E; try (injection E as <- <-; split; assumption).
  - match type of E with context [nmap ?f alts s] => set (g := f) in E end. destruct (nmap g alts s) as [l1 s1] eqn:E1. injection E as <- <-. cbn [calm] in *. revert C s l1 s1 S E1. induction IH as [|[x u] alts H _ IHl]; intros C s l1 s1 S E1; [injection E1 as <- <-; split; [reflexivity|exact S]|].
    rewrite nmap_cons in E1. destruct (g (x, u) s) as [c' s2] eqn:Eg. destruct (nmap g alts s2) as [l2 s3] eqn:E2. injection E1 as <- <-. cbn [forallb snd] in *. apply andb_prop in C as (C1 & C2). unfold g in Eg. cbn [fst snd] in Eg. destruct (Frontend.find_nested md u s) as [u' s4] eqn:Eu. injection Eg as <- <-.
    destruct (H C1 _ _ _ S Eu) as (H1 & H2). destruct (IHl C2 _ _ _ H2 E2) as (H3 & H4). cbn [snd]. rewrite H1, H3. split; [reflexivity|exact H4].
  - match type of E with context [nmap ?f cs s] => set (g := f) in E end. destruct (nmap g cs s) as [l1 s1] eqn:E1. injection E as <- <-. cbn [calm] in *. revert C s l1 s1 S E1. induction IH as [|[x u o d co] cs H _ IHl]; intros C s l1 s1 S E1; [injection E1 as <- <-; split; [reflexivity|exact S]|].
    rewrite nmap_cons in E1. destruct (g (Comp x u o d co) s) as [c' s2] eqn:Eg. destruct (nmap g cs s2) as [l2 s3] eqn:E2. injection E1 as <- <-. cbn [forallb] in *. apply andb_prop in C as (C1 & C2). apply andb_prop in C1 as (C0 & C1). unfold g in Eg. destruct (Frontend.find_nested md u s) as [u' s4] eqn:Eu. injection Eg as <- <-.
    destruct (H C0 _ _ _ S Eu) as (H1 & H2). destruct (IHl C2 _ _ _ H2 E2) as (H3 & H4). rewrite H1, C1, H3. split; [reflexivity|exact H4].
  - destruct (Frontend.find_nested md u s) as [u1 s1] eqn:E1. destruct (Frontend.hoist md u1 s1) as [u2 s2] eqn:E2. injection E as <- <-. destruct (IH C _ _ _ S E1) as (H1 & H2). exact (hoist_calm _ _ _ _ _ H1 H2 E2).
  - destruct (Frontend.find_nested md u s) as [u1 s1] eqn:E1. destruct (Frontend.hoist md u1 s1) as [u2 s2] eqn:E2. injection E as <- <-. destruct (IH C _ _ _ S E1) as (H1 & H2). exact (hoist_calm _ _ _ _ _ H1 H2 E2).
Qed.
Lemma calm_top t x ps : calm t = true -> calm_assign (Assign x (AType t) ps) = true.
Proof. intros C. unfold calm_assign. cbn [a_specific]. destruct t; try exact C. destruct (is_template _); [exact C|]. apply calm_record in C. exact C. Qed.
Lemma calm_false cs ext : calm (TRecord false cs ext) = calm_comps cs.
Proof. unfold calm_comps. cbn [calm]. induction cs as [|[x u o d co] cs IH]; [reflexivity|]. cbn [forallb]. rewrite IH, andb_true_r. reflexivity. Qed.
Lemma split_calm md l : (forall a, In a l -> calm_assign a = true) -> forall n a, In a (fst (Frontend.split_nested md l n)) -> calm_assign a = true.
Proof.
  induction l as [|b l IH]; intros H n a I; [destruct I|]. cbn [Frontend.split_nested] in I. pose proof (H b (or_introl eq_refl)) as Cb. assert (H' : forall a, In a l -> calm_assign a = true) by (intros; apply H; right; assumption). specialize (IH H').
  destruct (a_specific b) as [t| | |] eqn:Eb.
  - destruct (Frontend.find_nested md t (n, [])) as [t' [n1 nested]] eqn:F. specialize (IH n1). destruct (Frontend.split_nested md l n1) as [l1 n2]. cbn [fst] in *.
    assert (G : calm_assign (Assign (a_name b) (AType t') (a_parameters b)) = true /\ forall p, In p nested -> calm (snd p) = true).
    { assert (N : calm_state (n, [])) by (intros p []). unfold calm_assign in Cb. rewrite Eb in Cb. destruct t as [k|l0|l0 e|d l0|alts|set cs ext|set nm u|g kw u|d].
      6: { destruct (is_template b) eqn:T.
        - destruct (nest_calm md _ Cb _ _ _ N F) as (G1 & G2). split; [apply calm_top, G1|exact G2].
        - rewrite <- (calm_false cs ext) in Cb. change (Frontend.find_nested md (TRecord false cs ext) (n, []) = _) with (Frontend.find_nested md (TRecord false cs ext) (n, []) = (match t' with TRecord _ cs' e => TRecord false cs' e | _ => t' end, (n1, nested))) || idtac.
          cbn [Frontend.find_nested] in F. match type of F with context [nmap ?f cs ?s0] => destruct (nmap f cs s0) as [cs' s1] eqn:Ec end. injection F as <- ->.
          assert (F : Frontend.find_nested md (TRecord false cs ext) (n, []) = (TRecord false cs' ext, (n1, nested))) by (cbn [Frontend.find_nested]; rewrite Ec; reflexivity).
          destruct (nest_calm md _ Cb _ _ _ N F) as (G1 & G2). split; [|exact G2]. rewrite calm_false in G1. unfold calm_assign. cbn [a_specific]. unfold is_template in *. cbn [a_parameters]. rewrite T. exact G1. }
      all: destruct (nest_calm md _ Cb _ _ _ N F) as (G1 & G2); split; [apply calm_top, G1|exact G2]. }
    destruct G as (G1 & G2). apply in_app_or in I as [I|[<-|I]]; [|exact G1|apply IH, I]. apply in_map_iff in I as (p & <- & I). apply in_rev in I. apply calm_top, G2, I.
  - specialize (IH n). destruct (Frontend.split_nested md l n) as [l1 n2]. cbn [fst] in *. destruct I as [<-|I]; [exact Cb|apply IH, I].
  - specialize (IH n). destruct (Frontend.split_nested md l n) as [l1 n2]. cbn [fst] in *. destruct I as [<-|I]; [exact Cb|apply IH, I].
  - specialize (IH n). destruct (Frontend.split_nested md l n) as [l1 n2]. cbn [fst] in *. destruct I as [<-|I]; [exact Cb|apply IH, I].
Qed.
Lemma split_plain md l : (forall a, In a l -> a_parameters a = []) -> forall n a, In a (fst (Frontend.split_nested md l n)) -> a_parameters a = [].
Proof.
  induction l as [|b l IH]; intros H n a I; [destruct I|]. cbn [Frontend.split_nested] in I. pose proof (H b (or_introl eq_refl)) as Cb. assert (H' : forall a, In a l -> a_parameters a = []) by (intros; apply H; right; assumption). specialize (IH H').
  destruct (a_specific b) as [t| | |] eqn:Eb.
  - destruct (Frontend.find_nested md t (n, [])) as [t' [n1 nested]] eqn:F. specialize (IH n1). destruct (Frontend.split_nested md l n1) as [l1 n2]. cbn [fst] in *. apply in_app_or in I as [I|[<-|I]]; [|exact Cb|apply IH, I]. apply in_map_iff in I as (p & <- & I). reflexivity.
  - specialize (IH n). destruct (Frontend.split_nested md l n) as [l1 n2]. cbn [fst] in *. destruct I as [<-|I]; [exact Cb|apply IH, I].
  - specialize (IH n). destruct (Frontend.split_nested md l n) as [l1 n2]. cbn [fst] in *. destruct I as [<-|I]; [exact Cb|apply IH, I].
  - specialize (IH n). destruct (Frontend.split_nested md l n) as [l1 n2]. cbn [fst] in *. destruct I as [<-|I]; [exact Cb|apply IH, I].
Qed.
Definition plain_tree (tr : list module) : Prop := forall m a, In m tr -> In a (m_assigns m) -> a_parameters a = [].
Lemma split_modules_calm : forall tr n tr', calm_tree tr -> plain_tree tr -> split_modules tr n = Done tr' -> calm_tree tr' /\ plain_tree tr'.
Proof.
  induction tr as [|m tr IH]; intros n tr' C P E; cbn [split_modules] in E; [injection E as <-; split; intros m a []|]. apply obind_ok in E as (? & _ & E).
  assert (W : forall a, In a (with_imports m) -> calm_assign a = true /\ a_parameters a = []).
  { intros a I. apply in_app_or in I as [I|I]; [split; [eapply C|eapply P]; (left; reflexivity) || exact I|]. apply in_flat_map in I as (i & _ & I). apply in_map_iff in I as (q & <- & _). split; reflexivity. }
  pose proof (split_calm (m_name m) (with_imports m) (fun a I => proj1 (W a I)) n) as S1. pose proof (split_plain (m_name m) (with_imports m) (fun a I => proj2 (W a I)) n) as S2. destruct (Frontend.split_nested (m_name m) (with_imports m) n) as [l' n']. cbn [fst] in *.
  destruct (2^31 <=? n')%Z; [discriminate|]. apply obind_ok in E as (tr2 & E & E2). injection E2 as <-. apply IH in E as (I1 & I2); [|intros m0 a0 H; apply C; right; exact H|intros m0 a0 H; apply P; right; exact H].
  split; intros m0 a0 [<-|H]; [apply S1|apply I1, H|apply S2|apply I2, H].
Qed.
Lemma expand_comps_calm tr md name cs : calm_tree tr -> forall cs', calm_comps cs = true -> expand_comps tr md name cs = Done cs' -> calm_comps cs' = true.
Proof.
  intros T. induction cs as [|c cs IH]; intros cs' C E; cbn [expand_comps] in E; [injection E as <-; reflexivity|]. apply obind_ok in E as (l & E1 & E). apply obind_ok in E as (r & E2 & E). injection E as <-. unfold calm_comps in *. cbn [forallb] in C. apply andb_prop in C as (C1 & C2).
  rewrite forallb_app, (IH r C2 E2), andb_true_r. enough (L : forallb (fun c => match c with Comp _ u _ _ _ => calm u end) (l ++ [c]) = true).
  { rewrite forallb_forall in *. intros c0 I. apply filter_In in I as (I & _). apply L, I. }
  rewrite forallb_app. cbn [forallb]. rewrite C1, ?andb_true_r. destruct c as [x u o d [[| | | | |s0 c0 e0| | |[m r0 args]]|]]; cbn [included] in E1; try discriminate; [|injection E1 as <-; reflexivity].
  apply obind_ok in E1 as (w & F0 & E1). apply obind_ok in E1 as (a & F1 & E1). unfold olift in F0, F1. destruct (module_named tr _) as [w'|] eqn:G0; [|discriminate]. injection F0 as ->. destruct (assign_named _ r0) as [a'|] eqn:G1; [|discriminate]. injection F1 as ->.
  apply find_some in G0 as (G0 & _). apply find_some in G1 as (G1 & _). pose proof (T _ _ G0 G1) as K. unfold calm_assign in K. destruct (a_specific a) as [[| | | | |set cs1 ext| | |]| | |] eqn:Ea; try discriminate; try (injection E1 as <-; reflexivity).
  destruct (_ && _); [discriminate|]. injection E1 as <-. destruct (is_template a); [apply calm_record in K|]; exact K.
Qed.
Lemma expand_assign_calm tr md a a' : calm_tree tr -> calm_assign a = true -> expand_assign tr md a = Done a' -> calm_assign a' = true.
Proof.
  intros T C. destruct a as [x [[| | | | |[|] cs ext| | |]| | |] ps]; unfold expand_assign; cbn [a_specific]; intros E; try (injection E as <-; exact C).
  apply obind_ok in E as (cs' & E1 & E). injection E as <-. assert (C' : calm_comps cs = true) by (unfold calm_assign in C; cbn [a_specific] in C; destruct (is_template _); [rewrite calm_false in C|]; exact C).
  pose proof (expand_comps_calm _ _ _ _ T _ C' E1) as G. unfold calm_assign. cbn [a_specific]. destruct (is_template _); [rewrite calm_false|]; exact G.
Qed.
Lemma expand_module_calm before m after : forall todo done_ l, calm_tree (rev before ++ after) -> (forall a, In a done_ \/ In a todo -> calm_assign a = true) -> expand_module before m done_ todo after = Done l -> forall a, In a l -> calm_assign a = true.
Proof.
  induction todo as [|a todo IH]; intros done_ l T C E b Ib; cbn [expand_module] in E; [injection E as <-; apply in_rev in Ib; apply C; left; exact Ib|]. apply obind_ok in E as (a' & E1 & E). eapply IH; [exact T| |exact E|exact Ib].
  assert (Ca : calm_assign a' = true).
  { eapply expand_assign_calm; [|apply C; right; left; reflexivity|exact E1]. intros m0 a0 I0 J0. apply in_app_or in I0 as [I0|[<-|I0]]; [apply (T m0); [apply in_or_app; left; exact I0|exact J0]| |apply (T m0); [apply in_or_app; right; exact I0|exact J0]].
    cbn [m_assigns with_assigns] in J0. apply C. apply in_app_or in J0 as [J0|J0]; [left; apply in_rev; exact J0|right; exact J0]. }
  intros c [[<-|I]|I]; [exact Ca|apply C; left; exact I|apply C; right; right; exact I].
Qed.
Lemma expand_tree_calm : forall after before tr', calm_tree (rev before ++ after) -> expand_tree before after = Done tr' -> calm_tree tr'.
Proof.
  induction after as [|m after IH]; intros before tr' T E; cbn [expand_tree] in E; [injection E as <-; rewrite app_nil_r in T; exact T|]. apply obind_ok in E as (l & E1 & E). eapply IH; [|exact E]. cbn [rev]. rewrite <- app_assoc. cbn [app].
  assert (T' : calm_tree (rev before ++ after)) by (intros m0 a0 I J; apply (T m0); [apply in_app_or in I as [I|I]; apply in_or_app; [left|right; right]; exact I|exact J]).
  intros m0 a0 I J. apply in_app_or in I as [I|[<-|I]]; [apply (T' m0); [apply in_or_app; left; exact I|exact J]| |apply (T' m0); [apply in_or_app; right; exact I|exact J]]. cbn [m_assigns with_assigns] in J.
  eapply expand_module_calm; [exact T'| |exact E1|exact J]. intros c [[]|Ic]. apply (T m); [apply in_or_app; right; left; reflexivity|exact Ic].
Qed.
Lemma classes_calm_type tr md t : no_classes tr -> calm t = true -> forall t', classes_to_concrete tr md t = Done t' -> calm t' = true.
Proof.
  intros P. induction t as [k|l|l b|d fs|alts IH|set cs ext IH|set n u IH|g kw u IH|d] using type_induct; cbn [classes_to_concrete]; intros C t' E; try (injection E as <-; exact C).
  - unfold field_type in E. apply obind_ok in E as (a & E1 & E). destruct d as [m r ps]. unfold resolve in E1. apply obind_ok in E1 as (m0 & E0 & E1). unfold olift in E0, E1. destruct (module_named tr _) as [m1|] eqn:F0; [|discriminate]. injection E0 as ->. destruct (assign_named _ r) as [b1|] eqn:F1; [|discriminate]. injection E1 as ->.
    apply find_some in F0 as (F0 & _). apply find_some in F1 as (F1 & _). pose proof (P _ _ F0 F1) as K. unfold is_class in K. destruct (a_specific a); try discriminate.
  - apply obind_ok in E as (l' & E1 & E). injection E as <-. cbn [calm] in *. eapply calm_omap_alts; [|exact E1|exact C]. exact IH.
  - apply obind_ok in E as (l' & E1 & E). injection E as <-. eapply calm_omap_comps; [|exact E1|exact C]. exact IH.
  - apply obind_ok in E as (l' & E1 & E). injection E as <-. cbn [calm] in *. eauto.
  - apply obind_ok in E as (l' & E1 & E). injection E as <-. cbn [calm] in *. eauto.
Qed.
Lemma class_free_calm tr md a a' : no_classes tr -> calm_assign a = true -> class_free tr md a = Done a' -> calm_assign a' = true.
Proof.
  intros P C. destruct a as [x [t|t v| |] ps]; unfold class_free; cbn [a_specific]; intros E; try (injection E as <-; exact C). apply obind_ok in E as (t' & Et & E). injection E as <-.
  pose proof (fun G => classes_calm_type tr md t P G _ Et) as G. destruct t as [k|l0|l0 b|d l0|alts|set cs ext|set n u|g kw u|d]; try (apply calm_top, G; exact C). unfold calm_assign in *. cbn [a_specific] in *. unfold is_template in *. cbn [a_parameters] in *.
  cbn [classes_to_concrete] in Et. apply obind_ok in Et as (cs' & E2 & Et). injection Et as <-. destruct (match ps with [] => false | _ :: _ => true end); [apply G, C|].
  eapply (calm_omap_comps _ false cs cs' false); [|exact E2|exact C]. apply Forall_forall. intros [y u o d co] _ Cu u' Eu. eapply classes_calm_type; eassumption.
Qed.
Lemma classes_calm tr tr' : no_classes tr -> calm_tree tr -> plain_tree tr -> resolve_object_classes tr = Done tr' -> calm_tree tr' /\ plain_tree tr'.
Proof.
  intros H C P E. unfold resolve_object_classes in E. apply obind_ok in E as (names & E1 & E). apply (names_none tr names H) in E1. subst names. apply obind_ok in E as (tr1 & E1 & E). injection E as <-. apply omap_forall2, Forall2_with_in in E1.
  assert (K : forall m a, In m (remove_object_classes tr1 []) -> In a (m_assigns m) -> calm_assign a = true /\ a_parameters a = []); [|split; intros m a Im Ia; apply (K m a Im Ia)].
  intros m a Im Ia. unfold remove_object_classes in Im. apply in_map_iff in Im as (m1 & <- & Im). cbn [m_assigns] in Ia. apply filter_In in Ia as (Ia & _). destruct (Forall2_in_r _ _ _ _ E1 Im) as (m0 & _ & Im0 & E). apply obind_ok in E as (l & E & [= <-]). cbn [m_assigns with_assigns] in Ia.
  apply omap_forall2 in E. destruct (Forall2_in_r _ _ _ _ E Ia) as (a0 & Ia0 & Ea). split; [eapply class_free_calm; [exact H|eapply C; eassumption|exact Ea]|]. destruct (class_free_tracks _ _ _ _ Ea) as (_ & K & _). rewrite K. eapply P; eassumption.
Qed.
Lemma expand_plain tr tr' : plain_tree tr -> Frontend.resolve_components_of tr = Done tr' -> plain_tree tr'.
Proof.
  intros P E. unfold Frontend.resolve_components_of in E. enough (G : forall after before tr', plain_tree (rev before ++ after) -> expand_tree before after = Done tr' -> plain_tree tr') by (eapply (G tr []); [exact P|exact E]).
  clear. induction after as [|m after IH]; intros before tr' T E; cbn [expand_tree] in E; [injection E as <-; rewrite app_nil_r in T; exact T|]. apply obind_ok in E as (l & E1 & E). eapply IH; [|exact E]. cbn [rev]. rewrite <- app_assoc. cbn [app].
  intros m0 a0 I J. apply in_app_or in I as [I|[<-|I]]; [apply (T m0); [apply in_or_app; left; exact I|exact J]| |apply (T m0); [apply in_or_app; right; right; exact I|exact J]]. cbn [m_assigns with_assigns] in J.
  apply expand_module_tracked in E1 as (l2 & -> & F). destruct (Forall2_in_r _ _ _ _ F J) as (a1 & I1 & _ & K & _). rewrite K. apply (T m); [apply in_or_app; right; left; reflexivity|exact I1].
Qed.

(** ** The order *)
Definition no_structure (t : type) : Prop := match t with TSimple _ | TInteger _ => True | _ => False end.
Definition plain_here (m : module) (u : type) : Prop :=
  match u with
  | TRef (Defined None A []) => exists t, In (Assign A (AType t) []) (m_assigns m) /\ no_structure t
  | _ => no_structure u
  end.
Definition orderly (m : module) : Prop := forall before a after, m_assigns m = before ++ a :: after ->
  (forall t y, a_specific a = AValue t (VDefined y) -> In y (map a_name before)) /\
  (forall set cs ext x u o d, a_specific a = AType (TRecord set cs ext) -> In (Comp x u o (Some d) None) cs ->
     (forall y, d = VDefined y -> plain_here m u -> In y (map a_name before)) /\
     (forall y, u = TRef (Defined None y []) -> In y (map a_name before))).
Lemma outline_no_structure t : no_structure t -> outline t = Builtin false.
Proof. destruct t; cbn; intros []; reflexivity. Qed.
Lemma not_enumerated tr m u : NoDup (map m_name tr) -> In m tr -> NoDup (map a_name (m_assigns m)) -> plain_here m u -> ~ enumerated_type (map outline_module tr) (m_name m) (outline u).
Proof.
  intros N I D P (m' & T). assert (S : forall t, no_structure t -> ~ type_is (map outline_module tr) (m_name m) (outline t) (Builtin true) m').
  { intros t Ht K. rewrite (outline_no_structure t Ht) in K. inversion K. }
  destruct u as [k|l|l b|d l|alts|set cs ext|set n u|g kw u|[[mo|] r [|a args]]]; cbn [plain_here] in P; try (destruct P; fail); try (revert T; apply S; exact P).
  destruct P as (t & Ia & Ht). cbn [outline] in T. inversion T as [? ? F|?|? ? ? t1 ? ? (md & M1 & M2 & M3) T1]; subst.
  apply in_map_iff in M1 as (m1 & <- & M1). cbn [CompilerTree.m_name outline_module in_module] in M2. assert (m1 = m) as ->.
  { clear -N I M1 M2. induction tr as [|m0 tr IH]; [destruct I|]. cbn [map] in N. inversion N as [|? ? N1 N2]; subst. destruct I as [->|I], M1 as [->|M1]; [reflexivity|destruct N1; rewrite <- M2; apply in_map; exact M1|destruct N1; rewrite M2; apply in_map; exact I|auto]. }
  cbn [CompilerTree.m_assigns outline_module] in M3. apply in_map_iff in M3 as (b & Eb & M3). unfold outline_assign in Eb. injection Eb as E1 E2.
  assert (b = Assign r (AType t) []) as ->.
  { pose proof (find_unique a_name _ _ D M3) as F1. pose proof (find_unique a_name _ _ D Ia) as F2. cbn [a_name] in F2. rewrite E1 in F1. congruence. }
  cbn [a_specific] in E2. injection E2 as <-. cbn [in_module] in T1. exact (S t Ht T1).
Qed.
Lemma lookups_same {A B} (key : A -> string) (name : B -> string) (l : list A) (o : list B) (r : list A) :
  omap (fun b => olift (find (fun a => String.eqb (key a) (name b)) (rev l))) o = Done r -> map key r = map name o /\ incl r l.
Proof.
  intros E. apply omap_forall2 in E. induction E as [|b a o r E F IH]; [split; [reflexivity|intros x []]|]. destruct IH as (I1 & I2). cbn [map]. unfold olift in E. destruct (find _ _) as [a'|] eqn:Ef; [|discriminate]. injection E as <-.
  apply find_by in Ef as (E1 & E2). split; [congruence|]. intros x [<-|Hx]; [apply in_rev; exact E2|auto].
Qed.
Lemma map_split {A B} (f : A -> B) (l : list A) b c d : map f l = b ++ c :: d -> exists b' c' d', l = b' ++ c' :: d' /\ map f b' = b /\ f c' = c /\ map f d' = d.
Proof.
  revert b. induction l as [|x l IH]; intros [|y b] E; cbn in E; try discriminate E; injection E as E1 E2.
  - exists [], x, l. auto.
  - apply IH in E2 as (b' & c' & d' & -> & H1 & H2 & H3). exists (x :: b'), c', d'. cbn. rewrite H1, E1. auto.
Qed.
Lemma reorder_orderly fuel tr m m' : NoDup (map m_name tr) -> In m tr -> NoDup (map a_name (m_assigns m)) -> (forall a, In a (m_assigns m) -> calm_assign a = true /\ a_parameters a = []) ->
  reorder_assigns fuel tr m = Done m' -> orderly m'.
Proof.
  intros N I D C E. pose proof (reorder_assigns_perm _ _ _ _ D E) as (l' & Em & Pm). unfold reorder_assigns in E. apply obind_ok in E as (o & E1 & E). apply obind_ok in E as (l & E2 & E). rewrite Em in E. injection E as <-.
  apply C57_order_partial in E1 as (_ & _ & (l0 & P0 & F0) & O).
  2: { apply Forall_forall. intros b Ib. apply in_map_iff in Ib as (a & <- & Ia). destruct (C a Ia). apply calm_no_nested; assumption. }
  apply (lookups_same a_name CompilerTree.a_name) in E2 as (En & _). subst m'. unfold orderly. cbn [m_assigns with_assigns]. intros before a after Ea. rewrite Ea in En. rewrite map_app in En. cbn [map] in En. symmetry in En.
  apply map_split in En as (ob & oa & oc & Eo & Eb & Eoa & _).
  assert (Ia : In a (m_assigns m)) by (eapply Permutation_in; [apply Permutation_sym; exact Pm|rewrite Ea; apply in_or_app; right; left; reflexivity]).
  assert (St : stored (m_name m) (map outline_assign (m_assigns m)) (outline_assign a) oa).
  { assert (Io : In oa o) by (rewrite Eo; apply in_or_app; right; left; reflexivity). destruct (Forall2_in_r _ _ _ _ F0 Io) as (b & Ib & Sb). apply (Permutation_in _ (Permutation_sym P0)) in Ib. apply in_map_iff in Ib as (a1 & <- & Ia1).
    assert (a1 = a) as ->; [|exact Sb]. destruct Sb as (Sn & _). rewrite Eoa in Sn. cbn [outline_assign CompilerTree.a_name] in Sn. pose proof (find_unique a_name _ _ D Ia1) as G1. pose proof (find_unique a_name _ _ D Ia) as G2. rewrite <- Sn in G1. congruence. }
  pose proof (O ob oa oc Eo) as Od. rewrite Eb in Od. destruct oa as [on os]. cbn [CompilerTree.a_name] in Eoa. subst on. destruct St as (_ & St). unfold outline_assign in St. cbn [CompilerTree.a_spec] in St. split.
  - intros t y Sp. rewrite Sp in St. subst os. apply Od. apply n_value.
  - intros set cs ext x u o0 d Sp Ic. rewrite Sp in St. cbn [outline] in St. destruct St as (cs' & -> & Sc).
    assert (Ic' : In (CompilerTree.Comp x (outline u) o0 (Some match d with VDefined r => Some r | _ => None end) Static) cs').
    { match type of Sc with Forall2 _ (map ?f cs) _ => pose proof (in_map f cs _ Ic) as J end. cbn beta iota in J. destruct (Forall2_in_l _ _ _ _ Sc J) as (c' & J' & [->|(? & ? & ? & ? & ? & X & _)]); [exact J'|discriminate X]. }
    split.
    + intros y -> Ph. apply Od. eapply n_default; [exact Ic'|]. eapply not_enumerated; [exact N|exact I|exact D|]. clear -Ph Pm. unfold plain_here in *. destruct u as [| | | | | | | |[[mo|] r [|b args]]]; try exact Ph.
      destruct Ph as (t & J & Ht). exists t. split; [|exact Ht]. cbn [m_assigns with_assigns] in J. eapply Permutation_in; [apply Permutation_sym; exact Pm|exact J].
    + intros y ->. apply Od. eapply n_component; [exact Ic'|intros (_ & X & _); discriminate X|apply u_ref|left; reflexivity].
Qed.

(** ** All passes *)
Definition settled (m m' : module) : Prop := tracked m m' /\ NoDup (map a_name (m_assigns m')) /\ orderly m'.
Lemma reorder_tree_orderly fuel after : forall before tr', NoDup (map m_name (rev before ++ after)) -> (forall m, In m after -> NoDup (map a_name (m_assigns m))) ->
  (forall m a, In m after -> In a (m_assigns m) -> calm_assign a = true /\ a_parameters a = []) -> reorder_tree fuel before after = Done tr' ->
  exists l, tr' = rev before ++ l /\ Forall2 (fun m m' => tracked m m' /\ NoDup (map a_name (m_assigns m')) /\ orderly m') after l.
Proof.
  induction after as [|m after IH]; intros before tr' N D C E; cbn [reorder_tree] in E; [injection E as <-; exists []; rewrite app_nil_r; split; [reflexivity|constructor]|].
  apply obind_ok in E as (m' & E1 & E). pose proof (reorder_assigns_perm _ _ _ _ (D m (or_introl eq_refl)) E1) as (l' & Em & Pm).
  pose proof (reorder_orderly _ _ _ _ N ltac:(apply in_or_app; right; left; reflexivity) (D m (or_introl eq_refl)) (fun a Ia => C m a (or_introl eq_refl) Ia) E1) as O.
  apply IH in E as (l & -> & F).
  - exists (m' :: l). cbn [rev]. rewrite <- app_assoc. split; [reflexivity|]. constructor; [|exact F]. subst m'. cbn [m_assigns with_assigns]. split; [|split; [|exact O]].
    + split; [reflexivity|]. intros a Ia _. exists a. split; [eapply Permutation_in; [exact Pm|exact Ia]|apply tracks_refl].
    + eapply Permutation_NoDup; [apply Permutation_map; exact Pm|apply D; left; reflexivity].
  - cbn [rev]. rewrite <- app_assoc. cbn [app]. rewrite map_app in *. cbn [map] in *. subst m'. exact N.
  - intros x Hx. apply D. right. exact Hx.
  - intros x a Hx. apply C. right. exact Hx.
Qed.
Lemma tracked_names l l' : Forall2 tracked l l' -> map m_name l' = map m_name l.
Proof. induction 1 as [|a b l l' (E & _) F IH]; cbn; [reflexivity|]. rewrite E, IH. reflexivity. Qed.
Theorem passes_settled fuel tr tr' : clean tr -> calm_tree tr -> passes fuel tr = Done tr' -> NoDup (map m_name tr') /\ forall m, In m tr -> exists m', In m' tr' /\ settled m m'.
Proof.
  intros C Q E. unfold passes in E. apply obind_ok in E as (tr1 & E1 & E). apply obind_ok in E as (tr2 & E2 & E). apply obind_ok in E as (tr3 & E3 & E). apply obind_ok in E as (tr4 & E4 & E). apply obind_ok in E as (tr5 & E5 & E6).
  pose proof (parameters_tracked _ _ E1) as T1. destruct (resolve_parameters_calm _ _ Q E1) as (Q1 & P1). apply parameters_facts in E1. pose proof (clean_concreted _ _ C E1) as C1. apply reorder_modules_perm in E2; [|apply C1]. pose proof (clean_perm _ _ C1 E2) as (C2 & C2' & C2'').
  assert (Q2 : calm_tree tr2) by (intros m0 a0 I0; apply Q1; eapply Permutation_in; [apply Permutation_sym; exact E2|exact I0]).
  assert (P2 : plain_tree tr2) by (intros m0 a0 I0; apply P1; eapply Permutation_in; [apply Permutation_sym; exact E2|exact I0]).
  destruct (split_modules_calm _ _ _ Q2 P2 E3) as (Q3 & P3). pose proof (split_tracked _ _ _ E3) as T3.
  apply split_modules_facts in E3; [|lia]. apply Forall2_with_in in E3.
  assert (NC3 : no_classes tr3). { intros m3 a Hm Ha. destruct (Forall2_in_r _ _ _ _ E3 Hm) as (m0 & _ & Hin & n & n' & l' & H0 & H1 & E & ->). destruct (is_class a) eqn:K; [|reflexivity]. cbn in Ha.
      destruct (split_nested_facts _ _ _ _ _ E) as (tab & _ & _ & _ & G & _). destruct (with_imports_assigns _ _ (G a Ha K)) as [K'|K']; [rewrite (C2'' _ _ Hin K') in K; discriminate|congruence]. }
  assert (ND3 : forall m, In m tr3 -> NoDup (map a_name (m_assigns m))).
  { intros m3 Hm. destruct (Forall2_in_r _ _ _ _ E3 Hm) as (m0 & _ & Hin & n & n' & l' & H0 & H1 & E & ->). destruct (C2' _ Hin) as (D & M). eapply split_names; eassumption. }
  pose proof (expand_tree_calm _ [] _ Q3 E4) as Q4. pose proof (expand_plain _ _ P3 E4) as P4. pose proof E4 as E4'. apply expand_tree_tracked in E4' as (l4 & E4' & T4). cbn in E4'. subst l4. apply expand_tree_kept in E4 as (l4 & E4 & F4). cbn in E4. subst l4.
  assert (NC4 : no_classes tr4). { intros m4 a Hm Ha. destruct (Forall2_in_r _ _ _ _ F4 Hm) as (m0 & Hm0 & _ & _ & F). destruct (Forall2_in_r _ _ _ _ F Ha) as (a0 & Ha0 & _ & E & _). rewrite E. eapply NC3; eassumption. }
  destruct (classes_calm _ _ NC4 Q4 P4 E5) as (Q5 & P5). pose proof (classes_tracked _ _ NC4 E5) as T5. pose proof (resolve_classes_kept _ _ NC4 E5) as F5.
  assert (ND5 : forall m, In m tr5 -> NoDup (map a_name (m_assigns m))).
  { intros m5 Hm. destruct (Forall2_in_r _ _ _ _ F5 Hm) as (m4 & Hm4 & _ & _ & G5). destruct (Forall2_in_r _ _ _ _ F4 Hm4) as (m3 & Hm3 & _ & _ & G4). rewrite (kept_names _ _ G5), (kept_names _ _ G4). auto. }
  apply reorder_tree_orderly in E6 as (l6 & E6 & F6).
  - cbn in E6. subst l6. split.
    { assert (T6 : Forall2 tracked tr5 tr') by (eapply Forall2_impl2; [|exact F6]; intros ? ? (K & _); exact K). rewrite (tracked_names _ _ T6), (tracked_names _ _ T5), (tracked_names _ _ T4), (tracked_names _ _ T3). exact C2. }
    intros m Im. destruct (Forall2_in_l _ _ _ _ T1 Im) as (m1 & I1 & K1). pose proof (Permutation_in _ E2 I1) as I2. destruct (Forall2_in_l _ _ _ _ T3 I2) as (m3 & I3 & K3). destruct (Forall2_in_l _ _ _ _ T4 I3) as (m4 & I4 & K4).
    destruct (Forall2_in_l _ _ _ _ T5 I4) as (m5 & I5 & K5). destruct (Forall2_in_l _ _ _ _ F6 I5) as (m6 & I6 & K6 & D6 & O6). exists m6. split; [exact I6|]. split; [|split; assumption].
    eapply tracked_trans; [exact K1|]. eapply tracked_trans; [exact K3|]. eapply tracked_trans; [exact K4|]. eapply tracked_trans; [exact K5|exact K6].
  - cbn [rev app]. rewrite (tracked_names _ _ T5), (tracked_names _ _ T4), (tracked_names _ _ T3). exact C2.
  - exact ND5.
  - intros m5 a I5 Ia. split; [eapply Q5; eassumption|eapply P5; eassumption].
Qed.
