(** Identifiers and references: what Header.v computes from the tree is what Compiler.v computes from the types that Elab.v makes of it. *)
From Coq Require Import List String Ascii ZArith Bool Lia.
From Verif Require Import Base CompilerNames Ident Prims Schema ParserTree Compiler Elab ElabProofs HeaderSpec CppSpec Header.
Import ListNotations.
Local Open Scope string_scope.
Local Open Scope list_scope.

(** * Strings *)
Lemma sapp_nil (a : string) : (a ++ "")%string = a. Proof. induction a; cbn; congruence. Qed.
Lemma sapp_assoc (a b c : string) : (a ++ (b ++ c) = (a ++ b) ++ c)%string. Proof. induction a; cbn; congruence. Qed.
Lemma slen_app (a b : string) : String.length (a ++ b) = (String.length a + String.length b)%nat. Proof. induction a; cbn; congruence. Qed.
Lemma sapp_inj (p : string) : forall q s r, String.length s = String.length r -> (p ++ s = q ++ r)%string -> p = q /\ s = r.
Proof.
  induction p as [|c p IH]; intros q s r L H.
  - destruct q; [split; [reflexivity|exact H]|]. cbn in H. subst s. cbn in L. rewrite slen_app in L. lia.
  - destruct q as [|d q]; cbn in H.
    + subst r. cbn in L. rewrite slen_app in L. lia.
    + injection H as -> H. destruct (IH _ _ _ L H) as (-> & ->). auto.
Qed.
Lemma contained_inj p q : (p ++ "Contained" = q ++ "Contained")%string -> p = q.
Proof. intros H. apply (sapp_inj p q _ _ eq_refl H). Qed.
Lemma tail_differs (p q a b x y : string) : String.length a = String.length b -> (p ++ (x ++ a) = q ++ (y ++ b))%string -> a = b.
Proof. intros L H. rewrite !sapp_assoc in H. apply (sapp_inj _ _ _ _ L H). Qed.
Lemma contained_values p q : (p ++ "Contained" = q ++ "Values")%string -> False.
Proof. intros H. pose proof (tail_differs p q "d" "s" "Containe" "Value" eq_refl H). discriminate. Qed.
Lemma contained_under p q : (p ++ "Contained" = q ++ "_")%string -> False.
Proof. intros H. pose proof (tail_differs p q "d" "_" "Containe" "" eq_refl H). discriminate. Qed.
Lemma contained_empty p : (p ++ "Contained" = "Contained")%string -> p = "".
Proof. intros H. apply contained_inj. exact H. Qed.
Lemma made_contained p : made_up (p ++ "Contained"). Proof. right. exists p. left. reflexivity. Qed.
Lemma made_values p : made_up (p ++ "Values"). Proof. right. exists p. right. left. reflexivity. Qed.
Lemma made_under p : made_up (p ++ "_"). Proof. right. exists p. right. right. reflexivity. Qed.
Lemma capital_same s : capital s = capitalised s.
Proof.
  destruct s as [|c s]; [reflexivity|]. cbn [capital capitalised]. f_equal.
  destruct c as [[] [] [] [] [] [] [] []]; vm_compute; reflexivity.
Qed.
Lemma eqb_ne a b : a <> b -> String.eqb a b = false. Proof. apply String.eqb_neq. Qed.

(** * Identifiers *)
(** The cid is written with a class and a number that mean it. *)
Definition known (c : cid) : Prop := eval_single (cid_text c) = Some (c_class c, c_tag c).
Lemma known_tag c n : known (tag_cid c n). Proof. unfold known. destruct c; reflexivity. Qed.
Fixpoint plain (t : aty) : Prop :=
  match t with
  | APrim _ u => u <> 0%Z /\ known (univ_cid u)
  | ASeqOf _ t => plain t
  | ASeq cs | ASet _ cs => plain_all cs
  | AChoice cs => cs <> ANil /\ plain_all cs
  | ATagged _ _ _ t => plain t
  | ADef _ t => plain t
  end
with plain_all (cs : acomps) : Prop := match cs with ANil => True | ACons _ t cs => plain t /\ plain_all cs end.

Lemma outer_known : (forall t m, plain t -> Forall known (outer_ids m t)) /\ (forall cs m i, plain_all cs -> Forall known (outer_ids_choice m i cs)).
Proof.
  apply aty_mutind; intros; cbn [outer_ids outer_ids_choice plain plain_all] in *.
  - constructor; [tauto|constructor].
  - constructor; [destruct set; reflexivity|constructor].
  - constructor; [reflexivity|constructor].
  - constructor; [reflexivity|constructor].
  - apply H; tauto.
  - constructor; [apply known_tag|constructor].
  - apply H. assumption.
  - constructor.
  - apply Forall_app. split; [|apply H0; tauto]. destruct (is_automatic m); [constructor; [apply known_tag|constructor]|apply H; tauto].
Qed.
Lemma outer_not_nil : (forall t m, plain t -> outer_ids m t <> []) /\ (forall cs m i, plain_all cs -> cs <> ANil -> outer_ids_choice m i cs <> []).
Proof.
  apply aty_mutind; intros; cbn [outer_ids outer_ids_choice plain plain_all] in *; try discriminate.
  - apply H; tauto.
  - apply H; assumption.
  - congruence.
  - destruct (is_automatic m); [discriminate|]. intros X. apply app_eq_nil in X. apply (H m); tauto.
Qed.
Lemma choice_known cs : forall m i, plain_all cs -> Forall known (choice_ids m i cs).
Proof.
  induction cs as [|k t cs IH]; intros m i P; cbn [choice_ids plain_all] in *; [constructor|].
  apply Forall_app. split; [|apply IH; tauto]. pose proof (proj1 outer_known t m ltac:(tauto)) as K.
  destruct (is_automatic m); [|exact K]. destruct (is_prefixed t); [|constructor; [apply known_tag|constructor]].
  destruct (outer_ids m t); [constructor|]. inversion K; subst. constructor; [assumption|constructor].
Qed.
Lemma choice_not_nil cs m i : plain_all cs -> cs <> ANil -> choice_ids m i cs <> [].
Proof.
  destruct cs as [|k t cs]; intros P N; [congruence|]. cbn [choice_ids plain_all] in *. intros X. apply app_eq_nil in X. destruct X as (X & _).
  pose proof (proj1 outer_not_nil t m ltac:(tauto)) as K. destruct (is_automatic m); [|auto]. destruct (is_prefixed t); [|discriminate].
  destruct (outer_ids m t); [auto|discriminate].
Qed.
Lemma known_zero : known (Cid universal 0 0). Proof. reflexivity. Qed.
Lemma info_known : forall t m, plain t -> known (ti_inner (info m t)) /\ (forall o, ti_outer (info m t) = Some o -> known o) /\ Forall known (ti_choice (info m t)).
Proof.
  fix F 1. intros t m P. destruct t as [k u|set t|cs|ext cs|cs|kw c n t|m' t]; cbn [info plain] in *.
  - cbn. split; [tauto|]. split; [discriminate|constructor].
  - cbn. split; [destruct set; reflexivity|]. split; [discriminate|constructor].
  - cbn. split; [reflexivity|]. split; [discriminate|constructor].
  - cbn. split; [reflexivity|]. split; [discriminate|constructor].
  - cbn. split; [apply known_zero|]. split; [discriminate|apply choice_known; tauto].
  - destruct (F t m P) as (K1 & K2 & K3). destruct (_ || _); cbn.
    + split; [exact K1|]. split; [intros o [= <-]; apply known_tag|constructor].
    + split; [apply known_tag|]. split; [discriminate|constructor].
  - apply F, P.
Qed.
Lemma eval_known c : known c -> eval_id (cid_text c) = Some (Some (Id (c_class c) (c_tag c))).
Proof. intros K. unfold known in K. unfold cid_text in *. destruct (c_univ c =? 0)%Z; cbn [eval_id]; rewrite K; reflexivity. Qed.
Lemma eval_info t m : plain t -> eval_id (info_text (info m t)) = Some (ti_name (info m t)).
Proof.
  intros P. destruct (info_known t m P) as (K1 & K2 & K3). unfold info_text, ti_name. destruct (ti_outer (info m t)) as [o|].
  - cbn [eval_id]. rewrite (K2 o eq_refl), K1. reflexivity.
  - destruct (ti_choice (info m t)) as [|c l]; [apply eval_known, K1|]. cbn [eval_id].
    replace (forallb _ (map cid_text (c :: l))) with true; [reflexivity|]. symmetry. apply forallb_forall. intros j Hj. apply in_map_iff in Hj.
    destruct Hj as (y & <- & Hy). rewrite Forall_forall in K3. rewrite (K3 y Hy). reflexivity.
Qed.
(** A type whose identifier is a ChoiceId has a struct. *)
Lemma name_or_generated t : forall m, ti_name (info m t) = None -> gen_def t = true.
Proof.
  induction t as [k u|set t IH|cs|ext cs|cs|kw c n t IH|m' t IH]; intros m H; cbn [info] in H; try discriminate; try reflexivity.
  - destruct (_ || _) in H; discriminate.
  - cbn [gen_def]. apply (IH m' H).
Qed.
Lemma tagged_name_some kw c n t m : exists j, ti_name (info m (ATagged kw c n t)) = Some j.
Proof. cbn [info]. destruct (_ || _); eexists; reflexivity. Qed.

(** * Over the tree *)
Section Ids.
Context (T : list module) (SEP : separate T) (BARE : forall m, In m T -> m_imports m = []).
Notation mode_ m := (mode_of (m_tagging m)).

Lemma module_named_in x m : module_named T x = Some m -> In m T /\ m_name m = x.
Proof. intros H. apply find_some in H. destruct H as (H & E). split; [exact H|]. apply String.eqb_eq, E. Qed.
Lemma type_named_in m x u : In m T -> type_named m x = Some u -> assigned T m x u.
Proof.
  intros Hm H. unfold type_named in H. destruct (assign_named (with_imports m) x) as [[y [t| | |] []]|] eqn:E; try discriminate.
  injection H as <-. apply find_some in E. destruct E as (E & E2). cbn in E2. apply String.eqb_eq in E2. subst y.
  unfold with_imports in E. rewrite (BARE m Hm) in E. cbn [flat_map] in E. rewrite app_nil_r in E. split; [exact Hm|]. exists []. exact E.
Qed.
Lemma inside_trans a b c : inside a b -> inside b c -> inside a c.
Proof. intros H1 H2. induction H2; [exact H1|econstructor 2; eauto|econstructor 3; eauto|econstructor 4; eauto|econstructor 5; eauto]. Qed.
Lemma occurs_inside u t : occurs T t -> inside u t -> occurs T u.
Proof. intros (m & x & w & A & I) H. exists m, x, w. split; [exact A|]. apply (inside_trans _ _ _ H I). Qed.
Lemma assigned_occurs m x u : assigned T m x u -> occurs T u. Proof. intros A. exists m, x, u. split; [exact A|constructor]. Qed.
Lemma assigned_name m x u : assigned T m x u -> ~ made_up x. Proof. intros A. apply (sp_types T SEP). exists m, u. exact A. Qed.
Lemma bare_is_tagged t : bare_tagged_ref t = tagged_name t.
Proof. induction t; try reflexivity. cbn. destruct t as [| | | | | | | |[[y|] r ps]]; cbn in *; try rewrite IHt; reflexivity. Qed.
Lemma in_one m m' : List.length T = 1%nat -> In m T -> In m' T -> m = m'.
Proof. clear SEP BARE. destruct T as [|a [|b l]]; try discriminate. intros _ [<-|[]] [<-|[]]. reflexivity. Qed.
(** Where references behind tags are followed makes no difference. *)
Lemma elab_site F : forall s s' m t a, In m T -> In s T -> In s' T -> elab F T s m t = Some a -> elab F T s' m t = Some a.
Proof.
  destruct (sp_tags T SEP) as [L|NB].
  - intros s s' m t a _ Hs Hs' E. rewrite (in_one s' s L Hs' Hs). exact E.
  - induction F as [|n IH]; intros s s' m t a Hm Hs Hs' E; [discriminate|]. cbn [elab] in *. destruct t as [k|ns|vs e|d fs|alts|set cs ext|set x u|[c k] kw u|[mo x [|p ps]]]; try exact E.
    + destruct (is_ref u || is_tagged_ref u); [|exact E]. destruct (elab n T s m u) as [b|] eqn:Eb; [|discriminate]. rewrite (IH _ _ _ _ _ Hm Hs Hs' Eb). exact E.
    + destruct (module_named T _) as [m'|] eqn:Em; [|discriminate]. apply module_named_in in Em. destruct Em as (Hm' & _). destruct (type_named m' x) as [u|] eqn:Eu; [|discriminate].
      rewrite bare_is_tagged in *. rewrite (NB m' x u (type_named_in _ _ _ Hm' Eu)) in *. cbn [andb] in *.
      destruct (is_ref u || is_tagged_ref u); [|exact E]. destruct (elab n T s m' u) as [b|] eqn:Eb; [|discriminate]. rewrite (IH _ _ _ _ _ Hm' Hs Hs' Eb). exact E.
Qed.

(** Types of the tree have plain types. *)
Lemma simple_plain k c : class_of_simple k = Some c -> untagged_time k = false -> plain (APrim c (universal_of k)).
Proof. destruct k as [| | | | | | | | | | | | | | | | | | | | |[]]; intros [= <-] H; try discriminate H; (split; [discriminate|reflexivity]). Qed.
Lemma traverse_plain {A} (f : A -> option (ckind * aty)) l : forall r, traverse f l = Some r -> (forall x k a, In x l -> f x = Some (k, a) -> plain a) -> plain_all (acomps_of r).
Proof.
  induction l as [|x l IH]; intros r E H; cbn in E; [injection E as <-; exact I|].
  destruct (f x) as [[k a]|] eqn:Ex; [|discriminate]. destruct (traverse f l) as [r'|] eqn:Er; [|discriminate]. injection E as <-. cbn. split.
  - apply (H x k a); [left; reflexivity|exact Ex].
  - apply IH; [reflexivity|]. intros y k' a' Hy. apply H. right. exact Hy.
Qed.
Lemma elab_plain F : forall s m t a, occurs T t -> elab F T s m t = Some a -> plain a.
Proof.
  induction F as [|n IH]; intros s m t a O E; [discriminate|]. cbn [elab] in E.
  assert (S : forall u, inside u t -> occurs T u) by (intros u Hu; apply (occurs_inside _ _ O Hu)).
  destruct t as [k|ns|vs e|d fs|alts|set cs ext|set x u|[c k] kw u|[mo x [|p ps]]]; try discriminate.
  - destruct (class_of_simple k) as [c|] eqn:C; [|discriminate]. injection E as <-. apply (simple_plain k c C). apply (sp_times T SEP k O).
  - injection E as <-. split; [discriminate|reflexivity].
  - injection E as <-. split; [discriminate|reflexivity].
  - destruct (traverse _ alts) as [r|] eqn:Er; [|discriminate]. injection E as <-. split.
    + destruct alts as [|a0 alts]; [destruct (sp_choices T SEP O)|]. cbn in Er. destruct (option_map _ _) as [[k b]|]; [|discriminate]. destruct (traverse _ alts); [|discriminate]. injection Er as <-. discriminate.
    + apply (traverse_plain _ _ _ Er). intros [x u] k b Hx Eb. cbn in Eb. destruct (elab n T m m u) as [b'|] eqn:Eu; [|discriminate]. injection Eb as <- <-.
      apply (IH _ _ _ _ (S u ltac:(econstructor 3; [exact Hx|constructor])) Eu).
  - destruct (traverse _ cs) as [r|] eqn:Er; [|discriminate]. injection E as <-. assert (P : plain_all (acomps_of r)); [|destruct set; exact P].
    apply (traverse_plain _ _ _ Er). intros [x u o d [co|]] k b Hx Eb; [discriminate|]. destruct (elab n T m m u) as [b'|] eqn:Eu; [|discriminate]. injection Eb as <- <-.
    apply (IH _ _ _ _ (S u ltac:(econstructor 2; [exact Hx|constructor])) Eu).
  - destruct (elab n T m m u) as [b'|] eqn:Eu; [|discriminate]. injection E as <-. apply (IH _ _ _ _ (S u ltac:(econstructor 4; constructor)) Eu).
  - destruct (elab n T _ m u) as [b'|] eqn:Eu; [|discriminate]. injection E as <-. apply (IH _ _ _ _ (S u ltac:(econstructor 5; constructor)) Eu).
  - destruct (module_named T _) as [m'|] eqn:Em; [|discriminate]. apply module_named_in in Em. destruct Em as (Hm' & _). destruct (type_named m' x) as [u|] eqn:Eu; [|discriminate].
    destruct (bare_tagged_ref u && _); [discriminate|]. destruct (elab n T _ m' u) as [b|] eqn:Eb; [|discriminate]. injection E as <-.
    apply (IH _ _ _ _ (assigned_occurs _ _ _ (type_named_in _ _ _ Hm' Eu)) Eb).
Qed.

(** * identifier() and outer_identifiers() *)
Lemma follow_elab m mo x ps u m' : follow T m (Defined mo x ps) = Some (u, m') ->
  ps = [] /\ module_named T (match mo with Some y => y | None => m_name m end) = Some m' /\ type_named m' x = Some u /\ In m' T /\ assigned T m' x u.
Proof.
  unfold follow. destruct ps; [|discriminate]. destruct (module_named T _) as [m1|] eqn:Em; [|discriminate].
  destruct (type_named m1 x) as [v|] eqn:Ev; [|discriminate]. intros [= <- <-]. pose proof (module_named_in _ _ Em) as (Hm & _). repeat split; auto. apply type_named_in; assumption.
Qed.
Lemma auto_same m : is_automatic (mode_ m) = is_auto m. Proof. unfold is_auto. destruct (m_tagging m); reflexivity. Qed.
(** The elab of a reference. *)
Lemma elab_ref F s m mo x u m' a : follow T m (Defined mo x []) = Some (u, m') -> In s T -> elab F T s m (TRef (Defined mo x [])) = Some a ->
  exists n b, F = S n /\ a = ADef (mode_ m') b /\ elab n T m' m' u = Some b.
Proof.
  intros Fo Hs E. destruct (follow_elab _ _ _ _ _ _ Fo) as (_ & Em & Eu & Hm' & _). destruct F as [|n]; [discriminate|]. cbn [elab] in E. rewrite Em, Eu in E.
  destruct (bare_tagged_ref u && _); [discriminate|]. destruct (elab n T _ m' u) as [b|] eqn:Eb; [|discriminate]. injection E as <-. exists n, b. split; [reflexivity|]. split; [reflexivity|].
  destruct (is_ref u || is_tagged_ref u); [apply (elab_site n s m' m' u b Hm' Hs Hm' Eb)|exact Eb].
Qed.
Lemma outer_same fuel : forall m t l F s a, In m T -> In s T -> occurs T t -> outer_identifiers fuel T m t = Some l -> elab F T s m t = Some a -> l = outer_ids (mode_ m) a.
Proof.
  induction fuel as [|fuel IH]; intros m t l F s a Hm Hs O H E; [discriminate|]. destruct F as [|n]; [discriminate|].
  assert (S' : forall u, inside u t -> occurs T u) by (intros u Hu; apply (occurs_inside _ _ O Hu)).
  cbn [outer_identifiers] in H. destruct t as [k|ns|vs e|d fs|alts|set cs ext|set x u|[c k] kw u|[mo x ps]]; try discriminate; try (cbn [elab] in E).
  - destruct (has_identifier k); [|discriminate]. assert (Z : no_number k = false) by (pose proof (sp_times T SEP k O) as Z; destruct k; try reflexivity; discriminate Z). rewrite Z in H.
    destruct (class_of_simple k); [|discriminate]. injection E as <-. injection H as <-. reflexivity.
  - injection E as <-. injection H as <-. reflexivity.
  - injection E as <-. injection H as <-. reflexivity.
  - destruct (traverse _ alts) as [r|] eqn:Er; [|discriminate]. injection E as <-. cbn [outer_ids].
    assert (G : forall alts i l r, (forall x u, In (x, u) alts -> occurs T u) -> numbered (fun i (a : string * type) => if is_auto m then Some [auto_cid i] else outer_identifiers fuel T m (snd a)) i alts = Some l ->
      traverse (fun e : string * type => option_map (pair Mand) (elab n T m m (snd e))) alts = Some r -> l = outer_ids_choice (mode_ m) (Z.of_nat i) (acomps_of r)).
    { clear alts l r Er H O S'. induction alts as [|[x u] alts IHa]; intros i l r Oc H E; cbn in H, E.
      - injection H as <-. injection E as <-. reflexivity.
      - destruct (if is_auto m then _ else _) as [l1|] eqn:E1; [|discriminate]. destruct (numbered _ (S i) alts) as [l2|] eqn:E2; [|discriminate]. injection H as <-.
        destruct (elab n T m m u) as [b|] eqn:Eb; [|discriminate]. destruct (traverse _ alts) as [r'|] eqn:Er; [|discriminate]. injection E as <-. cbn.
        rewrite auto_same. f_equal.
        + destruct (is_auto m); [injection E1 as <-; reflexivity|]. apply (IH m u l1 n m b Hm Hm (Oc x u (or_introl eq_refl)) E1 Eb).
        + replace (Z.of_nat i + 1)%Z with (Z.of_nat (S i)) by lia. apply (IHa (S i) l2 r'); [intros; apply (Oc x0); right; assumption|exact E2|reflexivity || exact Er]. }
    apply (G alts 0%nat l r); [|exact H|exact Er]. intros x u Hx. apply S'. econstructor 3; [exact Hx|constructor].
  - destruct (traverse _ cs) as [r|] eqn:Er; [|discriminate]. injection E as <-. injection H as <-. destruct set; reflexivity.
  - destruct (elab n T m m u); [|discriminate]. injection E as <-. injection H as <-. destruct set; reflexivity.
  - destruct (elab n T _ m u); [|discriminate]. injection E as <-. injection H as <-. reflexivity.
  - destruct (follow T m (Defined mo x ps)) as [[u m']|] eqn:Fo; [|discriminate]. destruct (follow_elab _ _ _ _ _ _ Fo) as (-> & _ & _ & Hm' & A).
    destruct (elab_ref (S n) s _ _ _ _ _ a Fo Hs E) as (n' & b & En & -> & Eb). cbn [outer_ids].
    apply (IH m' u l n' m' b Hm' Hm' (assigned_occurs _ _ _ A) H Eb).
Qed.
Lemma identifier_same fuel : forall m t i F s a, In m T -> In s T -> occurs T t -> identifier fuel T m t = Some i -> elab F T s m t = Some a -> i = info (mode_ m) a.
Proof.
  induction fuel as [|fuel IH]; intros m t l F s a Hm Hs O H E; [discriminate|]. destruct F as [|n]; [discriminate|].
  assert (S' : forall u, inside u t -> occurs T u) by (intros u Hu; apply (occurs_inside _ _ O Hu)).
  cbn [identifier] in H. destruct t as [k|ns|vs e|d fs|alts|set cs ext|set x u|[c k] kw u|[mo x ps]]; try discriminate; try (cbn [elab] in E).
  - destruct (has_identifier k); [|discriminate]. assert (Z : no_number k = false) by (pose proof (sp_times T SEP k O) as Z; destruct k; try reflexivity; discriminate Z). rewrite Z in H.
    destruct (class_of_simple k); [|discriminate]. injection E as <-. injection H as <-. reflexivity.
  - injection E as <-. injection H as <-. reflexivity.
  - injection E as <-. injection H as <-. reflexivity.
  - destruct (traverse _ alts) as [r|] eqn:Er; [|discriminate]. injection E as <-. cbn [info]. destruct (numbered _ 0 alts) as [ids|] eqn:Ei; [|discriminate]. destruct (has_dup _); [discriminate|]. injection H as <-. f_equal.
    assert (G : forall alts i l r, (forall x u, In (x, u) alts -> occurs T u) ->
      numbered (fun i (a : string * type) => if is_auto m then match snd a with TTagged _ _ _ => option_map (firstn 1) (outer_identifiers fuel T m (snd a)) | _ => Some [auto_cid i] end else outer_identifiers fuel T m (snd a)) i alts = Some l ->
      traverse (fun e : string * type => option_map (pair Mand) (elab n T m m (snd e))) alts = Some r -> l = choice_ids (mode_ m) (Z.of_nat i) (acomps_of r)).
    { clear alts ids r Er Ei O S'. induction alts as [|[x u] alts IHa]; intros i l r Oc H E; cbn [numbered traverse snd] in H, E.
      - injection H as <-. injection E as <-. reflexivity.
      - destruct (if is_auto m then _ else _) as [l1|] eqn:E1; [|discriminate]. fold (numbered (fun i (a : string * type) => if is_auto m then match snd a with TTagged _ _ _ => option_map (firstn 1) (outer_identifiers fuel T m (snd a)) | _ => Some [auto_cid i] end else outer_identifiers fuel T m (snd a))) in H.
        destruct (numbered _ (S i) alts) as [l2|] eqn:E2; [|discriminate]. injection H as <-.
        destruct (elab n T m m u) as [b|] eqn:Eb; [|discriminate]. cbn [option_map] in E. fold (traverse (fun e : string * type => option_map (pair Mand) (elab n T m m (snd e)))) in E. destruct (traverse _ alts) as [r'|] eqn:Er; [|discriminate]. injection E as <-. cbn [acomps_of choice_ids].
        rewrite auto_same. f_equal.
        + pose proof (Oc x u (or_introl eq_refl)) as Ou. destruct (is_auto m); [|apply (outer_same fuel m u l1 n m b Hm Hm Ou E1 Eb)].
          assert (Pf : is_prefixed b = match u with TTagged _ _ _ => true | _ => false end).
          { destruct n as [|n]; [discriminate|]. clear - Eb. cbn [elab] in Eb. destruct u as [k|ns|vs e|d fs|alts|set cs ext|set x u|[c k] kw u|[mo x [|p ps]]]; try discriminate.
            - destruct (class_of_simple k); [|discriminate]. injection Eb as <-. reflexivity.
            - injection Eb as <-. reflexivity.
            - injection Eb as <-. reflexivity.
            - destruct (traverse _ alts); [|discriminate]. injection Eb as <-. reflexivity.
            - destruct (traverse _ cs); [|discriminate]. injection Eb as <-. destruct set; reflexivity.
            - destruct (elab n T m m u); [|discriminate]. injection Eb as <-. reflexivity.
            - destruct (elab n T _ m u); [|discriminate]. injection Eb as <-. reflexivity.
            - destruct (module_named T _) as [m'|]; [|discriminate]. destruct (type_named m' x); [|discriminate]. destruct (_ && _); [discriminate|]. destruct (elab n T _ m' _); [|discriminate]. injection Eb as <-. reflexivity. }
          rewrite Pf. destruct u; try (injection E1 as <-; reflexivity).
          destruct (outer_identifiers fuel T m _) as [l0|] eqn:E0; [|discriminate]. injection E1 as <-. rewrite <- (outer_same fuel m _ l0 n m b Hm Hm Ou E0 Eb). reflexivity.
        + replace (Z.of_nat i + 1)%Z with (Z.of_nat (S i)) by lia. apply (IHa (S i) l2 r'); [intros; apply (Oc x0); right; assumption|exact E2|reflexivity || exact Er]. }
    apply (G alts 0%nat ids r); [|exact Ei|exact Er]. intros x u Hx. apply S'. econstructor 3; [exact Hx|constructor].
  - destruct (traverse _ cs) as [r|] eqn:Er; [|discriminate]. injection E as <-. injection H as <-. destruct set; reflexivity.
  - destruct (elab n T m m u); [|discriminate]. injection E as <-. injection H as <-. destruct set; reflexivity.
  - destruct (elab n T _ m u) as [b|] eqn:Eb; [|discriminate]. injection E as <-. cbn [info]. destruct (identifier fuel T m u) as [i|] eqn:Ei; [|discriminate].
    assert (Hsite : In (if is_ref u || is_tagged_ref u then s else m) T) by (destruct (is_ref u || is_tagged_ref u); [exact Hs|exact Hm]).
    rewrite <- (IH m u i n _ b Hm Hsite (S' u ltac:(econstructor 5; constructor)) Ei Eb).
    replace (match mode_of kw with explicit_ => true | implicit_ => false | automatic => match mode_ m with explicit_ => true | implicit_ => false | automatic => true end end)
      with (match kw with Explicit => true | Implicit => false | Automatic => match m_tagging m with Explicit => true | Implicit => false | Automatic => true end end) by (destruct kw, (m_tagging m); reflexivity).
    destruct (_ || _); injection H as <-; reflexivity.
  - destruct (follow T m (Defined mo x ps)) as [[u m']|] eqn:Fo; [|discriminate]. destruct (follow_elab _ _ _ _ _ _ Fo) as (-> & _ & _ & Hm' & A).
    destruct (elab_ref (S n) s _ _ _ _ _ a Fo Hs E) as (n' & b & En & -> & Eb). cbn [info].
    apply (IH m' u l n' m' b Hm' Hm' (assigned_occurs _ _ _ A) H Eb).
Qed.
End Ids.
