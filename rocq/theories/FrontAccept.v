(** When the passes of Frontend.v get through: modules in which every type means something. *)
From Coq Require Import List String ZArith Bool Lia Permutation.
From Verif Require Import Base CompilerNames CompilerTree TreeSpec ReorderProofs PropertiesTree CompilerPasses Ident View Prims Schema ParserTree ParserFile Compiler Elab ElabProofs Frontend FrontOrder FrontNest FrontPasses.
Import ListNotations.
Local Open Scope string_scope.
Local Open Scope list_scope.

(** ** Names in types *)
(** A default that is a name is only used with an ENUMERATED type in place.  Inside a SEQUENCE or SET no names of other modules are used. *)
Definition literal (u : type) (d : option value) : bool := match d, u with Some (VDefined _), TEnumerated _ _ => true | Some (VDefined _), _ => false | _, _ => true end.
Fixpoint own (md : string) (inside : bool) (t : type) : bool :=
  match t with
  | TRef (Defined (Some m) _ _) => negb inside || String.eqb m md
  | TRecord _ cs _ => forallb (fun c => match c with Comp _ u _ d _ => own md true u && literal u d end) cs
  | TListOf _ _ u | TTagged _ _ u => own md inside u
  | ParserTree.TChoice alts => forallb (fun e => own md inside (snd e)) alts
  | _ => true
  end.
Lemma own_weaken md t : own md true t = true -> own md false t = true.
Proof.
  induction t as [| | | |alts IH|set cs ext IH|set n u IH|g kw u IH|d] using type_induct; cbn [own]; auto.
  - intros H. rewrite forallb_forall in *. rewrite Forall_forall in IH. intros e He. apply IH; auto.
  - destruct d as [[m|] x args]; auto.
Qed.
Lemma traverse_in {A B} (f : A -> option B) l r x : traverse f l = Some r -> In x l -> exists y, f x = Some y.
Proof.
  revert r. induction l as [|a l IH]; intros r E Hx; [destruct Hx|]. cbn in E. destruct (f a) as [y|] eqn:Ey; [|discriminate]. destruct (traverse f l) as [r1|]; [|discriminate]. destruct Hx as [<-|Hx]; [eauto|]. eapply IH; eauto.
Qed.
Lemma uses_elab md n : forall tr site m t a inside, elab n tr site m t = Some a -> own md inside t = true -> forall mo x, uses (outline t) mo x ->
  exists n' site' b, (n' <= n)%nat /\ (site' = site \/ site' = m) /\ elab n' tr site' m (TRef (Defined mo x [])) = Some b.
Proof.
  induction n as [|n IH]; intros tr site m t a inside E O mo x U; [discriminate|]. pose proof E as E0. cbn [elab] in E. destruct t as [k|nn|ev aa|oc fn|alts|set cs ext|set nm u|g kw u|d]; cbn [outline] in U; try solve [inversion U].
  - destruct (traverse _ alts) as [r|] eqn:T in E; [|discriminate]. inversion U as [| | |? ? n0 t0 ? ? Hin U1|? ? ? ? ? ? ? ? ?|]; subst. apply in_map_iff in Hin as ([y u] & Ein & Hin). cbn [fst snd] in Ein. injection Ein as <- <-.
    destruct (traverse_in _ _ _ _ T Hin) as (b & Eb). cbn [snd] in Eb. destruct (elab n tr m m u) as [c|] eqn:Ec; [|discriminate].
    cbn [own] in O. rewrite forallb_forall in O. destruct (IH _ _ _ _ _ _ Ec (O _ Hin) _ _ U1) as (n' & site' & b' & H1 & H2 & H3). exists n', site', b'. split; [lia|]. split; [tauto|exact H3].
  - destruct (traverse _ cs) as [r|] eqn:T in E; [|discriminate]. cbn [own] in O. rewrite forallb_forall in O. inversion U as [| | | |? ? n0 t0 o0 d0 st0 ? ? Hin U1|? ? n0 t0 o0 v0 st0 Hin Nb]; subst; apply in_map_iff in Hin as ([y u o d [co|]] & Ein & Hin); try discriminate Ein; injection Ein; intros; subst;
      destruct (traverse_in _ _ _ _ T Hin) as (b & Eb); cbn beta iota in Eb; destruct (elab n tr m m u) as [c|] eqn:Ec; try discriminate Eb; specialize (O _ Hin); apply andb_prop in O as (O1 & O2).
    + destruct (IH _ _ _ _ _ _ Ec O1 _ _ U1) as (n' & site' & b' & H1 & H2 & H3). exists n', site', b'. split; [lia|]. split; [tauto|exact H3].
    + exfalso. destruct d as [[]|]; try discriminate. destruct u; try discriminate O2. apply Nb. reflexivity.
  - destruct (elab n tr m m u) as [c|] eqn:Ec; [|discriminate]. inversion U as [| |? ? ? ? ? U1| | |]; subst. destruct (IH _ _ _ _ _ _ Ec O _ _ U1) as (n' & site' & b' & H1 & H2 & H3). exists n', site', b'. split; [lia|]. split; [tauto|exact H3].
  - destruct g as [c0 k0]. destruct (elab n tr (if is_ref u || is_tagged_ref u then site else m) m u) as [c|] eqn:Ec; [|discriminate]. inversion U as [|? ? ? U1| | | |]; subst. destruct (IH _ _ _ _ _ _ Ec O _ _ U1) as (n' & site' & b' & H1 & H2 & H3).
    exists n', site', b'. split; [lia|]. split; [destruct (is_ref u || is_tagged_ref u); tauto|exact H3].
  - destruct d as [mo' x' args]. inversion U; subst. destruct args; [|discriminate]. exists (S n), site, a. auto.
Qed.
Lemma uses_own md t : own md true t = true -> forall mo x, uses (outline t) mo x -> this_module md mo.
Proof.
  induction t as [| | | |alts IH|set cs ext IH|set n u IH|g kw u IH|d] using type_induct; cbn [own outline]; intros O mo x U; try solve [inversion U].
  - inversion U as [| | |? ? n0 t0 ? ? Hin U1| |]; subst. apply in_map_iff in Hin as ([y u] & Ein & Hin). cbn [fst snd] in Ein. injection Ein as <- <-. rewrite Forall_forall in IH. rewrite forallb_forall in O. eapply (IH _ Hin); [apply (O _ Hin)|exact U1].
  - rewrite Forall_forall in IH. rewrite forallb_forall in O. inversion U as [| | | |? ? n0 t0 o0 d0 st0 ? ? Hin U1|? ? n0 t0 o0 v0 st0 Hin Nb]; subst; [|left; reflexivity].
    apply in_map_iff in Hin as ([y u o d [co|]] & Ein & Hin); try discriminate Ein; injection Ein; intros; subst. specialize (O _ Hin). apply andb_prop in O as (O1 & O2). eapply (IH _ Hin); [exact O1|exact U1].
  - inversion U; subst. eauto.
  - inversion U; subst. eauto.
  - destruct d as [[m|] y args]; inversion U; subst; [right|left; reflexivity]. cbn in O. apply String.eqb_eq in O. congruence.
Qed.
Lemma own_no_set_default md t : forall inside, own md inside t = true -> ~ set_default (outline t).
Proof.
  induction t as [| | | |alts IH|set cs ext IH|set n u IH|g kw u IH|d] using type_induct; cbn [own outline]; intros inside O H; try solve [inversion H].
  - inversion H as [| | |? ? n0 t0 Hin U1|]; subst. apply in_map_iff in Hin as ([y u] & Ein & Hin). cbn [fst snd] in Ein. injection Ein as <- <-. rewrite Forall_forall in IH. rewrite forallb_forall in O. eapply (IH _ Hin); [apply (O _ Hin)|exact U1].
  - rewrite Forall_forall in IH. rewrite forallb_forall in O. inversion H as [? n0 t0 o0 v0 st0 Hin Nb| | | |? ? n0 t0 o0 d0 st0 Hin U1]; subst; apply in_map_iff in Hin as ([y u o d [co|]] & Ein & Hin); try discriminate Ein; injection Ein; intros; subst; specialize (O _ Hin); apply andb_prop in O as (O1 & O2).
    + destruct d as [[]|]; try discriminate. destruct u; try discriminate O2. apply Nb. reflexivity.
    + eapply (IH _ Hin); [exact O1|exact U1].
  - inversion H; subst. eapply IH; eauto.
  - inversion H; subst. eapply IH; eauto.
  - destruct d as [? ? ?]; inversion H.
Qed.

(** ** Trees that the last three passes accept *)
Definition closed (m : module) : module := Module (m_name m) (m_tagging m) [] (m_assigns m).
Definition resolves (tr : list module) (m : module) (mo : option string) (x : string) : Prop :=
  exists n site b, In site (final tr) /\ elab n (final tr) site (closed m) (TRef (Defined mo x [])) = Some b.
Record settled (tr : list module) : Prop := {
  se_modules : NoDup (map m_name tr);
  se_names : forall m, In m tr -> NoDup (map a_name (m_assigns m));
  se_assigns : forall m a, In m tr -> In a (m_assigns m) -> a_parameters a = [] /\
    match a_specific a with
    | AType t => simple_type t = true /\ own (m_name m) false t = true /\ resolves tr m None (a_name a)
    | AValue t v => own (m_name m) false t = true /\ (forall r, v <> VDefined r) /\ forall mo x, uses (outline t) mo x -> resolves tr m mo x
    | _ => False
    end }.
Lemma final_named tr x : module_named (final tr) x = option_map closed (module_named tr x).
Proof. unfold module_named, final. induction tr as [|m tr IH]; [reflexivity|]. cbn [map find m_name]. destruct (String.eqb (m_name m) x); [reflexivity|exact IH]. Qed.
Lemma closed_type m x : type_named (closed m) x = match assign_named (m_assigns m) x with Some (Assign _ (AType t) []) => Some t | _ => None end.
Proof. unfold type_named, with_imports, closed. cbn [m_assigns m_imports flat_map]. rewrite app_nil_r. reflexivity. Qed.
Lemma resolves_found tr m mo x : resolves tr m mo x -> exists m' t, module_named tr (ref_module (m_name m) mo) = Some m' /\ assign_named (m_assigns m') x = Some (Assign x (AType t) []).
Proof.
  intros ([|n] & site & b & _ & E); [discriminate|]. cbn [elab closed m_name] in E. rewrite final_named in E. unfold ref_module. destruct (module_named tr _) as [m'|]; [|discriminate]. cbn [option_map] in E. rewrite closed_type in E.
  destruct (assign_named (m_assigns m') x) as [[y [t| | |] [|]]|] eqn:Ea; try discriminate E. exists m', t. split; [reflexivity|]. rewrite Ea. apply (find_by a_name) in Ea as (Ey & _). cbn in Ey. subst y. reflexivity.
Qed.
Section settled.
Context (tr : list module) (S : settled tr).
Lemma settled_no_classes : no_classes tr.
Proof. intros m a Hm Ha. destruct (se_assigns _ S m a Hm Ha) as (_ & H). unfold is_class. destruct (a_specific a); try reflexivity. destruct H. Qed.
Lemma found_type m x t : In m tr -> In (Assign x (AType t) []) (m_assigns m) -> type_named (closed m) x = Some t.
Proof. intros Hm Ha. rewrite closed_type. pose proof (find_unique a_name _ _ (se_names _ S m Hm) Ha) as F. cbn [a_name] in F. unfold assign_named. rewrite F. reflexivity. Qed.
(** What a type uses resolves. *)
Lemma settled_uses m a t : In m tr -> In a (m_assigns m) -> (a_specific a = AType t \/ exists v, a_specific a = AValue t v) -> own (m_name m) false t = true /\ forall mo x, uses (outline t) mo x -> resolves tr m mo x.
Proof.
  intros Hm Ha Ht. destruct (se_assigns _ S m a Hm Ha) as (Hp & H). destruct Ht as [Et|(v & Et)]; rewrite Et in H; [|tauto].
  destruct H as (Hs & Ho & (n & site & b & H1 & H2)). split; [exact Ho|]. intros mo x U. destruct n as [|n]; [discriminate|]. cbn [elab closed m_name] in H2. rewrite final_named in H2.
  assert (Em : module_named tr (m_name m) = Some m) by (apply (find_unique m_name); [apply (se_modules _ S)|exact Hm]). rewrite Em in H2. cbn [option_map] in H2.
  destruct a as [y sp ps]. cbn [a_parameters a_name a_specific] in *. subst sp ps. rewrite (found_type _ _ _ Hm Ha) in H2. destruct (_ && _); [discriminate|]. destruct (elab n (final tr) _ (closed m) t) as [c|] eqn:Ec; [|discriminate].
  destruct (uses_elab (m_name m) _ _ _ _ _ _ _ Ec Ho _ _ U) as (n' & site' & b' & _ & Hsite & Hb). exists n', site', b'. split; [|exact Hb].
  assert (In (closed m) (final tr)) by (apply (in_map closed), Hm). destruct Hsite as [->| ->]; [|exact H]. destruct (_ || _); assumption.
Qed.
(** COMPONENTS OF: there is none. *)
Lemma expand_comps_same tr0 md name cs : forallb (fun c => negb (is_comp_of c)) cs = true -> expand_comps tr0 md name cs = Done cs.
Proof.
  induction cs as [|[x u o d co] cs IH]; intros H; [reflexivity|]. cbn [forallb] in H. apply andb_prop in H as (H1 & H2). destruct co; [discriminate H1|]. cbn [expand_comps included]. cbn [obind]. rewrite (IH H2). reflexivity.
Qed.
Lemma expand_assign_same tr0 md a : (forall t, a_specific a = AType t -> simple_type t = true) -> expand_assign tr0 md a = Done a.
Proof.
  intros H. unfold expand_assign. destruct a as [x [t| | |] ps]; cbn [a_specific a_name a_parameters] in *; try reflexivity. specialize (H t eq_refl). destruct t as [| | | | |[|] cs ext| | |]; try reflexivity.
  rewrite expand_comps_same; [reflexivity|]. cbn [simple_type] in H. rewrite forallb_forall in *. intros [y u o d co] Hc. specialize (H _ Hc). cbn in H. apply andb_prop in H as (_ & H). destruct co; [discriminate|reflexivity].
Qed.
Lemma with_assigns_same m : with_assigns m (m_assigns m) = m. Proof. destruct m. reflexivity. Qed.
Lemma components_accepted : Frontend.resolve_components_of tr = Done tr.
Proof.
  assert (H : forall m a t, In m tr -> In a (m_assigns m) -> a_specific a = AType t -> simple_type t = true) by (intros m a t Hm Ha Et; destruct (se_assigns _ S m a Hm Ha) as (_ & K); rewrite Et in K; apply K).
  unfold Frontend.resolve_components_of. assert (G : forall after before, (forall m, In m after -> In m tr) -> expand_tree before after = Done (rev before ++ after)); [|apply (G tr []); auto].
  induction after as [|m after IH]; intros before Hi; cbn [expand_tree]; [rewrite app_nil_r; reflexivity|].
  assert (K : forall todo done_, (forall a, In a todo -> In a (m_assigns m)) -> expand_module before m done_ todo after = Done (rev done_ ++ todo)).
  { induction todo as [|a todo IHt]; intros done_ Ht; cbn [expand_module]; [rewrite app_nil_r; reflexivity|]. rewrite expand_assign_same; [|intros t Et; apply (H m a t); auto; [apply Hi; left; reflexivity|apply Ht; left; reflexivity]].
    cbn [obind]. rewrite IHt; [cbn [rev]; rewrite <- app_assoc; reflexivity|]. intros b Hb. apply Ht. right. exact Hb. }
  rewrite K by auto. cbn [obind rev app]. rewrite with_assigns_same, IH; [cbn [rev]; rewrite <- app_assoc; reflexivity|]. intros x Hx. apply Hi. right. exact Hx.
Qed.
(** Object classes: there are none. *)
Lemma resolve_ok m mo r ps : resolves tr m mo r -> exists b, resolve tr (m_name m) (Defined mo r ps) = Done b /\ is_class b = false.
Proof. intros H. destruct (resolves_found _ _ _ _ H) as (m' & t & E1 & E2). exists (Assign r (AType t) []). cbn [resolve]. rewrite E1. cbn [olift obind]. rewrite E2. split; reflexivity. Qed.
Lemma scan_assign_accepted m a : In m tr -> In a (m_assigns m) -> scan_assign tr (m_name m) [] a = Done [].
Proof.
  intros Hm Ha. pose proof (se_assigns _ S m a Hm Ha) as (Hp & H). pose proof (fun t => settled_uses m a t Hm Ha) as U. unfold scan_assign. rewrite Hp. destruct a as [x [t|t v|fs|] ps]; cbn [a_specific a_parameters a_name existsb] in *; try contradiction.
  - destruct t; try reflexivity. destruct d as [mo r args]. destruct (U _ (or_introl eq_refl)) as (_ & K). destruct (resolve_ok m mo r args (K mo r ltac:(constructor))) as (b & E & C). rewrite E. cbn [obind]. rewrite C. reflexivity.
  - destruct t; try reflexivity. destruct d as [mo r args]. destruct (U _ (or_intror (ex_intro _ _ eq_refl))) as (_ & K). destruct (resolve_ok m mo r args (K mo r ltac:(constructor))) as (b & E & C). rewrite E. cbn [obind]. rewrite C. reflexivity.
Qed.
Lemma ofold_same {A T} (f : T -> A -> out T) s l : (forall x, In x l -> f s x = Done s) -> ofold f l s = Done s.
Proof. induction l as [|x l IH]; intros H; [reflexivity|]. cbn. rewrite (H x (or_introl eq_refl)). cbn [obind]. apply IH. intros y Hy. apply H. right. exact Hy. Qed.
Lemma classes_accepted : resolve_object_classes tr = Done tr.
Proof.
  unfold resolve_object_classes. assert (E : object_class_names tr = Done []).
  { unfold object_class_names. cbn [scan_loop]. unfold scan. rewrite ofold_same; [|intros m Hm; apply ofold_same; intros a Ha; apply scan_assign_accepted; assumption]. cbn [obind].
    replace (scan_imports tr []) with (@nil string); [reflexivity|]. symmetry. apply fold_same. intros m. apply fold_same. intros i. apply fold_same. reflexivity. }
  rewrite E. cbn [obind]. rewrite omap_same.
  - cbn [obind]. f_equal. unfold remove_object_classes. rewrite <- (map_id tr) at 2. apply map_ext_in. intros m Hm. rewrite filter_all.
    + destruct m as [nm tg im asg]. cbn [m_name m_tagging m_imports m_assigns]. f_equal. rewrite <- (map_id im) at 2. apply map_ext. intros [im1 ty1 va1]. cbn [i_module i_types i_values]. rewrite filter_all; reflexivity.
    + intros a Ha. rewrite removed_none; [reflexivity|]. apply (settled_no_classes m a Hm Ha).
  - apply Forall_forall. intros m Hm. rewrite omap_same; [cbn [obind]; rewrite with_assigns_same; reflexivity|]. apply Forall_forall. intros a Ha. unfold class_free. destruct (se_assigns _ S m a Hm Ha) as (_ & H).
    destruct a as [x [t|t v|fs|] ps]; cbn [a_specific a_name a_parameters] in *; try reflexivity. rewrite classes_simple by tauto. reflexivity.
Qed.
(** Order of the assignments.  A name has the number of steps its type needs to be worked out. *)
Fixpoint least (P : nat -> bool) (n : nat) : nat := match n with O => O | Datatypes.S n => if P O then O else Datatypes.S (least (fun k => P (Datatypes.S k)) n) end.
Lemma least_le P n k : P k = true -> (least P n <= k)%nat.
Proof. revert P k. induction n as [|n IH]; intros P k H; cbn; [lia|]. destruct (P O) eqn:E; [lia|]. destruct k as [|k]; [congruence|]. specialize (IH (fun k => P (Datatypes.S k)) k H). lia. Qed.
Lemma least_bound P n : (least P n <= n)%nat.
Proof. revert P. induction n as [|n IH]; intros P; cbn; [lia|]. destruct (P O); [lia|]. specialize (IH (fun k => P (Datatypes.S k))). lia. Qed.
Lemma least_holds P n k : P k = true -> (k <= n)%nat -> P (least P n) = true.
Proof. revert P k. induction n as [|n IH]; intros P k H L; cbn. { replace k with O in H by lia. exact H. } destruct (P O) eqn:E; [exact E|]. destruct k as [|k]; [congruence|]. apply (IH (fun k => P (Datatypes.S k)) k H). lia. Qed.
Definition works (m : module) (x : string) (n : nat) : bool := existsb (fun site => match elab n (final tr) site (closed m) (TRef (Defined None x [])) with Some _ => true | None => false end) (final tr).
Lemma works_iff m x n : works m x n = true <-> exists site b, In site (final tr) /\ elab n (final tr) site (closed m) (TRef (Defined None x [])) = Some b.
Proof.
  unfold works. rewrite existsb_exists. split.
  - intros (site & H1 & H2). destruct (elab _ _ _ _ _) as [b|] eqn:E; [|discriminate]. eauto.
  - intros (site & b & H1 & H2). exists site. rewrite H2. auto.
Qed.
Lemma own_ref m mo : this_module (m_name m) mo -> forall n site x, elab n (final tr) site (closed m) (TRef (Defined mo x [])) = elab n (final tr) site (closed m) (TRef (Defined None x [])).
Proof. intros [->| ->] [|n] site x; reflexivity. Qed.
Lemma works_uses m x t n mo y : In m tr -> In (Assign x (AType t) []) (m_assigns m) -> own (m_name m) false t = true -> works m x (Datatypes.S n) = true -> uses (outline t) mo y -> this_module (m_name m) mo ->
  exists n', (n' <= n)%nat /\ works m y n' = true.
Proof.
  intros Hm Ha Ho W U T. apply works_iff in W as (site & b & H1 & H2). cbn [elab closed m_name] in H2. rewrite final_named in H2.
  assert (Em : module_named tr (m_name m) = Some m) by (apply (find_unique m_name); [apply (se_modules _ S)|exact Hm]). rewrite Em in H2. cbn [option_map] in H2. rewrite (found_type _ _ _ Hm Ha) in H2.
  destruct (_ && _); [discriminate|]. destruct (elab n (final tr) _ (closed m) t) as [c|] eqn:Ec; [|discriminate].
  destruct (uses_elab (m_name m) _ _ _ _ _ _ _ Ec Ho _ _ U) as (n' & site' & b' & Hn & Hsite & Hb). exists n'. split; [exact Hn|]. apply works_iff. exists site', b'. rewrite (own_ref m mo T) in Hb. split; [|exact Hb].
  assert (In (closed m) (final tr)) by (apply (in_map closed), Hm). destruct Hsite as [->| ->]; [|exact H]. destruct (_ || _); assumption.
Qed.
Definition is_type (a : assignment) : bool := match a_specific a with AType _ => true | _ => false end.
Lemma works_bound m : In m tr -> exists n, forall a, In a (m_assigns m) -> is_type a = true -> exists k, (k <= n)%nat /\ works m (a_name a) k = true.
Proof.
  intros Hm. assert (H : forall l, (forall a, In a l -> In a (m_assigns m)) -> exists n, forall a, In a l -> is_type a = true -> exists k, (k <= n)%nat /\ works m (a_name a) k = true); [|apply H; auto].
  induction l as [|a l IH]; intros Hi; [exists O; intros a []|]. destruct IH as (n & Hn); [intros b Hb; apply Hi; right; exact Hb|].
  destruct (is_type a) eqn:Et.
  - destruct (se_assigns _ S m a Hm (Hi a (or_introl eq_refl))) as (_ & H). unfold is_type in Et. destruct (a_specific a); try discriminate Et. destruct H as (_ & _ & (k & site & b & H1 & H2)).
    exists (n + k)%nat. intros c [<-|Hc] Tc; [exists k; split; [lia|]; apply works_iff; eauto|]. destruct (Hn c Hc Tc) as (k' & L & W). exists k'. split; [lia|exact W].
  - exists n. intros c [<-|Hc] Tc; [congruence|auto].
Qed.
Definition rank (m : module) (n : nat) (x : string) : nat := match type_named (closed m) x with Some _ => least (works m x) n | None => Datatypes.S n end.
Lemma this_module_resolves m mo x : In m tr -> this_module (m_name m) mo -> resolves tr m mo x -> exists t, In (Assign x (AType t) []) (m_assigns m).
Proof.
  intros Hm T H. destruct (resolves_found _ _ _ _ H) as (m' & t & E1 & E2). assert (ref_module (m_name m) mo = m_name m) as Er by (destruct T as [->| ->]; reflexivity). rewrite Er in E1.
  assert (Em : module_named tr (m_name m) = Some m) by (apply (find_unique m_name); [apply (se_modules _ S)|exact Hm]). rewrite Em in E1. injection E1 as <-. exists t. apply (find_by a_name) in E2. apply E2.
Qed.
Lemma rank_less m n a t mo y : In m tr -> (forall a, In a (m_assigns m) -> is_type a = true -> exists k, (k <= n)%nat /\ works m (a_name a) k = true) -> In a (m_assigns m) -> (a_specific a = AType t \/ exists v, a_specific a = AValue t v) ->
  uses (outline t) mo y -> this_module (m_name m) mo -> (rank m n y < rank m n (a_name a))%nat.
Proof.
  intros Hm Hn Ha Ht U T. destruct (settled_uses m a t Hm Ha Ht) as (Ho & Hu). destruct (this_module_resolves m mo y Hm T (Hu mo y U)) as (ty & Hy). unfold rank at 1. rewrite (found_type _ _ _ Hm Hy). pose proof (least_bound (works m y) n) as B.
  destruct a as [x sp ps]. destruct (se_assigns _ S m _ Hm Ha) as (Hp & _). cbn [a_parameters a_name a_specific] in *. subst ps. destruct Ht as [->|(v & ->)].
  - unfold rank. rewrite (found_type _ _ _ Hm Ha). destruct (Hn _ Ha eq_refl) as (k & L & W). cbn [a_name] in W. pose proof (least_holds _ n k W L) as W1. destruct (least (works m x) n) as [|k1].
    + apply works_iff in W1 as (? & ? & _ & E). discriminate E.
    + destruct (works_uses m x t k1 mo y Hm Ha Ho W1 U T) as (k2 & L2 & W2). pose proof (least_le _ n k2 W2). lia.
  - unfold rank. rewrite closed_type. pose proof (find_unique a_name _ _ (se_names _ S m Hm) Ha) as F. cbn [a_name] in F. unfold assign_named. rewrite F. lia.
Qed.
Lemma assigns_accepted fuel tr0 m : In m tr -> In (m_name m) (map m_name tr0) -> (Datatypes.S (0 + Datatypes.S (List.length (all_deps (map outline_assign (m_assigns m)))) + List.length (map outline_assign (m_assigns m))) <= fuel)%nat -> exists l, reorder_assigns fuel tr0 m = Done (with_assigns m l).
Proof.
  intros Hm H0 Hf. assert (N : NoDup (map CompilerTree.a_name (map outline_assign (m_assigns m)))) by (rewrite map_map; apply (se_names _ S m Hm)).
  assert (Back : forall a', In a' (map outline_assign (m_assigns m)) -> exists a, In a (m_assigns m) /\ a' = outline_assign a) by (intros a' H; apply in_map_iff in H as (a & <- & H); eauto).
  assert (Typ : forall a t, a_spec (outline_assign a) = TypeA t -> exists u, a_specific a = AType u /\ t = outline u) by (intros a t H; unfold outline_assign in H; cbn in H; destruct (a_specific a); try discriminate H; injection H as <-; eauto).
  assert (Val : forall a t v, In a (m_assigns m) -> a_spec (outline_assign a) = ValueA t v -> v = None /\ exists u w, a_specific a = AValue u w /\ t = outline u).
  { intros a t v Ha H. destruct (se_assigns _ S m a Hm Ha) as (_ & K). unfold outline_assign in H. cbn in H. destruct (a_specific a); try discriminate H. injection H as <- <-. split; [|eauto]. destruct K as (_ & K & _). destruct v0; try reflexivity. destruct (K s eq_refl). }
  assert (Rec : forall u s cs, outline u = Record s cs -> exists cs0 ext, u = TRecord s cs0 ext) by (intros u s cs H; destruct u; try discriminate H; [injection H as <- _; eauto|destruct d; discriminate H]).
  destruct (works_bound m Hm) as (n & Hn).
  assert (Name : forall a t mo x, In a (m_assigns m) -> (a_specific a = AType t \/ exists v, a_specific a = AValue t v) -> uses (outline t) mo x -> this_module (m_name m) mo -> In x (map CompilerTree.a_name (map outline_assign (m_assigns m)))).
  { intros a t mo x Ha Ht U T. destruct (settled_uses m a t Hm Ha Ht) as (_ & K). destruct (this_module_resolves m mo x Hm T (K _ _ U)) as (u & Hu). rewrite map_map. apply in_map_iff. eexists. split; [|exact Hu]. reflexivity. }
  destruct (reorder_succeeds (map outline_module tr0) (m_name m) (map outline_assign (m_assigns m)) 0) with (fuel := fuel) as (o & Eo).
  - exact N.
  - intros a' Ha'. destruct (Back a' Ha') as (a & Ha & ->). split; [|split].
    + intros t mo x Ht U T. destruct Ht as [Ht|(v & Ht)]; [destruct (Typ _ _ Ht) as (u & Eu & ->); apply (Name a u mo x Ha (or_introl Eu) U T)|destruct (Val _ _ _ Ha Ht) as (_ & u & w & Eu & ->); apply (Name a u mo x Ha (or_intror (ex_intro _ _ Eu)) U T)].
    + intros t x Ht. destruct (Val _ _ _ Ha Ht) as (E & _). discriminate E.
    + intros s cs mo x Ht U. destruct (Typ _ _ Ht) as (u & Eu & E). symmetry in E. destruct (Rec _ _ _ E) as (cs0 & ext & ->). rewrite <- E in U. destruct (settled_uses m a _ Hm Ha (or_introl Eu)) as (Ho & _). eapply (uses_own (m_name m) (TRecord s cs0 ext)); [exact Ho|exact U].
  - exists (rank m n). intros a' x Ha' K. destruct (Back a' Ha') as (a & Ha & ->).
    assert (R : forall t mo, a_spec (outline_assign a) = TypeA t \/ (exists v, a_spec (outline_assign a) = ValueA t v) -> uses t mo x -> this_module (m_name m) mo -> (rank m n x < rank m n (CompilerTree.a_name (outline_assign a)))%nat).
    { intros t mo Ht U T. destruct Ht as [Ht|(v & Ht)]; [destruct (Typ _ _ Ht) as (u & Eu & ->); exact (rank_less m n a u mo x Hm Hn Ha (or_introl Eu) U T)|destruct (Val _ _ _ Ha Ht) as (_ & u & w & Eu & ->); exact (rank_less m n a u mo x Hm Hn Ha (or_intror (ex_intro _ _ Eu)) U T)]. }
    remember (outline_assign a) as oa eqn:Eoa. destruct K as [y t v mo x U T|y t x|y t mo x _ U T|y s cs cn t o d st mo x Hin _ U T|y s cs cn t o st x Hin Nb]; cbn [a_spec] in *.
    + eapply R; [right; eauto|exact U|exact T].
    + destruct (Val a t (Some x) Ha) as (E & _); [rewrite <- Eoa; reflexivity|discriminate E].
    + eapply R; [left; reflexivity|exact U|exact T].
    + eapply R; [left; reflexivity|eapply u_comp; [exact Hin|exact U]|exact T].
    + eapply R; [left; reflexivity|eapply u_default; [exact Hin|exact Nb]|left; reflexivity].
  - intros f a' s cs cn t o v st _ Ha' Ht Hin. destruct (Back a' Ha') as (a & Ha & ->). destruct (Typ _ _ Ht) as (u & Eu & E). symmetry in E. destruct (Rec _ _ _ E) as (cs0 & ext & ->). destruct (settled_uses m a _ Hm Ha (or_introl Eu)) as (Ho & _).
    cbn [own] in Ho. rewrite forallb_forall in Ho. cbn [outline] in E. injection E as <-. apply in_map_iff in Hin as ([y u o0 d [co|]] & Ein & Hin); try discriminate Ein. injection Ein as <- <- <- Ed <-. specialize (Ho _ Hin). apply andb_prop in Ho as (_ & Hl).
    destruct d as [[]|]; try discriminate Ed. destruct u; try discriminate Hl. exists true. split; [|reflexivity]. cbn [outline]. unfold is_enumerated. cbn [resolve_type].
    apply in_map_iff in H0 as (m0 & En & Hm0). assert (Z : exists md, find_module (map outline_module tr0) (m_name m) = Done md).
    { clear -En Hm0. induction tr0 as [|m1 tr0 IH]; [destruct Hm0|]. cbn [map find_module]. destruct (String.eqb _ _) eqn:Eq; [eauto|]. destruct Hm0 as [->|Hm0]; [|auto]. cbn in Eq. rewrite En, String.eqb_refl in Eq. discriminate. }
    destruct Z as (md & ->). reflexivity.
  - intros a' t Ha' Ht. destruct (Back a' Ha') as (a & Ha & ->). destruct (Typ _ _ Ht) as (u & Eu & ->). destruct (settled_uses m a u Hm Ha (or_introl Eu)) as (Ho & _). eapply own_no_set_default, Ho.
  - intros a' t v Ha' Ht. destruct (Back a' Ha') as (a & Ha & ->). destruct (Val _ _ _ Ha Ht) as (_ & u & w & Eu & ->). destruct (settled_uses m a u Hm Ha (or_intror (ex_intro _ _ Eu))) as (Ho & _). eapply own_no_set_default, Ho.
  - exact Hf.
  - unfold reorder_assigns. rewrite Eo. cbn [obind]. apply reorder_names in Eo; [|exact N]. rewrite map_map in Eo.
    assert (L : exists l, omap (fun a => olift (assign_named (rev (m_assigns m)) (CompilerTree.a_name a))) o = Done l); [|destruct L as (l & ->); exists l; reflexivity].
    assert (I : forall b, In b o -> exists a, In a (m_assigns m) /\ a_name a = CompilerTree.a_name b).
    { intros b Hb. apply (in_map CompilerTree.a_name) in Hb. apply (Permutation_in _ (Permutation_sym Eo)) in Hb. apply in_map_iff in Hb as (a & E & Ha). exists a. auto. }
    clear Eo. induction o as [|b o IH]; [exists []; reflexivity|]. cbn [omap]. destruct (I b (or_introl eq_refl)) as (a & Ha & En). rewrite <- En. unfold assign_named. rewrite (find_unique a_name (rev (m_assigns m)) a); [|rewrite map_rev; apply NoDup_rev, (se_names _ S m Hm)|apply -> in_rev; exact Ha].
    destruct IH as (l & El); [intros c Hc; apply I; right; exact Hc|]. unfold assign_named in El. cbn [olift obind]. change (omap _ o) with (omap (fun a => olift (find (fun a0 => String.eqb (a_name a0) (CompilerTree.a_name a)) (rev (m_assigns m)))) o). rewrite El. eexists. reflexivity.
Qed.
Definition enough (m : module) : nat := Datatypes.S (0 + Datatypes.S (List.length (all_deps (map outline_assign (m_assigns m)))) + List.length (map outline_assign (m_assigns m))).
Lemma order_accepted : exists low, forall fuel, (low <= fuel)%nat -> exists tr', reorder_tree fuel [] tr = Done tr'.
Proof.
  exists (list_max (map enough tr)). intros fuel Hf. assert (H : forall m, In m tr -> (enough m <= fuel)%nat).
  { intros m Hm. pose proof (proj1 (list_max_le (map enough tr) _) (le_n _)) as K. rewrite Forall_forall in K. specialize (K _ (in_map enough _ _ Hm)). lia. }
  clear Hf. assert (G : forall after before, (forall m, In m after -> In m tr) -> exists tr', reorder_tree fuel before after = Done tr'); [|apply G; auto].
  induction after as [|m after IH]; intros before Hi; cbn [reorder_tree]; [eauto|]. destruct (assigns_accepted fuel (rev before ++ m :: after) m) as (l & ->); [apply Hi; left; reflexivity|rewrite map_app; apply in_or_app; right; left; reflexivity|apply H, Hi; left; reflexivity|].
  cbn [obind]. apply IH. intros x Hx. apply Hi. right. exact Hx.
Qed.
End settled.

(** ** Nested structures *)
Definition sum (l : list nat) : nat := fold_right Nat.add 0%nat l.
Fixpoint structs (t : type) : nat :=
  match t with
  | TEnumerated _ _ => 1%nat
  | TRecord _ cs _ => S (sum (map (fun c => match c with Comp _ u _ _ _ => structs u end) cs))
  | ParserTree.TChoice alts => S (sum (map (fun e => structs (snd e)) alts))
  | TListOf _ _ u | TTagged _ _ u => structs u
  | _ => 0%nat
  end.
Definition structs_of (a : assignment) : nat := match a_specific a with AType t => structs t | _ => 0%nat end.
Definition head (t : type) : Z := match Frontend.unnamed_prefix t with Some _ => 1 | None => 0 end.
Lemma nmap_count {A} (f : A -> nest_state -> A * nest_state) (w : A -> nat) l :
  Forall (fun x => forall s x' s', f x s = (x', s') -> (fst s' <= fst s + Z.of_nat (w x))%Z) l -> forall s l' s', nmap f l s = (l', s') -> (fst s' <= fst s + Z.of_nat (sum (map w l)))%Z.
Proof.
  induction 1 as [|x l H _ IH]; intros s l' s' E; [injection E as <- <-; cbn; lia|]. rewrite nmap_cons in E. destruct (f x s) as [x1 s1] eqn:E1. destruct (nmap f l s1) as [l1 s2] eqn:E2. injection E as <- <-.
  specialize (H _ _ _ E1). specialize (IH _ _ _ E2). cbn [map sum fold_right]. fold (sum (map w l)). lia.
Qed.
Lemma find_nested_count md t : forall s t' s', Frontend.find_nested md t s = (t', s') -> (fst s' + head t <= fst s + Z.of_nat (structs t))%Z.
Proof.
  induction t as [| | | |alts IH|set cs ext IH|set n u IH|g kw u IH|] using type_induct; intros s t' s' E; cbn [Frontend.find_nested] in E; try (injection E as <- <-; cbn; lia).
  - match type of E with context [nmap ?f alts s] => destruct (nmap f alts s) as [l1 s1] eqn:E1 end. injection E as <- <-. apply (nmap_count _ (fun e => structs (snd e))) in E1; [cbn [head structs Frontend.unnamed_prefix]; unfold head; cbn [Frontend.unnamed_prefix]; lia|].
    eapply Forall_impl; [|exact IH]. intros [x u] H s0 x' s2 K. cbn [fst snd] in *. destruct (Frontend.find_nested md u s0) eqn:K1. injection K as <- <-. specialize (H _ _ _ K1). unfold head in H. destruct (Frontend.unnamed_prefix u); lia.
  - match type of E with context [nmap ?f cs s] => destruct (nmap f cs s) as [l1 s1] eqn:E1 end. injection E as <- <-. apply (nmap_count _ (fun c => match c with Comp _ u _ _ _ => structs u end)) in E1; [unfold head; cbn [structs Frontend.unnamed_prefix]; destruct set; lia|].
    eapply Forall_impl; [|exact IH]. intros [x u o d co] H s0 x' s2 K. cbn [fst snd] in *. destruct (Frontend.find_nested md u s0) eqn:K1. injection K as <- <-. specialize (H _ _ _ K1). unfold head in H. destruct (Frontend.unnamed_prefix u); lia.
  - destruct (Frontend.find_nested md u s) as [u1 s1] eqn:E1. destruct (Frontend.hoist md u1 s1) as [u2 s2] eqn:E2. injection E as <- <-. specialize (IH _ _ _ E1). destruct (find_nested_head _ _ _ _ _ E1) as (H & _). unfold Frontend.hoist in E2. unfold head in *. cbn [Frontend.unnamed_prefix structs]. rewrite H in E2. destruct (Frontend.unnamed_prefix u); injection E2 as <- <-; cbn [fst]; lia.
  - destruct (Frontend.find_nested md u s) as [u1 s1] eqn:E1. destruct (Frontend.hoist md u1 s1) as [u2 s2] eqn:E2. injection E as <- <-. specialize (IH _ _ _ E1). destruct (find_nested_head _ _ _ _ _ E1) as (H & _). unfold Frontend.hoist in E2. unfold head in *. cbn [Frontend.unnamed_prefix structs]. rewrite H in E2. destruct (Frontend.unnamed_prefix u); injection E2 as <- <-; cbn [fst]; lia.
Qed.
Lemma split_nested_count md l : forall n l' n', Frontend.split_nested md l n = (l', n') -> (n' <= n + Z.of_nat (sum (map structs_of l)))%Z.
Proof.
  induction l as [|a l IH]; intros n l' n' E; cbn [Frontend.split_nested] in E; [injection E as <- <-; cbn; lia|]. cbn [map sum fold_right]. fold (sum (map structs_of l)). unfold structs_of at 1. destruct (a_specific a) as [t| | |].
  - destruct (Frontend.find_nested md t (n, [])) as [t' [n1 ne]] eqn:F. destruct (Frontend.split_nested md l n1) as [l1 n2] eqn:E1. injection E as <- <-. specialize (IH _ _ _ E1). apply find_nested_count in F. cbn [fst] in F. unfold head in F. destruct (Frontend.unnamed_prefix t); lia.
  - destruct (Frontend.split_nested md l n) as [l1 n2] eqn:E1. injection E as <- <-. specialize (IH _ _ _ E1). lia.
  - destruct (Frontend.split_nested md l n) as [l1 n2] eqn:E1. injection E as <- <-. specialize (IH _ _ _ E1). lia.
  - destruct (Frontend.split_nested md l n) as [l1 n2] eqn:E1. injection E as <- <-. specialize (IH _ _ _ E1). lia.
Qed.
(** Names used *)
Definition owned (md : string) (s : nest_state) : Prop := Forall (fun p => own md false (snd p) = true) (snd s).
Lemma own_any md i t : own md i t = true -> own md false t = true. Proof. destruct i; [apply own_weaken|auto]. Qed.
Lemma nmap_owned {A} md (f : A -> nest_state -> A * nest_state) (P : A -> bool) l :
  Forall (fun x => forall s x' s', f x s = (x', s') -> owned md s -> P x = true -> owned md s' /\ P x' = true) l -> forall s l' s', nmap f l s = (l', s') -> owned md s -> forallb P l = true -> owned md s' /\ forallb P l' = true.
Proof.
  induction 1 as [|x l H _ IH]; intros s l' s' E O F; [injection E as <- <-; auto|]. rewrite nmap_cons in E. destruct (f x s) as [x1 s1] eqn:E1. destruct (nmap f l s1) as [l1 s2] eqn:E2. injection E as <- <-.
  cbn [forallb] in *. apply andb_prop in F as (F1 & F2). destruct (H _ _ _ E1 O F1) as (O1 & ->). exact (IH _ _ _ E2 O1 F2).
Qed.
Lemma hoist_owned md i u s u' s' : Frontend.hoist md u s = (u', s') -> owned md s -> own md i u = true -> owned md s' /\ own md i u' = true.
Proof.
  unfold Frontend.hoist. destruct (Frontend.unnamed_prefix u); intros [= <- <-] O H; [|auto]. split; [|cbn; rewrite String.eqb_refl, orb_true_r; reflexivity]. apply Forall_app. split; [exact O|]. constructor; [|constructor]. cbn [snd]. eapply own_any, H.
Qed.
Lemma find_nested_owned md t : forall i s t' s', Frontend.find_nested md t s = (t', s') -> owned md s -> own md i t = true -> owned md s' /\ own md i t' = true.
Proof.
  induction t as [| | | |alts IH|set cs ext IH|set n u IH|g kw u IH|] using type_induct; intros i s t' s' E O H; cbn [Frontend.find_nested] in E; try (injection E as <- <-; auto).
  - match type of E with context [nmap ?f alts s] => destruct (nmap f alts s) as [l1 s1] eqn:E1 end. injection E as <- <-. cbn [own] in *. eapply (nmap_owned md _ (fun e => own md i (snd e))); [|exact E1|exact O|exact H].
    eapply Forall_impl; [|exact IH]. intros [x u] H0 s0 x' s2 K O0. cbn [fst snd] in *. destruct (Frontend.find_nested md u s0) eqn:K1. injection K as <- <-. eapply H0; eassumption.
  - match type of E with context [nmap ?f cs s] => destruct (nmap f cs s) as [l1 s1] eqn:E1 end. injection E as <- <-. cbn [own] in *. eapply (nmap_owned md _ (fun c => match c with Comp _ u _ d _ => own md true u && literal u d end)); [|exact E1|exact O|exact H].
    eapply Forall_impl; [|exact IH]. intros [x u o d co] H0 s0 x' s2 K O0 P. cbn [fst snd] in *. destruct (Frontend.find_nested md u s0) eqn:K1. injection K as <- <-. apply andb_prop in P as (P1 & P2). destruct (H0 _ _ _ _ K1 O0 P1) as (O1 & ->).
    split; [exact O1|]. cbn [andb]. destruct d as [[]|]; try (destruct t; reflexivity). destruct u; try discriminate P2. cbn in K1. injection K1 as <- <-. reflexivity.
  - destruct (Frontend.find_nested md u s) as [u1 s1] eqn:E1. destruct (Frontend.hoist md u1 s1) as [u2 s2] eqn:E2. injection E as <- <-. destruct (IH _ _ _ _ E1 O H) as (O1 & H1). exact (hoist_owned _ _ _ _ _ _ E2 O1 H1).
  - destruct (Frontend.find_nested md u s) as [u1 s1] eqn:E1. destruct (Frontend.hoist md u1 s1) as [u2 s2] eqn:E2. injection E as <- <-. destruct (IH _ _ _ _ E1 O H) as (O1 & H1). exact (hoist_owned _ _ _ _ _ _ E2 O1 H1).
Qed.
(** What has been taken out is used where it was, so it means something if the whole type does. *)
Lemma nmap_back {A} (f : A -> nest_state -> A * nest_state) (Q : string * type -> Prop) (P : A -> Prop) l m' :
  (forall x, In x l -> forall s x' s', f x s = (x', s') -> incl (snd s) (snd s')) ->
  Forall (fun x => forall s x' s', f x s = (x', s') -> known m' s' -> P x' -> forall p, In p (snd s') -> In p (snd s) \/ Q p) l ->
  forall s l' s', nmap f l s = (l', s') -> known m' s' -> Forall P l' -> forall p, In p (snd s') -> In p (snd s) \/ Q p.
Proof.
  intros Hi F. induction F as [|x l H F IH]; intros s l' s' E K Pl p Hp; [injection E as <- <-; auto|]. rewrite nmap_cons in E. destruct (f x s) as [x1 s1] eqn:E1. destruct (nmap f l s1) as [l1 s2] eqn:E2. injection E as <- <-.
  inversion Pl as [|? ? P1 P2]; subst. destruct (IH ltac:(intros y Hy; apply Hi; right; exact Hy) _ _ _ E2 K P2 p Hp) as [Hp1|]; [|auto]. refine (H _ _ _ E1 _ P1 p Hp1). eapply known_incl; [exact K|].
  eapply nmap_incl; [|exact E2]. apply Forall_forall. intros y Hy. apply Hi. right. exact Hy.
Qed.
Lemma traverse_all {A B} (f : A -> option B) l r : traverse f l = Some r -> Forall (fun x => exists y, f x = Some y) l.
Proof. intros E. apply Forall_forall. intros x Hx. eapply traverse_in; eauto. Qed.
Definition named_ok (tr' : list module) (m' : module) (x : string) : Prop := exists n b, elab n tr' m' m' (TRef (Defined None x [])) = Some b.
Lemma hoisted_resolve tr' m' t : module_named tr' (m_name m') = Some m' -> forall s t' s', Frontend.find_nested (m_name m') t s = (t', s') -> known m' s' -> (exists n site a, elab n tr' site m' t' = Some a) ->
  forall p, In p (snd s') -> In p (snd s) \/ named_ok tr' m' (fst p).
Proof.
  intros Hm.
  assert (Hoist : forall u s u1 s1 u2 s2, (forall s t' s', Frontend.find_nested (m_name m') u s = (t', s') -> known m' s' -> (exists n site a, elab n tr' site m' t' = Some a) -> forall p, In p (snd s') -> In p (snd s) \/ named_ok tr' m' (fst p)) ->
    Frontend.find_nested (m_name m') u s = (u1, s1) -> Frontend.hoist (m_name m') u1 s1 = (u2, s2) -> known m' s2 -> (exists n site a, elab n tr' site m' u2 = Some a) -> forall p, In p (snd s2) -> In p (snd s) \/ named_ok tr' m' (fst p)).
  { intros u s u1 s1 u2 s2 IH F H K (n & site & a & E) p Hp. unfold Frontend.hoist in H. destruct (Frontend.unnamed_prefix u1) as [px|] eqn:Eu; injection H as <- <-; [|eapply IH; eauto].
    assert (K1 : known m' s1) by (eapply known_incl; [exact K|]; cbn; apply incl_appl, incl_refl).
    pose proof (K ((px ++ to_string (fst s1))%string, u1) ltac:(apply in_or_app; right; left; reflexivity)) as KN. cbn [fst snd] in KN. destruct n as [|n]; [discriminate|]. cbn [elab] in E. rewrite Hm, KN in E.
    assert (Z : bare_tagged_ref u1 = false /\ is_ref u1 || is_tagged_ref u1 = false) by (destruct u1; try discriminate Eu; auto). destruct Z as (Z1 & Z2). rewrite Z1, Z2 in E. cbn [andb] in E. destruct (elab n tr' m' m' u1) as [b|] eqn:Eb; [|discriminate].
    cbn [snd] in Hp. apply in_app_or in Hp as [Hp|[<-|[]]].
    - refine (IH _ _ _ F K1 _ p Hp). eauto.
    - right. exists (S n). cbn [fst]. cbn [elab]. rewrite Hm, KN, Z1, Z2. cbn [andb]. rewrite Eb. eexists. reflexivity. }
  induction t as [| | | |alts IH|set cs ext IH|set n u IH|g kw u IH|] using type_induct; intros s t' s' E K (n0 & site & a & El); cbn [Frontend.find_nested] in E; try (injection E as <- <-; auto).
  - match type of E with context [nmap ?f alts s] => destruct (nmap f alts s) as [l1 s1] eqn:E1 end. injection E as <- <-. destruct n0 as [|n0]; [discriminate|]. cbn [elab] in El. destruct (traverse _ l1) as [r|] eqn:T in El; [|discriminate]. apply traverse_all in T.
    refine (nmap_back _ (fun p => named_ok tr' m' (fst p)) (fun e => exists n site a, elab n tr' site m' (snd e) = Some a) alts m' _ _ _ _ _ E1 K _).
    + intros e _ t0 x' t1 Q. cbn beta in Q. destruct (Frontend.find_nested (m_name m') (snd e) t0) eqn:Q1. injection Q as <- <-. eapply find_nested_incl, Q1.
    + eapply Forall_impl; [|exact IH]. intros [x u] H s0 x' s2 Q. cbn [fst snd] in *. destruct (Frontend.find_nested (m_name m') u s0) eqn:K1. injection Q as <- <-. exact (H _ _ _ K1).
    + eapply Forall_impl; [|exact T]. intros e (y & Ey). cbn beta in Ey. destruct (elab n0 tr' m' m' (snd e)) eqn:Ee; [eauto|discriminate].
  - match type of E with context [nmap ?f cs s] => destruct (nmap f cs s) as [l1 s1] eqn:E1 end. injection E as <- <-. destruct n0 as [|n0]; [discriminate|]. cbn [elab] in El. destruct (traverse _ l1) as [r|] eqn:T in El; [|discriminate]. apply traverse_all in T.
    refine (nmap_back _ (fun p => named_ok tr' m' (fst p)) (fun c => match c with Comp _ u _ _ _ => exists n site a, elab n tr' site m' u = Some a end) cs m' _ _ _ _ _ E1 K _).
    + intros [x u o d co] _ t0 x' t1 Q. cbn beta iota in Q. destruct (Frontend.find_nested (m_name m') u t0) eqn:Q1. injection Q as <- <-. eapply find_nested_incl, Q1.
    + eapply Forall_impl; [|exact IH]. intros [x u o d co] H s0 x' s2 Q. cbn beta iota in *. destruct (Frontend.find_nested (m_name m') u s0) eqn:K1. injection Q as <- <-. exact (H _ _ _ K1).
    + eapply Forall_impl; [|exact T]. intros [x u o d co] (y & Ey). cbn beta iota in Ey. destruct co; [discriminate|]. destruct (elab n0 tr' m' m' u) eqn:Ee; [eauto|discriminate].
  - destruct (Frontend.find_nested (m_name m') u s) as [u1 s1] eqn:E1. destruct (Frontend.hoist (m_name m') u1 s1) as [u2 s2] eqn:E2. injection E as <- <-. destruct n0 as [|n0]; [discriminate|]. cbn [elab] in El. destruct (elab n0 tr' m' m' u2) eqn:Ee; [|discriminate]. eapply Hoist; eauto.
  - destruct (Frontend.find_nested (m_name m') u s) as [u1 s1] eqn:E1. destruct (Frontend.hoist (m_name m') u1 s1) as [u2 s2] eqn:E2. injection E as <- <-. destruct n0 as [|n0]; [discriminate|]. cbn [elab] in El. destruct g as [c k]. destruct (elab n0 tr' _ m' u2) eqn:Ee; [|discriminate]. eapply Hoist; eauto.
Qed.
(** Where the assignments come from. *)
Lemma split_nested_back md l : forall n l' n', Frontend.split_nested md l n = (l', n') -> forall a, In a l' ->
  (In a l /\ forall t, a_specific a <> AType t) \/
  exists a0 t n0 t' s', In a0 l /\ a_specific a0 = AType t /\ Frontend.find_nested md t (n0, []) = (t', s') /\ (forall p, In p (snd s') -> In (type_assign p) l') /\
    (a = Assign (a_name a0) (AType t') (a_parameters a0) \/ exists p, In p (snd s') /\ a = type_assign p).
Proof.
  induction l as [|b l IH]; intros n l' n' E a Ha; cbn [Frontend.split_nested] in E; [injection E as <- <-; destruct Ha|].
  assert (Weak : forall n1 l1 n2, Frontend.split_nested md l n1 = (l1, n2) -> incl l1 l' -> In a l1 -> (In a (b :: l) /\ forall t, a_specific a <> AType t) \/
    exists a0 t n0 t' s', In a0 (b :: l) /\ a_specific a0 = AType t /\ Frontend.find_nested md t (n0, []) = (t', s') /\ (forall p, In p (snd s') -> In (type_assign p) l') /\ (a = Assign (a_name a0) (AType t') (a_parameters a0) \/ exists p, In p (snd s') /\ a = type_assign p)).
  { intros n1 l1 n2 E1 I Ha1. destruct (IH _ _ _ E1 a Ha1) as [(H1 & H2)|(a0 & t & n0 & t' & s' & H1 & H2 & H3 & H4 & H5)]; [left; split; [right; exact H1|exact H2]|]. right. exists a0, t, n0, t', s'. split; [right; exact H1|]. split; [exact H2|]. split; [exact H3|]. split; [|exact H5].
    intros p Hp. apply I, H4, Hp. }
  assert (Other : (forall t, a_specific b <> AType t) -> (let (l1, n1) := Frontend.split_nested md l n in (b :: l1, n1)) = (l', n') -> (In a (b :: l) /\ forall t, a_specific a <> AType t) \/
    exists a0 t n0 t' s', In a0 (b :: l) /\ a_specific a0 = AType t /\ Frontend.find_nested md t (n0, []) = (t', s') /\ (forall p, In p (snd s') -> In (type_assign p) l') /\ (a = Assign (a_name a0) (AType t') (a_parameters a0) \/ exists p, In p (snd s') /\ a = type_assign p)).
  { clear E. intros Hb E. destruct (Frontend.split_nested md l n) as [l1 n1] eqn:E1. injection E as <- <-. destruct Ha as [<-|Ha]; [left; split; [left; reflexivity|exact Hb]|]. eapply Weak; [exact E1|apply incl_tl, incl_refl|exact Ha]. }
  destruct (a_specific b) as [t| | |] eqn:Eb; [|apply Other; [discriminate|exact E]..]. clear Other.
  destruct (Frontend.find_nested md t (n, [])) as [t' [n1 ne]] eqn:F. destruct (Frontend.split_nested md l n1) as [l1 n2] eqn:E1. injection E as <- <-.
  assert (New : forall p, In p ne -> In (type_assign p) (map type_assign (rev ne) ++ Assign (a_name b) (AType t') (a_parameters b) :: l1)) by (intros p Hp; apply in_or_app; left; apply in_map; apply -> in_rev; exact Hp).
  apply in_app_or in Ha as [Ha|[<-|Ha]].
  - apply in_map_iff in Ha as (p & <- & Hp). apply in_rev in Hp. right. exists b, t, n, t', (n1, ne). split; [left; reflexivity|]. split; [exact Eb|]. split; [exact F|]. split; [exact New|]. right. exists p. split; [exact Hp|reflexivity].
  - right. exists b, t, n, t', (n1, ne). split; [left; reflexivity|]. split; [exact Eb|]. split; [exact F|]. split; [exact New|]. left. reflexivity.
  - eapply Weak; [exact E1| |exact Ha]. apply incl_appr, incl_tl, incl_refl.
Qed.

(** ** Trees that split_modules makes such *)
Definition size (m : module) : nat := sum (map structs_of (with_imports m)).
Definition good (tr : list module) (m : module) (a : assignment) : Prop :=
  a_parameters a = [] /\
  match a_specific a with
  | AType t => own (m_name m) false t = true /\ exists n b, elab n tr m m t = Some b
  | AValue t v => own (m_name m) false t = true /\ (forall r, v <> VDefined r) /\ exists n b, elab n tr m m t = Some b
  | _ => False
  end.
Record ready (tr : list module) : Prop := {
  re_clean : clean tr;
  re_assigns : forall m a, In m tr -> In a (with_imports m) -> good tr m a;
  re_size : (Z.of_nat (sum (map size tr)) < 2^31)%Z }.
Lemma split_modules_done tr : forall n, (forall m, In m tr -> distinct_names m) -> (n + Z.of_nat (sum (map size tr)) < 2^31)%Z -> exists tr', split_modules tr n = Done tr'.
Proof.
  induction tr as [|m tr IH]; intros n D H; cbn [split_modules]; [eauto|]. rewrite C57_duplicates. rewrite map_map. change (map (fun x => CompilerTree.a_name (outline_assign x)) (with_imports m)) with (map a_name (with_imports m)).
  destruct (ListDec.NoDup_dec string_dec (map a_name (with_imports m))) as [N|N]; [|destruct (N (D m (or_introl eq_refl)))]. cbn [obind]. destruct (Frontend.split_nested (m_name m) (with_imports m) n) as [l' n'] eqn:E. apply split_nested_count in E.
  cbn [map sum fold_right] in H. fold (sum (map size tr)) in H. unfold size at 1 in H. destruct (Z.leb_spec (2^31) n'); [lia|]. destruct (IH n') as (tr' & ->); [intros x Hx; apply D; right; exact Hx|lia|]. eexists. reflexivity.
Qed.
Theorem ready_settled tr : ready tr -> exists tr', split_modules tr 0 = Done tr' /\ settled tr'.
Proof.
  intros [(C1 & C2 & C3) G Z]. destruct (split_modules_done tr 0) as (tr3 & E3); [intros m Hm; apply C2, Hm|lia|]. exists tr3. split; [exact E3|]. apply split_modules_facts in E3; [|lia]. apply Forall2_with_in in E3.
  assert (N3 : map m_name tr3 = map m_name tr) by (clear -E3; induction E3 as [|m m' l l' (_ & n & n' & q & _ & _ & _ & ->) F IH]; [reflexivity|]; cbn; congruence).
  assert (Mi : forall m n n' l', In m tr -> (0 <= n)%Z -> (n' < 2^31)%Z -> Frontend.split_nested (m_name m) (with_imports m) n = (l', n') -> mirrored m (closed (with_assigns m l'))).
  { intros m n n' l' Hm H0 H1 E. destruct (C2 m Hm) as (D & M). unfold closed. cbn [m_name m_tagging m_assigns with_assigns]. eapply perm_mirrored; [exact D|exact M|exact H0|exact H1|exact E| |apply Permutation_refl]. clear. induction l' as [|a l IH]; constructor; [apply kept_refl|exact IH]. }
  assert (Hmirror : forall x m, module_named tr x = Some m -> exists m', module_named (final tr3) x = Some m' /\ mirrored m m').
  { intros x m Hx. assert (F : Forall2 (fun m m' => m_name m' = m_name m /\ mirrored m m') tr (final tr3)).
    { unfold final. apply Forall2_map_r. eapply Forall2_impl2; [|exact E3]. intros m0 m' (Hm & n & n' & l' & H0 & H1 & E & ->). split; [reflexivity|]. exact (Mi m0 n n' l' Hm H0 H1 E). }
    exact (find_related m_name mirrored _ _ _ _ F Hx). }
  constructor.
  - rewrite N3. exact C1.
  - intros m3 Hm3. destruct (Forall2_in_r _ _ _ _ E3 Hm3) as (m & Hm & _ & n & n' & l' & H0 & H1 & E & ->). destruct (C2 m Hm) as (D & M). eapply split_names; eassumption.
  - intros m3 a Hm3 Ha. destruct (Forall2_in_r _ _ _ _ E3 Hm3) as (m & Hm & _ & n & n' & l' & H0 & H1 & E & E4). subst m3. cbn [m_assigns with_assigns m_name] in *. set (m3 := with_assigns m l') in *. set (m' := closed m3).
    pose proof (Mi m n n' l' Hm H0 H1 E) as Mm. fold m3 in Mm. fold m' in Mm.
    assert (Em : module_named tr (m_name m) = Some m) by (apply (find_unique m_name); assumption).
    assert (Em' : module_named (final tr3) (m_name m) = Some m').
    { rewrite final_named. assert (module_named tr3 (m_name m) = Some m3) as ->; [|reflexivity]. apply (find_unique m_name tr3 m3); [rewrite N3; exact C1|exact Hm3]. }
    assert (Hin' : In m' (final tr3)) by (apply (in_map closed), Hm3).
    assert (Names : NoDup (map a_name l')) by (destruct (C2 m Hm) as (D & M); eapply split_names; eassumption).
    assert (Refs : forall n0 mo x b, elab n0 tr m m (TRef (Defined mo x [])) = Some b -> resolves tr3 m3 mo x).
    { intros n0 mo x b Eb. exists (2 * n0)%nat, m', (nested (mode_of (m_tagging m)) b). split; [exact Hin'|]. fold m'. eapply (nest_elab tr (final tr3) Hmirror n0 m m _ b (0%Z, [])); [exact Eb|exact Em'|reflexivity|reflexivity|reflexivity|intros p []|reflexivity]. }
    destruct (split_nested_back _ _ _ _ _ E a Ha) as [(Hl & Hnt)|(a0 & t & n0 & t' & s' & Ha0 & Et & F & Hnew & Hcase)].
    + pose proof (G m a Hm Hl) as (Hp & Hg). split; [exact Hp|]. destruct (a_specific a) as [t|t v|fs|]; try contradiction; [destruct (Hnt t eq_refl)|]. destruct Hg as (Ho & Hv & n0 & b & Eb). split; [exact Ho|]. split; [exact Hv|].
      intros mo x U. destruct (uses_elab _ _ _ _ _ _ _ _ Eb Ho _ _ U) as (n1 & site' & b' & _ & Hs & Eb'). assert (site' = m) by tauto. subst site'. eapply Refs, Eb'.
    + pose proof (G m a0 Hm Ha0) as (Hp & Hg). rewrite Et in Hg. destruct Hg as (Ho & k & b & Eb). pose proof (elab_simple _ _ _ _ _ _ Eb) as Sim.
      destruct (find_nested_nests _ _ _ _ _ F) as (new & (X1 & _) & X2). cbn [snd app] in X1. destruct (X2 Sim) as (Sim' & Simn). rewrite <- X1 in Simn. clear X1 X2 new.
      destruct (find_nested_owned _ _ false _ _ _ F ltac:(constructor) Ho) as (Own & Ho').
      assert (K : known m' s').
      { intros p Hpn. specialize (Hnew p Hpn). unfold m'. rewrite closed_type. unfold assign_named. cbn [m_assigns m3 with_assigns]. pose proof (find_unique a_name l' (type_assign p) Names Hnew) as Fu. cbn [type_assign a_name] in Fu. rewrite Fu. reflexivity. }
      assert (El : elab (2 * k) (final tr3) m' m' t' = Some (nested (mode_of (m_tagging m)) b)) by (eapply (nest_elab tr (final tr3) Hmirror k m m t b); [exact Eb|exact Em'|reflexivity|reflexivity|exact F|exact K|reflexivity]).
      destruct Hcase as [->|(p & Hpn & ->)]; cbn [a_parameters a_specific a_name type_assign].
      * split; [exact Hp|]. split; [exact Sim'|]. split; [exact Ho'|]. apply (Refs (S k) None (a_name a0) (ADef (mode_of (m_tagging m)) b)). cbn [elab]. rewrite Em.
        assert (type_named m (a_name a0) = Some t) as ->. { unfold type_named, assign_named. rewrite (find_unique a_name (with_imports m) a0 (proj1 (C2 m Hm)) Ha0). destruct a0 as [x0 sp0 ps0]. cbn in *. subst. reflexivity. }
        rewrite String.eqb_refl, andb_false_r. destruct (is_ref t || is_tagged_ref t); rewrite Eb; reflexivity.
      * split; [reflexivity|]. rewrite Forall_forall in Simn. split; [apply Simn, Hpn|]. unfold owned in Own. rewrite Forall_forall in Own. split; [apply Own, Hpn|].
        destruct (hoisted_resolve (final tr3) m' t) with (s := (n0, @nil (string * type))) (t' := t') (s' := s') (p := p) as [[]|(n1 & b1 & Eb1)]; [exact Em'|exact F|exact K|eauto|exact Hpn|]. exists n1, m', b1. split; [exact Hin'|exact Eb1].
Qed.

(** ** All passes *)
Definition fine (tr : list module) (m : module) (a : assignment) : Prop := is_template a = true \/ good tr m a.
Definition strip (m : module) : module := with_assigns m (filter (fun a => negb (is_template a)) (m_assigns m)).
Lemma parameters_done tr : (forall m a, In m tr -> In a (m_assigns m) -> fine tr m a) -> Frontend.resolve_parameters tr = Done (map strip tr).
Proof.
  intros H. unfold Frontend.resolve_parameters. rewrite omap_same; [reflexivity|]. apply Forall_forall. intros m Hm. rewrite omap_same; [cbn [obind]; rewrite with_assigns_same; reflexivity|]. apply Forall_forall. intros a Ha. unfold concrete.
  destruct (H m a Hm Ha) as [T|(Hp & G)]; [rewrite T; destruct (a_specific a); reflexivity|]. destruct a as [x sp ps]. cbn [a_specific a_parameters a_name] in *. subst ps. destruct sp as [t|t v| |]; try reflexivity. cbn [is_template a_parameters].
  destruct G as (_ & n & b & E). rewrite to_concrete_simple by (eapply elab_simple, E). reflexivity.
Qed.
Lemma good_keeps tr tr' m m' a : keeps tr tr' -> m_name m' = m_name m -> good tr m a -> good tr' m' a.
Proof.
  intros K N (Hp & G). split; [exact Hp|]. rewrite N. destruct (a_specific a); [| |exact G..].
  - destruct G as (Ho & n & b & E). split; [exact Ho|]. exists n, b. eapply elab_keeps; eassumption.
  - destruct G as (Ho & Hv & n & b & E). split; [exact Ho|]. split; [exact Hv|]. exists n, b. eapply elab_keeps; eassumption.
Qed.
Lemma sum_app a b : sum (a ++ b) = (sum a + sum b)%nat.
Proof. induction a as [|x a IH]; [reflexivity|]. cbn. fold (sum (a ++ b)). rewrite IH. unfold sum. lia. Qed.
Lemma sum_perm a b : Permutation a b -> sum a = sum b.
Proof. unfold sum. induction 1; cbn [fold_right] in *; lia. Qed.
Lemma strip_size m : (size (strip m) <= size m)%nat.
Proof.
  unfold size, with_imports, strip. cbn [m_assigns m_imports with_assigns]. rewrite !map_app, !sum_app. enough (sum (map structs_of (filter (fun a => negb (is_template a)) (m_assigns m))) <= sum (map structs_of (m_assigns m)))%nat by lia.
  induction (m_assigns m) as [|a l IH]; [constructor|]. cbn [filter map]. destruct (negb (is_template a)); cbn [map sum fold_right]; unfold sum in *; lia.
Qed.
Lemma modules_done fuel tr : NoDup (map m_name tr) -> imports_defined (map outline_module tr) -> imports_acyclic (map outline_module tr) -> (List.length tr < fuel)%nat -> exists tr', Frontend.reorder_modules fuel tr = Done tr' /\ Permutation tr tr'.
Proof.
  intros N Id Ia Hf. assert (Nm : TreeSpec.module_names (map outline_module tr) = map m_name tr) by (unfold TreeSpec.module_names; rewrite map_map; reflexivity).
  destruct (C58_reorder_modules (map outline_module tr) fuel) as [(_ & _ & o & Eo & P & _)|(Bad & _)]; [rewrite Nm; exact N|rewrite map_length; exact Hf| |destruct Bad; auto].
  assert (I : forall b, In b o -> exists m, In m tr /\ m_name m = CompilerTree.m_name b). { intros b Hb. apply (Permutation_in _ P) in Hb. apply in_map_iff in Hb as (m & <- & Hm). exists m. auto. }
  assert (L : exists l, omap (fun m => olift (module_named (rev tr) (CompilerTree.m_name m))) o = Done l).
  { clear Eo P. induction o as [|b o IH]; [exists []; reflexivity|]. cbn [omap]. destruct (I b (or_introl eq_refl)) as (m & Hm & En). rewrite <- En. unfold module_named at 1. rewrite (find_unique m_name (rev tr) m); [|rewrite map_rev; apply NoDup_rev, N|apply -> in_rev; exact Hm].
    destruct IH as (l & El); [intros c Hc; apply I; right; exact Hc|]. cbn [olift obind]. rewrite El. eexists. reflexivity. }
  destruct L as (l & El). exists l. assert (E : Frontend.reorder_modules fuel tr = Done l) by (unfold Frontend.reorder_modules; rewrite Eo; exact El). split; [exact E|]. eapply reorder_modules_perm; eassumption.
Qed.
Lemma foldm_more {A S} (f g : A -> S -> out S) l : (forall x s s', In x l -> f x s = Done s' -> g x s = Done s') -> forall s s', foldm f l s = Done s' -> foldm g l s = Done s'.
Proof.
  induction l as [|x l IH]; intros H s s' E; cbn in *; [exact E|]. apply obind_ok in E as (s1 & E1 & E2). rewrite (H _ _ _ (or_introl eq_refl) E1). cbn [obind]. apply IH; [|exact E2]. intros y t t' Hy. apply H. right. exact Hy.
Qed.
Lemma resolve_modules_more l : forall f f' name st st', (f <= f')%nat -> resolve_modules f l name st = Done st' -> resolve_modules f' l name st = Done st'.
Proof.
  induction f as [|f IH]; intros f' name st st' L E; [discriminate|]. destruct f' as [|f']; [lia|]. cbn [resolve_modules] in *. destruct (module_map l name) as [m| | |]; try discriminate E. cbn [obind] in *.
  destruct (CompilerTree.mem name (m_assigned st)); [exact E|]. destruct (CompilerTree.mem name (m_visited st)); [exact E|]. apply obind_ok in E as (st1 & E1 & E). erewrite foldm_more; [exact E| |exact E1]. intros x s s' _. apply IH. lia.
Qed.
Lemma reorder_modules_more f f' tr tr' : (f <= f')%nat -> Frontend.reorder_modules f tr = Done tr' -> Frontend.reorder_modules f' tr = Done tr'.
Proof.
  intros L E. unfold Frontend.reorder_modules, CompilerTree.reorder_modules in *. apply obind_ok in E as (o & E1 & E). apply obind_ok in E1 as (st & E0 & E1). erewrite foldm_more; [|intros x s s' _; apply resolve_modules_more, L|exact E0]. cbn [obind]. rewrite E1. exact E.
Qed.
Theorem passes_accept tr : clean tr -> imports_defined (map outline_module tr) -> imports_acyclic (map outline_module tr) -> (forall m a, In m tr -> In a (with_imports m) -> fine tr m a) -> (Z.of_nat (sum (map size tr)) < 2^31)%Z ->
  exists low, forall fuel, (low <= fuel)%nat -> exists tr', passes fuel tr = Done tr'.
Proof.
  intros C Id Ia H Z. assert (E1 : Frontend.resolve_parameters tr = Done (map strip tr)) by (apply parameters_done; intros m a Hm Ha; apply H; [exact Hm|apply in_or_app; left; exact Ha]).
  pose proof (parameters_facts _ _ E1) as F1. pose proof (keeps_concreted _ _ F1) as K1. pose proof (clean_concreted _ _ C F1) as C1.
  assert (On : map outline_module (map strip tr) = map (fun m => CompilerTree.Module (m_name m) (map i_module (m_imports m)) (map outline_assign (m_assigns (strip m)))) tr) by (rewrite map_map; reflexivity).
  assert (Id1 : imports_defined (map outline_module (map strip tr))).
  { intros m x Hm Hx. apply in_map_iff in Hm as (m1 & <- & Hm1). apply in_map_iff in Hm1 as (m2 & <- & Hm2). specialize (Id (outline_module m2) x (in_map outline_module _ _ Hm2) Hx). unfold TreeSpec.module_names in *. rewrite !map_map in *. exact Id. }
  assert (Ia1 : imports_acyclic (map outline_module (map strip tr))).
  { destruct Ia as (rk & Hr). exists rk. intros m x Hm Hx. apply in_map_iff in Hm as (m1 & <- & Hm1). apply in_map_iff in Hm1 as (m2 & <- & Hm2). exact (Hr (outline_module m2) x (in_map outline_module _ _ Hm2) Hx). }
  assert (R : forall tr2, Permutation (map strip tr) tr2 -> ready tr2).
  { intros tr2 P. assert (K2 : keeps tr tr2) by (eapply keeps_trans; [exact K1|apply keeps_perm; [apply C1|exact P]]). constructor.
    - eapply clean_perm; [exact C1|exact P].
    - intros m a Hm Ha. apply (Permutation_in _ (Permutation_sym P)) in Hm. apply in_map_iff in Hm as (m0 & <- & Hm0). unfold with_imports, strip in Ha. cbn [m_assigns m_imports with_assigns] in Ha.
      assert (Ha0 : In a (with_imports m0) /\ is_template a = false).
      { apply in_app_or in Ha as [Ha|Ha]; [apply filter_In in Ha as (Ha & T); split; [apply in_or_app; left; exact Ha|destruct (is_template a); [discriminate|reflexivity]]|]. split; [apply in_or_app; right; exact Ha|]. apply in_flat_map in Ha as (i & _ & Ha). apply in_map_iff in Ha as (x & <- & _). reflexivity. }
      destruct Ha0 as (Ha0 & T). destruct (H m0 a Hm0 Ha0) as [T'|G]; [congruence|]. exact (good_keeps tr tr2 m0 (strip m0) a K2 eq_refl G).
    - rewrite <- (sum_perm (map size (map strip tr)) (map size tr2)) by (apply Permutation_map, P). assert (sum (map size (map strip tr)) <= sum (map size tr))%nat; [|lia].
      clear. induction tr as [|m tr IH]; [constructor|]. cbn [map sum fold_right]. pose proof (strip_size m). unfold sum in *. lia. }
  destruct (modules_done (S (List.length tr)) (map strip tr)) as (tr2 & E2 & P); [apply C1|exact Id1|exact Ia1|rewrite map_length; lia|]. destruct (ready_settled tr2 (R tr2 P)) as (tr3 & E3 & S3). destruct (order_accepted tr3 S3) as (low & Hlow).
  exists (S (List.length tr) + low)%nat. intros fuel Hf. unfold passes. rewrite E1. cbn [obind]. rewrite (reorder_modules_more (S (List.length tr)) fuel _ tr2 ltac:(lia) E2). cbn [obind]. rewrite E3. cbn [obind].
  rewrite (components_accepted _ S3). cbn [obind]. rewrite (classes_accepted _ S3). cbn [obind]. apply Hlow. lia.
Qed.
