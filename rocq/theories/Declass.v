(** Object classes, through the passes: the compiler puts the type of the field for every CLASS.&field where CLASS is a class of the same module
    (ClassSpec.v).  First on trees. *)
From Coq Require Import List String ZArith Bool Lia Permutation.
From Verif Require Import Base CompilerNames CompilerTree CompilerPasses PropertiesTree PassesSpec Frontend FrontOrder FrontNest FrontPasses FrontAccept FrontText.
From Verif Require Import ParserTree ParserFile ParserSource ParserSourceProofs Elab ElabSpec ElabProofs WriteOutSpec WriteOut IncludeSpec Include ClassSpec.
Import ListNotations.
Local Open Scope string_scope.
Local Open Scope list_scope.

(** ** Types *)
Section Fields.
Context (cf : string -> string -> option type).
Fixpoint unfield (t : type) : type :=
  match t with
  | TField (Defined None c []) [f] => match cf c f with Some u => u | None => t end
  | TRecord set cs ext => TRecord set (map (fun c => match c with Comp n u o d co => Comp n (unfield u) o d co end) cs) ext
  | TListOf set n u => TListOf set n (unfield u)
  | ParserTree.TChoice alts => ParserTree.TChoice (map (fun a => (fst a, unfield (snd a))) alts)
  | TTagged g kw u => TTagged g kw (unfield u)
  | TSimple _ | TInteger _ | TEnumerated _ _ | TField _ _ | TRef _ => t
  end.
Definition unfieldc (c : component) : component := match c with Comp n u o d co => Comp n (unfield u) o d co end.
(** All fields are known, and there is no COMPONENTS OF. *)
Fixpoint fields_ok (t : type) : bool :=
  match t with
  | TField (Defined None c []) [f] => match cf c f with Some _ => true | None => false end
  | TField _ _ => false
  | TRecord set cs ext => forallb (fun c => match c with Comp _ u _ _ None => fields_ok u | Comp _ _ _ _ (Some _) => false end) cs
  | TListOf set n u => fields_ok u
  | ParserTree.TChoice alts => forallb (fun a => fields_ok (snd a)) alts
  | TTagged g kw u => fields_ok u
  | TSimple _ | TInteger _ | TEnumerated _ _ | TRef _ => true
  end.
Definition fields_okc (c : component) : bool := match c with Comp _ u _ _ None => fields_ok u | Comp _ _ _ _ (Some _) => false end.
Context (md : string).
Definition nothing_inside (u : type) : Prop := (forall s, find_nested md u s = (u, s)) /\ unnamed_prefix u = None /\ (forall tr md, classes_to_concrete tr md u = Done u) /\ no_apply u.
Context (Hcf : forall c f u, cf c f = Some u -> nothing_inside u).
Lemma unfield_field d fs : unfield (TField d fs) = TField d fs \/ exists u, unfield (TField d fs) = u /\ nothing_inside u.
Proof. destruct d as [[m|] c [|]], fs as [|f [|]]; try (left; reflexivity). cbn [unfield]. destruct (cf c f) as [u|] eqn:E; [right; exists u; split; [reflexivity|exact (Hcf c f u E)]|left; reflexivity]. Qed.
Lemma unfield_prefix t : unnamed_prefix (unfield t) = unnamed_prefix t.
Proof. destruct t as [| | |d fs| |[|]| | |]; try reflexivity. destruct (unfield_field d fs) as [->|(u & -> & _ & P & _)]; [reflexivity|exact P]. Qed.
Definition unfs (s s' : nest_state) : Prop := fst s' = fst s /\ snd s' = map (fun p => (fst p, unfield (snd p))) (snd s).
Lemma hoist_unfield t s s' : unfs s s' -> fst (hoist md (unfield t) s') = unfield (fst (hoist md t s)) /\ unfs (snd (hoist md t s)) (snd (hoist md (unfield t) s')).
Proof.
  intros (E1 & E2). unfold hoist. rewrite unfield_prefix, E1. destruct (unnamed_prefix t) eqn:P; cbn [fst snd]; [|split; [reflexivity|split; assumption]].
  split; [reflexivity|]. split; cbn [fst snd]; [reflexivity|]. rewrite E2, map_app. reflexivity.
Qed.
Lemma nmap_unf {A} (f : A -> nest_state -> A * nest_state) (h : A -> A) l : Forall (fun x => forall s s', unfs s s' -> fst (f (h x) s') = h (fst (f x s)) /\ unfs (snd (f x s)) (snd (f (h x) s'))) l ->
  forall s s', unfs s s' -> fst (nmap f (map h l) s') = map h (fst (nmap f l s)) /\ unfs (snd (nmap f l s)) (snd (nmap f (map h l) s')).
Proof.
  induction 1 as [|x l Hx _ IH]; intros s s' T; [split; [reflexivity|exact T]|]. cbn [map]. rewrite !nmap_cons. destruct (Hx s s' T) as (E1 & T1). destruct (f x s) as [y s1], (f (h x) s') as [y' s1']. cbn [fst snd] in *. subst y'.
  destruct (IH s1 s1' T1) as (E2 & T2). destruct (nmap f l s1), (nmap f (map h l) s1'). cbn [fst snd map] in *. subst. auto.
Qed.
Lemma nest_unfield t : forall s s', unfs s s' -> fst (find_nested md (unfield t) s') = unfield (fst (find_nested md t s)) /\ unfs (snd (find_nested md t s)) (snd (find_nested md (unfield t) s')).
Proof.
  induction t as [| | |d0 fs|alts IH|set cs ext IH|set n u IH|g kw u IH|d] using type_induct; intros s s' T; try (split; [reflexivity|exact T]).
  - change (find_nested md (TField d0 fs) s) with (TField d0 fs, s). cbn [fst snd]. destruct (unfield_field d0 fs) as [->|(u & -> & F & _)]; [split; [reflexivity|exact T]|]. rewrite F. split; [reflexivity|exact T].
  - cbn [unfield find_nested]. set (f := fun a s => let (u', s) := find_nested md (snd a) s in ((fst a, u'), s)).
    pose proof (nmap_unf f (fun a => (fst a, unfield (snd a))) alts) as N. destruct N with (s := s) (s' := s') as (E1 & T1); [|exact T|].
    + apply Forall_forall. intros a Ha s0 s0' T0. rewrite Forall_forall in IH. specialize (IH a Ha s0 s0' T0). unfold f. cbn [fst snd]. destruct (find_nested md (snd a) s0), (find_nested md (unfield (snd a)) s0'). cbn [fst snd] in *. destruct IH as [-> ?]. auto.
    + destruct (nmap f alts s), (nmap f (map _ alts) s'). cbn [fst snd unfield] in *. subst. auto.
  - cbn [unfield]. rewrite !find_record. pose proof (nmap_unf (nest_comp md) unfieldc cs) as N. destruct N with (s := s) (s' := s') as (E1 & T1); [|exact T|].
    + apply Forall_forall. intros [n u o d co] Ha s0 s0' T0. rewrite Forall_forall in IH. specialize (IH _ Ha s0 s0' T0). cbn [unfieldc nest_comp]. destruct (find_nested md u s0), (find_nested md (unfield u) s0'). cbn [fst snd unfieldc] in *. destruct IH as [-> ?]. auto.
    + change (map (fun c => match c with Comp n u o d co => Comp n (unfield u) o d co end) cs) with (map unfieldc cs). destruct (nmap (nest_comp md) cs s), (nmap (nest_comp md) (map unfieldc cs) s'). cbn [fst snd unfield] in *. subst. auto.
  - destruct (IH s s' T) as (E1 & T1). cbn [unfield find_nested]. destruct (find_nested md u s) as [u1 s1], (find_nested md (unfield u) s') as [u1' s1']. cbn [fst snd] in *. subst u1'. destruct (hoist_unfield u1 s1 s1' T1) as (E2 & T2).
    destruct (hoist md (unfield u1) s1'), (hoist md u1 s1). cbn [fst snd unfield] in *. subst. auto.
  - destruct (IH s s' T) as (E1 & T1). cbn [unfield find_nested]. destruct (find_nested md u s) as [u1 s1], (find_nested md (unfield u) s') as [u1' s1']. cbn [fst snd] in *. subst u1'. destruct (hoist_unfield u1 s1 s1' T1) as (E2 & T2).
    destruct (hoist md (unfield u1) s1'), (hoist md u1 s1). cbn [fst snd unfield] in *. subst. auto.
Qed.
(** What is taken out and what stays has known fields. *)
Definition out_fields (s : nest_state) : Prop := Forall (fun p => fields_ok (snd p) = true /\ unnamed_prefix (snd p) <> None) (snd s).
Lemma nmap_fields {A} (ok : A -> bool) (f : A -> nest_state -> A * nest_state) l : Forall (fun x => ok x = true -> forall s, out_fields s -> ok (fst (f x s)) = true /\ out_fields (snd (f x s))) l -> forallb ok l = true ->
  forall s, out_fields s -> forallb ok (fst (nmap f l s)) = true /\ out_fields (snd (nmap f l s)).
Proof.
  induction 1 as [|x l Hx _ IH]; intros H s Hs; [split; [reflexivity|exact Hs]|]. cbn [forallb] in H. apply andb_true_iff in H as [H1 H2]. rewrite nmap_cons. destruct (Hx H1 s Hs) as (X1 & X2). destruct (f x s) as [y s1]. cbn [fst snd] in *. destruct (IH H2 s1 X2) as (Y1 & Y2). destruct (nmap f l s1). cbn [fst snd forallb] in *. rewrite X1, Y1. auto.
Qed.
Lemma hoist_fields t s : fields_ok t = true -> out_fields s -> fields_ok (fst (hoist md t s)) = true /\ out_fields (snd (hoist md t s)).
Proof. intros R Hs. unfold hoist. destruct (unnamed_prefix t) eqn:P; [|auto]. cbn [fst snd]. split; [reflexivity|]. unfold out_fields. cbn [snd]. apply Forall_app. split; [exact Hs|]. constructor; [split; [exact R|cbn [snd]; congruence]|constructor]. Qed.
Lemma nest_fields t : fields_ok t = true -> forall s, out_fields s -> fields_ok (fst (find_nested md t s)) = true /\ out_fields (snd (find_nested md t s)).
Proof.
  induction t as [| | |d0 fs|alts IH|set cs ext IH|set n u IH|g kw u IH|d] using type_induct; intros R s Hs; try (split; [exact R|exact Hs]); cbn [fields_ok] in R.
  - cbn [find_nested]. set (f := fun a s => let (u', s) := find_nested md (snd a) s in ((fst a, u'), s)). destruct (nmap_fields (fun a => fields_ok (snd a)) f alts) with (s := s) as (N1 & N2); [|exact R|exact Hs|].
    + eapply Forall_impl; [|exact IH]. intros a H Ha s0 H0. specialize (H Ha s0 H0). unfold f. destruct (find_nested md (snd a) s0). exact H.
    + destruct (nmap f alts s). auto.
  - rewrite find_record. destruct (nmap_fields fields_okc (nest_comp md) cs) with (s := s) as (N1 & N2); [|exact R|exact Hs|].
    + eapply Forall_impl; [|exact IH]. intros [n u o d [co|]] H Ha s0 H0; [discriminate Ha|]. specialize (H Ha s0 H0). cbn [nest_comp]. destruct (find_nested md u s0). exact H.
    + destruct (nmap (nest_comp md) cs s). auto.
  - cbn [find_nested]. destruct (IH R s Hs) as (H1 & H2). destruct (find_nested md u s) as [u1 s1]. cbn [fst snd] in *. destruct (hoist_fields u1 s1 H1 H2). destruct (hoist md u1 s1). auto.
  - cbn [find_nested]. destruct (IH R s Hs) as (H1 & H2). destruct (find_nested md u s) as [u1 s1]. cbn [fst snd] in *. destruct (hoist_fields u1 s1 H1 H2). destruct (hoist md u1 s1). auto.
Qed.
(** The pass itself. *)
Lemma concrete_fields tr t : (forall c f u, cf c f = Some u -> field_type tr md (Defined None c []) [f] = Done u) -> fields_ok t = true -> classes_to_concrete tr md t = Done (unfield t).
Proof.
  intros Hf. induction t as [| | |d0 fs|alts IH|set cs ext IH|set n u IH|g kw u IH|d] using type_induct; intros R; try reflexivity; cbn [fields_ok] in R.
  - destruct d0 as [[m|] c [|]], fs as [|f [|]]; try discriminate R. cbn [classes_to_concrete unfield]. destruct (cf c f) as [u|] eqn:E; [|discriminate R]. exact (Hf c f u E).
  - cbn [classes_to_concrete unfield]. enough (E : omap (fun a => do u' <- classes_to_concrete tr md (snd a); Done (fst a, u')) alts = Done (map (fun a => (fst a, unfield (snd a))) alts)) by (rewrite E; reflexivity).
    induction IH as [|a alts Ha _ IH2]; [reflexivity|]. cbn [forallb] in R. apply andb_true_iff in R as [R1 R2]. cbn [omap]. rewrite (Ha R1). cbn [obind]. rewrite (IH2 R2). reflexivity.
  - cbn [classes_to_concrete unfield]. enough (E : omap (fun c => match c with Comp n u o d co => do u' <- classes_to_concrete tr md u; Done (Comp n u' o d co) end) cs = Done (map unfieldc cs)) by (rewrite E; reflexivity).
    induction IH as [|[n u o d [co|]] cs Ha _ IH2]; [reflexivity|discriminate R|]. cbn [forallb] in R. apply andb_true_iff in R as [R1 R2]. cbn [omap]. rewrite (Ha R1). cbn [obind]. rewrite (IH2 R2). reflexivity.
  - cbn [classes_to_concrete unfield]. rewrite (IH R). reflexivity.
  - cbn [classes_to_concrete unfield]. rewrite (IH R). reflexivity.
Qed.
Lemma concrete_unfield tr t : fields_ok t = true -> classes_to_concrete tr md (unfield t) = Done (unfield t).
Proof.
  induction t as [| | |d0 fs|alts IH|set cs ext IH|set n u IH|g kw u IH|d] using type_induct; intros R; try reflexivity; cbn [fields_ok] in R.
  - destruct d0 as [[m|] c [|]], fs as [|f [|]]; try discriminate R. cbn [unfield]. destruct (cf c f) as [u|] eqn:E; [|discriminate R]. apply (Hcf c f u E).
  - cbn [classes_to_concrete unfield]. rewrite omap_same; [reflexivity|]. apply Forall_map. rewrite forallb_forall in R. rewrite Forall_forall in *. intros a Ha. cbn [fst snd]. rewrite (IH a Ha (R a Ha)). reflexivity.
  - cbn [classes_to_concrete unfield]. rewrite omap_same; [reflexivity|]. apply Forall_map. rewrite forallb_forall in R. rewrite Forall_forall in *. intros [n u o d [co|]] Ha; specialize (IH _ Ha); specialize (R _ Ha); [discriminate R|]. cbn beta iota in *. rewrite (IH R). reflexivity.
  - cbn [classes_to_concrete unfield]. rewrite (IH R). reflexivity.
  - cbn [classes_to_concrete unfield]. rewrite (IH R). reflexivity.
Qed.
Lemma unfield_no_apply t : no_apply t -> no_apply (unfield t).
Proof.
  induction t as [| | |d0 fs|alts IH|set cs ext IH|set n u IH|g kw u IH|d] using type_induct; intros H; try exact H.
  - destruct (unfield_field d0 fs) as [->|(u & -> & _ & _ & _ & N)]; [exact H|exact N].
  - cbn [unfield]. apply no_apply_choice. apply no_apply_alts in H. apply Forall_map. rewrite Forall_forall in *. intros a Ha. cbn [snd]. auto.
  - cbn [unfield]. apply no_apply_record. apply no_apply_comps in H. apply Forall_map. rewrite Forall_forall in *. intros [n u o d co] Ha. specialize (IH _ Ha). specialize (H _ Ha). exact (IH H).
  - cbn [unfield]. apply no_apply_list, IH. intros tr md0. specialize (H tr md0). cbn [to_concrete] in H. destruct (to_concrete tr md0 u); try discriminate H. injection H as ->. reflexivity.
  - cbn [unfield]. apply no_apply_tagged, IH. intros tr md0. specialize (H tr md0). cbn [to_concrete] in H. destruct (to_concrete tr md0 u); try discriminate H. injection H as ->. reflexivity.
Qed.
(** ** Assignments *)
Definition declassed (l : list assignment) : list assignment := map (on_type unfield) (filter (fun a => negb (is_class a)) l).
Lemma split_declassed l : forall n, split_nested md (declassed l) n = (declassed (fst (split_nested md l n)), snd (split_nested md l n)).
Proof.
  unfold declassed. induction l as [|a l IH]; intros n; [reflexivity|]. cbn [filter split_nested]. destruct (a_specific a) as [t|t v|fs|] eqn:Ea.
  - assert (C : is_class a = false) by (unfold is_class; rewrite Ea; reflexivity). rewrite C. cbn [negb map split_nested]. rewrite (on_type_eq _ a), Ea. cbn [a_specific a_name a_parameters].
    destruct (nest_unfield t (n, []) (n, [])) as (E & T); [split; reflexivity|]. destruct (find_nested md t (n, [])) as [t1 [n1 new]]. destruct (find_nested md (unfield t) (n, [])) as [t1' [n1' new']]. cbn [fst snd] in *. destruct T as (T1 & T2). cbn [fst snd] in *. subst n1' new' t1'. rewrite (IH n1).
    destruct (split_nested md l n1) as [l1 n2]. cbn [fst snd]. f_equal. rewrite filter_app, map_app. cbn [filter is_class a_specific negb map]. f_equal.
    rewrite (filter_all _ (map type_assign _)) by (intros x Hx; apply in_map_iff in Hx as (p & <- & _); reflexivity). rewrite <- map_rev, !map_map. apply map_ext. intros p. reflexivity.
  - assert (C : is_class a = false) by (unfold is_class; rewrite Ea; reflexivity). rewrite C. cbn [negb map split_nested]. rewrite (on_type_eq _ a), Ea, (IH n). destruct (split_nested md l n). cbn [fst snd filter]. rewrite Ea, C. cbn [negb map]. rewrite (on_type_eq _ a), Ea. reflexivity.
  - assert (C : is_class a = true) by (unfold is_class; rewrite Ea; reflexivity). rewrite C. cbn [negb]. rewrite (IH n). destruct (split_nested md l n). cbn [fst snd filter]. rewrite C. reflexivity.
  - assert (C : is_class a = false) by (unfold is_class; rewrite Ea; reflexivity). rewrite C. cbn [negb map split_nested]. rewrite (on_type_eq _ a), Ea, (IH n). destruct (split_nested md l n). cbn [fst snd filter]. rewrite Ea, C. cbn [negb map]. rewrite (on_type_eq _ a), Ea. reflexivity.
Qed.
End Fields.

(** ** Looking for classes *)
Definition top_ref (a : assignment) : option defined := match a_specific a with AType (TRef d) | AValue (TRef d) _ => Some d | _ => None end.
Lemma ofold_if {A S} (I : S -> Prop) (f : S -> A -> out S) (b : A -> bool) (g : S -> A -> S) l :
  Forall (fun a => forall s, I s -> f s a = (if b a then Done (g s a) else Throw) /\ I (g s a)) l -> forall s, I s -> ofold f l s = (if forallb b l then Done (fold_left g l s) else Throw) /\ I (fold_left g l s).
Proof.
  induction 1 as [|a l Ha _ IH]; intros s Hs; [split; [reflexivity|exact Hs]|]. cbn [ofold forallb fold_left]. destruct (Ha s Hs) as (E & Is). rewrite E. destruct (IH (g s a) Is) as (E2 & I2). split; [|exact I2]. destruct (b a); [|reflexivity]. exact E2.
Qed.
Section Classes.
Context (classes : list string).
(** References never are to classes. *)
Definition apart (md : string) (a : assignment) : Prop := a_parameters a = [] /\ forall m r ps, top_ref a = Some (Defined m r ps) -> ~ In (qualified (ref_module md m) r) classes /\ ~ In (qualified md r) classes.
Record separated (tr : list module) : Prop := {
  se_classes : forall m a, In m tr -> In a (m_assigns m) -> is_class a = true -> In (qualified (m_name m) (a_name a)) classes;
  se_refs : forall m a, In m tr -> In a (m_assigns m) -> apart (m_name m) a;
  se_imports : forall m i x, In m tr -> In i (m_imports m) -> In x (i_types i) -> ~ In (qualified (i_module i) x) classes }.
Lemma mem_In x s : mem x s = true <-> In x s.
Proof. unfold mem. rewrite existsb_exists. split; [intros (y & H & E); apply String.eqb_eq in E; subst; exact H|intros H; exists x; split; [exact H|apply String.eqb_refl]]. Qed.
Lemma mem_out x s : incl s classes -> ~ In x classes -> mem x s = false.
Proof. intros I N. destruct (mem x s) eqn:E; [|reflexivity]. apply mem_In in E. destruct (N (I _ E)). Qed.
Definition ref_ok (tr : list module) (md : string) (a : assignment) : bool := match top_ref a with Some d => match resolve tr md d with Done _ => true | _ => false end | None => true end.
Definition note (md : string) (s : list string) (a : assignment) : list string := if is_class a then add (qualified md (a_name a)) s else s.
Lemma resolve_class tr md m r ps b : separated tr -> resolve tr md (Defined m r ps) = Done b -> is_class b = true -> In (qualified (ref_module md m) r) classes.
Proof.
  intros S E C. unfold resolve in E. apply obind_ok in E as (w & E1 & E2). unfold olift in *. destruct (module_named tr (ref_module md m)) eqn:Em; [|discriminate]. injection E1 as ->. destruct (assign_named (m_assigns w) r) eqn:Ea; [|discriminate]. injection E2 as ->.
  apply (find_by m_name) in Em as (Nm & Im). apply (find_by a_name) in Ea as (Na & Ia). rewrite <- Nm, <- Na. apply (se_classes _ S w b Im Ia C).
Qed.
Lemma resolve_out tr md d : (exists b, resolve tr md d = Done b) \/ resolve tr md d = Throw.
Proof. destruct d as [m r ps]. unfold resolve. destruct (module_named tr _) as [w|]; [|right; reflexivity]. cbn [olift obind]. destruct (assign_named (m_assigns w) r) as [b|]; [left; exists b; reflexivity|right; reflexivity]. Qed.
Lemma add_incl x s : In x classes -> incl s classes -> incl (add x s) classes.
Proof. intros H I. unfold add. destruct (mem x s); [exact I|]. intros y [<-|Hy]; auto. Qed.
Lemma scan_one tr md a : separated tr -> apart md a -> (is_class a = true -> In (qualified md (a_name a)) classes) -> forall s, incl s classes ->
  Frontend.scan_assign tr md s a = (if ref_ok tr md a then Done (note md s a) else Throw) /\ incl (note md s a) classes.
Proof.
  intros S (P & A) C s I. split; [|unfold note; destruct (is_class a); [apply add_incl; auto|exact I]]. unfold ref_ok, top_ref in *.
  assert (G : forall d, (match a_specific a with AType (TRef d) | AValue (TRef d) _ => Some d | _ => None end) = Some d -> is_class a = false ->
    (let 'Defined m r ps := d in if existsb (fun p => String.eqb (p_reference p) r) (a_parameters a) then Done s
      else do b <- resolve tr md (Defined m r ps); Done (if is_class b || mem (qualified md r) s then add (qualified md (a_name a)) s else s)) =
    (if match resolve tr md d with Done _ => true | _ => false end then Done (note md s a) else Throw)).
  { intros [m r ps] T Ca. destruct (A m r ps T) as (A1 & A2). rewrite P. cbn [existsb]. destruct (resolve_out tr md (Defined m r ps)) as [(b & Eb)|Eb]; rewrite Eb; [|reflexivity]. cbn [obind]. rewrite (mem_out _ s I A2), orb_false_r. unfold note. rewrite Ca.
    destruct (is_class b) eqn:Cb; [|reflexivity]. destruct (A1 (resolve_class tr md m r ps b S Eb Cb)). }
  unfold Frontend.scan_assign. destruct a as [x [t|t v|fs|] ps]; cbn [a_specific] in *; try reflexivity.
  - destruct t; try reflexivity. specialize (G d eq_refl eq_refl). destruct d. exact G.
  - destruct t; try reflexivity. specialize (G d eq_refl eq_refl). destruct d. exact G.
Qed.
Definition refs_ok (tr : list module) : bool := forallb (fun m => forallb (ref_ok tr (m_name m)) (m_assigns m)) tr.
Definition noted (tr : list module) (s : list string) : list string := fold_left (fun s m => fold_left (note (m_name m)) (m_assigns m) s) tr s.
Lemma scan_imports_same tr s : separated tr -> incl s classes -> Frontend.scan_imports tr s = s.
Proof.
  intros S I. unfold Frontend.scan_imports. pose proof (se_imports _ S) as H. clear S. induction tr as [|m tr IH]; [reflexivity|]. cbn [fold_left].
  replace (fold_left _ (m_imports m) s) with s; [apply IH; intros; eapply H; [right; eassumption|eassumption|eassumption]|].
  specialize (fun i x => H m i x (or_introl eq_refl)). symmetry. clear IH. induction (m_imports m) as [|i l IH]; [reflexivity|]. cbn [fold_left]. replace (fold_left _ (i_types i) s) with s; [apply IH; intros; eapply H; [right; eassumption|eassumption]|].
  specialize (fun x => H i x (or_introl eq_refl)). symmetry. clear IH. induction (i_types i) as [|x xs IH]; [reflexivity|]. cbn [fold_left]. rewrite mem_out by (try exact I; apply H; left; reflexivity). apply IH. intros y Hy. apply H. right. exact Hy.
Qed.
Lemma scan_all tr s : separated tr -> incl s classes -> Frontend.scan tr s = (if refs_ok tr then Done (noted tr s) else Throw) /\ incl (noted tr s) classes.
Proof.
  intros S I. unfold Frontend.scan, refs_ok, noted.
  destruct (ofold_if (fun s => incl s classes) (fun s m => ofold (Frontend.scan_assign tr (m_name m)) (m_assigns m) s) (fun m => forallb (ref_ok tr (m_name m)) (m_assigns m)) (fun s m => fold_left (note (m_name m)) (m_assigns m) s) tr) with (s := s) as (E & Ie); [|exact I|].
  - apply Forall_forall. intros m Hm s0 I0. apply (ofold_if (fun s => incl s classes)); [|exact I0]. apply Forall_forall. intros a Ha s1 I1. apply scan_one; [exact S|apply (se_refs _ S m a Hm Ha)|apply (se_classes _ S m a Hm Ha)|exact I1].
  - rewrite E. split; [|exact Ie]. destruct (forallb _ tr); [|reflexivity]. cbn [obind]. rewrite scan_imports_same by assumption. reflexivity.
Qed.
Lemma note_incl md s a : incl s (note md s a).
Proof. unfold note, add. destruct (is_class a); [|apply incl_refl]. destruct (mem _ s); [apply incl_refl|]. intros x Hx. right. exact Hx. Qed.
Lemma fold_incl {A} (g : list string -> A -> list string) l : (forall s a, incl s (g s a)) -> forall s, incl s (fold_left g l s).
Proof. intros H. induction l as [|a l IH]; intros s; [apply incl_refl|]. cbn [fold_left]. eapply incl_tran; [apply H|apply IH]. Qed.
Lemma noted_in tr s m a : In m tr -> In a (m_assigns m) -> is_class a = true -> In (qualified (m_name m) (a_name a)) (noted tr s).
Proof.
  assert (N : forall md s a, is_class a = true -> In (qualified md (a_name a)) (note md s a)). { intros md s0 a0 C. unfold note, add. rewrite C. destruct (mem _ s0) eqn:E; [apply mem_In in E; exact E|left; reflexivity]. }
  intros Hm Ha C. unfold noted. revert s. induction tr as [|m0 tr IH]; intros s; [destruct Hm|]. cbn [fold_left]. destruct Hm as [->|Hm]; [|apply IH, Hm]. eapply fold_incl; [intros s0 m1; apply fold_incl; intros; apply note_incl|].
  clear IH. revert s. induction (m_assigns m) as [|b l IH]; intros s; [destruct Ha|]. cbn [fold_left]. destruct Ha as [->|Ha]; [|apply IH, Ha]. eapply fold_incl; [intros; apply note_incl|]. apply N, C.
Qed.
Lemma noted_same tr s : (forall m a, In m tr -> In a (m_assigns m) -> is_class a = true -> In (qualified (m_name m) (a_name a)) s) -> noted tr s = s.
Proof.
  unfold noted. induction tr as [|m tr IH]; intros H; [reflexivity|]. cbn [fold_left]. replace (fold_left (note (m_name m)) (m_assigns m) s) with s; [apply IH; intros; apply H; [right; assumption|assumption|assumption]|].
  specialize (fun a => H m a (or_introl eq_refl)). symmetry. clear IH. induction (m_assigns m) as [|a l IH]; [reflexivity|]. cbn [fold_left]. replace (note (m_name m) s a) with s; [apply IH; intros; apply H; [right; assumption|assumption]|].
  unfold note, add. destruct (is_class a) eqn:C; [|reflexivity]. assert (M : mem (qualified (m_name m) (a_name a)) s = true) by (apply mem_In, H; [left; reflexivity|exact C]). rewrite M. reflexivity.
Qed.
Lemma noted_empty tr : (forall m a, In m tr -> In a (m_assigns m) -> is_class a = false) -> noted tr [] = [].
Proof. intros H. apply noted_same. intros m a Hm Ha C. rewrite (H m a Hm Ha) in C. discriminate C. Qed.
Lemma object_class_names_eq tr : separated tr -> object_class_names tr = (if refs_ok tr then Done (noted tr []) else Throw).
Proof.
  intros S. unfold object_class_names. set (k := flat_map _ tr). cbn [Frontend.scan_loop]. destruct (scan_all tr [] S) as (E & I); [intros x []|]. rewrite E. destruct (refs_ok tr) eqn:R; [|reflexivity]. cbn [obind List.length]. destruct (noted tr []) as [|x s] eqn:N; [reflexivity|]. cbn [List.length Nat.ltb Nat.leb].
  destruct k as [|y k0] eqn:Ek.
  - exfalso. rewrite noted_empty in N; [discriminate N|]. intros m a Hm Ha. exfalso. enough (In (a_name a) k) by (rewrite Ek in *; contradiction). unfold k. apply in_flat_map. exists m. split; [exact Hm|]. apply in_or_app. left. apply in_map, Ha.
  - cbn [List.length Frontend.scan_loop]. destruct (scan_all tr (x :: s) S) as (E2 & _); [exact I|]. rewrite E2, R. cbn [obind]. rewrite noted_same; [|intros m a Hm Ha C; rewrite <- N; apply noted_in; assumption]. rewrite Nat.ltb_irrefl. reflexivity.
Qed.
Lemma removed_class md a s : apart md a -> incl s classes -> removed md s a = is_class a.
Proof.
  intros (P & A) I. unfold removed, is_class. destruct a as [x [t|t v|fs|] ps]; cbn [a_specific a_parameters] in *; try reflexivity; subst ps; try reflexivity.
  - destruct t; try reflexivity. destruct d as [m r q]. cbn [defined_class]. apply mem_out; [exact I|]. apply (A m r q eq_refl).
  - destruct t; try reflexivity. destruct d as [m r q]. cbn [defined_class]. apply mem_out; [exact I|]. apply (A m r q eq_refl).
Qed.
End Classes.

(** ** Modules *)
Lemma split_forall (Q : assignment -> Prop) md l : (forall a, In a l -> (forall t, a_specific a <> AType t) -> Q a) ->
  (forall a t, In a l -> a_specific a = AType t -> forall n, Q (Assign (a_name a) (AType (fst (find_nested md t (n, [])))) (a_parameters a)) /\ Forall (fun p => Q (type_assign p)) (snd (snd (find_nested md t (n, []))))) ->
  forall n, Forall Q (fst (split_nested md l n)).
Proof.
  intros H1 H2. induction l as [|a l IH]; intros n; [constructor|]. specialize (IH (fun x Hx => H1 x (or_intror Hx)) (fun x t Hx => H2 x t (or_intror Hx))). specialize (H1 a (or_introl eq_refl)). specialize (H2 a). cbn [split_nested].
  destruct (a_specific a) as [t|t v|fs|] eqn:Ea.
  - destruct (H2 t (or_introl eq_refl) eq_refl n) as (Q1 & Q2). destruct (find_nested md t (n, [])) as [t1 [n1 new]]. cbn [fst snd] in *. specialize (IH n1). destruct (split_nested md l n1). cbn [fst] in *. apply Forall_app. split; [apply Forall_map, Forall_rev, Q2|]. constructor; assumption.
  - specialize (IH n). destruct (split_nested md l n). constructor; [apply H1; congruence|exact IH].
  - specialize (IH n). destruct (split_nested md l n). constructor; [apply H1; congruence|exact IH].
  - specialize (IH n). destruct (split_nested md l n). constructor; [apply H1; congruence|exact IH].
Qed.
Lemma split_keeps md l a : In a l -> (forall t, a_specific a <> AType t) -> forall n, In a (fst (split_nested md l n)).
Proof.
  intros H N. induction l as [|b l IH]; intros n; [destruct H|]. cbn [split_nested]. destruct H as [->|H].
  - destruct (a_specific a) as [t|t v|fs|] eqn:Ea; [destruct (N t eq_refl)|..]; destruct (split_nested md l n); left; reflexivity.
  - specialize (IH H). destruct (a_specific b) as [t|t v|fs|].
    + destruct (find_nested md t (n, [])) as [t1 [n1 new]]. specialize (IH n1). destruct (split_nested md l n1). apply in_or_app. right. right. exact IH.
    + specialize (IH n). destruct (split_nested md l n). right. exact IH.
    + specialize (IH n). destruct (split_nested md l n). right. exact IH.
    + specialize (IH n). destruct (split_nested md l n). right. exact IH.
Qed.
Section Trees.
Context (cf : string -> string -> string -> option type) (classes : list string).
Definition declassm (m : module) : module := with_assigns m (declassed (cf (m_name m)) (m_assigns m)).
Definition fields_assign (md : string) (a : assignment) : Prop := forall t, a_specific a = AType t -> fields_ok (cf md) t = true /\ forall d, unfield (cf md) t = TRef d -> t = TRef d.
Definition listed (md : string) (a : assignment) : Prop := is_class a = true -> In (qualified md (a_name a)) classes.
Definition fit (md : string) (a : assignment) : Prop := fields_assign md a /\ apart classes md a /\ listed md a.
Record may_declass (m : module) : Prop := {
  mc_cf : forall c f u, cf (m_name m) c f = Some u -> nothing_inside (m_name m) u /\ exists fs x, In (Assign c (AClass fs) []) (m_assigns m) /\ find (fun x => String.eqb (f_name x) f) fs = Some x /\ f_type x = Some u;
  mc_fit : forall a, In a (with_imports m) -> fit (m_name m) a;
  mc_imports : forall i x, In i (m_imports m) -> In x (i_types i) -> ~ In (qualified (i_module i) x) classes;
  mc_names : distinct_names m /\ not_made_up m }.
Record can_declass (m : module) : Prop := {
  cc_cf : forall c f u, cf (m_name m) c f = Some u -> nothing_inside (m_name m) u /\ exists fs x, assign_named (m_assigns m) c = Some (Assign c (AClass fs) []) /\ find (fun x => String.eqb (f_name x) f) fs = Some x /\ f_type x = Some u;
  cc_fit : forall a, In a (m_assigns m) -> fit (m_name m) a;
  cc_imports : forall i x, In i (m_imports m) -> In x (i_types i) -> ~ In (qualified (i_module i) x) classes }.
Lemma mc_inside m : may_declass m -> forall c f u, cf (m_name m) c f = Some u -> nothing_inside (m_name m) u.
Proof. intros H c f u E. apply (mc_cf _ H c f u E). Qed.
Lemma with_imports_declass m : with_imports (declassm m) = declassed (cf (m_name m)) (with_imports m).
Proof.
  rewrite !import_assigns. unfold declassed. rewrite filter_app, map_app. cbn [declassm with_assigns m_assigns m_imports]. f_equal. set (l := flat_map _ (m_imports m)).
  assert (H : forall a, In a l -> exists i x, a = Assign x (AType (TRef (Defined (Some (i_module i)) x []))) []). { intros a Ha. apply in_flat_map in Ha as (i & _ & Ha). apply in_map_iff in Ha as (x & <- & _). eauto. }
  rewrite filter_all by (intros a Ha; destruct (H a Ha) as (i & x & ->); reflexivity). rewrite <- (map_id l) at 1. apply map_ext_in. intros a Ha. destruct (H a Ha) as (i & x & ->). reflexivity.
Qed.
Lemma declassed_names f l : NoDup (map a_name l) -> NoDup (map a_name (declassed f l)).
Proof. intros N. unfold declassed. rewrite on_type_names. rewrite <- (app_nil_r (filter _ l)). apply NoDup_filter_app. rewrite app_nil_r. exact N. Qed.
Lemma split_declass tr : Forall may_declass tr -> forall n, split_modules (map declassm tr) n = do t1 <- split_modules tr n; Done (map declassm t1).
Proof.
  assert (D : forall l, NoDup (map a_name l) -> check_duplicated_names (map outline_assign l) = Done tt).
  { intros l N. rewrite C57_duplicates, map_map. change (map (fun x => CompilerTree.a_name (outline_assign x)) l) with (map a_name l). destruct (ListDec.NoDup_dec string_dec (map a_name l)) as [_|X]; [reflexivity|destruct (X N)]. }
  induction 1 as [|m tr Hm _ IH]; intros n; [reflexivity|]. cbn [map split_modules]. rewrite with_imports_declass. pose proof (proj1 (mc_names _ Hm)) as N. unfold distinct_names in N. rewrite !D by (try apply declassed_names; exact N). cbn [obind].
  change (m_name (declassm m)) with (m_name m). rewrite (split_declassed _ _ (mc_inside m Hm)). destruct (split_nested (m_name m) (with_imports m) n) as [l n1]. cbn [fst snd].
  destruct (2^31 <=? n1)%Z; [reflexivity|]. rewrite IH. destruct (split_modules tr n1); reflexivity.
Qed.
Lemma nested_shape md t s : match fst (find_nested md t s) with TRef d => t = TRef d | TField d fs => t = TField d fs | _ => True end.
Proof. destruct t; try exact I; try reflexivity; cbn [find_nested]; repeat (match goal with |- context [let (_, _) := ?x in _] => destruct x end); exact I. Qed.
Lemma split_can_declass m n n' l' : may_declass m -> (0 <= n)%Z -> (n' < 2^31)%Z -> split_nested (m_name m) (with_imports m) n = (l', n') -> can_declass (with_assigns m l').
Proof.
  intros H H0 H1 E. pose proof (split_names m n l' n' (proj1 (mc_names _ H)) (proj2 (mc_names _ H)) H0 H1 E) as N. constructor; cbn [with_assigns m_name m_assigns m_imports].
  - intros c f u L. destruct (mc_cf _ H c f u L) as (I & fs & x & I1 & I2 & I3). split; [exact I|]. exists fs, x. split; [|auto].
    pose proof (split_keeps (m_name m) (with_imports m) (Assign c (AClass fs) [])) as K. specialize (K ltac:(rewrite import_assigns; apply in_or_app; left; exact I1) ltac:(discriminate) n). rewrite E in K. apply (find_unique a_name l' _ N K).
  - assert (F : Forall (fit (m_name m)) l'); [|intros a Ha; rewrite Forall_forall in F; auto]. change l' with (fst (l', n')). rewrite <- E. apply split_forall; [intros a Ha _; apply (mc_fit _ H a Ha)|].
    intros a t Ha Et k. destruct (mc_fit _ H a Ha) as (F1 & (P & A) & _). destruct (F1 t Et) as (Fo & Fr). destruct (nest_fields (cf (m_name m)) (m_name m) t Fo (k, [])) as (G1 & G2); [constructor|]. pose proof (nested_shape (m_name m) t (k, [])) as Sh. pose proof (nest_unfield (cf (m_name m)) (m_name m) (mc_inside m H) t (k, []) (k, []) (conj eq_refl eq_refl)) as (U & _).
    destruct (find_nested (m_name m) t (k, [])) as [t1 [k1 new]]. cbn [fst snd] in *. split.
    + split; [|split; [split; [exact P|]|discriminate]].
      * intros t0 [= <-]. split; [exact G1|]. intros d Ed. destruct t1 as [| | |d0 fs| | | | |d0]; try (cbn in Ed; discriminate Ed); [|exact Ed]. subst t. exact (Fr d Ed).
      * intros m0 r ps T. cbn [top_ref a_specific] in T. destruct t1; try discriminate T. injection T as ->. apply (A m0 r ps). unfold top_ref. rewrite Et, Sh. reflexivity.
    + eapply Forall_impl; [|exact G2]. intros [y u] (O1 & O2). cbn [snd type_assign fst] in *. split; [|split; [split; [reflexivity|]|discriminate]].
      * intros t0 [= <-]. split; [exact O1|]. intros d Ed. destruct u as [| | | | | | | |]; try (destruct (O2 eq_refl)); discriminate Ed.
      * intros m0 r ps T. cbn [top_ref a_specific] in T. destruct u; try discriminate T. destruct (O2 eq_refl).
  - exact (mc_imports _ H).
Qed.
Lemma split_all_declass tr n t1 : Forall may_declass tr -> (0 <= n)%Z -> split_modules tr n = Done t1 -> Forall can_declass t1 /\ map m_name t1 = map m_name tr.
Proof.
  intros F H0 E. pose proof (split_modules_facts tr n t1 H0 E) as G. clear E. induction G as [|m m' tr t1 (k & k' & l' & K1 & K2 & K3 & ->) _ IH]; [split; [constructor|reflexivity]|]. inversion F as [|? ? Fm Ft]; subst. destruct (IH Ft) as (I1 & I2). split.
  - constructor; [|exact I1]. eapply split_can_declass; eassumption.
  - cbn [map]. rewrite I2. reflexivity.
Qed.
(** *** The pass for COMPONENTS OF has nothing to do *)
Lemma fit_flat md a : fit md a -> flat_assign a.
Proof.
  intros (F & _). unfold flat_assign. destruct (a_specific a) as [[| | | | |[|] cs ext| | |]| | |] eqn:E; try exact I. destruct (F _ E) as (O & _). cbn [fields_ok] in O. unfold plain_cs. apply forallb_forall. intros c Hc. rewrite forallb_forall in O. specialize (O c Hc). destruct c as [n u o d [co|]]; [discriminate O|reflexivity].
Qed.
Lemma declassed_flat m : can_declass m -> Forall flat_assign (m_assigns (declassm m)).
Proof.
  intros C. cbn [declassm with_assigns m_assigns]. unfold declassed. apply Forall_map. apply Forall_forall. intros a Ha. apply filter_In in Ha as [Ha _]. destruct (cc_fit _ C a Ha) as (F & A). pose proof (fit_flat _ _ (conj F A)) as Fl. unfold flat_assign in *. rewrite on_type_eq. destruct (a_specific a) as [t|t v|fs|] eqn:E; cbn [a_specific]; rewrite ?E; try exact I.
  destruct t as [| | |d fs|alts|[|] cs ext| | |]; cbn [unfield]; try exact I.
  - change (match unfield (cf (m_name m)) (TField d fs) with TRecord false cs _ => plain_cs cs = true | _ => True end). destruct (unfield_field (cf (m_name m)) (m_name m) (fun c f u L => proj1 (cc_cf _ C c f u L)) d fs) as [->|(u & -> & _ & P & _)]; [exact I|]. destruct u as [| | | | |[|]| | |]; try exact I; discriminate P.
  - clear -Fl. unfold plain_cs in *. rewrite map_forallb. rewrite <- Fl. clear. induction cs as [|[n u o d co] cs IH]; [reflexivity|]. cbn [forallb]. rewrite IH. reflexivity.
Qed.
(** *** References *)
Lemma find_declassed md l r : (forall b, assign_named l r = Some b -> is_class b = false) -> assign_named (declassed (cf md) l) r = option_map (on_type (unfield (cf md))) (assign_named l r).
Proof.
  unfold assign_named, declassed. induction l as [|a l IH]; intros H; [reflexivity|]. cbn [find filter] in *. destruct (String.eqb (a_name a) r) eqn:E.
  - rewrite (H a eq_refl). cbn [negb map find]. rewrite on_type_name, E. reflexivity.
  - destruct (is_class a); cbn [negb map find]; [exact (IH H)|]. rewrite on_type_name, E. exact (IH H).
Qed.
Lemma can_separated t1 : Forall can_declass t1 -> separated classes t1.
Proof.
  intros F. rewrite Forall_forall in F. constructor.
  - intros m a Hm Ha. apply (cc_fit _ (F m Hm) a Ha).
  - intros m a Hm Ha. apply (cc_fit _ (F m Hm) a Ha).
  - intros m i x Hm. apply (cc_imports _ (F m Hm)).
Qed.
Lemma top_ref_unfield md a : fields_assign md a -> top_ref (on_type (unfield (cf md)) a) = top_ref a.
Proof.
  intros F. unfold top_ref. rewrite on_type_eq. destruct (a_specific a) as [t|t v|fs|] eqn:E; cbn [a_specific]; rewrite ?E; try reflexivity. destruct (F t E) as (_ & G). destruct (unfield (cf md) t) as [| | | | | | | |d] eqn:U; [..|rewrite (G d eq_refl); reflexivity]; destruct t; try reflexivity; discriminate U.
Qed.
Lemma declassed_separated t1 : Forall can_declass t1 -> separated classes (map declassm t1).
Proof.
  intros F. rewrite Forall_forall in F. constructor.
  - intros m' a' Hm Ha C. apply in_map_iff in Hm as (m & <- & Hm). cbn [declassm with_assigns m_assigns m_name] in *. unfold declassed in Ha. apply in_map_iff in Ha as (a & <- & Ha). apply filter_In in Ha as [Ha N]. exfalso. unfold is_class in *. rewrite on_type_eq in C. destruct (a_specific a) eqn:E; cbn [a_specific] in C; rewrite ?E in C; discriminate.
  - intros m' a' Hm Ha. apply in_map_iff in Hm as (m & <- & Hm). cbn [declassm with_assigns m_assigns m_name] in *. unfold declassed in Ha. apply in_map_iff in Ha as (a & <- & Ha). apply filter_In in Ha as [Ha N]. destruct (cc_fit _ (F m Hm) a Ha) as (F1 & (P & A) & _). split; [unfold on_type; destruct (a_specific a); exact P|]. rewrite (top_ref_unfield _ _ F1). exact A.
  - intros m' i x Hm. apply in_map_iff in Hm as (m & <- & Hm). apply (cc_imports _ (F m Hm)).
Qed.
Lemma ref_ok_declass t1 md a : Forall can_declass t1 -> fit md a -> ref_ok (map declassm t1) md (on_type (unfield (cf md)) a) = ref_ok t1 md a.
Proof.
  intros F (F1 & (P & A) & _). unfold ref_ok. rewrite (top_ref_unfield _ _ F1). destruct (top_ref a) as [[m r ps]|] eqn:T; [|reflexivity]. destruct (A m r ps eq_refl) as (A1 & _).
  assert (G : forall b, resolve t1 md (Defined m r ps) = Done b -> is_class b = false). { intros b Eb. destruct (is_class b) eqn:C; [|reflexivity]. destruct (A1 (resolve_class classes t1 md m r ps b (can_separated t1 F) Eb C)). }
  unfold resolve in *. rewrite module_named_change by reflexivity. destruct (module_named t1 (ref_module md m)) as [w|]; [|reflexivity]. cbn [option_map olift obind declassm with_assigns m_assigns] in *. rewrite find_declassed.
  - destruct (assign_named (m_assigns w) r); reflexivity.
  - intros b Eb. apply G. rewrite Eb. reflexivity.
Qed.
Lemma refs_ok_declass t1 : Forall can_declass t1 -> refs_ok (map declassm t1) = refs_ok t1.
Proof.
  intros F. unfold refs_ok. rewrite map_forallb. assert (X : forall l, incl l t1 -> forallb (fun m => forallb (ref_ok (map declassm t1) (m_name (declassm m))) (m_assigns (declassm m))) l = forallb (fun m => forallb (ref_ok t1 (m_name m)) (m_assigns m)) l); [|apply X, incl_refl].
  induction l as [|m l IH]; intros I; [reflexivity|]. cbn [forallb]. rewrite IH by (intros x Hx; apply I; right; exact Hx). f_equal. cbn [declassm with_assigns m_assigns m_name]. unfold declassed. rewrite map_forallb.
  assert (Cm : can_declass m) by (rewrite Forall_forall in F; apply F, I; left; reflexivity). pose proof (cc_fit _ Cm) as Ft. clear IH. induction (m_assigns m) as [|a as_ IH]; [reflexivity|]. cbn [filter forallb]. specialize (IH (fun x Hx => Ft x (or_intror Hx))). destruct (is_class a) eqn:C; cbn [negb forallb].
  - rewrite IH. assert (E : ref_ok t1 (m_name m) a = true) by (unfold ref_ok, top_ref; unfold is_class in C; destruct (a_specific a); try discriminate C; reflexivity). rewrite E. reflexivity.
  - rewrite IH, ref_ok_declass; [reflexivity|exact F|apply Ft; left; reflexivity].
Qed.
(** *** The pass *)
Lemma class_free_all t1 m : Forall can_declass t1 -> NoDup (map m_name t1) -> In m t1 -> omap (class_free t1 (m_name m)) (m_assigns m) = Done (map (on_type (unfield (cf (m_name m)))) (m_assigns m)).
Proof.
  intros F N Hm. assert (Cm : can_declass m) by (rewrite Forall_forall in F; auto). assert (G : forall c f u, cf (m_name m) c f = Some u -> field_type t1 (m_name m) (Defined None c []) [f] = Done u).
  { intros c f u L. destruct (cc_cf _ Cm c f u L) as (_ & fs & x & E1 & E2 & E3). unfold field_type, resolve. cbn [ref_module]. unfold module_named. rewrite (find_unique m_name t1 m N Hm). cbn [olift obind]. rewrite E1. cbn [olift obind a_specific]. rewrite E2, E3. reflexivity. }
  pose proof (cc_fit _ Cm) as Ft. induction (m_assigns m) as [|a l IH]; [reflexivity|]. cbn [omap map]. rewrite IH by (intros x Hx; apply Ft; right; exact Hx).
  enough (E : class_free t1 (m_name m) a = Done (on_type (unfield (cf (m_name m))) a)) by (rewrite E; reflexivity). unfold class_free. rewrite on_type_eq. destruct (a_specific a) as [t| | |] eqn:E; try reflexivity. destruct (Ft a (or_introl eq_refl)) as (F1 & _). rewrite (concrete_fields (cf (m_name m)) (m_name m)); [reflexivity|exact G|apply (F1 t E)].
Qed.
Lemma remove_all names t1 : incl names classes -> Forall can_declass t1 -> remove_object_classes (map (fun m => with_assigns m (map (on_type (unfield (cf (m_name m)))) (m_assigns m))) t1) names = map declassm t1.
Proof.
  intros I F. unfold remove_object_classes. rewrite map_map. apply map_ext_in. intros m Hm. assert (Cm : can_declass m) by (rewrite Forall_forall in F; auto). unfold declassm, with_assigns. cbn [m_name m_tagging m_imports m_assigns]. f_equal.
  - rewrite <- (map_id (m_imports m)) at 2. apply map_ext_in. intros i Hi. rewrite filter_all; [destruct i; reflexivity|]. intros x Hx. rewrite (mem_out classes); [reflexivity|exact I|apply (cc_imports _ Cm i x Hi Hx)].
  - unfold declassed. pose proof (cc_fit _ Cm) as Ft. induction (m_assigns m) as [|a l IH]; [reflexivity|]. cbn [map filter]. destruct (Ft a (or_introl eq_refl)) as (F1 & (P & A) & _).
    rewrite (removed_class classes); [|split; [unfold on_type; destruct (a_specific a); exact P|rewrite (top_ref_unfield _ _ F1); exact A]|exact I].
    assert (E : is_class (on_type (unfield (cf (m_name m))) a) = is_class a) by (unfold is_class; rewrite on_type_eq; destruct (a_specific a) eqn:Ea; cbn [a_specific]; rewrite ?Ea; reflexivity).
    rewrite E, IH by (intros x Hx; apply Ft; right; exact Hx). destruct (is_class a); reflexivity.
Qed.
Lemma classes_resolved t1 : Forall can_declass t1 -> NoDup (map m_name t1) -> resolve_object_classes (map declassm t1) = resolve_object_classes t1.
Proof.
  intros F N. unfold resolve_object_classes. rewrite (object_class_names_eq classes _ (declassed_separated t1 F)), (object_class_names_eq classes _ (can_separated t1 F)), refs_ok_declass by exact F. destruct (refs_ok t1); [|reflexivity]. cbn [obind].
  destruct (scan_all classes t1 [] (can_separated t1 F)) as (_ & I); [intros x []|].
  assert (E1 : omap (fun m => do l <- omap (class_free t1 (m_name m)) (m_assigns m); Done (with_assigns m l)) t1 = Done (map (fun m => with_assigns m (map (on_type (unfield (cf (m_name m)))) (m_assigns m))) t1)).
  { assert (X : forall l, incl l t1 -> omap (fun m => do l <- omap (class_free t1 (m_name m)) (m_assigns m); Done (with_assigns m l)) l = Done (map (fun m => with_assigns m (map (on_type (unfield (cf (m_name m)))) (m_assigns m))) l)); [|apply X, incl_refl].
    induction l as [|m l IH]; intros Il; [reflexivity|]. cbn [omap map]. rewrite class_free_all; [|exact F|exact N|apply Il; left; reflexivity]. cbn [obind]. rewrite IH by (intros x Hx; apply Il; right; exact Hx). reflexivity. }
  rewrite E1. cbn [obind]. rewrite (remove_all _ t1 I F). rewrite omap_same.
  - cbn [obind]. f_equal. rewrite noted_empty.
    + unfold remove_object_classes. rewrite <- (map_id (map declassm t1)) at 2. apply map_ext_in. intros m' Hm. pose proof (declassed_separated t1 F) as S. apply in_map_iff in Hm as (m & <- & Hm). transitivity (with_assigns (declassm m) (m_assigns (declassm m))); [|apply with_assigns_same]. unfold with_assigns at 1. f_equal.
      * rewrite <- (map_id (m_imports _)) at 2. apply map_ext. intros i. rewrite filter_all by reflexivity. destruct i; reflexivity.
      * apply filter_all. intros a Ha. rewrite removed_none; [reflexivity|]. cbn [declassm with_assigns m_assigns] in Ha. unfold declassed in Ha. apply in_map_iff in Ha as (a0 & <- & Ha). apply filter_In in Ha as [_ Ha]. unfold is_class in *. rewrite on_type_eq. destruct (a_specific a0) eqn:E; cbn [a_specific]; rewrite ?E; try reflexivity. discriminate Ha.
    + intros m' a' Hm Ha. apply in_map_iff in Hm as (m & <- & Hm). cbn [declassm with_assigns m_assigns] in Ha. unfold declassed in Ha. apply in_map_iff in Ha as (a0 & <- & Ha). apply filter_In in Ha as [_ Ha]. unfold is_class in *. rewrite on_type_eq. destruct (a_specific a0) eqn:E; cbn [a_specific]; rewrite ?E; try reflexivity. discriminate Ha.
  - apply Forall_map. apply Forall_forall. intros m Hm. assert (Cm : can_declass m) by (rewrite Forall_forall in F; auto). rewrite omap_same; [cbn [obind]; rewrite with_assigns_same; reflexivity|]. cbn [declassm with_assigns m_assigns m_name]. unfold declassed. apply Forall_map. apply Forall_forall. intros a Ha. apply filter_In in Ha as [Ha _].
    unfold class_free. rewrite on_type_eq. destruct (a_specific a) as [t| | |] eqn:E; cbn [a_specific]; rewrite ?E; try reflexivity. destruct (cc_fit _ Cm a Ha) as (F1 & _). rewrite (concrete_unfield (cf (m_name m)) (m_name m)); [reflexivity|intros c f u L; apply (cc_cf _ Cm c f u L)|apply (F1 t E)].
Qed.
Theorem later_passes_declass fuel tr : NoDup (map m_name tr) -> Forall may_declass tr -> later_passes fuel (map declassm tr) = later_passes fuel tr.
Proof.
  intros N F. unfold later_passes. rewrite (reorder_change declassm) by reflexivity. destruct (Frontend.reorder_modules fuel tr) as [o| | |] eqn:E; try reflexivity. cbn [obind].
  pose proof (reorder_modules_perm fuel tr o N E) as P. assert (Fo : Forall may_declass o) by (apply Forall_forall; intros m Hm; rewrite Forall_forall in F; apply F; eapply Permutation_in; [apply Permutation_sym, P|exact Hm]).
  assert (No : NoDup (map m_name o)) by (eapply Permutation_NoDup; [apply Permutation_map, P|exact N]). rewrite (split_declass o Fo). destruct (split_modules o 0) as [t1| | |] eqn:S; try reflexivity. cbn [obind].
  destruct (split_all_declass o 0 t1 Fo ltac:(lia) S) as (C1 & C2). unfold resolve_components_of. rewrite !(expand_tree_same _ []).
  - cbn [rev app obind]. rewrite classes_resolved; [reflexivity|exact C1|rewrite C2; exact No].
  - eapply Forall_impl; [|exact C1]. intros m Cm. apply Forall_forall. intros a Ha. apply (fit_flat _ _ (cc_fit _ Cm a Ha)).
  - apply Forall_map. eapply Forall_impl; [|exact C1]. intros m. apply declassed_flat.
Qed.
End Trees.

(** ** From sources to trees *)
Definition tree_cf (cs : list (string * list field)) (c f : string) : option type := match field_ty cs c f with Some u => if plain_field u then Some (fst (read_ty u 0%Z)) else None | None => None end.
Section Sources.
Context (cs : list (string * list field)).
Definition fields_read (cf : string -> string -> option type) (t : ParserSource.ty) : Prop := fields_in (fun c f => match cf c f with Some _ => true | None => false end) t = true -> forall n, fields_ok cf (fst (read_ty t n)) = true.
Lemma fields_in_ok cf : forall t, fields_read cf t.
Proof.
  induction t as [k0| | |r m|root more IH1 IH2|set root more IH1 IH2|set size name t IH|c k m t IH| |x t IH|c fs|t c IH] using ty_induct; intros H n; cbn [fields_in] in H; try reflexivity.
  - apply andb_true_iff in H as [H1 H2]. assert (H3 : forallb (fun e => fields_in (fun c f => match cf c f with Some _ => true | None => false end) (snd e)) (additions more) = true) by (destruct more; [exact H2|reflexivity]). rewrite read_choice_eq.
    assert (G : forall l, Forall (fun e => fields_read cf (snd e)) l -> forallb (fun e => fields_in (fun c f => match cf c f with Some _ => true | None => false end) (snd e)) l = true -> forall n, forallb (fun a => fields_ok cf (snd a)) (fst (thread read_named l n)) = true).
    { intros l F L k. apply forallb_forall, Forall_forall. apply thread_in. intros [y u] Hu j. rewrite forallb_forall in L. rewrite Forall_forall in F. specialize (F _ Hu (L _ Hu) j). unfold read_named. cbn [fst snd] in *. destruct (read_ty u j). exact F. }
    pose proof (G _ IH1 H1 n) as G1. destruct (thread read_named root n) as [r n1]. pose proof (G _ IH2 H3 n1) as G2. destruct (thread read_named (additions more) n1) as [r2 n2]. cbn [fst fields_ok] in *. rewrite forallb_app, G1, G2. reflexivity.
  - apply andb_true_iff in H as [H1 H2]. rewrite inserted_parts in IH2. apply Forall_app in IH2 as [IH2 IH3]. set (kn := fun c f => match cf c f with Some _ => true | None => false end) in *.
    assert (Hb' : forallb (fields_in_comp kn) (first_part more) = true /\ forallb (fields_in_comp kn) (second_part more) = true). { destruct more as [[l [l2|]]|]; cbn; auto. apply andb_true_iff in H2. exact H2. } destruct Hb' as [Hb1 Hb2]. rewrite read_record_eq.
    assert (G : forall l, Forall (in_comp (fields_read cf)) l -> forallb (fields_in_comp kn) l = true -> forall n, forallb (fields_okc cf) (fst (thread read_comp l n)) = true).
    { intros l F L k. apply forallb_forall, Forall_forall. apply thread_in. intros c Hc j. rewrite forallb_forall in L. rewrite Forall_forall in F. specialize (L _ Hc). specialize (F _ Hc). destruct c as [y u p|u p|u]; try discriminate L; cbn [in_comp fields_in_comp] in *; specialize (F L j); cbn [read_comp]; destruct (read_ty u j); exact F. }
    pose proof (G _ IH1 H1 n) as G1. destruct (thread read_comp root n) as [r n1]. pose proof (G _ IH2 Hb1 n1) as G2. destruct (thread read_comp (first_part more) n1) as [r2 n2]. pose proof (G _ IH3 Hb2 n2) as G3. destruct (thread read_comp (second_part more) n2) as [r3 n3]. cbn [fst] in *.
    cbn [fields_ok]. change (forallb (fields_okc cf) (r ++ r2 ++ r3) = true). rewrite !forallb_app, G1, G2, G3. reflexivity.
  - specialize (IH H n). cbn [read_ty]. destruct (read_ty t n). exact IH.
  - specialize (IH H n). cbn [read_ty]. destruct (read_ty t n). exact IH.
  - cbn [read_ty]. destruct (read_ty t n). reflexivity.
  - destruct fs as [|[b f] [|]]; try discriminate H. cbn [read_ty map snd fst fields_ok]. exact H.
  - exact (IH H n).
Qed.
Lemma unfield_none t : unfield (fun _ _ => None) t = t.
Proof.
  induction t as [| | |d0 fs|alts IH|set l ext IH|set n u IH|g kw u IH|d] using type_induct; try reflexivity; cbn [unfield].
  - destruct d0 as [[m|] c [|]], fs as [|f [|]]; reflexivity.
  - f_equal. rewrite <- (map_id alts) at 2. apply map_ext_in. intros [y u] Ha. rewrite Forall_forall in IH. specialize (IH _ Ha). cbn [fst snd] in *. rewrite IH. reflexivity.
  - f_equal. rewrite <- (map_id l) at 2. apply map_ext_in. intros [y u o d co] Ha. rewrite Forall_forall in IH. specialize (IH _ Ha). cbn beta iota in IH. rewrite IH. reflexivity.
  - rewrite IH. reflexivity.
  - rewrite IH. reflexivity.
Qed.
Lemma level_no_apply : forall t, level t = true -> forall n, no_apply (fst (read_ty t n)).
Proof.
  intros t H. apply unparameterized_no_apply. revert H. induction t as [k0| | |r m|root more IH1 IH2|set root more IH1 IH2|set size name t IH|c n m t IH| |x t IH| |t c IH] using ty_induct; cbn [level unparameterized]; intros H; try reflexivity; try discriminate H.
  - apply andb_true_iff in H as [H1 H2]. apply andb_true_iff. split; [|destruct more as [l|]; [|reflexivity]]; apply forallb_forall; rewrite Forall_forall in *; rewrite forallb_forall in *; auto.
  - assert (G : forall l, Forall (in_comp (fun t => level t = true -> unparameterized t = true)) l -> forallb level_comp l = true -> forallb unparameterized_comp l = true).
    { intros l F L. apply forallb_forall. intros [y u p|u p|u] Hc; rewrite forallb_forall in L; specialize (L _ Hc); try discriminate L. rewrite Forall_forall in F. specialize (F _ Hc). exact (F L). }
    rewrite inserted_parts in IH2. apply Forall_app in IH2 as [IH2 IH3]. apply andb_true_iff in H as [H1 H2]. rewrite (G _ IH1 H1). cbn [andb]. destruct more as [[l [l2|]]|]; [|apply G; assumption|reflexivity].
    apply andb_true_iff in H2 as [H2 H3]. cbn [first_part second_part] in *. rewrite (G _ IH2 H2), (G _ IH3 H3). reflexivity.
  - apply andb_true_iff in H as [_ H]. auto.
  - apply andb_true_iff in H as [_ H]. auto.
  - auto.
Qed.
Lemma plain_inside md u n : plain_field u = true -> nothing_inside md (fst (read_ty u n)).
Proof.
  intros H. unfold plain_field in H. apply andb_true_iff in H as [H H3]. apply andb_true_iff in H as [H1 H2]. apply negb_true_iff in H2. split; [apply level_fixed, H1|]. split; [apply no_prefix; assumption|]. split; [|apply level_no_apply, H1].
  intros tr m. rewrite (concrete_fields (fun _ _ => None) m tr); [rewrite unfield_none; reflexivity|discriminate|]. apply (fields_in_ok (fun _ _ => None)), H3.
Qed.
Lemma tree_cf_inside md c f u : tree_cf cs c f = Some u -> nothing_inside md u.
Proof. unfold tree_cf. destruct (field_ty cs c f) as [v|]; [|discriminate]. destruct (plain_field v) eqn:P; [|discriminate]. intros [= <-]. apply plain_inside, P. Qed.
Lemma known_cf c f : known_field cs c f = match tree_cf cs c f with Some _ => true | None => false end.
Proof. unfold known_field, tree_cf. destruct (field_ty cs c f) as [v|]; [|reflexivity]. destruct (plain_field v); reflexivity. Qed.
Definition reads_out (t : ParserSource.ty) : Prop := fields_in (known_field cs) t = true -> forall n, read_ty (fields_out cs t) n = (unfield (tree_cf cs) (fst (read_ty t n)), snd (read_ty t n)).
Lemma thread_out {A B} (f : A -> Z -> B * Z) (g : A -> A) (h : B -> B) l : Forall (fun x => forall n, f (g x) n = (h (fst (f x n)), snd (f x n))) l -> forall n, thread f (map g l) n = (map h (fst (thread f l n)), snd (thread f l n)).
Proof. induction 1 as [|x l Hx _ IH]; intros n; [reflexivity|]. cbn [map thread]. rewrite Hx. destruct (f x n) as [y n1]. cbn [fst snd]. rewrite IH. destruct (thread f l n1). reflexivity. Qed.
Lemma fields_out_read : forall t, reads_out t.
Proof.
  induction t as [k0| | |r m|root more IH1 IH2|set root more IH1 IH2|set size name t IH|c k m t IH| |x t IH|c fs|t c IH] using ty_induct; intros H n; cbn [fields_in] in H; try reflexivity.
  - apply andb_true_iff in H as [H1 H2]. assert (H3 : forallb (fun e => fields_in (known_field cs) (snd e)) (additions more) = true) by (destruct more; [exact H2|reflexivity]). cbn [fields_out]. rewrite !read_choice_eq.
    assert (Ea : additions (option_map (map (fun e : string * ParserSource.ty => (fst e, fields_out cs (snd e)))) more) = map (fun e => (fst e, fields_out cs (snd e))) (additions more)) by (destruct more; reflexivity). rewrite Ea.
    assert (G : forall l, Forall (fun e => reads_out (snd e)) l -> forallb (fun e => fields_in (known_field cs) (snd e)) l = true -> forall n, thread read_named (map (fun e => (fst e, fields_out cs (snd e))) l) n = (map (fun a => (fst a, unfield (tree_cf cs) (snd a))) (fst (thread read_named l n)), snd (thread read_named l n))).
    { intros l F L. apply thread_out. rewrite forallb_forall in L. rewrite Forall_forall in *. intros [y u] Hu j. specialize (F _ Hu (L _ Hu) j). unfold read_named. cbn [fst snd] in *. rewrite F. destruct (read_ty u j). reflexivity. }
    rewrite (G _ IH1 H1). destruct (thread read_named root n) as [r n1]. cbn [fst snd]. rewrite (G _ IH2 H3). destruct (thread read_named (additions more) n1) as [r2 n2]. cbn [fst snd unfield]. rewrite map_app. reflexivity.
  - apply andb_true_iff in H as [H1 H2]. rewrite inserted_parts in IH2. apply Forall_app in IH2 as [IH2 IH3].
    assert (Hb' : forallb (fields_in_comp (known_field cs)) (first_part more) = true /\ forallb (fields_in_comp (known_field cs)) (second_part more) = true). { destruct more as [[l [l2|]]|]; cbn; auto. apply andb_true_iff in H2. exact H2. } destruct Hb' as [Hb1 Hb2]. cbn [fields_out]. rewrite !read_record_eq.
    set (h := fields_out_comp cs). assert (Ea : first_part (option_map (fun m => (map h (fst m), option_map (map h) (snd m))) more) = map h (first_part more)) by (destruct more as [[? [?|]]|]; reflexivity).
    assert (Eb : second_part (option_map (fun m => (map h (fst m), option_map (map h) (snd m))) more) = map h (second_part more)) by (destruct more as [[? [?|]]|]; reflexivity).
    assert (Ec : is_some (option_map (fun m : list ParserSource.comp * option (list ParserSource.comp) => (map h (fst m), option_map (map h) (snd m))) more) = is_some more) by (destruct more as [[? [?|]]|]; reflexivity). rewrite Ea, Eb, Ec.
    assert (G : forall l, Forall (in_comp reads_out) l -> forallb (fields_in_comp (known_field cs)) l = true -> forall n, thread read_comp (map h l) n = (map (unfieldc (tree_cf cs)) (fst (thread read_comp l n)), snd (thread read_comp l n))).
    { intros l F L. apply thread_out. rewrite forallb_forall in L. rewrite Forall_forall in *. intros c Hc j. specialize (F _ Hc). specialize (L _ Hc). destruct c as [y u p|u p|u]; try discriminate L; cbn [in_comp fields_in_comp] in *; specialize (F L j); unfold h; cbn [fields_out_comp read_comp]; rewrite F; destruct (read_ty u j); reflexivity. }
    rewrite (G _ IH1 H1). destruct (thread read_comp root n) as [r n1]. cbn [fst snd]. rewrite (G _ IH2 Hb1). destruct (thread read_comp (first_part more) n1) as [r2 n2]. cbn [fst snd]. rewrite (G _ IH3 Hb2). destruct (thread read_comp (second_part more) n2) as [r3 n3]. cbn [fst snd unfield].
    change (fun c : component => match c with Comp n u o d co => Comp n (unfield (tree_cf cs) u) o d co end) with (unfieldc (tree_cf cs)). rewrite !map_app. reflexivity.
  - specialize (IH H n). cbn [fields_out read_ty]. rewrite IH. destruct (read_ty t n). reflexivity.
  - specialize (IH H n). cbn [fields_out read_ty]. rewrite IH. destruct (read_ty t n). reflexivity.
  - cbn [fields_out read_ty]. destruct (read_ty t n). reflexivity.
  - destruct fs as [|[b f] [|]]; try discriminate H. cbn [fields_out read_ty map snd fst unfield]. unfold known_field, tree_cf in *. destruct (field_ty cs c f) as [u|] eqn:E; [|discriminate H]. rewrite H.
    assert (L : all_named u = true) by (apply level_all_named; unfold plain_field in H; apply andb_true_iff in H as [H _]; apply andb_true_iff in H as [H _]; exact H). pose proof (all_named_steady u L n 0%Z) as (S1 & S2). rewrite <- S1. destruct (read_ty u n). cbn [fst snd] in *. rewrite S2. reflexivity.
  - exact (IH H n).
Qed.
Lemma reference_read : forall t n, match fst (read_ty t n) with TRef (Defined m x _) => reference t = Some (m, x) | _ => reference t = None end.
Proof.
  induction t as [k0| | |r m|root more IH1 IH2|set root more IH1 IH2|set size name t IH|c k m t IH| |x t IH|c fs|t c IH] using ty_induct; intros n; try reflexivity.
  - rewrite read_choice_eq. destruct (thread read_named root n) as [? n1]. destruct (thread read_named (additions more) n1). reflexivity.
  - rewrite read_record_eq. destruct (thread read_comp root n) as [? n1]. destruct (thread read_comp (first_part more) n1) as [? n2]. destruct (thread read_comp (second_part more) n2). reflexivity.
  - cbn [read_ty]. destruct (read_ty t n). reflexivity.
  - cbn [read_ty]. destruct (read_ty t n). reflexivity.
  - cbn [read_ty]. destruct (read_ty t n). reflexivity.
  - apply IH.
Qed.
End Sources.

(** ** Modules *)
Lemma fields_in_ext k k' : (forall c f, k c f = k' c f) -> forall t, fields_in k t = fields_in k' t.
Proof.
  intros E. induction t as [k0| | |r m|root more IH1 IH2|set root more IH1 IH2|set size name t IH|c n m t IH| |x t IH|c fs|t c IH] using ty_induct; cbn [fields_in]; try reflexivity; try exact IH.
  - assert (G : forall l, Forall (fun e => fields_in k (snd e) = fields_in k' (snd e)) l -> forallb (fun e : string * ParserSource.ty => fields_in k (snd e)) l = forallb (fun e => fields_in k' (snd e)) l) by (induction 1 as [|e l He _ IH]; [reflexivity|]; cbn [forallb]; rewrite He, IH; reflexivity).
    rewrite (G root IH1). destruct more as [l|]; [rewrite (G l IH2)|]; reflexivity.
  - assert (G : forall l, Forall (in_comp (fun t => fields_in k t = fields_in k' t)) l -> forallb (fields_in_comp k) l = forallb (fields_in_comp k') l) by (induction 1 as [|e l He _ IH]; [reflexivity|]; cbn [forallb]; rewrite IH; f_equal; destruct e; cbn in *; auto).
    rewrite (G root IH1). rewrite inserted_parts in IH2. apply Forall_app in IH2 as [A B]. destruct more as [[l [l2|]]|]; cbn [first_part second_part] in A, B; try reflexivity; rewrite (G l A); [rewrite (G l2 B)|]; reflexivity.
  - destruct fs as [|[b f] [|]]; try reflexivity. apply E.
Qed.
Definition source_cf (l : list source) (md : string) : string -> string -> option type :=
  match find (fun s => String.eqb (s_name s) md) l with Some s => tree_cf (class_decls s) | None => fun _ _ => None end.
Lemma source_cf_eq l s : NoDup (map s_name l) -> In s l -> source_cf l (s_name s) = tree_cf (class_decls s).
Proof. intros N H. unfold source_cf. rewrite (find_unique s_name l s N H). reflexivity. Qed.
Definition wf_class_decl (cs : list (string * list field)) (d : decl) : bool :=
  match d with
  | DType _ [] t => fields_in (known_field cs) t && same_reference cs t
  | DType _ (_ :: _) _ => false
  | DValue _ _ _ => true
  | DClass _ fs => forallb (fun f => match f with FType _ _ => true | FValue _ t _ _ => all_named t end) fs
  end.
Definition field0 (f : field) : class_field := match f with FType x _ => ClassField x None | FValue x t _ _ => ClassField x (Some (fst (read_ty t 0%Z))) end.
Lemma fields_steady fs : forallb (fun f => match f with FType _ _ => true | FValue _ t _ _ => all_named t end) fs = true -> forall n, thread read_field fs n = (map field0 fs, n).
Proof.
  induction fs as [|f fs IH]; intros H n; [reflexivity|]. cbn [forallb] in H. apply andb_true_iff in H as [H1 H2]. cbn [thread map].
  assert (E : read_field f n = (field0 f, n)).
  { destruct f as [x o|x t o d]; [reflexivity|]. cbn [read_field field0]. destruct (all_named_steady t H1 n 0%Z) as (E1 & E2). destruct (read_ty t n) as [u k]. cbn [fst snd] in *. subst. reflexivity. }
  rewrite E, (IH H2). reflexivity.
Qed.
Lemma classless_decls cs ds : forallb (wf_class_decl cs) ds = true -> forall n,
  thread read_decl (flat_map (classless_decl cs) ds) n = (declassed (tree_cf cs) (fst (thread read_decl ds n)), snd (thread read_decl ds n)).
Proof.
  induction ds as [|d ds IH]; intros H n; [reflexivity|]. cbn [forallb] in H. apply andb_true_iff in H as [H1 H2]. cbn [flat_map thread].
  destruct d as [x [|p ps] t|x t v|x fs]; cbn [wf_class_decl classless_decl app thread read_decl] in *; try discriminate H1.
  - apply andb_true_iff in H1 as [H1 _]. rewrite (fields_out_read cs t H1 n). destruct (read_ty t n) as [u n1]. cbn [fst snd]. rewrite (IH H2 n1). destruct (thread read_decl ds n1). reflexivity.
  - destruct (read_ty t n) as [u n1]. rewrite (IH H2 n1). destruct (thread read_decl ds n1). reflexivity.
  - rewrite (fields_steady fs H1 n). rewrite (IH H2 n). destruct (thread read_decl ds n). reflexivity.
Qed.
Lemma declassed_rev cf l : declassed cf (rev l) = rev (declassed cf l).
Proof.
  unfold declassed. induction l as [|a l IH]; [reflexivity|]. cbn [rev filter]. rewrite filter_app, map_app, IH. cbn [filter]. destruct (is_class a); cbn [negb map rev app]; [apply app_nil_r|reflexivity].
Qed.
Lemma classless_source_read l s n : NoDup (map s_name l) -> In s l -> well_classed s = true ->
  read_source (classless_source s) n = (declassm (source_cf l) (fst (read_source s n)), snd (read_source s n)).
Proof.
  intros N Hs H. unfold read_source. cbn [classless_source s_decls s_name s_tags s_imports]. rewrite (classless_decls _ _ H). destruct (thread read_decl (s_decls s) n) as [as_ n1]. cbn [fst snd].
  unfold declassm, with_assigns. cbn [m_name m_tagging m_imports m_assigns]. rewrite (source_cf_eq l s N Hs), declassed_rev. reflexivity.
Qed.
Lemma classless_tree l0 l : NoDup (map s_name l0) -> incl l l0 -> forallb well_classed l = true -> forall n,
  fst (thread read_source (map classless_source l) n) = map (declassm (source_cf l0)) (fst (thread read_source l n)).
Proof.
  intros N. induction l as [|s l IH]; intros I H n; [reflexivity|]. cbn [forallb] in H. apply andb_true_iff in H as [H1 H2]. cbn [map thread]. rewrite (classless_source_read l0 s n N (I s (or_introl eq_refl)) H1). destruct (read_source s n) as [m n1]. cbn [fst snd].
  specialize (IH (fun x Hx => I x (or_intror Hx)) H2 n1). destruct (thread read_source (map classless_source l) n1), (thread read_source l n1). cbn [fst map] in *. rewrite IH. reflexivity.
Qed.
Lemma field_ty_in s c f u : field_ty (class_decls s) c f = Some u -> exists fs o d, In (DClass c fs) (s_decls s) /\ find (fun x => String.eqb (field_called x) f) fs = Some (FValue f u o d).
Proof.
  intros H. unfold field_ty in H. destruct (find _ (class_decls s)) as [[x fs]|] eqn:F; [|discriminate H]. apply find_some in F as [F Ex]. apply String.eqb_eq in Ex. cbn [fst] in Ex. subst x.
  destruct (find _ fs) as [[|y t o d]|] eqn:G; try discriminate H. injection H as ->. exists fs, o, d. split; [|apply find_some in G as G'; destruct G' as [_ Ey]; apply String.eqb_eq in Ey; cbn in Ey; subst y; exact G].
  apply in_flat_map in F as (d0 & Hd & F). destruct d0; try (destruct F; fail). destruct F as [F|[]]. injection F as -> ->. exact Hd.
Qed.
Lemma find_field0 fs f x : find (fun x => String.eqb (field_called x) f) fs = Some x -> find (fun x => String.eqb (f_name x) f) (map field0 fs) = Some (field0 x).
Proof.
  induction fs as [|y fs IH]; intros H; [discriminate H|]. cbn [find map] in *. replace (f_name (field0 y)) with (field_called y) by (destruct y; reflexivity). destruct (String.eqb (field_called y) f); [congruence|auto].
Qed.
Lemma full_out l x : existsb (String.eqb x) (full_class_names l) = false -> ~ In x (full_class_names l).
Proof. intros H I. enough (existsb (String.eqb x) (full_class_names l) = true) by congruence. apply existsb_exists. exists x. split; [exact I|apply String.eqb_refl]. Qed.
Lemma sources_may_declass l : well_named l -> (forall s x, In s l -> In x (names_of s) -> ~ made_up x) -> forallb well_classed l = true -> no_class_references l = true ->
  Forall (may_declass (source_cf l) (full_class_names l)) (fst (thread read_source l 0%Z)).
Proof.
  intros (N & Nn) M H R. apply Forall_forall. intros m Hm. destruct (Forall2_in_r _ _ _ _ (thread_Forall2 read_source l 0%Z) Hm) as (s & Hs & k & ->). rewrite forallb_forall in H. specialize (H s Hs). assert (Ms : module_of s (fst (read_source s k))) by (exists k; reflexivity). pose proof (with_imports_names s _ Ms) as P.
  assert (Ref : forall x, In x (referred s) -> ~ In x (full_class_names l)).
  { intros x Hx. apply full_out. unfold no_class_references in R. rewrite forallb_forall in R. specialize (R s Hs). rewrite forallb_forall in R. specialize (R x Hx). apply negb_true_iff, R. }
  assert (RefI : forall i x, In i (additions (s_imports s)) -> In x (i_types (read_import i)) -> ~ In (qualified (i_module (read_import i)) x) (full_class_names l) /\ ~ In (qualified (s_name s) x) (full_class_names l)).
  { intros [[names md] oid] x Hi Hx. cbn [read_import i_types i_module] in *. apply in_map_iff in Hx as ([b y] & E & Hx). cbn [snd] in E. subst y. unfold referred in Ref.
    split; apply Ref; apply in_or_app; right; apply in_flat_map; exists (names, md, oid); (split; [exact Hi|]); apply in_flat_map; exists (b, x); (split; [exact Hx|]); cbn; auto. }
  assert (HH : forall d, In d (s_decls s) -> wf_class_decl (class_decls s) d = true) by (intros d Hd; unfold well_classed in H; rewrite forallb_forall in H; exact (H d Hd)).
  constructor.
  - rewrite (module_of_name s _ Ms), (source_cf_eq l s N Hs). intros c f u L. split; [apply (tree_cf_inside _ _ _ _ _ L)|]. unfold tree_cf in L. destruct (field_ty (class_decls s) c f) as [u0|] eqn:F; [|discriminate L]. destruct (plain_field u0); [|discriminate L]. injection L as <-.
    destruct (field_ty_in s c f u0 F) as (fs & o & d & I & G). exists (map field0 fs), (field0 (FValue f u0 o d)). split; [|split; [apply find_field0, G|reflexivity]].
    rewrite module_of_eq. cbn [m_assigns]. apply -> in_rev. destruct (Forall2_in_l _ _ _ _ (thread_Forall2 read_decl (s_decls s) k) I) as (a & Ha & j & ->). cbn [read_decl] in Ha. rewrite (fields_steady fs (HH _ I)) in Ha. exact Ha.
  - rewrite (module_of_name s _ Ms). intros a Ha. rewrite import_assigns in Ha. apply in_app_or in Ha as [Ha|Ha].
    + rewrite module_of_eq in Ha. cbn [m_assigns] in Ha. apply in_rev in Ha. destruct (Forall2_in_r _ _ _ _ (thread_Forall2 read_decl (s_decls s) k) Ha) as (d & Hd & j & ->). specialize (HH d Hd).
      assert (Q : forall t m x, In x (match d with DType _ _ t | DValue _ t _ => [t] | DClass _ _ => [] end) -> x = t -> forall r, reference t = Some (m, r) -> ~ In (qualified (ref_module (s_name s) m) r) (full_class_names l) /\ ~ In (qualified (s_name s) r) (full_class_names l)).
      { intros t m x Ht -> r E. unfold referred in Ref. split; apply Ref; apply in_or_app; left; apply in_flat_map; exists d; (split; [exact Hd|]); destruct d; try (destruct Ht; fail); destruct Ht as [<-|[]]; rewrite E; cbn; auto. }
      destruct d as [x [|p ps] t|x t v|x fs]; cbn [read_decl thread wf_class_decl] in *; try discriminate HH.
      * apply andb_true_iff in HH as [H1 H2]. pose proof (fields_out_read (class_decls s) t H1 j) as E. pose proof (reference_read t j) as Rt. pose proof (reference_read (fields_out (class_decls s) t) j) as Ro. rewrite E in Ro. cbn [fst] in Ro.
        assert (Ok : fields_ok (tree_cf (class_decls s)) (fst (read_ty t j)) = true).
        { apply fields_in_ok. refine (eq_trans _ H1). apply fields_in_ext. intros c f. symmetry. apply known_cf. }
        destruct (read_ty t j) as [u n1]. cbn [fst snd] in *. split; [|split].
        -- intros u0 [= <-]. rewrite (source_cf_eq l s N Hs). split; [exact Ok|]. intros [m0 x0 ps0] Eu. rewrite Eu in Ro. unfold same_reference in H2. rewrite Ro in H2. destruct u; try (rewrite Rt in H2; discriminate H2); cbn in Eu; congruence.
        -- split; [reflexivity|]. intros m0 r ps0 T. unfold top_ref in T. cbn [a_specific] in T. destruct u; try discriminate T. injection T as ->. apply (Q t m0 t (or_introl eq_refl) eq_refl r Rt).
        -- intros C; discriminate C.
      * pose proof (reference_read t j) as Rt. destruct (read_ty t j) as [u n1]. cbn [fst snd] in *. split; [intros u0 C; discriminate C|split; [|intros C; discriminate C]].
        split; [reflexivity|]. intros m0 r ps0 T. unfold top_ref in T. cbn [a_specific] in T. destruct u; try discriminate T. injection T as ->. apply (Q t m0 t (or_introl eq_refl) eq_refl r Rt).
      * rewrite (fields_steady fs HH). cbn [fst]. split; [intros u0 C; discriminate C|split; [split; [reflexivity|intros m0 r ps0 C; discriminate C]|]]. intros _. cbn [a_name].
        apply in_flat_map. exists s. split; [exact Hs|]. apply in_map_iff. exists (x, fs). split; [reflexivity|]. apply in_flat_map. exists (DClass x fs). split; [exact Hd|left; reflexivity].
    + apply in_flat_map in Ha as (i & Hi & Ha). apply in_map_iff in Ha as (x & <- & Hx). rewrite module_of_eq in Hi. cbn [m_imports] in Hi.
      assert (Hi' : exists i0, In i0 (additions (s_imports s)) /\ i = read_import i0) by (destruct (s_imports s) as [il|]; [apply in_map_iff in Hi as (i0 & <- & Hi); exists i0; split; [exact Hi|reflexivity]|destruct Hi]). destruct Hi' as (i0 & Hi0 & ->).
      split; [|split].
      * intros t [= <-]. split; [reflexivity|auto].
      * split; [reflexivity|]. intros m0 r ps0 [= <- <- <-]. apply (RefI i0 x Hi0 Hx).
      * intros C; discriminate C.
  - intros i x Hi Hx. rewrite module_of_eq in Hi. cbn [m_imports] in Hi.
    assert (Hi' : exists i0, In i0 (additions (s_imports s)) /\ i = read_import i0) by (destruct (s_imports s) as [il|]; [apply in_map_iff in Hi as (i0 & <- & Hi); exists i0; split; [exact Hi|reflexivity]|destruct Hi]). destruct Hi' as (i0 & Hi0 & ->). apply (RefI i0 x Hi0 Hx).
  - split.
    + eapply Permutation_NoDup; [apply Permutation_sym, P|auto].
    + intros x Hx. apply (M s x Hs). eapply Permutation_in; eassumption.
Qed.
Lemma done_declassm cf classes m : may_declass cf classes m -> done_module m -> done_module (declassm cf m).
Proof.
  intros H D. unfold done_module in *. cbn [declassm with_assigns m_assigns]. unfold declassed. apply Forall_map. rewrite Forall_forall in D. apply Forall_forall. intros a Ha. apply filter_In in Ha as [Ha _]. specialize (D a Ha) as Da. unfold on_type. destruct (a_specific a) as [t| | |] eqn:E; try exact Da.
  destruct Da as (T & Dc). split; [exact T|]. intros tr md. unfold concrete. cbn [a_specific]. change (is_template (Assign _ _ (a_parameters a))) with (is_template a). rewrite T.
  pose proof (unfield_no_apply (cf (m_name m)) (m_name m) (mc_inside _ _ m H) t (done_no_apply a t (D a Ha) E)) as N. rewrite N. reflexivity.
Qed.
Theorem passes_classless l : well_named l -> (forall s x, In s l -> In x (names_of s) -> ~ made_up x) -> forallb well_classed l = true -> no_class_references l = true -> Forall done_module (fst (thread read_source l 0%Z)) ->
  forall fuel, passes fuel (fst (thread read_source l 0%Z)) = passes fuel (fst (thread read_source (map classless_source l) 0%Z)).
Proof.
  intros W M H R D fuel. pose proof (sources_may_declass l W M H R) as Y. rewrite (classless_tree l l (proj1 W) (incl_refl _) H). set (tr := fst (thread read_source l 0%Z)) in *. unfold passes. rewrite (done_parameters tr D). cbn [obind].
  rewrite (done_parameters (map (declassm (source_cf l)) tr)); [cbn [obind]; symmetry; eapply later_passes_declass; [unfold tr; rewrite tree_names; apply W|exact Y]|]. apply Forall_map. rewrite Forall_forall in *. intros m Hm. eapply done_declassm; auto.
Qed.
(** ** After parameters and COMPONENTS OF *)
Lemma filled_done l : well_named l -> (forall s x, In s l -> In x (names_of s) -> ~ made_up x) -> forallb well_filled_source l = true -> Forall done_module (fst (thread read_source l 0%Z)) -> Forall done_module (fst (thread read_source (map filled_source l) 0%Z)).
Proof.
  intros W M H D. pose proof (sources_may l W M H) as Y. rewrite (filled_tree l l (proj1 W) (incl_refl _) H). apply Forall_map. rewrite Forall_forall in *. intros m Hm. apply done_inl; auto.
Qed.
Lemma filled_well_named l : well_named l -> well_named (map filled_source l).
Proof. intros (N & H). split; [rewrite map_map; exact N|]. intros s Hs. apply in_map_iff in Hs as (s0 & <- & Hs). rewrite filled_names. auto. Qed.
Theorem passes_all_out l : well_named l -> forallb well_parameterized l = true -> let l1 := map written_out_source l in forallb well_filled_source l1 = true -> let l2 := map filled_source l1 in forallb well_classed l2 = true -> no_class_references l2 = true ->
  (forall s x, In s l1 -> In x (names_of s) -> ~ made_up x) ->
  forall fuel, passes fuel (fst (thread read_source l 0%Z)) = passes fuel (fst (thread read_source (map classless_source l2) 0%Z)).
Proof.
  intros W H l1 F l2 C R M fuel. assert (M1 : forall s x, In s l -> In x (names_of (written_out_source s)) -> ~ made_up x) by (intros s x Hs; apply M, in_map, Hs). rewrite (passes_written_out_filled l W H F M1 fuel).
  assert (W1 : well_named l1) by (apply written_out_well_named, W). apply passes_classless.
  - apply filled_well_named, W1.
  - intros s x Hs. apply in_map_iff in Hs as (s0 & <- & Hs). rewrite filled_names. apply M, Hs.
  - exact C.
  - exact R.
  - apply filled_done; try assumption. apply written_out_done; assumption.
Qed.
