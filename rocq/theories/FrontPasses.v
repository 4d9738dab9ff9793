(** What the passes of Frontend.v keep of a tree without classes: the types that refer to nothing special. *)
From Coq Require Import List String ZArith Bool Permutation Lia.
From Verif Require Import Base CompilerNames CompilerTree CompilerPasses Ident View Prims Schema ParserTree ParserFile Compiler Elab ElabProofs Frontend FrontOrder FrontNest PassesSpec PassNest.
From Verif Require Import Frontend FrontNest ParserTree Elab.
Import ListNotations.
Local Open Scope string_scope.
Local Open Scope list_scope.

(** ** Assignments *)
(** One assignment before and after a pass that does not touch simple types. *)
Definition kept (a a' : assignment) : Prop := a_name a' = a_name a /\ is_class a' = is_class a /\
  forall t, a_specific a = AType t -> simple_type t = true -> a' = a.
Lemma kept_refl a : kept a a. Proof. split; [reflexivity|]. split; [reflexivity|]. intros; reflexivity. Qed.
Lemma kept_trans a b c : kept a b -> kept b c -> kept a c.
Proof.
  intros (N1 & C1 & H1) (N2 & C2 & H2). split; [congruence|]. split; [congruence|]. intros t E S. specialize (H1 t E S). subst b. apply (H2 t E S).
Qed.
Lemma omap_same {A} (f : A -> out A) l : Forall (fun x => f x = Done x) l -> omap f l = Done l.
Proof. induction 1 as [|x l H _ IH]; [reflexivity|]. cbn [omap]. rewrite H. cbn [obind]. rewrite IH. reflexivity. Qed.
Lemma forallb_Forall {A} (p : A -> bool) l : forallb p l = true -> Forall (fun x => p x = true) l.
Proof. rewrite Forall_forall. apply forallb_forall. Qed.
Lemma Forall_both {A} (P Q R : A -> Prop) l : (forall x, P x -> Q x -> R x) -> Forall P l -> Forall Q l -> Forall R l.
Proof. intros H F. induction F; intros G; inversion G; subst; constructor; auto. Qed.
Lemma to_concrete_simple tr md t : simple_type t = true -> to_concrete tr md t = Done t.
Proof.
  induction t as [| | | |alts IH|set cs ext IH|set n u IH|g kw u IH|[mo r args]] using type_induct; cbn [simple_type to_concrete]; intros S; try reflexivity.
  - apply forallb_Forall in S. rewrite omap_same; [reflexivity|]. eapply Forall_both; [|exact IH|exact S]. intros [x u] H1 H2. cbn [fst snd] in *. rewrite (H1 H2). reflexivity.
  - apply forallb_Forall in S. rewrite omap_same; [reflexivity|]. eapply Forall_both; [|exact IH|exact S]. intros [x u o d co] H1 H2. apply andb_prop in H2 as (H2 & _). rewrite (H1 H2). reflexivity.
  - rewrite (IH S). reflexivity.
  - rewrite (IH S). reflexivity.
  - destruct args; [reflexivity|discriminate].
Qed.
Lemma classes_simple tr md t : simple_type t = true -> classes_to_concrete tr md t = Done t.
Proof.
  induction t as [| | | |alts IH|set cs ext IH|set n u IH|g kw u IH|[mo r args]] using type_induct; cbn [simple_type classes_to_concrete]; intros S; try reflexivity.
  - discriminate.
  - apply forallb_Forall in S. rewrite omap_same; [reflexivity|]. eapply Forall_both; [|exact IH|exact S]. intros [x u] H1 H2. cbn [fst snd] in *. rewrite (H1 H2). reflexivity.
  - apply forallb_Forall in S. rewrite omap_same; [reflexivity|]. eapply Forall_both; [|exact IH|exact S]. intros [x u o d co] H1 H2. apply andb_prop in H2 as (H2 & _). rewrite (H1 H2). reflexivity.
  - rewrite (IH S). reflexivity.
  - rewrite (IH S). reflexivity.
Qed.
Lemma concrete_kept tr md a a' : concrete tr md a = Done a' -> kept a a'.
Proof.
  destruct a as [x [t| | |] ps]; unfold concrete; cbn [a_specific]; intros E; try (injection E as <-; apply kept_refl).
  destruct (is_template _); [injection E as <-; apply kept_refl|]. apply obind_ok in E as (t' & E1 & E). injection E as <-. split; [reflexivity|]. split; [reflexivity|].
  intros t0 [= <-] S. rewrite (to_concrete_simple tr md t S) in E1. injection E1 as <-. reflexivity.
Qed.
Lemma class_free_kept tr md a a' : class_free tr md a = Done a' -> kept a a'.
Proof.
  destruct a as [x [t| | |] ps]; unfold class_free; cbn [a_specific]; intros E; try (injection E as <-; apply kept_refl).
  apply obind_ok in E as (t' & E1 & E). injection E as <-. split; [reflexivity|]. split; [reflexivity|].
  intros t0 [= <-] S. rewrite (classes_simple tr md t S) in E1. injection E1 as <-. reflexivity.
Qed.
Lemma expand_comps_none tr md name cs : forall cs', forallb (fun c => negb (is_comp_of c)) cs = true -> expand_comps tr md name cs = Done cs' -> cs' = cs.
Proof.
  induction cs as [|[x u o d [co|]] cs IH]; intros cs' S E; cbn in *; [congruence|discriminate|]. apply obind_ok in E as (r & E1 & E). injection E as <-. rewrite (IH r S E1). reflexivity.
Qed.
Lemma expand_assign_kept tr md a a' : expand_assign tr md a = Done a' -> kept a a'.
Proof.
  destruct a as [x [[| | | | |[|] cs ext| | |]| | |] ps]; unfold expand_assign; cbn [a_specific]; intros E; try (injection E as <-; apply kept_refl).
  apply obind_ok in E as (cs' & E1 & E). injection E as <-. split; [reflexivity|]. split; [reflexivity|]. intros t [= <-] S. f_equal. f_equal. f_equal. eapply expand_comps_none; [|exact E1].
  clear -S. cbn [simple_type] in S. induction cs as [|[? ? ? ? co] cs IH]; [reflexivity|]. cbn in *. apply andb_prop in S as (S1 & S2). rewrite (IH S2). apply andb_prop in S1 as (_ & S1). destruct co; [discriminate|reflexivity].
Qed.

(** ** Modules *)
Definition kept_module (m m' : module) : Prop := m_name m' = m_name m /\ m_tagging m' = m_tagging m /\ Forall2 kept (m_assigns m) (m_assigns m').
Lemma Forall2_kept_trans l l1 l2 : Forall2 kept l l1 -> Forall2 kept l1 l2 -> Forall2 kept l l2.
Proof. intros F. revert l2. induction F as [|a b l l1 H F IH]; intros l2 G; inversion G; subst; constructor; eauto using kept_trans. Qed.
Lemma Forall2_refl {A} (R : A -> A -> Prop) l : (forall x, R x x) -> Forall2 R l l. Proof. intros H. induction l; constructor; auto. Qed.
Lemma expand_module_kept before m after : forall todo done_ l, expand_module before m done_ todo after = Done l -> exists l2, l = rev done_ ++ l2 /\ Forall2 kept todo l2.
Proof.
  induction todo as [|a todo IH]; intros done_ l E; cbn [expand_module] in E.
  - injection E as <-. exists []. rewrite app_nil_r. split; [reflexivity|constructor].
  - apply obind_ok in E as (a' & E1 & E). apply IH in E as (l2 & -> & F). exists (a' :: l2). cbn [rev]. rewrite <- app_assoc. split; [reflexivity|]. constructor; [eapply expand_assign_kept, E1|exact F].
Qed.
Lemma expand_tree_kept : forall after before tr', expand_tree before after = Done tr' -> exists l, tr' = rev before ++ l /\ Forall2 kept_module after l.
Proof.
  induction after as [|m after IH]; intros before tr' E; cbn [expand_tree] in E.
  - injection E as <-. exists []. rewrite app_nil_r. split; [reflexivity|constructor].
  - apply obind_ok in E as (l & E1 & E). apply expand_module_kept in E1 as (l2 & E1 & F1). apply IH in E as (r & -> & F). exists (with_assigns m l :: r). cbn [rev]. rewrite <- app_assoc. split; [reflexivity|].
    constructor; [|exact F]. split; [reflexivity|]. split; [reflexivity|]. cbn. rewrite E1. exact F1.
Qed.
Definition no_classes (tr : list module) : Prop := forall m a, In m tr -> In a (m_assigns m) -> is_class a = false.
Lemma scan_assign_none tr md a s : no_classes tr -> is_class a = false -> scan_assign tr md [] a = Done s -> s = [].
Proof.
  intros H Ha K. unfold scan_assign in K.
  assert (B : forall mo r ps (b : bool), (if b then Done [] else do b <- resolve tr md (Defined mo r ps); Done (if is_class b || mem (qualified md r) [] then add (qualified md (a_name a)) [] else [])) = Done s -> s = []).
  { intros mo r ps [|] K2; [congruence|]. apply obind_ok in K2 as (b & K2 & K3). cbn [mem existsb] in K3. enough (is_class b = false) as Hb by (rewrite Hb in K3; cbn in K3; congruence).
    unfold resolve in K2. apply obind_ok in K2 as (m1 & K4 & K2). unfold olift in *. destruct (module_named tr _) eqn:Em; [|discriminate]. injection K4 as <-. destruct (assign_named _ r) eqn:Ea; [|discriminate]. injection K2 as <-.
    apply (find_by m_name) in Em as (_ & Em). apply (find_by a_name) in Ea as (_ & Ea). exact (H _ _ Em Ea). }
  destruct a as [x [t|t v|fs|] ps]; cbn [a_specific a_parameters a_name] in *.
  - destruct t; try congruence. destruct d. eapply B, K.
  - destruct t; try congruence. destruct d. eapply B, K.
  - discriminate Ha.
  - congruence.
Qed.
Lemma fold_same {A S} (f : S -> A -> S) s l : (forall x, f s x = s) -> fold_left f l s = s.
Proof. intros H. induction l as [|x l IH]; [reflexivity|]. cbn. rewrite H. exact IH. Qed.
Lemma scan_none tr : no_classes tr -> forall s, scan tr [] = Done s -> s = [].
Proof.
  intros H s E. unfold scan in E. apply obind_ok in E as (s1 & E1 & E). injection E as <-.
  assert (A : forall l s0, incl l tr -> ofold (fun s m => ofold (scan_assign tr (m_name m)) (m_assigns m) s) l [] = Done s0 -> s0 = []).
  { induction l as [|m l IH]; intros s0 I K; cbn in K; [congruence|]. apply obind_ok in K as (s2 & K1 & K).
    enough (s2 = []) by (subst; apply IH; [intros x Hx; apply I; right; exact Hx|exact K]). clear K IH s0.
    assert (B : incl (m_assigns m) (m_assigns m)) by apply incl_refl. revert K1 B. generalize (m_assigns m) at 1 2. induction l0 as [|a l0 IH]; intros K B; cbn in K; [congruence|].
    apply obind_ok in K as (s3 & K1 & K). enough (s3 = []) by (subst; apply IH; [exact K|intros x Hx; apply B; right; exact Hx]).
    eapply scan_assign_none; [exact H| |exact K1]. apply (H m); [apply I; left; reflexivity|apply B; left; reflexivity]. }
  apply A in E1; [|apply incl_refl]. subst s1. unfold scan_imports. apply fold_same. intros m. apply fold_same. intros i. apply fold_same. reflexivity.
Qed.
Lemma names_none tr s : no_classes tr -> object_class_names tr = Done s -> s = [].
Proof.
  intros H E. unfold object_class_names in E. cbn [scan_loop] in E. apply obind_ok in E as (s1 & E1 & E). apply (scan_none tr H) in E1. subst s1. cbn in E. congruence.
Qed.
Lemma removed_none md a : is_class a = false -> removed md [] a = false.
Proof.
  intros H. assert (G : forall ps, existsb (fun p => match p_governor p with Some g => defined_class md [] g | None => false end) ps = false).
  { induction ps as [|[[g|] r] ps IH]; cbn [existsb p_governor]; [reflexivity| |exact IH]. rewrite IH. destruct g; try reflexivity. destruct d; reflexivity. }
  destruct a as [x [t|t v|fs|] ps]; unfold removed; cbn [a_specific a_parameters]; try (destruct t; auto; destruct d; reflexivity); [discriminate H|apply G].
Qed.
Lemma filter_all {A} (p : A -> bool) l : (forall x, In x l -> p x = true) -> filter p l = l.
Proof. induction l as [|x l IH]; intros H; [reflexivity|]. cbn. rewrite (H x (or_introl eq_refl)), IH; [reflexivity|]. intros y Hy. apply H. right. exact Hy. Qed.
Lemma Forall2_in_r {A B} (R : A -> B -> Prop) l l' y : Forall2 R l l' -> In y l' -> exists x, In x l /\ R x y.
Proof. induction 1 as [|a b l l' H F IH]; [intros []|]. intros [->|Hy]; [exists a; split; [left; reflexivity|exact H]|]. destruct (IH Hy) as (x & H1 & H2). exists x. split; [right; exact H1|exact H2]. Qed.
Lemma Forall2_in_l {A B} (R : A -> B -> Prop) l l' x : Forall2 R l l' -> In x l -> exists y, In y l' /\ R x y.
Proof. induction 1 as [|a b l l' H F IH]; [intros []|]. intros [->|Hy]; [exists b; split; [left; reflexivity|exact H]|]. destruct (IH Hy) as (y & H1 & H2). exists y. split; [right; exact H1|exact H2]. Qed.
Lemma Forall2_impl2 {A B} (R S : A -> B -> Prop) l l' : (forall x y, R x y -> S x y) -> Forall2 R l l' -> Forall2 S l l'.
Proof. intros H F. induction F; constructor; auto. Qed.
Lemma Forall2_with_in {A B} (R : A -> B -> Prop) l l' : Forall2 R l l' -> Forall2 (fun x y => In x l /\ R x y) l l'.
Proof. induction 1 as [|a b l l' H F IH]; constructor; [split; [left; reflexivity|exact H]|]. eapply Forall2_impl2; [|exact IH]. intros x y (H1 & H2). split; [right; exact H1|exact H2]. Qed.
Lemma Forall2_map_r {A B C} (R : A -> C -> Prop) (f : B -> C) l l' : Forall2 (fun x y => R x (f y)) l l' -> Forall2 R l (map f l').
Proof. induction 1; constructor; auto. Qed.
Lemma resolve_classes_kept tr tr' : no_classes tr -> resolve_object_classes tr = Done tr' -> Forall2 kept_module tr tr'.
Proof.
  intros H E. unfold resolve_object_classes in E. apply obind_ok in E as (names & E1 & E). apply (names_none tr names H) in E1. subst names. apply obind_ok in E as (tr1 & E1 & E). injection E as <-.
  apply omap_forall2, Forall2_with_in in E1. unfold remove_object_classes. apply Forall2_map_r. eapply Forall2_impl2; [|exact E1]. intros m m1 (Hm & E). apply obind_ok in E as (l & E & [= <-]). apply omap_forall2 in E.
  split; [reflexivity|]. split; [reflexivity|]. cbn [m_assigns with_assigns m_name]. assert (K : Forall2 kept (m_assigns m) l) by (eapply Forall2_impl2; [|exact E]; intros a a'; apply class_free_kept).
  rewrite filter_all; [exact K|]. intros a' Ha. destruct (Forall2_in_r _ _ _ _ K Ha) as (a & H1 & _ & H2 & _). rewrite removed_none; [reflexivity|]. rewrite H2. eapply H; eassumption.
Qed.

(** ** Nested structures *)
Inductive gen_from {A} : Z -> list (string * A) -> Prop :=
| gf_nil n : gen_from n []
| gf_cons n p u l : In p prefixes -> gen_from (n + 1) l -> gen_from n (((p ++ to_string n)%string, u) :: l).
Lemma gen_from_app {A} n (l l' : list (string * A)) : gen_from n l -> gen_from (n + Z.of_nat (length l)) l' -> gen_from n (l ++ l').
Proof.
  induction 1 as [n|n p u l Hp H IH]; cbn [app length]; intros H'; [rewrite Z.add_0_r in H'; exact H'|]. constructor; [exact Hp|]. apply IH.
  replace (n + 1 + Z.of_nat (length l))%Z with (n + Z.of_nat (S (length l)))%Z by lia. exact H'.
Qed.
Lemma gen_from_in {A} n (l : list (string * A)) x : gen_from n l -> In x (map fst l) -> exists p i, In p prefixes /\ x = (p ++ to_string i)%string /\ (n <= i < n + Z.of_nat (length l))%Z.
Proof.
  induction 1 as [n|n p v l Hp H IH]; [intros []|]. intros [<-|Hin].
  - exists p, n. split; [exact Hp|]. split; [reflexivity|]. cbn [length]. lia.
  - destruct (IH Hin) as (q & i & H1 & H2 & H3). exists q, i. split; [exact H1|]. split; [exact H2|]. cbn [length]. lia.
Qed.
Lemma gen_from_nodup {A} n (l : list (string * A)) : (0 <= n)%Z -> (n + Z.of_nat (length l) < 2^31)%Z -> gen_from n l -> NoDup (map fst l).
Proof.
  intros H0 H1 H. revert H0 H1. induction H as [n|n p v l Hp H IH]; cbn [length map fst]; intros H0 H1; [constructor|]. constructor; [|apply IH; lia].
  intros Hin. destruct (gen_from_in _ _ _ H Hin) as (q & i & Hq & E & Hi).
  apply (prefix_inj p q _ _ Hp Hq) in E. apply to_string_inj in E; unfold in_i64; lia.
Qed.
Definition extends (s s' : nest_state) (new : list (string * type)) : Prop :=
  snd s' = snd s ++ new /\ fst s' = (fst s + Z.of_nat (length new))%Z /\ gen_from (fst s) new.
Lemma extends_refl s : extends s s [].
Proof. split; [rewrite app_nil_r; reflexivity|]. split; [cbn; lia|constructor]. Qed.
Lemma extends_trans s s1 s2 a b : extends s s1 a -> extends s1 s2 b -> extends s s2 (a ++ b).
Proof.
  intros (A1 & A2 & A3) (B1 & B2 & B3). split; [rewrite B1, A1, app_assoc; reflexivity|]. split; [rewrite B2, A2, app_length; lia|].
  apply gen_from_app; [exact A3|rewrite <- A2; exact B3].
Qed.
(** What is added to the list, and that all of it is simple if the type is. *)
Definition nests (t t' : type) (s s' : nest_state) : Prop :=
  exists new, extends s s' new /\ (simple_type t = true -> simple_type t' = true /\ Forall (fun p => simple_type (snd p) = true) new).
Lemma unnamed_in t p : Frontend.unnamed_prefix t = Some p -> In p prefixes.
Proof. destruct t as [| | | | |[|] ? ?| | |]; cbn; intros [= <-]; unfold prefixes; cbn; auto. Qed.
Lemma hoist_nests md t t' s s' : Frontend.hoist md t s = (t', s') -> nests t t' s s'.
Proof.
  unfold Frontend.hoist. destruct (Frontend.unnamed_prefix t) as [p|] eqn:E; intros [= <- <-].
  - eexists. split; [split; [reflexivity|]; split; [reflexivity|]; constructor; [eapply unnamed_in, E|constructor]|]. intros S. split; [reflexivity|]. constructor; [exact S|constructor].
  - exists []. split; [apply extends_refl|]. intros S. split; [exact S|constructor].
Qed.
Lemma nests_trans t t1 t2 s s1 s2 : nests t t1 s s1 -> nests t1 t2 s1 s2 -> nests t t2 s s2.
Proof.
  intros (a & A1 & A2) (b & B1 & B2). exists (a ++ b). split; [eapply extends_trans; eassumption|]. intros S. destruct (A2 S) as (S1 & F1). destruct (B2 S1) as (S2 & F2). split; [exact S2|]. apply Forall_app; auto.
Qed.
Lemma nmap_nests {A} (f : A -> nest_state -> A * nest_state) (P : A -> bool) l :
  Forall (fun x => forall s x' s', f x s = (x', s') -> exists new, extends s s' new /\ (P x = true -> P x' = true /\ Forall (fun p => simple_type (snd p) = true) new)) l ->
  forall s l' s', nmap f l s = (l', s') -> exists new, extends s s' new /\ (forallb P l = true -> forallb P l' = true /\ Forall (fun p => simple_type (snd p) = true) new).
Proof.
  induction 1 as [|x l H _ IH]; intros s l' s' E; [injection E as <- <-; exists []; split; [apply extends_refl|]; intros _; split; [reflexivity|constructor]|]. rewrite nmap_cons in E.
  destruct (f x s) as [x1 s1] eqn:E1. destruct (nmap f l s1) as [l1 s2] eqn:E2. injection E as <- <-. destruct (H _ _ _ E1) as (a & A1 & A2). destruct (IH _ _ _ E2) as (b & B1 & B2).
  exists (a ++ b). split; [eapply extends_trans; eassumption|]. cbn [forallb]. intros S. apply andb_prop in S as (S1 & S2). destruct (A2 S1) as (-> & F1). destruct (B2 S2) as (-> & F2). split; [reflexivity|]. apply Forall_app; auto.
Qed.
Lemma find_nested_nests md t : forall s t' s', Frontend.find_nested md t s = (t', s') -> nests t t' s s'.
Proof.
  assert (Z : forall t s, nests t t s s) by (intros t0 s0; exists []; split; [apply extends_refl|]; intros S; split; [exact S|constructor]).
  induction t as [| | | |alts IH|set cs ext IH|set n u IH|g kw u IH|] using type_induct; intros s t' s' E; cbn [Frontend.find_nested] in E; try (injection E as <- <-; apply Z).
  - match type of E with context [nmap ?f alts s] => destruct (nmap f alts s) as [l1 s1] eqn:E1 end. injection E as <- <-. eapply (nmap_nests _ (fun e => simple_type (snd e))); [|exact E1].
    eapply Forall_impl; [|exact IH]. intros [x u] H s0 x' s2 K. cbn [fst snd] in *. destruct (Frontend.find_nested md u s0) eqn:K1. injection K as <- <-. eapply H, K1.
  - match type of E with context [nmap ?f cs s] => destruct (nmap f cs s) as [l1 s1] eqn:E1 end. injection E as <- <-.
    eapply (nmap_nests _ (fun c => match c with Comp _ u _ _ co => simple_type u && match co with None => true | Some _ => false end end)); [|exact E1].
    eapply Forall_impl; [|exact IH]. intros [x u o d co] H s0 x' s2 K. cbn [fst snd] in *. destruct (Frontend.find_nested md u s0) eqn:K1. injection K as <- <-. destruct (H _ _ _ K1) as (new & N1 & N2).
    exists new. split; [exact N1|]. intros S. apply andb_prop in S as (S1 & S2). destruct (N2 S1) as (-> & F). rewrite S2. auto.
  - destruct (Frontend.find_nested md u s) as [u1 s1] eqn:E1. destruct (Frontend.hoist md u1 s1) as [u2 s2] eqn:E2. injection E as <- <-. pose proof (nests_trans _ _ _ _ _ _ (IH _ _ _ E1) (hoist_nests _ _ _ _ _ E2)) as N. exact N.
  - destruct (Frontend.find_nested md u s) as [u1 s1] eqn:E1. destruct (Frontend.hoist md u1 s1) as [u2 s2] eqn:E2. injection E as <- <-. pose proof (nests_trans _ _ _ _ _ _ (IH _ _ _ E1) (hoist_nests _ _ _ _ _ E2)) as N. exact N.
Qed.
(** All of split_nested. *)
Lemma split_nested_facts md l : forall n l' n', Frontend.split_nested md l n = (l', n') -> exists tab, gen_from n tab /\ n' = (n + Z.of_nat (length tab))%Z /\
  Permutation (map a_name l') (map fst tab ++ map a_name l) /\ (forall a, In a l' -> is_class a = true -> In a l) /\ (forall p, In p tab -> In (type_assign p) l') /\
  forall a t, In a l -> a_specific a = AType t -> exists s t' s', Frontend.find_nested md t s = (t', s') /\ In (Assign (a_name a) (AType t') (a_parameters a)) l' /\
    incl (snd s') tab /\ (simple_type t = true -> simple_type t' = true /\ Forall (fun p => simple_type (snd p) = true) (snd s')).
Proof.
  induction l as [|a l IH]; intros n l' n' E; cbn [Frontend.split_nested] in E.
  - injection E as <- <-. exists []. split; [constructor|]. split; [cbn; lia|]. split; [constructor|]. split; [intros a []|]. split; [intros p []|]. intros a t [].
  - assert (K : forall t, a_specific a = AType t -> (let '(t', (n, nested)) := Frontend.find_nested md t (n, []) in let (l', n) := Frontend.split_nested md l n in
       (map type_assign (rev nested) ++ Assign (a_name a) (AType t') (a_parameters a) :: l', n)) = (l', n') -> exists tab, gen_from n tab /\ n' = (n + Z.of_nat (length tab))%Z /\
      Permutation (map a_name l') (map fst tab ++ map a_name (a :: l)) /\ (forall b, In b l' -> is_class b = true -> In b (a :: l)) /\ (forall p, In p tab -> In (type_assign p) l') /\
      forall b t, In b (a :: l) -> a_specific b = AType t -> exists s t' s', Frontend.find_nested md t s = (t', s') /\ In (Assign (a_name b) (AType t') (a_parameters b)) l' /\
        incl (snd s') tab /\ (simple_type t = true -> simple_type t' = true /\ Forall (fun p => simple_type (snd p) = true) (snd s'))).
    { clear E. intros t Ha E. destruct (Frontend.find_nested md t (n, [])) as [t' [n1 nested]] eqn:F. destruct (Frontend.split_nested md l n1) as [l1 n2] eqn:E1. injection E as <- <-.
      destruct (IH _ _ _ E1) as (tab & G1 & G2 & G3 & G4 & G5 & G6). destruct (find_nested_nests _ _ _ _ _ F) as (new & (N1 & N2 & N3) & N4). cbn [fst snd app] in N1, N2, N3. subst nested.
      exists (new ++ tab). split; [apply gen_from_app; [exact N3|rewrite <- N2; exact G1]|]. split; [rewrite app_length; lia|]. split; [|split; [|split]].
      - rewrite map_app. cbn [map a_name]. rewrite map_map. cbn [type_assign a_name]. change (map (fun x => fst x) (rev new)) with (map fst (rev new)). rewrite map_rev, map_app, <- app_assoc.
        apply Permutation_app; [apply Permutation_sym, Permutation_rev|]. eapply Permutation_trans; [apply perm_skip, G3|]. apply Permutation_middle.
      - intros b Hb C. apply in_app_or in Hb as [Hb|[<-|Hb]]; [apply in_map_iff in Hb as (p & <- & _); discriminate C|discriminate C|right; auto].
      - intros p Hp. apply in_or_app. apply in_app_or in Hp as [Hp|Hp]; [left; apply in_map; apply -> in_rev; exact Hp|right; right; auto].
      - intros b u [<-|Hb] Hu.
        + rewrite Ha in Hu. injection Hu as <-. exists (n, []), t', (n1, new). split; [exact F|]. split; [apply in_or_app; right; left; reflexivity|]. split; [apply incl_appl, incl_refl|]. exact N4.
        + destruct (G6 b u Hb Hu) as (s & u' & s' & F1 & F2 & F3 & F4). exists s, u', s'. split; [exact F1|]. split; [apply in_or_app; right; right; exact F2|]. split; [apply incl_appr; exact F3|exact F4]. }
    assert (K2 : (forall t, a_specific a <> AType t) -> (let (l', n) := Frontend.split_nested md l n in (a :: l', n)) = (l', n') -> exists tab, gen_from n tab /\ n' = (n + Z.of_nat (length tab))%Z /\
      Permutation (map a_name l') (map fst tab ++ map a_name (a :: l)) /\ (forall b, In b l' -> is_class b = true -> In b (a :: l)) /\ (forall p, In p tab -> In (type_assign p) l') /\
      forall b t, In b (a :: l) -> a_specific b = AType t -> exists s t' s', Frontend.find_nested md t s = (t', s') /\ In (Assign (a_name b) (AType t') (a_parameters b)) l' /\
        incl (snd s') tab /\ (simple_type t = true -> simple_type t' = true /\ Forall (fun p => simple_type (snd p) = true) (snd s'))).
    { clear E K. intros Ha E. destruct (Frontend.split_nested md l n) as [l1 n2] eqn:E1. injection E as <- <-. destruct (IH _ _ _ E1) as (tab & G1 & G2 & G3 & G4 & G5 & G6).
      exists tab. split; [exact G1|]. split; [exact G2|]. split; [|split; [|split]].
      - cbn [map]. eapply Permutation_trans; [apply perm_skip, G3|]. apply Permutation_middle.
      - intros b [<-|Hb] C; [left; reflexivity|right; auto].
      - intros p Hp. right. auto.
      - intros b u [<-|Hb] Hu; [destruct (Ha _ Hu)|]. destruct (G6 b u Hb Hu) as (s & u' & s' & F1 & F2 & F3 & F4). exists s, u', s'. split; [exact F1|]. split; [right; exact F2|]. auto. }
    destruct (a_specific a) eqn:Ha; [eapply K; [reflexivity|exact E]|eapply K2; [discriminate|exact E]..].
Qed.

(** ** All of it *)
Lemma find_related {A} (key : A -> string) (R : A -> A -> Prop) l l' x a : Forall2 (fun a a' => key a' = key a /\ R a a') l l' ->
  find (fun a => String.eqb (key a) x) l = Some a -> exists a', find (fun a => String.eqb (key a) x) l' = Some a' /\ R a a'.
Proof.
  induction 1 as [|b b' l l' (N & H) F IH]; intros E; [discriminate|]. cbn [find] in *. rewrite N. destruct (String.eqb (key b) x); [|auto]. injection E as <-. exists b'. auto.
Qed.
Lemma split_modules_facts : forall tr n tr', (0 <= n)%Z -> split_modules tr n = Done tr' ->
  Forall2 (fun m m' => exists n n' l', (0 <= n)%Z /\ (n' < 2^31)%Z /\ Frontend.split_nested (m_name m) (with_imports m) n = (l', n') /\ m' = with_assigns m l') tr tr'.
Proof.
  induction tr as [|m tr IH]; intros n tr' Hn E; cbn [split_modules] in E; [injection E as <-; constructor|]. apply obind_ok in E as (u & _ & E).
  destruct (Frontend.split_nested (m_name m) (with_imports m) n) as [l' n'] eqn:E1. destruct (Z.leb_spec (2^31) n'); [discriminate|]. apply obind_ok in E as (tr2 & E2 & E). injection E as <-. constructor.
  - exists n, n', l'. auto.
  - eapply IH; [|exact E2]. destruct (split_nested_facts _ _ _ _ _ E1) as (tab & _ & G & _). lia.
Qed.
Definition not_made_up (m : module) : Prop := forall x, In x (map a_name (with_imports m)) -> ~ made_up x.
Definition distinct_names (m : module) : Prop := NoDup (map a_name (with_imports m)).
Lemma NoDup_append {A} (a b : list A) : NoDup a -> NoDup b -> (forall x, In x a -> ~ In x b) -> NoDup (a ++ b).
Proof. induction 1 as [|x a N1 N2 IH]; intros Nb H; [exact Nb|]. cbn. constructor; [|apply IH; [exact Nb|intros y Hy; apply H; right; exact Hy]]. intros K. apply in_app_or in K as [K|K]; [contradiction|]. exact (H x (or_introl eq_refl) K). Qed.
Lemma split_names m n l' n' : distinct_names m -> not_made_up m -> (0 <= n)%Z -> (n' < 2^31)%Z -> Frontend.split_nested (m_name m) (with_imports m) n = (l', n') -> NoDup (map a_name l').
Proof.
  intros D M H0 H1 E. destruct (split_nested_facts _ _ _ _ _ E) as (tab & G1 & -> & G3 & _). eapply Permutation_NoDup; [apply Permutation_sym, G3|]. apply NoDup_append; [eapply gen_from_nodup; eauto|exact D|].
  intros x Hx K. destruct (gen_from_in _ _ _ G1 Hx) as (p & i & P1 & P2 & _). apply (M x K). exists p, i. auto.
Qed.
Lemma kept_names l l' : Forall2 kept l l' -> map a_name l' = map a_name l.
Proof. induction 1 as [|a b l l' (N & _) F IH]; [reflexivity|]. cbn. congruence. Qed.
Lemma kept_in l l' a t : Forall2 kept l l' -> In a l -> a_specific a = AType t -> simple_type t = true -> In a l'.
Proof. intros F Ha Et S. destruct (Forall2_in_l _ _ _ _ F Ha) as (b & Hb & _ & _ & E). rewrite (E t Et S) in Hb. exact Hb. Qed.
Lemma perm_mirrored m n n' l3 l5 l6 : distinct_names m -> not_made_up m -> (0 <= n)%Z -> (n' < 2^31)%Z -> Frontend.split_nested (m_name m) (with_imports m) n = (l3, n') -> Forall2 kept l3 l5 -> Permutation l5 l6 ->
  mirrored m (Module (m_name m) (m_tagging m) [] l6).
Proof.
  intros D M H0 H1 E K P. pose proof (split_names _ _ _ _ D M H0 H1 E) as N3. assert (N6 : NoDup (map a_name l6)).
  { eapply Permutation_NoDup; [apply Permutation_map, P|]. rewrite (kept_names _ _ K). exact N3. }
  assert (Found : forall x t, simple_type t = true -> In (Assign x (AType t) []) l3 -> type_named (Module (m_name m) (m_tagging m) [] l6) x = Some t).
  { intros x t S Hin. pose proof (kept_in _ _ _ _ K Hin eq_refl S) as H5. pose proof (Permutation_in _ P H5) as H6. unfold type_named, with_imports, assign_named. cbn [m_assigns m_imports flat_map]. rewrite app_nil_r.
    pose proof (find_unique a_name l6 _ N6 H6) as F. cbn [a_name] in F. rewrite F. reflexivity. }
  destruct (split_nested_facts _ _ _ _ _ E) as (tab & G1 & G2 & G3 & G4 & G5 & G6). constructor; [reflexivity|reflexivity|]. intros r t S T. unfold type_named in T.
  destruct (assign_named (with_imports m) r) as [[r' [u| | |] [|]]|] eqn:A; try discriminate T. injection T as ->. apply (find_by a_name) in A as (Er & A). cbn in Er. subst r'.
  destruct (G6 _ _ A eq_refl) as (s & t' & s' & F1 & F2 & F3 & F4). destruct (F4 S) as (S' & Fs). cbn [a_name a_parameters] in F2. exists s, t', s'. split; [exact F1|]. split; [apply Found; assumption|].
  intros [x u] Hp. cbn [fst snd]. apply Found; [|apply (G5 (x, u)), F3, Hp]. rewrite Forall_forall in Fs. apply (Fs (x, u) Hp).
Qed.
Definition clean (tr : list module) : Prop := NoDup (map m_name tr) /\ (forall m, In m tr -> distinct_names m /\ not_made_up m) /\ no_classes tr.
Lemma with_imports_assigns m a : In a (with_imports m) -> In a (m_assigns m) \/ is_class a = false.
Proof. intros H. apply in_app_or in H as [H|H]; [left; exact H|]. right. apply in_flat_map in H as (i & _ & H). apply in_map_iff in H as (x & <- & _). reflexivity. Qed.
Theorem later_passes fuel tr2 tr3 tr4 tr5 tr6 : clean tr2 -> split_modules tr2 0 = Done tr3 -> Frontend.resolve_components_of tr3 = Done tr4 -> resolve_object_classes tr4 = Done tr5 ->
  reorder_tree fuel [] tr5 = Done tr6 -> forall x m, module_named tr2 x = Some m -> exists m', module_named (final tr6) x = Some m' /\ mirrored m m'.
Proof.
  intros (C1 & C2 & C3) E3 E4 E5 E6. apply split_modules_facts in E3; [|lia]. apply Forall2_with_in in E3. apply expand_tree_kept in E4 as (l4 & E4 & F4). cbn in E4. subst l4.
  assert (Hall : forall l l3, Forall2 (fun m m' => In m tr2 /\ exists n n' l', (0 <= n)%Z /\ (n' < 2^31)%Z /\ Frontend.split_nested (m_name m) (with_imports m) n = (l', n') /\ m' = with_assigns m l') l l3 ->
    no_classes l3 /\ forall m, In m l3 -> NoDup (map a_name (m_assigns m))).
  { intros l l3 F. split.
    - intros m a Hm Ha. destruct (Forall2_in_r _ _ _ _ F Hm) as (m0 & _ & Hin & n & n' & l' & H0 & H1 & E & ->). destruct (is_class a) eqn:C; [|reflexivity]. cbn in Ha.
      destruct (split_nested_facts _ _ _ _ _ E) as (tab & _ & _ & _ & G & _). destruct (with_imports_assigns _ _ (G a Ha C)) as [K|K]; [rewrite (C3 _ _ Hin K) in C; discriminate|congruence].
    - intros m Hm. destruct (Forall2_in_r _ _ _ _ F Hm) as (m0 & _ & Hin & n & n' & l' & H0 & H1 & E & ->). destruct (C2 _ Hin) as (D & M). eapply split_names; eassumption. }
  destruct (Hall _ _ E3) as (NC3 & ND3). clear Hall.
  assert (NC4 : no_classes tr4). { intros m a Hm Ha. destruct (Forall2_in_r _ _ _ _ F4 Hm) as (m0 & Hm0 & _ & _ & F). destruct (Forall2_in_r _ _ _ _ F Ha) as (a0 & Ha0 & _ & E & _). rewrite E. eapply NC3; eassumption. }
  pose proof (resolve_classes_kept _ _ NC4 E5) as F5.
  assert (ND5 : forall m, In m tr5 -> NoDup (map a_name (m_assigns m))).
  { intros m Hm. destruct (Forall2_in_r _ _ _ _ F5 Hm) as (m4 & Hm4 & _ & _ & G5). destruct (Forall2_in_r _ _ _ _ F4 Hm4) as (m3 & Hm3 & _ & _ & G4). rewrite (kept_names _ _ G5), (kept_names _ _ G4). auto. }
  apply reorder_tree_perm in E6 as (l6 & E6 & F6); [|exact ND5]. cbn in E6. subst l6.
  assert (F : Forall2 (fun m m' => m_name m' = m_name m /\ mirrored m m') tr2 (final tr6)).
  { unfold final. apply Forall2_map_r. clear -E3 F4 F5 F6 C2. revert tr4 tr5 tr6 F4 F5 F6. induction E3 as [|m m3 l l3 (Hin & n & n' & l' & H0 & H1 & E & ->) F IH]; intros tr4 tr5 tr6 F4 F5 F6.
    - inversion F4; subst. inversion F5; subst. inversion F6; subst. constructor.
    - inversion F4 as [|? m4 ? l4 K4 F4']; subst. inversion F5 as [|? m5 ? l5 K5 F5']; subst. inversion F6 as [|? m6 ? l6 (q & -> & K6) F6']; subst. constructor; [|eapply IH; eassumption].
      destruct K4 as (N4 & T4 & A4). destruct K5 as (N5 & T5 & A5). cbn [m_name m_tagging with_assigns m_assigns] in *. rewrite N5, T5, N4, T4. split; [reflexivity|].
      destruct (C2 _ Hin) as (D & M). eapply perm_mirrored; [exact D|exact M|exact H0|exact H1|exact E|eapply Forall2_kept_trans; eassumption|exact K6]. }
  intros x m Hm. exact (find_related m_name mirrored _ _ _ _ F Hm).
Qed.
(** The first two passes *)
Lemma filter_find {A} (p q : A -> bool) l a : find p l = Some a -> q a = true -> find p (filter q l) = Some a.
Proof. induction l as [|x l IH]; intros E Q; [discriminate|]. cbn [find filter] in *. destruct (p x) eqn:P; [injection E as <-; rewrite Q; cbn; rewrite P; reflexivity|]. destruct (q x); cbn; [rewrite P|]; auto. Qed.
Lemma find_app {A} (p : A -> bool) l l' : find p (l ++ l') = match find p l with Some a => Some a | None => find p l' end.
Proof. induction l as [|x l IH]; [reflexivity|]. cbn. destruct (p x); auto. Qed.
Definition concreted (m m' : module) : Prop := m_name m' = m_name m /\ m_tagging m' = m_tagging m /\ m_imports m' = m_imports m /\
  exists l, Forall2 kept (m_assigns m) l /\ m_assigns m' = filter (fun a => negb (is_template a)) l.
Lemma parameters_facts tr tr' : Frontend.resolve_parameters tr = Done tr' -> Forall2 concreted tr tr'.
Proof.
  intros E. unfold Frontend.resolve_parameters in E. apply obind_ok in E as (tr1 & E1 & E). injection E as <-. apply omap_forall2 in E1. apply Forall2_map_r. eapply Forall2_impl2; [|exact E1]. intros m m1 E. apply obind_ok in E as (l & E & [= <-]).
  apply omap_forall2 in E. split; [reflexivity|]. split; [reflexivity|]. split; [reflexivity|]. exists l. split; [|reflexivity]. eapply Forall2_impl2; [|exact E]. intros a a'. apply concrete_kept.
Qed.
Lemma concreted_type m m' r t : concreted m m' -> simple_type t = true -> type_named m r = Some t -> type_named m' r = Some t.
Proof.
  intros (N & T & I & l & K & A) S E. unfold type_named, with_imports, assign_named in *. rewrite A, I. rewrite find_app in *.
  destruct (find _ (m_assigns m)) as [[r' [u| | |] [|]]|] eqn:F; try discriminate E.
  - injection E as ->. assert (G : find (fun a => (a_name a =? r)%string) l = Some (Assign r' (AType t) [])).
    { assert (K' : Forall2 (fun a a' => a_name a' = a_name a /\ kept a a') (m_assigns m) l) by (eapply Forall2_impl2; [|exact K]; intros a a' H; split; [apply H|exact H]).
      destruct (find_related a_name kept _ _ _ _ K' F) as (a' & F' & _ & _ & H). rewrite <- (H t eq_refl S). exact F'. }
    rewrite (filter_find _ _ _ _ G); reflexivity.
  - assert (G : find (fun a => (a_name a =? r)%string) (filter (fun a => negb (is_template a)) l) = None).
    { destruct (find _ (filter _ _)) as [a|] eqn:G; [|reflexivity]. apply (find_by a_name) in G as (<- & G). apply filter_In in G as (G & _). destruct (Forall2_in_r _ _ _ _ K G) as (b & Hb & H1 & _).
      pose proof (find_none _ _ F b Hb) as Z. cbn beta in Z. rewrite H1, String.eqb_refl in Z. discriminate Z. }
    rewrite G. exact E.
Qed.
Lemma keeps_concreted tr tr' : Forall2 concreted tr tr' -> keeps tr tr'.
Proof.
  intros F x m E. assert (K' : Forall2 (fun a a' => m_name a' = m_name a /\ concreted a a') tr tr') by (eapply Forall2_impl2; [|exact F]; intros a a' H; split; [apply H|exact H]).
  destruct (find_related m_name concreted _ _ _ _ K' E) as (m' & E' & H). exists m'. split; [exact E'|]. split; [apply H|]. split; [apply H|]. intros r t. apply concreted_type, H.
Qed.
Lemma keeps_perm tr tr' : NoDup (map m_name tr) -> Permutation tr tr' -> keeps tr tr'.
Proof. intros N P x m E. exists m. split; [|auto]. unfold module_named in *. rewrite (find_perm m_name tr tr' x N P). exact E. Qed.
Lemma NoDup_filter_app {A} (key : A -> string) p (l l' : list A) : NoDup (map key (l ++ l')) -> NoDup (map key (filter p l ++ l')).
Proof.
  induction l as [|x l IH]; intros N; [exact N|]. cbn in *. inversion N as [|? ? N1 N2]; subst. destruct (p x); [|auto]. cbn. constructor; [|auto]. intros K. apply N1. clear -K.
  apply in_map_iff in K as (y & <- & K). apply in_map. apply in_app_or in K as [K|K]; apply in_or_app; [left; apply filter_In in K; apply K|right; exact K].
Qed.
Lemma clean_concreted tr tr' : clean tr -> Forall2 concreted tr tr' -> clean tr'.
Proof.
  intros (C1 & C2 & C3) F. assert (E : map m_name tr' = map m_name tr) by (clear -F; induction F as [|m m' l l' (N & _) F IH]; [reflexivity|]; cbn; congruence).
  split; [rewrite E; exact C1|]. split.
  - intros m' Hm'. destruct (Forall2_in_r _ _ _ _ F Hm') as (m & Hm & N & T & I & l & K & A). destruct (C2 m Hm) as (D & M). split.
    + unfold distinct_names, with_imports in *. rewrite A, I. apply NoDup_filter_app. rewrite map_app, (kept_names _ _ K), <- map_app. exact D.
    + intros x Hx. apply M. unfold with_imports in *. rewrite A, I in Hx. rewrite map_app in *. apply in_app_or in Hx as [Hx|Hx]; apply in_or_app; [left|right; exact Hx]. apply in_map_iff in Hx as (a & <- & Ha). apply filter_In in Ha as (Ha & _).
      rewrite <- (kept_names _ _ K). apply in_map, Ha.
  - intros m' a Hm' Ha. destruct (Forall2_in_r _ _ _ _ F Hm') as (m & Hm & N & T & I & l & K & A). rewrite A in Ha. apply filter_In in Ha as (Ha & _). destruct (Forall2_in_r _ _ _ _ K Ha) as (b & Hb & _ & E1 & _). rewrite E1. eapply C3; eassumption.
Qed.
Lemma clean_perm tr tr' : clean tr -> Permutation tr tr' -> clean tr'.
Proof.
  intros (C1 & C2 & C3) P. split; [eapply Permutation_NoDup; [apply Permutation_map, P|exact C1]|]. split.
  - intros m Hm. apply C2. eapply Permutation_in; [apply Permutation_sym, P|exact Hm].
  - intros m a Hm. apply C3. eapply Permutation_in; [apply Permutation_sym, P|exact Hm].
Qed.
(** A type that can be elaborated in the parsed tree is, after all passes, what Compiler.split makes of it. *)
Theorem passes_elab fuel tr tr' : clean tr -> passes fuel tr = Done tr' -> forall M m X t n a, module_named tr M = Some m -> type_named m X = Some t -> elab n tr m m t = Some a ->
  exists m' t', module_named (final tr') M = Some m' /\ m_tagging m' = m_tagging m /\ type_named m' X = Some t' /\ elab (2 * n) (final tr') m' m' t' = Some (nested (mode_of (m_tagging m)) a).
Proof.
  intros C E M m X t n a Hm Ht He. unfold passes in E. apply obind_ok in E as (tr1 & E1 & E). apply obind_ok in E as (tr2 & E2 & E). apply obind_ok in E as (tr3 & E3 & E). apply obind_ok in E as (tr4 & E4 & E). apply obind_ok in E as (tr5 & E5 & E6).
  apply parameters_facts in E1. pose proof (clean_concreted _ _ C E1) as C1. apply keeps_concreted in E1. apply reorder_modules_perm in E2; [|apply C1]. pose proof (clean_perm _ _ C1 E2) as C2. apply keeps_perm in E2; [|apply C1].
  pose proof (keeps_trans _ _ _ E1 E2) as K. pose proof (later_passes _ _ _ _ _ _ C2 E3 E4 E5 E6) as L. destruct (K M m Hm) as (m2 & Hm2 & N2 & T2 & Ty2).
  pose proof (Ty2 _ _ (elab_simple _ _ _ _ _ _ He) Ht) as Ht2. destruct (L M m2 Hm2) as (m' & Hm' & Mi). destruct (mi_types _ _ Mi _ _ (elab_simple _ _ _ _ _ _ He) Ht2) as (s & t' & s' & F & Ht' & Kn).
  pose proof (elab_keeps _ _ K _ _ _ _ _ m2 m2 He N2 N2) as He2. assert (Nm : m_name m2 = M) by (apply (find_by m_name) in Hm2; apply Hm2).
  exists m', t'. split; [exact Hm'|]. split; [rewrite (mi_tagging _ _ Mi); exact T2|]. split; [exact Ht'|]. rewrite <- T2.
  eapply (nest_elab tr2 (final tr') L); [exact He2|rewrite Nm; exact Hm'|apply Mi|apply Mi|exact F|exact Kn|intros _; apply Mi].
Qed.
Theorem passes_code fuel tr tr' : clean tr -> passes fuel tr = Done tr' -> forall M m X t n a, module_named tr M = Some m -> type_named m X = Some t -> elab n tr m m t = Some a ->
  (forall k c, written_code k tr' M X = Some c -> compile (mode_of (m_tagging m)) a = Some c) /\
  (forall k c, (2 * n <= k)%nat -> compile (mode_of (m_tagging m)) a = Some c -> written_code k tr' M X = Some c).
Proof.
  intros C E M m X t n a Hm Ht He. destruct (passes_elab fuel tr tr' C E M m X t n a Hm Ht He) as (m' & t' & Hm' & Tm & Ht' & He'). unfold written_code. rewrite Hm', Ht', Tm. rewrite <- nested_compile. split.
  - intros k c. destruct (elab k _ m' m' t') as [b|] eqn:Eb; [|discriminate]. rewrite (elab_unique _ _ _ _ _ _ _ _ Eb He'). auto.
  - intros k c Hk G. rewrite (elab_mono _ _ _ _ _ _ _ Hk He'). exact G.
Qed.
