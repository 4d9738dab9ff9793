(** Ordering keeps what is there (Frontend.reorder_modules, reorder_assigns). *)
From Coq Require Import List String ZArith Bool Permutation Lia.
From Verif Require Import Base CompilerNames CompilerTree CompilerPasses TreeSpec PropertiesTree Ident View Prims Schema ParserTree ParserFile Compiler Elab ElabProofs Frontend.
Import ListNotations.
Local Open Scope string_scope.
Local Open Scope list_scope.

Lemma obind_ok {A B} (m : out A) (k : A -> out B) b : (do x <- m; k x) = Done b -> exists a, m = Done a /\ k a = Done b.
Proof. destruct m; cbn; try discriminate. eauto. Qed.
Lemma omap_forall2 {A B} (f : A -> out B) l r : omap f l = Done r -> Forall2 (fun x y => f x = Done y) l r.
Proof.
  revert r. induction l as [|x l IH]; intros r H; cbn in H; [injection H as <-; constructor|].
  apply obind_ok in H as (y & E1 & H). apply obind_ok in H as (ys & E2 & H). injection H as <-. constructor; auto.
Qed.
Lemma foldm_keeps {A S} (f : A -> S -> out S) (P : S -> Prop) (R : S -> S -> Prop) :
  (forall s, R s s) -> (forall a b c, R a b -> R b c -> R a c) ->
  forall l, (forall x s s', In x l -> P s -> f x s = Done s' -> P s' /\ R s s') -> forall s s', P s -> foldm f l s = Done s' -> P s' /\ R s s'.
Proof.
  intros R0 R1 l H. induction l as [|x l IH]; intros s s' Hs E; cbn in E; [injection E as <-; auto|].
  apply obind_ok in E as (s1 & E1 & E2). destruct (H x s s1 ltac:(left; reflexivity) Hs E1) as (H1 & H2).
  destruct (IH ltac:(intros; eapply H; eauto; right; assumption) s1 s' H1 E2) as (H3 & H4). split; [exact H3|]. eapply R1; eauto.
Qed.
Lemma foldm_reaches {A S} (f : A -> S -> out S) (P : S -> Prop) (R : S -> S -> Prop) (Q : A -> S -> Prop) :
  (forall s, R s s) -> (forall a b c, R a b -> R b c -> R a c) -> (forall x s s', R s s' -> Q x s -> Q x s') ->
  forall l, (forall x s s', In x l -> P s -> f x s = Done s' -> P s' /\ R s s' /\ Q x s') ->
  forall s s', P s -> foldm f l s = Done s' -> P s' /\ R s s' /\ forall x, In x l -> Q x s'.
Proof.
  intros R0 R1 R2 l H. induction l as [|x l IH]; intros s s' Hs E; cbn in E; [injection E as <-; split; [auto|split; [auto|intros x []]]|].
  apply obind_ok in E as (s1 & E1 & E2). destruct (H x s s1 ltac:(left; reflexivity) Hs E1) as (H1 & H2 & H2').
  destruct (IH ltac:(intros; eapply H; eauto; right; assumption) s1 s' H1 E2) as (H3 & H4 & H5). split; [exact H3|]. split; [eapply R1; eauto|].
  intros y [<-|Hy]; eauto.
Qed.

(** ** Assignments *)
Definition listed (st : dstate) : Prop := assigned st = map CompilerTree.a_name (ordered st).
Definition grows (st st' : dstate) : Prop := incl (assigned st) (assigned st').
Lemma grows_refl st : grows st st. Proof. intros x H; exact H. Qed.
Lemma grows_trans a b c : grows a b -> grows b c -> grows a c. Proof. intros H1 H2 x H. auto. Qed.
Section rd.
Context (rd : string -> dstate -> out dstate).
Context (Hrd : forall name st st', listed st -> rd name st = Done st' -> listed st' /\ grows st st').
Lemma resolve_names_keeps ds st st' : listed st -> resolve_names rd ds st = Done st' -> listed st' /\ grows st st'.
Proof. apply foldm_keeps; [apply grows_refl|apply grows_trans|]. intros d s s' _. apply Hrd. Qed.
Lemma resolve_comps_keeps fuel tr md l name cs : forall st cs' st', listed st -> resolve_comps fuel tr md l rd name cs st = Done (cs', st') -> listed st' /\ grows st st'.
Proof.
  induction cs as [|c cs IH]; intros st cs' st' Hs E; cbn in E; [injection E as <- <-; split; [exact Hs|apply grows_refl]|].
  apply obind_ok in E as ((c1 & st1) & E1 & E). apply obind_ok in E as ((cs1 & st2) & E2 & E). injection E as <- <-.
  enough (H : listed st1 /\ grows st st1). { destruct H as (H1 & H2). destruct (IH _ _ _ H1 E2) as (H3 & H4). split; [exact H3|eapply grows_trans; eauto]. }
  clear IH E2. destruct c as [n t optional [dflt|] sto|t].
  - apply obind_ok in E1 as (s1 & E2 & E1). apply resolve_names_keeps in E2 as (H1 & H2); [|exact Hs]. apply obind_ok in E1 as (s2 & E3 & E1). injection E1 as <- <-.
    destruct dflt as [v|]; [|injection E3 as <-; auto]. apply obind_ok in E3 as (e & _ & E3). destruct e; [injection E3 as <-; auto|].
    apply Hrd in E3 as (H3 & H4); [|exact H1]. split; [exact H3|eapply grows_trans; eauto].
  - apply obind_ok in E1 as (b & _ & E1). destruct b; [injection E1 as <- <-; split; [exact Hs|apply grows_refl]|].
    apply obind_ok in E1 as (s1 & E2 & E1). injection E1 as <- <-. eapply resolve_names_keeps; eauto.
  - injection E1 as <- <-. split; [exact Hs|apply grows_refl].
Qed.
End rd.
Lemma find_assign_named l r a : find_assign l r = Done a -> CompilerTree.a_name a = r /\ In a l.
Proof. induction l as [|b l IH]; cbn; [discriminate|]. destruct (String.eqb_spec (CompilerTree.a_name b) r) as [<-|]; [intros [= <-]; auto|intros H; destruct (IH H); auto]. Qed.
Lemma resolve_dependencies_keeps fuel : forall tr md l name st st', listed st -> resolve_dependencies fuel tr md l name st = Done st' ->
  listed st' /\ grows st st' /\ In name (assigned st').
Proof.
  induction fuel as [|fuel IH]; intros tr md l name st st' Hs E; [discriminate|]. cbn [resolve_dependencies] in E.
  apply obind_ok in E as (a & Ea & E). destruct (CompilerTree.mem name (assigned st)) eqn:Em.
  { injection E as <-. split; [exact Hs|]. split; [apply grows_refl|]. unfold CompilerTree.mem in Em. apply existsb_exists in Em as (x & Hx & E). apply String.eqb_eq in E as <-. exact Hx. }
  destruct (CompilerTree.mem name (visited st)); [discriminate|]. apply obind_ok in E as ((a1 & s1) & E1 & E). injection E as <-. cbn [assigned ordered].
  apply find_assign_named in Ea as (Hn & _).
  set (st0 := DState (assigned st) (name :: visited st) (ordered st) (cleared st)) in *.
  assert (H0 : listed st0) by exact Hs.
  assert (R : forall name st st', listed st -> resolve_dependencies fuel tr md l name st = Done st' -> listed st' /\ grows st st') by (intros n s s' K1 K2; destruct (IH _ _ _ _ _ _ K1 K2) as (K3 & K4 & _); auto).
  enough (H : listed s1 /\ grows st0 s1 /\ CompilerTree.a_name a1 = name).
  { destruct H as (H1 & H2 & H3). split; [unfold listed; cbn [assigned ordered map]; rewrite H3, H1; reflexivity|]. split; [intros x Hx; right; apply H2; exact Hx|left; reflexivity]. }
  assert (D : forall b s, (do st <- resolve_names (resolve_dependencies fuel tr md l) b st0; Done (a, st)) = Done (a1, s) -> listed s /\ grows st0 s /\ CompilerTree.a_name a1 = name).
  { intros b s K. apply obind_ok in K as (s2 & K1 & K). injection K as <- <-. apply (resolve_names_keeps _ R) in K1 as (K2 & K3); auto. }
  destruct (a_spec a) as [[e|m r|set cs|set sto t|sto alts|t]|t v|]; try (apply D in E1; exact E1).
  - apply obind_ok in E1 as ((cs1 & s2) & E2 & E1). injection E1 as <- <-. apply (resolve_comps_keeps _ R) in E2 as (K2 & K3); auto.
  - apply obind_ok in E1 as (b & _ & E1). destruct b; [clear D; injection E1 as <- <-|apply D in E1; exact E1]. split; [exact H0|]. split; [intros x Hx; exact Hx|exact Hn].
  - apply obind_ok in E1 as (b & _ & E1). destruct b; [clear D; injection E1 as <- <-|apply D in E1; exact E1]. split; [exact H0|]. split; [intros x Hx; exact Hx|exact Hn].
Qed.
Lemma reorder_names fuel tr md l l' : NoDup (map CompilerTree.a_name l) -> CompilerTree.reorder_assignments fuel tr md l = Done l' ->
  Permutation (map CompilerTree.a_name l) (map CompilerTree.a_name l').
Proof.
  intros N E. unfold CompilerTree.reorder_assignments in E. apply obind_ok in E as (st & E1 & E). destruct (Nat.eqb _ _) eqn:El; [|discriminate]. injection E as <-. apply Nat.eqb_eq in El.
  assert (K : forall x s s', In x l -> listed s -> resolve_dependencies fuel tr md l (CompilerTree.a_name x) s = Done s' -> listed s' /\ grows s s' /\ In (CompilerTree.a_name x) (assigned s')) by (intros x s s' _; apply resolve_dependencies_keeps).
  destruct (foldm_reaches _ listed grows (fun a st => In (CompilerTree.a_name a) (assigned st)) grows_refl grows_trans ltac:(intros x s s' K1 K2; apply (K1 _ K2)) l K (DState [] [] [] []) st ltac:(reflexivity) E1) as (H1 & _ & H2).
  apply NoDup_Permutation_bis; [exact N|rewrite !map_length, rev_length; lia|]. intros x Hx. apply in_map_iff in Hx as (a & <- & Ha). rewrite map_rev, <- H1, <- in_rev. auto.
Qed.

(** ** Finding by name in lists without repetitions *)
Lemma find_by {A} (key : A -> string) (l : list A) r a : find (fun a => String.eqb (key a) r) l = Some a -> key a = r /\ In a l.
Proof. intros H. apply find_some in H as (H1 & H2). apply String.eqb_eq in H2. auto. Qed.
Lemma find_perm {A} (key : A -> string) (l l' : list A) r : NoDup (map key l) -> Permutation l l' ->
  find (fun a => String.eqb (key a) r) l' = find (fun a => String.eqb (key a) r) l.
Proof.
  intros N P. assert (N' : NoDup (map key l')) by (eapply Permutation_NoDup; [apply Permutation_map, P|exact N]).
  destruct (find _ l) as [a|] eqn:E.
  - apply find_by in E as (<- & E). apply (find_unique key); [exact N'|]. eapply Permutation_in; eassumption.
  - destruct (find _ l') as [a|] eqn:E'; [|reflexivity]. apply find_by in E' as (<- & E'). rewrite (find_unique key) with (a := a) in E; [discriminate|exact N|]. eapply Permutation_in; [apply Permutation_sym, P|exact E'].
Qed.
(** What is looked up by names that are a permutation of a list's names is a permutation of the list. *)
Lemma lookups_perm {A B} (key : A -> string) (name : B -> string) (l : list A) (o : list B) (r : list A) :
  NoDup (map key l) -> Permutation (map key l) (map name o) ->
  omap (fun b => olift (find (fun a => String.eqb (key a) (name b)) (rev l))) o = Done r -> Permutation l r.
Proof.
  intros N P E. apply omap_forall2 in E.
  assert (K : map key r = map name o /\ incl r l).
  { clear P. induction E as [|b a o r E F IH]; [split; [reflexivity|intros x []]|]. destruct IH as (I1 & I2). cbn [map]. unfold olift in E. destruct (find _ _) as [a'|] eqn:Ef; [|discriminate]. injection E as <-.
    apply find_by in Ef as (E1 & E2). split; [congruence|]. intros x [<-|Hx]; [apply in_rev; exact E2|auto]. }
  destruct K as (K1 & K2). apply Permutation_sym. apply NoDup_Permutation_bis.
  - apply (NoDup_map_inv key). rewrite K1. eapply Permutation_NoDup; eassumption.
  - apply Permutation_length in P. rewrite <- K1, !map_length in P. lia.
  - exact K2.
Qed.
Lemma reorder_modules_perm fuel tr tr' : NoDup (map m_name tr) -> reorder_modules fuel tr = Done tr' -> Permutation tr tr'.
Proof.
  intros N E. unfold reorder_modules in E. apply obind_ok in E as (o & E1 & E). apply PropertiesTree.modules_result in E1 as (P & _).
  - eapply (lookups_perm m_name CompilerTree.m_name); [exact N| |exact E]. apply (Permutation_map CompilerTree.m_name) in P. rewrite map_map in P. cbn in P. apply Permutation_sym, P.
  - unfold TreeSpec.module_names. rewrite map_map. exact N.
Qed.
Lemma reorder_assigns_perm fuel tr m m' : NoDup (map a_name (m_assigns m)) -> reorder_assigns fuel tr m = Done m' ->
  exists l, m' = with_assigns m l /\ Permutation (m_assigns m) l.
Proof.
  intros N E. unfold reorder_assigns in E. apply obind_ok in E as (o & E1 & E). apply obind_ok in E as (l & E2 & E). injection E as <-. exists l. split; [reflexivity|].
  apply reorder_names in E1; [|rewrite map_map; exact N]. rewrite map_map in E1. eapply (lookups_perm a_name CompilerTree.a_name); [exact N|exact E1|exact E2].
Qed.
Lemma reorder_tree_perm fuel after : forall before tr', (forall m, In m after -> NoDup (map a_name (m_assigns m))) -> reorder_tree fuel before after = Done tr' ->
  exists after', tr' = rev before ++ after' /\ Forall2 (fun m m' => exists l, m' = with_assigns m l /\ Permutation (m_assigns m) l) after after'.
Proof.
  induction after as [|m after IH]; intros before tr' N E; cbn in E.
  - injection E as <-. exists []. rewrite app_nil_r. split; [reflexivity|constructor].
  - apply obind_ok in E as (m' & E1 & E). apply reorder_assigns_perm in E1; [|apply N; left; reflexivity]. apply IH in E as (after' & -> & F); [|intros x Hx; apply N; right; exact Hx].
    exists (m' :: after'). cbn [rev]. rewrite <- app_assoc. split; [reflexivity|]. constructor; assumption.
Qed.
