(** COMPONENTS OF, through the passes: the compiler writes out COMPONENTS OF B where B is a plain SEQUENCE of the same module (IncludeSpec.v).
    First on trees. *)
From Coq Require Import List String ZArith Bool Lia Permutation.
From Verif Require Import Base CompilerNames CompilerTree CompilerPasses PassesSpec Frontend FrontOrder FrontNest FrontPasses FrontAccept FrontText.
From Verif Require Import ParserTree ParserFile ParserSource ParserSourceProofs Elab ElabSpec ElabProofs WriteOutSpec WriteOut IncludeSpec.
Import ListNotations.
Local Open Scope string_scope.
Local Open Scope list_scope.

(** ** The order of the modules only depends on names and imports *)
Definition orel {A B} (R : A -> B -> Prop) (x : out A) (y : out B) : Prop :=
  match x, y with Done a, Done b => R a b | Throw, Throw | Undef, Undef | Loop, Loop => True | _, _ => False end.
Definition alike (m m' : CompilerTree.module) : Prop := CompilerTree.m_name m' = CompilerTree.m_name m /\ CompilerTree.m_imports m' = CompilerTree.m_imports m.
Definition st_alike (s s' : mstate) : Prop := m_assigned s' = m_assigned s /\ m_visited s' = m_visited s /\ Forall2 alike (m_ordered s) (m_ordered s').
Lemma orel_bind {A A' B B'} (R : A -> A' -> Prop) (S : B -> B' -> Prop) x x' (f : A -> out B) (f' : A' -> out B') :
  orel R x x' -> (forall a a', R a a' -> orel S (f a) (f' a')) -> orel S (obind x f) (obind x' f').
Proof. destruct x, x'; cbn; auto; contradiction. Qed.
Lemma Forall2_len {A B} (R : A -> B -> Prop) l l' : Forall2 R l l' -> List.length l' = List.length l.
Proof. induction 1; cbn; congruence. Qed.
Lemma find_module_alike l l' x : Forall2 alike l l' -> orel alike (find_module l x) (find_module l' x).
Proof. induction 1 as [|m m' l l' (H1 & H2) F IH]; cbn; [exact I|]. rewrite H1. destruct (String.eqb _ x); [split; assumption|exact IH]. Qed.
Lemma foldm_alike {A A' S S'} (Q : A -> A' -> Prop) (R : S -> S' -> Prop) f f' l l' : Forall2 Q l l' -> (forall a a' s s', Q a a' -> R s s' -> orel R (f a s) (f' a' s')) ->
  forall s s', R s s' -> orel R (CompilerTree.foldm f l s) (CompilerTree.foldm f' l' s').
Proof. intros F H. induction F as [|a a' l l' Ha F IH]; intros s s' Hs; cbn [CompilerTree.foldm]; [exact Hs|]. eapply orel_bind; [apply H; eassumption|]. auto. Qed.
Lemma resolve_modules_alike fuel : forall l l' x s s', Forall2 alike l l' -> st_alike s s' -> orel st_alike (resolve_modules fuel l x s) (resolve_modules fuel l' x s').
Proof.
  induction fuel as [|fuel IH]; intros l l' x s s' F H; cbn [resolve_modules]; [exact I|]. eapply orel_bind; [apply find_module_alike, Forall2_reverse, F|]. intros m m' Hm. destruct H as (H1 & H2 & H3). rewrite H1, H2.
  destruct (CompilerTree.mem x (m_assigned s)); [exact (conj H1 (conj H2 H3))|]. destruct (CompilerTree.mem x (m_visited s)); [exact (conj eq_refl (conj eq_refl (Forall2_cons _ _ Hm H3)))|]. destruct Hm as (N1 & N2). rewrite N2. eapply orel_bind.
  - apply (foldm_alike eq st_alike); [clear; induction (CompilerTree.m_imports m); constructor; auto| |exact (conj eq_refl (conj eq_refl H3))]. intros y y' t t' <- Ht. apply IH; assumption.
  - intros t t' (T1 & T2 & T3). rewrite T1, T2. exact (conj eq_refl (conj eq_refl (Forall2_cons _ _ (conj N1 N2) T3))).
Qed.
Lemma reorder_alike fuel l l' : Forall2 alike l l' -> orel (Forall2 alike) (CompilerTree.reorder_modules fuel l) (CompilerTree.reorder_modules fuel l').
Proof.
  intros F. unfold CompilerTree.reorder_modules. eapply orel_bind.
  - apply (foldm_alike alike st_alike); [exact F| |repeat split; constructor]. intros a a' s s' (N & _) Hs. rewrite N. apply resolve_modules_alike; assumption.
  - intros s s' (_ & _ & H). rewrite (Forall2_len _ _ _ H), (Forall2_len _ _ _ F). destruct (Nat.eqb _ _); [|exact I]. cbn. apply Forall2_reverse, H.
Qed.
(** A change of the assignments alone, in every module. *)
Section Change.
Context (g : module -> module) (Hn : forall m, m_name (g m) = m_name m) (Hi : forall m, m_imports (g m) = m_imports m).
Lemma module_named_change tr x : module_named (map g tr) x = option_map g (module_named tr x).
Proof. unfold module_named. induction tr as [|m tr IH]; [reflexivity|]. cbn [map find]. rewrite Hn. destruct (String.eqb _ x); [reflexivity|exact IH]. Qed.
Lemma reorder_change fuel tr : Frontend.reorder_modules fuel (map g tr) = do o <- Frontend.reorder_modules fuel tr; Done (map g o).
Proof.
  unfold Frontend.reorder_modules. assert (F : Forall2 alike (map outline_module tr) (map outline_module (map g tr))).
  { induction tr as [|m tr IH]; constructor; [|exact IH]. split; cbn; [apply Hn|rewrite Hi; reflexivity]. }
  pose proof (reorder_alike fuel _ _ F) as H. destruct (CompilerTree.reorder_modules fuel (map outline_module tr)) as [o| | |], (CompilerTree.reorder_modules fuel (map outline_module (map g tr))) as [o'| | |]; try contradiction; try reflexivity.
  cbn [obind]. cbn in H. induction H as [|m m' o o' (E & _) _ IH]; [reflexivity|]. cbn [omap]. rewrite E, <- map_rev, module_named_change.
  destruct (module_named (rev tr) (CompilerTree.m_name m)); [|reflexivity]. cbn [option_map olift obind]. rewrite <- map_rev in IH. rewrite IH. destruct (omap _ o); reflexivity.
Qed.
End Change.

(** ** Components written in *)
Section Look.
Context (look : string -> option (list component)).
Definition splice (c : component) : list component :=
  match c with Comp _ _ _ _ (Some (TRef (Defined None r _))) => match look r with Some cs => cs | None => [c] end | _ => [c] end.
(** At the outside of a type, and in the types in it that will be taken out. *)
Definition top (t : type) : type := match t with TRecord false cs ext => TRecord false (flat_map splice cs) ext | _ => t end.
Fixpoint inner (t : type) : type :=
  match t with
  | TRecord set cs ext => TRecord set (map (fun c => match c with Comp n u o d co => Comp n (inner u) o d co end) cs) ext
  | TListOf set n u => TListOf set n (top (inner u))
  | ParserTree.TChoice alts => ParserTree.TChoice (map (fun a => (fst a, inner (snd a))) alts)
  | TTagged g kw u => TTagged g kw (top (inner u))
  | TSimple _ | TInteger _ | TEnumerated _ _ | TField _ _ | TRef _ => t
  end.
Definition on_type (f : type -> type) (a : assignment) : assignment := match a_specific a with AType t => Assign (a_name a) (AType (f t)) (a_parameters a) | _ => a end.
Lemma on_type_eq f a : on_type f a = match a_specific a with AType t => Assign (a_name a) (AType (f t)) (a_parameters a) | _ => a end. Proof. reflexivity. Qed.
Definition fixed (md : string) (c : component) : Prop := match c with Comp _ u _ _ _ => forall s, find_nested md u s = (u, s) end.
Context (md : string) (Hlook : forall r cs, look r = Some cs -> Forall (fixed md) cs /\ forallb (fun c => negb (is_comp_of c)) cs = true).
Definition tops (s s' : nest_state) : Prop := fst s' = fst s /\ snd s' = map (fun p => (fst p, top (snd p))) (snd s).
Lemma top_prefix t : unnamed_prefix (top t) = unnamed_prefix t. Proof. destruct t as [| | | | |[|]| | |]; reflexivity. Qed.
Lemma hoist_top t s s' : tops s s' -> fst (hoist md (top t) s') = (match unnamed_prefix t with Some _ => fst (hoist md t s) | None => t end) /\ tops (snd (hoist md t s)) (snd (hoist md (top t) s')).
Proof.
  intros (E1 & E2). unfold hoist. rewrite top_prefix, E1. destruct (unnamed_prefix t) eqn:P; cbn [fst snd].
  - split; [reflexivity|]. split; cbn [fst snd]; [reflexivity|]. rewrite E2, map_app. reflexivity.
  - split; [destruct t as [| | | | |[|]| | |]; try discriminate P; reflexivity|split; assumption].
Qed.
(** Positions at which COMPONENTS OF is dealt with: all are names that [look] knows. *)
Definition comp_ready (c : component) : bool :=
  match c with
  | Comp _ _ _ _ None => true
  | Comp _ u _ _ (Some (TRef (Defined None r _))) => match u with TSimple _ => true | _ => false end && match look r with Some _ => true | None => false end
  | Comp _ _ _ _ (Some _) => false
  end.
Definition top_ready (t : type) : bool := match t with TRecord false cs _ => forallb comp_ready cs | _ => true end.
Fixpoint inner_ready (t : type) : bool :=
  match t with
  | TRecord set cs ext => forallb (fun c => match c with Comp n u o d co => inner_ready u end) cs
  | TListOf set n u => top_ready u && inner_ready u
  | ParserTree.TChoice alts => forallb (fun a => inner_ready (snd a)) alts
  | TTagged g kw u => top_ready u && inner_ready u
  | TSimple _ | TInteger _ | TEnumerated _ _ | TField _ _ | TRef _ => true
  end.
Definition nest_comp (c : component) (s : nest_state) : component * nest_state := match c with Comp n u o d co => let (u', s) := find_nested md u s in (Comp n u' o d co, s) end.
Lemma nmap_app {A} (f : A -> nest_state -> A * nest_state) l1 l2 s : nmap f (l1 ++ l2) s = let (r1, s1) := nmap f l1 s in let (r2, s2) := nmap f l2 s1 in (r1 ++ r2, s2).
Proof.
  revert s. induction l1 as [|x l1 IH]; intros s; cbn [app]; [cbn [nmap]; destruct (nmap f l2 s); reflexivity|]. rewrite !nmap_cons. destruct (f x s) as [y s1]. rewrite IH. destruct (nmap f l1 s1) as [r1 s2]. destruct (nmap f l2 s2). reflexivity.
Qed.
Lemma nmap_fixed cs s : Forall (fixed md) cs -> nmap nest_comp cs s = (cs, s).
Proof. intros F. revert s. induction F as [|[n u o d co] cs H _ IH]; intros s; [reflexivity|]. rewrite nmap_cons. cbn [nest_comp]. cbn [fixed] in H. rewrite H, IH. reflexivity. Qed.
Lemma nest_splice c s : comp_ready c = true -> nmap nest_comp (splice c) s = (splice (fst (nest_comp c s)), snd (nest_comp c s)).
Proof.
  destruct c as [n u o d co]. intros R. assert (One : nmap nest_comp [Comp n u o d co] s = ([fst (nest_comp (Comp n u o d co) s)], snd (nest_comp (Comp n u o d co) s))).
  { rewrite nmap_cons. destruct (nest_comp (Comp n u o d co) s). reflexivity. }
  destruct co as [[| | | | | | | |[[m|] r args]]|]; try discriminate R.
  - cbn [comp_ready] in R. apply andb_true_iff in R as [Ru R]. destruct u; try discriminate Ru. cbn [splice nest_comp find_nested fst snd]. destruct (look r) as [cs|] eqn:L; [|discriminate R]. apply nmap_fixed, (Hlook r cs L).
  - cbn [splice]. rewrite One. cbn [nest_comp]. destruct (find_nested md u s). reflexivity.
Qed.
Lemma find_record set cs ext s : find_nested md (TRecord set cs ext) s = let (cs', s) := nmap nest_comp cs s in (TRecord set cs' ext, s).
Proof. reflexivity. Qed.
Lemma nest_top t s : top_ready t = true -> find_nested md (top t) s = (top (fst (find_nested md t s)), snd (find_nested md t s)).
Proof.
  destruct t as [| | | |alts|[|] cs ext|set n u|g kw u|d]; intros R; cbn [top].
  all: try (destruct (find_nested md _ s) as [v s1] eqn:E; cbn [fst snd]; cbn [find_nested] in E; repeat (match type of E with context [let (_, _) := ?x in _] => destruct x end); injection E as <- <-; reflexivity).
  rewrite !find_record. enough (H : nmap nest_comp (flat_map splice cs) s = (flat_map splice (fst (nmap nest_comp cs s)), snd (nmap nest_comp cs s))) by (rewrite H; destruct (nmap nest_comp cs s); reflexivity).
  cbn [top_ready] in R. revert s. induction cs as [|c cs IH]; intros s; [reflexivity|]. cbn [forallb] in R. apply andb_true_iff in R as [Rc R]. cbn [flat_map]. rewrite nmap_app, nest_splice by exact Rc. rewrite nmap_cons.
  destruct (nest_comp c s) as [c1 s1]. cbn [fst snd]. rewrite (IH R s1). destruct (nmap nest_comp cs s1). reflexivity.
Qed.
Lemma nmap_rel {A} (f g : A -> nest_state -> A * nest_state) (h : A -> A) l : Forall (fun x => forall s s', tops s s' -> fst (g (h x) s') = fst (f x s) /\ tops (snd (f x s)) (snd (g (h x) s'))) l ->
  forall s s', tops s s' -> fst (nmap g (map h l) s') = fst (nmap f l s) /\ tops (snd (nmap f l s)) (snd (nmap g (map h l) s')).
Proof.
  induction 1 as [|x l Hx _ IH]; intros s s' T; [split; [reflexivity|exact T]|]. cbn [map]. rewrite !nmap_cons. destruct (Hx s s' T) as (E1 & T1). destruct (f x s) as [y s1], (g (h x) s') as [y' s1']. cbn [fst snd] in *. subst y'.
  destruct (IH s1 s1' T1) as (E2 & T2). destruct (nmap f l s1), (nmap g (map h l) s1'). cbn [fst snd] in *. subst. auto.
Qed.
Lemma inner_top_ready t : top_ready (inner t) = top_ready t.
Proof.
  destruct t as [| | | | |[|] cs ext| | |]; try reflexivity. cbn [inner top_ready]. induction cs as [|[n u o d co] cs IH]; [reflexivity|]. cbn [map forallb]. rewrite IH. f_equal. cbn [comp_ready]. destruct co as [[| | | | | | | |[[m|] r args]]|]; try reflexivity. destruct u; reflexivity.
Qed.
Lemma nest_inner t : inner_ready t = true -> forall s s', tops s s' -> fst (find_nested md (inner t) s') = fst (find_nested md t s) /\ tops (snd (find_nested md t s)) (snd (find_nested md (inner t) s')).
Proof.
  induction t as [| | | |alts IH|set cs ext IH|set n u IH|g kw u IH|d] using type_induct; intros R s s' T; try (split; [reflexivity|exact T]).
  - cbn [inner_ready] in R. cbn [inner find_nested]. set (f := fun a s => let (u', s) := find_nested md (snd a) s in ((fst a, u'), s)).
    pose proof (nmap_rel f f (fun a => (fst a, inner (snd a))) alts) as N. destruct N with (s := s) (s' := s') as (E1 & T1); [|exact T|].
    + rewrite forallb_forall in R. apply Forall_forall. intros a Ha s0 s0' T0. rewrite Forall_forall in IH. specialize (IH a Ha (R a Ha) s0 s0' T0). unfold f. cbn [fst snd]. destruct (find_nested md (snd a) s0), (find_nested md (inner (snd a)) s0'). cbn [fst snd] in *. destruct IH as [-> ?]. auto.
    + destruct (nmap f alts s), (nmap f (map _ alts) s'). cbn [fst snd] in *. subst. auto.
  - cbn [inner_ready] in R. cbn [inner]. rewrite !find_record.
    pose proof (nmap_rel nest_comp nest_comp (fun c => match c with Comp n u o d co => Comp n (inner u) o d co end) cs) as N. destruct N with (s := s) (s' := s') as (E1 & T1); [|exact T|].
    + rewrite forallb_forall in R. apply Forall_forall. intros [n u o d co] Ha s0 s0' T0. rewrite Forall_forall in IH. specialize (IH _ Ha (R _ Ha) s0 s0' T0). cbn [nest_comp]. destruct (find_nested md u s0), (find_nested md (inner u) s0'). cbn [fst snd] in *. destruct IH as [-> ?]. auto.
    + destruct (nmap nest_comp cs s), (nmap nest_comp (map _ cs) s'). cbn [fst snd] in *. subst. auto.
  - cbn [inner_ready] in R. apply andb_true_iff in R as [R1 R2]. destruct (IH R2 s s' T) as (E1 & T1). cbn [inner find_nested]. rewrite nest_top by (rewrite inner_top_ready; exact R1).
    destruct (find_nested md u s) as [u1 s1], (find_nested md (inner u) s') as [u1' s1']. cbn [fst snd] in *. subst u1'. destruct (hoist_top u1 s1 s1' T1) as (E2 & T2). destruct (hoist md (top u1) s1') as [w' s2'] eqn:W', (hoist md u1 s1) as [w s2] eqn:W. cbn [fst snd] in *.
    split; [|exact T2]. f_equal. unfold hoist in W. destruct (unnamed_prefix u1); injection W as <- <-; exact E2.
  - cbn [inner_ready] in R. apply andb_true_iff in R as [R1 R2]. destruct (IH R2 s s' T) as (E1 & T1). cbn [inner find_nested]. rewrite nest_top by (rewrite inner_top_ready; exact R1).
    destruct (find_nested md u s) as [u1 s1], (find_nested md (inner u) s') as [u1' s1']. cbn [fst snd] in *. subst u1'. destruct (hoist_top u1 s1 s1' T1) as (E2 & T2). destruct (hoist md (top u1) s1') as [w' s2'] eqn:W', (hoist md u1 s1) as [w s2] eqn:W. cbn [fst snd] in *.
    split; [|exact T2]. f_equal. unfold hoist in W. destruct (unnamed_prefix u1); injection W as <- <-; exact E2.
Qed.
(** Taking structures out of the module with the components written in. *)
Definition assign_ready (a : assignment) : bool := match a_specific a with AType t => top_ready t && inner_ready t | _ => true end.
Lemma split_inlined l : forallb assign_ready l = true -> forall n, split_nested md (map (on_type (fun t => top (inner t))) l) n = (map (on_type top) (fst (split_nested md l n)), snd (split_nested md l n)).
Proof.
  induction l as [|a l IH]; intros R n; [reflexivity|]. cbn [forallb] in R. apply andb_true_iff in R as [Ra R]. cbn [map split_nested]. rewrite (on_type_eq _ a). unfold assign_ready in Ra.
  destruct (a_specific a) as [t|t v|fs|] eqn:Ea; cbn [a_specific].
  - apply andb_true_iff in Ra as [R1 R2]. cbn [a_name a_parameters]. rewrite nest_top by (rewrite inner_top_ready; exact R1). destruct (nest_inner t R2 (n, []) (n, [])) as (E & T); [split; reflexivity|]. rewrite E.
    destruct (find_nested md t (n, [])) as [t1 [n1 new]]. destruct (find_nested md (inner t) (n, [])) as [t1' [n1' new']]. cbn [fst snd] in *. destruct T as (T1 & T2). cbn [fst snd] in *. subst n1' new'. rewrite (IH R n1).
    destruct (split_nested md l n1) as [l1 n2]. cbn [fst snd]. rewrite map_app. cbn [map]. f_equal. f_equal.
    rewrite <- map_rev, !map_map. apply map_ext. intros p. reflexivity.
  - rewrite Ea, (IH R n). destruct (split_nested md l n). cbn [fst snd map]. rewrite (on_type_eq top a), Ea. reflexivity.
  - rewrite Ea, (IH R n). destruct (split_nested md l n). cbn [fst snd map]. rewrite (on_type_eq top a), Ea. reflexivity.
  - rewrite Ea, (IH R n). destruct (split_nested md l n). cbn [fst snd map]. rewrite (on_type_eq top a), Ea. reflexivity.
Qed.
(** What is taken out is ready, too. *)
Lemma top_ready_nest t s : top_ready (fst (find_nested md t s)) = top_ready t.
Proof.
  destruct t as [| | | |alts|[|] cs ext|set n u|g kw u|d]; try reflexivity; try (cbn [find_nested]; repeat (match goal with |- context [let (_, _) := ?x in _] => destruct x end); reflexivity).
  rewrite find_record. enough (H : forallb comp_ready (fst (nmap nest_comp cs s)) = forallb comp_ready cs) by (destruct (nmap nest_comp cs s); exact H).
  revert s. induction cs as [|[n u o d co] cs IH]; intros s; [reflexivity|]. rewrite nmap_cons. cbn [nest_comp]. assert (E : match u with TSimple _ => true | _ => false end = match fst (find_nested md u s) with TSimple _ => true | _ => false end).
  { destruct u; try reflexivity; cbn [find_nested]; repeat (match goal with |- context [let (_, _) := ?x in _] => destruct x end); reflexivity. }
  destruct (find_nested md u s) as [u1 s1]. cbn [fst] in E. specialize (IH s1). destruct (nmap nest_comp cs s1). cbn [fst forallb] in *. rewrite IH. f_equal. cbn [comp_ready]. rewrite E. reflexivity.
Qed.
Definition out_ready (s : nest_state) : Prop := Forall (fun p => top_ready (snd p) = true) (snd s).
Lemma nmap_ready {A} (f : A -> nest_state -> A * nest_state) l : Forall (fun x => forall s, out_ready s -> out_ready (snd (f x s))) l -> forall s, out_ready s -> out_ready (snd (nmap f l s)).
Proof. induction 1 as [|x l Hx _ IH]; intros s Hs; [exact Hs|]. rewrite nmap_cons. specialize (Hx s Hs). destruct (f x s) as [y s1]. specialize (IH s1 Hx). destruct (nmap f l s1). exact IH. Qed.
Lemma hoist_ready t s : top_ready t = true -> out_ready s -> out_ready (snd (hoist md t s)).
Proof. intros R Hs. unfold hoist. destruct (unnamed_prefix t); [|exact Hs]. unfold out_ready. cbn [snd]. apply Forall_app. split; [exact Hs|]. constructor; [exact R|constructor]. Qed.
Lemma nest_ready t : inner_ready t = true -> forall s, out_ready s -> out_ready (snd (find_nested md t s)).
Proof.
  induction t as [| | | |alts IH|set cs ext IH|set n u IH|g kw u IH|d] using type_induct; intros R s Hs; try exact Hs; cbn [inner_ready] in R.
  - cbn [find_nested]. pose proof (nmap_ready (fun a s => let (u', s) := find_nested md (snd a) s in ((fst a, u'), s)) alts) as N. specialize (N ltac:(rewrite forallb_forall in R; apply Forall_forall; intros a Ha s0 H0; rewrite Forall_forall in IH; specialize (IH a Ha (R a Ha) s0 H0); destruct (find_nested md (snd a) s0); exact IH) s Hs).
    destruct (nmap _ alts s). exact N.
  - rewrite find_record. pose proof (nmap_ready nest_comp cs) as N. specialize (N ltac:(rewrite forallb_forall in R; apply Forall_forall; intros [n u o d co] Ha s0 H0; rewrite Forall_forall in IH; specialize (IH _ Ha (R _ Ha) s0 H0); cbn [nest_comp]; destruct (find_nested md u s0); exact IH) s Hs).
    destruct (nmap _ cs s). exact N.
  - apply andb_true_iff in R as [R1 R2]. cbn [find_nested]. specialize (IH R2 s Hs). pose proof (top_ready_nest u s) as E. destruct (find_nested md u s) as [u1 s1]. cbn [fst snd] in *. pose proof (hoist_ready u1 s1 ltac:(congruence) IH) as H. destruct (hoist md u1 s1). exact H.
  - apply andb_true_iff in R as [R1 R2]. cbn [find_nested]. specialize (IH R2 s Hs). pose proof (top_ready_nest u s) as E. destruct (find_nested md u s) as [u1 s1]. cbn [fst snd] in *. pose proof (hoist_ready u1 s1 ltac:(congruence) IH) as H. destruct (hoist md u1 s1). exact H.
Qed.
Definition out_assign (a : assignment) : Prop := match a_specific a with AType t => top_ready t = true | _ => True end.
Lemma split_ready l : forallb assign_ready l = true -> forall n, Forall out_assign (fst (split_nested md l n)).
Proof.
  induction l as [|a l IH]; intros R n; [constructor|]. cbn [forallb] in R. apply andb_true_iff in R as [Ra R]. cbn [split_nested]. unfold assign_ready in Ra. specialize (IH R).
  destruct (a_specific a) as [t|t v|fs|] eqn:Ea; cycle 1; [specialize (IH n); destruct (split_nested md l n); constructor; [unfold out_assign; rewrite Ea; exact I|exact IH]..|].
  apply andb_true_iff in Ra as [R1 R2]. pose proof (top_ready_nest t (n, [])) as E. pose proof (nest_ready t R2 (n, []) (Forall_nil _)) as N. destruct (find_nested md t (n, [])) as [t1 [n1 new]]. cbn [fst snd] in *.
  specialize (IH n1). destruct (split_nested md l n1) as [l1 n2]. cbn [fst] in *. apply Forall_app. split; [|constructor; [unfold out_assign; cbn; congruence|exact IH]].
  apply Forall_map. unfold out_ready in N. cbn [snd] in N. apply Forall_rev. eapply Forall_impl; [|exact N]. intros p Hp. exact Hp.
Qed.

(** ** Writing them in *)
Definition plain_cs (cs : list component) : bool := forallb (fun c => negb (is_comp_of c)) cs.
Lemma splice_plain cs : plain_cs cs = true -> flat_map splice cs = cs.
Proof.
  induction cs as [|c cs IH]; intros H; [reflexivity|]. cbn [plain_cs forallb] in H. apply andb_true_iff in H as [Hc H]. cbn [flat_map]. rewrite (IH H). destruct c as [n u o d [|]]; [discriminate Hc|reflexivity].
Qed.
Lemma splice_ready cs : forallb comp_ready cs = true -> plain_cs (flat_map splice cs) = true.
Proof.
  induction cs as [|c cs IH]; intros H; [reflexivity|]. cbn [forallb] in H. apply andb_true_iff in H as [Hc H]. cbn [flat_map]. unfold plain_cs. rewrite forallb_app. apply andb_true_iff. split; [|exact (IH H)].
  destruct c as [n u o d [[| | | | | | | |[[m|] r args]]|]]; try discriminate Hc; [|reflexivity]. cbn [comp_ready] in Hc. apply andb_true_iff in Hc as [_ Hc]. cbn [splice]. destruct (look r) as [cs'|] eqn:L; [|discriminate Hc]. apply (Hlook r cs' L).
Qed.
Lemma filter_plain cs : plain_cs cs = true -> filter (fun c => negb (is_comp_of c)) cs = cs.
Proof. induction cs as [|c cs IH]; intros H; [reflexivity|]. cbn [plain_cs forallb] in H. apply andb_true_iff in H as [Hc H]. cbn [filter]. rewrite Hc, (IH H). reflexivity. Qed.
Lemma expand_plain tr name cs : plain_cs cs = true -> expand_comps tr md name cs = Done cs.
Proof. induction cs as [|c cs IH]; intros H; [reflexivity|]. cbn [plain_cs forallb] in H. apply andb_true_iff in H as [Hc H]. cbn [expand_comps]. rewrite (IH H). destruct c as [n u o d [|]]; [discriminate Hc|reflexivity]. Qed.
Lemma expand_ready tr name cs : forallb comp_ready cs = true ->
  (forall n u o d r args cs', In (Comp n u o d (Some (TRef (Defined None r args)))) cs -> look r = Some cs' ->
     exists w b set ext, module_named tr md = Some w /\ m_name w = md /\ assign_named (m_assigns w) r = Some b /\ a_specific b = AType (TRecord set cs' ext) /\ r <> name) ->
  expand_comps tr md name cs = Done (flat_map splice cs).
Proof.
  induction cs as [|c cs IH]; intros H F; [reflexivity|]. cbn [forallb] in H. apply andb_true_iff in H as [Hc H]. cbn [expand_comps flat_map]. rewrite (IH H) by (intros; eapply F; [right; eassumption|eassumption]).
  destruct c as [n u o d [[| | | | | | | |[[m|] r args]]|]]; try discriminate Hc; [|reflexivity]. cbn [comp_ready] in Hc. apply andb_true_iff in Hc as [_ Hc]. destruct (look r) as [cs'|] eqn:L; [|discriminate Hc].
  destruct (F n u o d r args cs' (or_introl eq_refl) L) as (w & b & set & ext & W1 & W2 & W3 & W4 & W5). cbn [included ref_module splice]. rewrite W1. cbn [olift obind]. rewrite W3. cbn [olift obind]. rewrite W4, W2, String.eqb_refl. apply String.eqb_neq in W5. rewrite W5. cbn [andb obind]. rewrite L.
  rewrite filter_app. cbn [filter is_comp_of negb]. rewrite app_nil_r, filter_plain by apply (Hlook r cs' L). reflexivity.
Qed.
End Look.

(** ** Modules *)
Section Modules.
Context (look : string -> string -> option (list component)).
Definition inl (m : module) : module := with_assigns m (map (on_type (fun t => top (look (m_name m)) (inner (look (m_name m)) t))) (m_assigns m)).
Definition topm (m : module) : module := with_assigns m (map (on_type (top (look (m_name m)))) (m_assigns m)).
(** [look] gives the components of SEQUENCEs of the module, in which nothing is to be taken out or written in. *)
Record may_include (m : module) : Prop := {
  mi_look : forall r cs, look (m_name m) r = Some cs -> In (Assign r (AType (TRecord false cs false)) []) (m_assigns m) /\ Forall (fixed (m_name m)) cs /\ forallb (fun c => negb (is_comp_of c)) cs = true;
  mi_ready : forallb (assign_ready (look (m_name m))) (m_assigns m) = true;
  mi_names : distinct_names m /\ not_made_up m }.
Lemma import_assigns m : with_imports m = m_assigns m ++ flat_map (fun i => map (fun x => Assign x (AType (TRef (Defined (Some (i_module i)) x []))) []) (i_types i)) (m_imports m).
Proof. reflexivity. Qed.
Lemma with_imports_inl m : with_imports (inl m) = map (on_type (fun t => top (look (m_name m)) (inner (look (m_name m)) t))) (with_imports m).
Proof.
  rewrite !import_assigns, map_app. cbn [inl with_assigns m_assigns m_imports]. f_equal. symmetry. rewrite <- (map_id (flat_map _ _)) at 2. apply map_ext_in. intros a Ha. apply in_flat_map in Ha as (i & _ & Ha). apply in_map_iff in Ha as (x & <- & _). reflexivity.
Qed.
Lemma with_imports_ready m : may_include m -> forallb (assign_ready (look (m_name m))) (with_imports m) = true.
Proof.
  intros H. rewrite import_assigns, forallb_app, (mi_ready _ H). apply forallb_forall. intros a Ha. apply in_flat_map in Ha as (i & _ & Ha). apply in_map_iff in Ha as (x & <- & _). reflexivity.
Qed.
Lemma duplicated_names l l' : map a_name l' = map a_name l -> check_duplicated_names (map outline_assign l') = check_duplicated_names (map outline_assign l).
Proof.
  intros H. unfold check_duplicated_names. enough (E : forall seen, duplicated seen (map outline_assign l') = duplicated seen (map outline_assign l)) by (rewrite E; reflexivity).
  revert l' H. induction l as [|a l IH]; intros [|b l'] H seen; try discriminate H; [reflexivity|]. injection H as H1 H2. cbn [map duplicated outline_assign CompilerTree.a_name]. rewrite H1, (IH _ H2). reflexivity.
Qed.
Lemma on_type_name f a : a_name (on_type f a) = a_name a. Proof. unfold on_type. destruct (a_specific a); reflexivity. Qed.
Lemma on_type_names f l : map a_name (map (on_type f) l) = map a_name l. Proof. rewrite map_map. apply map_ext. apply on_type_name. Qed.
Lemma may_hlook m : may_include m -> forall r cs, look (m_name m) r = Some cs -> Forall (fixed (m_name m)) cs /\ forallb (fun c => negb (is_comp_of c)) cs = true.
Proof. intros H r cs L. apply (mi_look _ H r cs L). Qed.
Lemma split_inl tr : Forall may_include tr -> forall n, split_modules (map inl tr) n = do t1 <- split_modules tr n; Done (map topm t1).
Proof.
  induction 1 as [|m tr Hm _ IH]; intros n; [reflexivity|]. cbn [map split_modules]. rewrite with_imports_inl, (duplicated_names (with_imports m)) by apply on_type_names. destruct (check_duplicated_names _); try reflexivity. cbn [obind].
  change (m_name (inl m)) with (m_name m). rewrite (split_inlined _ _ (may_hlook m Hm)) by apply with_imports_ready, Hm. destruct (split_nested (m_name m) (with_imports m) n) as [l n1]. cbn [fst snd].
  destruct (2^31 <=? n1)%Z; [reflexivity|]. rewrite IH. destruct (split_modules tr n1); reflexivity.
Qed.
(** After taking out: what is needed to write in. *)
Record can_include (m : module) : Prop := {
  ci_look : forall r cs, look (m_name m) r = Some cs -> exists b, assign_named (m_assigns m) r = Some b /\ a_specific b = AType (TRecord false cs false) /\ Forall (fixed (m_name m)) cs /\ forallb (fun c => negb (is_comp_of c)) cs = true;
  ci_ready : Forall (out_assign (look (m_name m))) (m_assigns m);
  ci_names : NoDup (map a_name (m_assigns m)) }.
Lemma fixed_record md cs ext s t' s' : Forall (fixed md) cs -> find_nested md (TRecord false cs ext) s = (t', s') -> t' = TRecord false cs ext.
Proof. intros F E. rewrite find_record, nmap_fixed in E by exact F. congruence. Qed.
Lemma split_can m n n' l' : may_include m -> (0 <= n)%Z -> (n' < 2^31)%Z -> split_nested (m_name m) (with_imports m) n = (l', n') -> can_include (with_assigns m l').
Proof.
  intros H H0 H1 E. pose proof (split_names m n l' n' (proj1 (mi_names _ H)) (proj2 (mi_names _ H)) H0 H1 E) as N. constructor; cbn [with_assigns m_name m_assigns].
  - intros r cs L. destruct (mi_look _ H r cs L) as (I & F & P). destruct (split_nested_facts _ _ _ _ _ E) as (tab & _ & _ & _ & _ & _ & G).
    destruct (G (Assign r (AType (TRecord false cs false)) []) (TRecord false cs false)) as (s & t' & s' & F1 & F2 & _); [rewrite import_assigns; apply in_or_app; left; exact I|reflexivity|].
    apply fixed_record in F1; [|exact F]. subst t'. cbn [a_name a_parameters] in F2. eexists. split; [apply (find_unique a_name l' _ N F2)|]. split; [reflexivity|exact (conj F P)].
  - pose proof (split_ready (look (m_name m)) (m_name m) (with_imports m) (with_imports_ready m H) n) as R. rewrite E in R. exact R.
  - exact N.
Qed.
Lemma split_all_can tr n t1 : Forall may_include tr -> (0 <= n)%Z -> split_modules tr n = Done t1 -> Forall can_include t1 /\ map m_name t1 = map m_name tr.
Proof.
  intros F H0 E. pose proof (split_modules_facts tr n t1 H0 E) as G. clear E. induction G as [|m m' tr t1 (k & k' & l' & K1 & K2 & K3 & ->) _ IH]; [split; [constructor|reflexivity]|]. inversion F as [|? ? Fm Ft]; subst. destruct (IH Ft) as (I1 & I2). split.
  - constructor; [|exact I1]. eapply split_can; eassumption.
  - cbn [map]. rewrite I2. reflexivity.
Qed.
Lemma find_mixed {A} (key : A -> string) (f : A -> A) (Hf : forall a, key (f a) = key a) x b : f b = b -> forall pre todo, find (fun a => String.eqb (key a) x) (pre ++ todo) = Some b -> find (fun a => String.eqb (key a) x) (map f pre ++ todo) = Some b.
Proof. intros E. induction pre as [|a pre IH]; intros todo H; [exact H|]. cbn [app map find] in *. rewrite Hf. destruct (String.eqb (key a) x); [injection H as ->; rewrite E; reflexivity|auto]. Qed.
Lemma top_plain lk a cs ext : a_specific a = AType (TRecord false cs ext) -> plain_cs cs = true -> on_type (top lk) a = a.
Proof. intros E P. rewrite on_type_eq, E. cbn [top]. rewrite splice_plain by exact P. rewrite <- E. destruct a. reflexivity. Qed.
Lemma find_skip {A} (p : A -> bool) l1 l2 : (forall x, In x l1 -> p x = false) -> find p (l1 ++ l2) = find p l2.
Proof. induction l1 as [|x l1 IH]; intros H; [reflexivity|]. cbn [app find]. rewrite (H x) by (left; reflexivity). apply IH. intros y Hy. apply H. right. exact Hy. Qed.
Lemma expand_module_done before m after : ~ In (m_name m) (map m_name before) -> can_include m -> forall todo pre, m_assigns m = pre ++ todo ->
  expand_module before m (rev (map (on_type (top (look (m_name m)))) pre)) todo after = Done (map (on_type (top (look (m_name m)))) (m_assigns m)).
Proof.
  intros N C. induction todo as [|a todo IH]; intros pre E; cbn [expand_module]; [rewrite rev_involutive, E, app_nil_r; reflexivity|].
  set (T := on_type (top (look (m_name m)))) in *. set (tree := rev before ++ _ :: after).
  enough (X : expand_assign tree (m_name m) a = Done (T a)). { rewrite X. cbn [obind]. specialize (IH (pre ++ [a])). rewrite map_app, rev_app_distr in IH. cbn [map rev app] in IH. apply IH. rewrite E, <- app_assoc. reflexivity. }
  assert (Hl : forall r cs, look (m_name m) r = Some cs -> Forall (fixed (m_name m)) cs /\ forallb (fun c => negb (is_comp_of c)) cs = true) by (intros r cs L; destruct (ci_look _ C r cs L) as (b & _ & _ & P); exact P).
  assert (Ra : out_assign (look (m_name m)) a). { pose proof (ci_ready _ C) as R. rewrite Forall_forall in R. apply R. rewrite E. apply in_or_app. right. left. reflexivity. }
  unfold expand_assign, T. rewrite on_type_eq. unfold out_assign in Ra. destruct (a_specific a) as [[| | | |alts|[|] cs ext|set n u|g kw u|d]| | |] eqn:Ea; try (f_equal; destruct a; cbn in *; subst; reflexivity).
  cbn [top]. rewrite (expand_ready (look (m_name m)) (m_name m)); [reflexivity| |exact Ra|].
  - exact Hl.
  - intros n u o d r args cs' Hc L. destruct (ci_look _ C r cs' L) as (b & B1 & B2 & _ & B3).
    exists (with_assigns m (rev (rev (map T pre)) ++ a :: todo)), b, false, false. split; [|split; [reflexivity|split; [|split; [exact B2|]]]].
    + unfold tree, module_named. rewrite find_skip; [cbn [find with_assigns m_name]; rewrite String.eqb_refl; reflexivity|].
      intros x Hx. apply in_rev in Hx. apply String.eqb_neq. intros Ex. apply N. rewrite <- Ex. apply in_map, Hx.
    + rewrite rev_involutive. cbn [with_assigns m_assigns]. unfold assign_named. apply (find_mixed a_name T).
      * intros x. apply on_type_name.
      * apply (top_plain _ _ _ _ B2 B3).
      * rewrite <- E. exact B1.
    + intros ->. enough (a = b) by (subst b; rewrite Ea in B2; injection B2 as -> ->; rewrite forallb_forall in B3; specialize (B3 _ Hc); discriminate B3).
      pose proof (ci_names _ C) as Nd. assert (Ia : In a (m_assigns m)) by (rewrite E; apply in_or_app; right; left; reflexivity). pose proof (find_unique a_name _ _ Nd Ia) as Fa. unfold assign_named in B1. congruence.
Qed.
Lemma expand_tree_done after : forall before, NoDup (map m_name (rev before ++ after)) -> Forall can_include after -> expand_tree before after = Done (rev before ++ map topm after).
Proof.
  induction after as [|m after IH]; intros before N F; cbn [expand_tree map]; [rewrite app_nil_r; reflexivity|]. inversion F as [|? ? Fm Fa]; subst.
  pose proof (expand_module_done before m after) as X. specialize (X ltac:(rewrite map_app in N; cbn [map] in N; apply NoDup_remove_2 in N; intros I; apply N, in_or_app; left; rewrite map_rev, <- in_rev; exact I) Fm (m_assigns m) [] eq_refl).
  cbn [map rev] in X. rewrite X. cbn [obind]. rewrite IH; [cbn [rev]; rewrite <- app_assoc; reflexivity| |exact Fa]. cbn [rev]. rewrite <- app_assoc. rewrite map_app in *. exact N.
Qed.
Definition flat_assign (a : assignment) : Prop := match a_specific a with AType (TRecord false cs _) => plain_cs cs = true | _ => True end.
Lemma expand_assign_same tr md a : flat_assign a -> expand_assign tr md a = Done a.
Proof.
  unfold flat_assign, expand_assign. destruct (a_specific a) as [[| | | |alts|[|] cs ext|set n u|g kw u|d]| | |] eqn:Ea; try reflexivity. intros P. rewrite (expand_plain _ _ _ _ P). cbn [obind]. rewrite <- Ea. destruct a; reflexivity.
Qed.
Lemma expand_module_same before m after : forall todo done_, Forall flat_assign todo -> expand_module before m done_ todo after = Done (rev done_ ++ todo).
Proof.
  induction todo as [|a todo IH]; intros done_ F; cbn [expand_module]; [rewrite app_nil_r; reflexivity|]. inversion F as [|? ? Fa Ft]; subst. rewrite expand_assign_same by exact Fa. cbn [obind]. rewrite IH by exact Ft. cbn [rev]. rewrite <- app_assoc. reflexivity.
Qed.
Lemma expand_tree_same after : forall before, Forall (fun m => Forall flat_assign (m_assigns m)) after -> expand_tree before after = Done (rev before ++ after).
Proof.
  induction after as [|m after IH]; intros before F; cbn [expand_tree]; [rewrite app_nil_r; reflexivity|]. inversion F as [|? ? Fm Fa]; subst. rewrite expand_module_same by exact Fm. cbn [rev obind app]. rewrite with_assigns_same, IH by exact Fa. cbn [rev]. rewrite <- app_assoc. reflexivity.
Qed.
Lemma topm_flat m : can_include m -> Forall flat_assign (m_assigns (topm m)).
Proof.
  intros C. cbn [topm with_assigns m_assigns]. apply Forall_map. eapply Forall_impl; [|apply (ci_ready _ C)]. intros a Ra. unfold flat_assign, out_assign in *. rewrite on_type_eq. destruct (a_specific a) as [[| | | |alts|[|] cs ext|set n u|g kw u|d]| | |] eqn:Ea; cbn [a_specific top]; rewrite ?Ea; try exact I.
  apply (splice_ready _ (m_name m)); [|exact Ra]. intros r cs' L. destruct (ci_look _ C r cs' L) as (b & _ & _ & P). exact P.
Qed.
(** The passes after the first, with COMPONENTS OF and with the components in its place. *)
Definition later_passes (fuel : nat) (tr : list module) : out (list module) :=
  do tr <- Frontend.reorder_modules fuel tr; do tr <- split_modules tr 0; do tr <- resolve_components_of tr; do tr <- resolve_object_classes tr; reorder_tree fuel [] tr.
Theorem later_passes_inl fuel tr : NoDup (map m_name tr) -> Forall may_include tr -> later_passes fuel (map inl tr) = later_passes fuel tr.
Proof.
  intros N F. unfold later_passes. rewrite (reorder_change inl) by reflexivity. destruct (Frontend.reorder_modules fuel tr) as [o| | |] eqn:E; try reflexivity. cbn [obind].
  pose proof (reorder_modules_perm fuel tr o N E) as P. assert (Fo : Forall may_include o) by (apply Forall_forall; intros m Hm; rewrite Forall_forall in F; apply F; eapply Permutation_in; [apply Permutation_sym, P|exact Hm]).
  assert (No : NoDup (map m_name o)) by (eapply Permutation_NoDup; [apply Permutation_map, P|exact N]). rewrite (split_inl o Fo). destruct (split_modules o 0) as [t1| | |] eqn:S; try reflexivity. cbn [obind].
  destruct (split_all_can o 0 t1 Fo ltac:(lia) S) as (C1 & C2). unfold resolve_components_of. rewrite (expand_tree_done t1 [] ltac:(cbn [rev app]; rewrite C2; exact No) C1). cbn [rev app obind].
  rewrite (expand_tree_same (map topm t1) []); [reflexivity|]. apply Forall_map. eapply Forall_impl; [|exact C1]. intros m. apply topm_flat.
Qed.
End Modules.

(** ** From sources to trees *)
Lemma level_all_named : forall t, level t = true -> all_named t = true.
Proof.
  induction t as [k0| | |r m|root more IH1 IH2|set root more IH1 IH2|set size name t IH|c n m t IH| |x t IH| |t c IH] using ty_induct; cbn [level all_named]; intros H; try reflexivity; try discriminate H.
  - apply andb_true_iff in H as [H1 H2]. apply andb_true_iff. split; [|destruct more as [l|]; [|reflexivity]]; apply forallb_forall; rewrite Forall_forall in *; rewrite forallb_forall in *; auto.
  - assert (G : forall l, Forall (in_comp (fun t => level t = true -> all_named t = true)) l -> forallb level_comp l = true -> forallb all_named_comp l = true).
    { intros l F L. apply forallb_forall. intros [y u p|u p|u] Hc; rewrite forallb_forall in L; specialize (L _ Hc); try discriminate L. rewrite Forall_forall in F. specialize (F _ Hc). exact (F L). }
    rewrite inserted_parts in IH2. apply Forall_app in IH2 as [IH2 IH3]. apply andb_true_iff in H as [H1 H2]. rewrite (G _ IH1 H1). cbn [andb]. destruct more as [[l [l2|]]|]; [|apply G; assumption|reflexivity].
    apply andb_true_iff in H2 as [H2 H3]. cbn [first_part second_part] in *. rewrite (G _ IH2 H2), (G _ IH3 H3). reflexivity.
  - apply andb_true_iff in H as [_ H]. auto.
  - apply andb_true_iff in H as [_ H]. auto.
  - auto.
Qed.
Lemma no_prefix t n : needs_name t = false -> level t = true -> unnamed_prefix (fst (read_ty t n)) = None.
Proof.
  revert n. induction t as [k0| | |r m|root more IH1 IH2|set root more IH1 IH2|set size name t IH|c k m t IH| |x t IH| |t c IH] using ty_induct; intros n H L; try discriminate H; try discriminate L; try reflexivity; cbn [read_ty].
  - destruct (read_ty t n). reflexivity.
  - destruct (read_ty t n). reflexivity.
  - apply IH; assumption.
Qed.
Lemma thread_in {A B} (f : A -> Z -> B * Z) (P : B -> Prop) l : (forall x, In x l -> forall n, P (fst (f x n))) -> forall n, Forall P (fst (thread f l n)).
Proof. intros H. apply thread_Forall, Forall_forall. exact H. Qed.
Lemma level_fixed md : forall t, level t = true -> forall n s, find_nested md (fst (read_ty t n)) s = (fst (read_ty t n), s).
Proof.
  induction t as [k0| | |r m|root more IH1 IH2|set root more IH1 IH2|set size name t IH|c k m t IH| |x t IH| |t c IH] using ty_induct; intros H n s; cbn [level] in H; try reflexivity; try discriminate H.
  - rewrite read_choice_eq. assert (G : forall l, Forall (fun e => level (snd e) = true -> forall n s, find_nested md (fst (read_ty (snd e) n)) s = (fst (read_ty (snd e) n), s)) l -> forallb (fun e => level (snd e)) l = true ->
      forall n, Forall (fun a : string * type => forall s, find_nested md (snd a) s = (snd a, s)) (fst (thread read_named l n))).
    { intros l F L. apply thread_in. intros [y u] Hu j s0. rewrite forallb_forall in L. rewrite Forall_forall in F. specialize (F _ Hu (L _ Hu) j s0). unfold read_named. cbn [fst snd] in *. destruct (read_ty u j). exact F. }
    apply andb_true_iff in H as [H1 H2]. assert (H3 : forallb (fun e => level (snd e)) (additions more) = true) by (destruct more; [exact H2|reflexivity]).
    pose proof (G _ IH1 H1 n) as G1. destruct (thread read_named root n) as [r n1]. pose proof (G _ IH2 H3 n1) as G2. destruct (thread read_named (additions more) n1) as [r2 n2]. cbn [fst] in *.
    assert (G3 : Forall (fun a : string * type => forall s, find_nested md (snd a) s = (snd a, s)) (r2 ++ r)) by (apply Forall_app; split; assumption). clear -G3. cbn [find_nested].
    enough (E : forall s, nmap (fun a s => let (u', s) := find_nested md (snd a) s in ((fst a, u'), s)) (r2 ++ r) s = (r2 ++ r, s)) by (rewrite E; reflexivity).
    induction G3 as [|[y u] l Hu _ IH]; intros s0; [reflexivity|]. rewrite nmap_cons. cbn [fst snd] in *. rewrite Hu, IH. reflexivity.
  - rewrite read_record_eq. assert (G : forall l, Forall (in_comp (fun t => level t = true -> forall n s, find_nested md (fst (read_ty t n)) s = (fst (read_ty t n), s))) l -> forallb level_comp l = true ->
      forall n, Forall (fixed md) (fst (thread read_comp l n))).
    { intros l F L. apply thread_in. intros c Hc j. rewrite forallb_forall in L. rewrite Forall_forall in F. specialize (L _ Hc). specialize (F _ Hc). destruct c as [y u p|u p|u]; try discriminate L. cbn [in_comp level_comp] in *. specialize (F L j).
      cbn [read_comp]. destruct (read_ty u j). exact F. }
    rewrite inserted_parts in IH2. apply Forall_app in IH2 as [IH2 IH3]. apply andb_true_iff in H as [H1 H2].
    assert (Hb' : forallb level_comp (first_part more) = true /\ forallb level_comp (second_part more) = true).
    { destruct more as [[l [l2|]]|]; cbn; auto. apply andb_true_iff in H2. exact H2. }
    destruct Hb' as [Hb1 Hb2]. pose proof (G _ IH1 H1 n) as G1. destruct (thread read_comp root n) as [r n1]. pose proof (G _ IH2 Hb1 n1) as G2. destruct (thread read_comp (first_part more) n1) as [r2 n2].
    pose proof (G _ IH3 Hb2 n2) as G3. destruct (thread read_comp (second_part more) n2) as [r3 n3]. cbn [fst] in *. rewrite find_record, nmap_fixed; [reflexivity|]. apply Forall_app. split; [exact G1|]. apply Forall_app. split; assumption.
  - apply andb_true_iff in H as [H1 H2]. apply negb_true_iff in H1. specialize (IH H2 n s). pose proof (no_prefix t n H1 H2) as P. cbn [read_ty]. destruct (read_ty t n) as [u n1]. cbn [fst find_nested] in *. rewrite IH. unfold hoist. rewrite P. reflexivity.
  - apply andb_true_iff in H as [H1 H2]. apply negb_true_iff in H1. specialize (IH H2 n s). pose proof (no_prefix t n H1 H2) as P. cbn [read_ty]. destruct (read_ty t n) as [u n1]. cbn [fst find_nested] in *. rewrite IH. unfold hoist. rewrite P. reflexivity.
  - apply (IH H).
Qed.
Lemma level_comps_fixed md cs n : forallb level_comp cs = true -> Forall (fixed md) (fst (thread read_comp cs n)) /\ forallb (fun c => negb (is_comp_of c)) (fst (thread read_comp cs n)) = true.
Proof.
  intros L. rewrite forallb_forall in L. split; [|apply forallb_forall; apply Forall_forall]; apply thread_in; intros c Hc j; specialize (L _ Hc); destruct c as [y u p|u p|u]; try discriminate L; cbn [read_comp]; pose proof (level_fixed md u L j) as F; destruct (read_ty u j); [exact F|reflexivity].
Qed.
Lemma level_comps_steady cs n : forallb level_comp cs = true -> thread read_comp cs n = (fst (thread read_comp cs 0%Z), n).
Proof.
  intros L. pose proof (thread_steady read_comp cs) as T. specialize (T ltac:(apply Forall_forall; intros c Hc j k; rewrite forallb_forall in L; specialize (L _ Hc); destruct c as [y u p|u p|u]; try discriminate L; cbn [read_comp];
    pose proof (all_named_steady u (level_all_named u L) j k) as S; destruct (read_ty u j), (read_ty u k); cbn [fst snd] in *; destruct S as [-> ->]; auto) n 0%Z). destruct (thread read_comp cs n). cbn [fst snd] in *. destruct T as [-> ->]. reflexivity.
Qed.
Definition tree_look (ts : list (string * list ParserSource.comp)) (r : string) : option (list component) :=
  match sequence ts r with Some cs => if forallb level_comp cs then Some (fst (thread read_comp cs 0%Z)) else None | None => None end.
Section Filled.
Context (ts : list (string * list ParserSource.comp)).
Let lk := tree_look ts.
Definition innerc (c : component) : component := match c with Comp n u o d co => Comp n (inner lk u) o d co end.
Definition fills (t : ParserSource.ty) : Prop := forall here, well_filled ts here t = true -> forall n,
  read_ty (filled ts t) n = ((if here then top lk (inner lk (fst (read_ty t n))) else inner lk (fst (read_ty t n))), snd (read_ty t n)) /\
  inner_ready lk (fst (read_ty t n)) = true /\ (here = true -> top_ready lk (fst (read_ty t n)) = true).
Lemma fill_alts l : Forall (fun e => fills (snd e)) l -> forallb (fun e => well_filled ts false (snd e)) l = true -> forall n,
  thread read_named (map (fun e => (fst e, filled ts (snd e))) l) n = (map (fun a => (fst a, inner lk (snd a))) (fst (thread read_named l n)), snd (thread read_named l n)) /\
  forallb (fun a => inner_ready lk (snd a)) (fst (thread read_named l n)) = true.
Proof.
  induction 1 as [|[y t] l Ht _ IH]; intros H n; [split; reflexivity|]. cbn [forallb snd] in *. apply andb_true_iff in H as [H1 H2]. cbn [map thread]. unfold read_named at 1 3 5 7. cbn [fst snd].
  destruct (Ht false H1 n) as (E & R & _). rewrite E. destruct (read_ty t n) as [u n1]. cbn [fst snd] in *. destruct (IH H2 n1) as (E2 & R2). rewrite E2. destruct (thread read_named l n1). cbn [fst snd map forallb] in *. rewrite R, R2. split; reflexivity.
Qed.
Lemma fill_comps o set l : (o = true -> set = false) -> Forall (in_comp fills) l -> forallb (well_filled_comp ts o) l = true -> forall n,
  thread read_comp (flat_map (filled_comp ts set) l) n = ((if o then flat_map (splice lk) (map innerc (fst (thread read_comp l n))) else map innerc (fst (thread read_comp l n))), snd (thread read_comp l n)) /\
  forallb (fun c => match c with Comp n u o d co => inner_ready lk u end) (fst (thread read_comp l n)) = true /\ (o = true -> forallb (comp_ready lk) (fst (thread read_comp l n)) = true).
Proof.
  intros Ho. induction 1 as [|c l Hc _ IH]; intros H n; [destruct o; repeat split; reflexivity|]. cbn [forallb] in H. apply andb_true_iff in H as [H1 H2]. cbn [flat_map]. rewrite thread_app. cbn [thread].
  enough (G : thread read_comp (filled_comp ts set c) n = ((if o then splice lk (innerc (fst (read_comp c n))) else [innerc (fst (read_comp c n))]), snd (read_comp c n)) /\
      (match fst (read_comp c n) with Comp n u o d co => inner_ready lk u end) = true /\ (o = true -> comp_ready lk (fst (read_comp c n)) = true)).
  { destruct G as (G1 & G2 & G3). rewrite G1. destruct (read_comp c n) as [c1 n1]. cbn [fst snd] in *. destruct (IH H2 n1) as (E1 & E2 & E3). rewrite E1. destruct (thread read_comp l n1) as [r n2]. cbn [fst snd] in *. split; [destruct o; reflexivity|]. cbn [forallb]. rewrite G2, E2. split; [reflexivity|]. intros O. rewrite (G3 O), (E3 O). reflexivity. }
  destruct c as [y t p|t p|t]; cbn [in_comp filled_comp well_filled_comp] in *.
  - destruct (Hc false H1 n) as (E & R & _). cbn [thread read_comp]. rewrite E. destruct (read_ty t n). cbn [fst snd innerc splice] in *. split; [destruct o; reflexivity|]. auto.
  - destruct (Hc false H1 n) as (E & R & _). cbn [thread read_comp]. rewrite E. destruct (read_ty t n). cbn [fst snd innerc splice] in *. split; [destruct o; reflexivity|]. auto.
  - destruct t as [| | | | | | | |[m|] r| | |]; try discriminate H1. apply andb_true_iff in H1 as [-> H1]. rewrite (Ho eq_refl). destruct (sequence ts r) as [cs|] eqn:S; [|discriminate H1]. rewrite level_comps_steady by exact H1. cbn [read_comp read_ty fst snd innerc inner any_type splice].
    assert (L : lk r = Some (fst (thread read_comp cs 0%Z))) by (unfold lk, tree_look; rewrite S, H1; reflexivity). rewrite L. split; [reflexivity|]. split; [reflexivity|]. intros _. cbn [comp_ready]. rewrite L. reflexivity.
Qed.
Lemma filled_ok : forall t, fills t.
Proof.
  induction t as [k0| | |r m|root more IH1 IH2|set root more IH1 IH2|set size name t IH|c k m t IH| |x t IH| |t c IH] using ty_induct; intros here H n; cbn [well_filled] in H.
  1-4, 9, 11: cbn; destruct here; repeat split; reflexivity.
  - apply andb_true_iff in H as [H1 H2]. assert (H3 : forallb (fun e => well_filled ts false (snd e)) (additions more) = true) by (destruct more; [exact H2|reflexivity]). cbn [filled]. rewrite !read_choice_eq.
    assert (Ea : additions (option_map (map (fun e : string * ParserSource.ty => (fst e, filled ts (snd e)))) more) = map (fun e => (fst e, filled ts (snd e))) (additions more)) by (destruct more; reflexivity). rewrite Ea.
    destruct (fill_alts root IH1 H1 n) as (E1 & R1). rewrite E1. destruct (thread read_named root n) as [r n1]. cbn [fst snd] in *. destruct (fill_alts _ IH2 H3 n1) as (E2 & R2). rewrite E2. destruct (thread read_named (additions more) n1) as [r2 n2]. cbn [fst snd inner top top_ready inner_ready] in *.
    rewrite map_app, forallb_app, R1, R2. split; [destruct here; reflexivity|]. split; reflexivity.
  - apply andb_true_iff in H as [H1 H2]. rewrite inserted_parts in IH2. apply Forall_app in IH2 as [IH2 IH3]. set (o := here && negb set) in *. assert (Ho : o = true -> set = false) by (unfold o; destruct here, set; auto; discriminate).
    assert (Hb' : forallb (well_filled_comp ts o) (first_part more) = true /\ forallb (well_filled_comp ts o) (second_part more) = true).
    { destruct more as [[l [l2|]]|]; cbn; auto. apply andb_true_iff in H2. exact H2. }
    destruct Hb' as [Hb1 Hb2]. cbn [filled]. rewrite !read_record_eq.
    assert (Ea : first_part (option_map (fun m => (flat_map (filled_comp ts set) (fst m), option_map (flat_map (filled_comp ts set)) (snd m))) more) = flat_map (filled_comp ts set) (first_part more)) by (destruct more as [[? [?|]]|]; reflexivity).
    assert (Eb : second_part (option_map (fun m => (flat_map (filled_comp ts set) (fst m), option_map (flat_map (filled_comp ts set)) (snd m))) more) = flat_map (filled_comp ts set) (second_part more)) by (destruct more as [[? [?|]]|]; reflexivity).
    assert (Ec : is_some (option_map (fun m : list ParserSource.comp * option (list ParserSource.comp) => (flat_map (filled_comp ts set) (fst m), option_map (flat_map (filled_comp ts set)) (snd m))) more) = is_some more) by (destruct more as [[? [?|]]|]; reflexivity). rewrite Ea, Eb, Ec.
    destruct (fill_comps o set root Ho IH1 H1 n) as (E1 & R1 & S1). rewrite E1. destruct (thread read_comp root n) as [r n1]. destruct (fill_comps o set _ Ho IH2 Hb1 n1) as (E2 & R2 & S2). cbn [fst snd] in *. rewrite E2. destruct (thread read_comp (first_part more) n1) as [r2 n2].
    destruct (fill_comps o set _ Ho IH3 Hb2 n2) as (E3 & R3 & S3). cbn [fst snd] in *. rewrite E3. destruct (thread read_comp (second_part more) n2) as [r3 n3]. cbn [fst snd inner inner_ready] in *.
    change (fun c : component => match c with Comp n0 u o0 d co => Comp n0 (inner lk u) o0 d co end) with innerc. rewrite !forallb_app, R1, R2, R3. split; [|split; [reflexivity|]].
    + destruct here, set; cbn [o andb negb top]; rewrite !map_app, ?flat_map_app; reflexivity.
    + intros ->. cbn [top_ready]. destruct set; [reflexivity|]. unfold o in *. cbn [andb negb] in *. rewrite !forallb_app, S1, S2, S3 by reflexivity. reflexivity.
  - destruct (IH true H n) as (E & R & T). cbn [filled read_ty]. rewrite E. destruct (read_ty t n). cbn [fst snd inner inner_ready top top_ready] in *. rewrite R, (T eq_refl). split; [destruct here; reflexivity|]. split; reflexivity.
  - destruct (IH true H n) as (E & R & T). cbn [filled read_ty]. rewrite E. destruct (read_ty t n). cbn [fst snd inner inner_ready top top_ready] in *. rewrite R, (T eq_refl). split; [destruct here; reflexivity|]. split; reflexivity.
  - cbn [filled read_ty]. destruct (read_ty t n). cbn. destruct here; repeat split; reflexivity.
  - apply (IH here H).
Qed.
End Filled.
Definition source_look (l : list source) (md : string) : string -> option (list component) :=
  match find (fun s => String.eqb (s_name s) md) l with Some s => tree_look (sequences s) | None => fun _ => None end.
Lemma source_look_eq l s : NoDup (map s_name l) -> In s l -> source_look l (s_name s) = tree_look (sequences s).
Proof. intros N H. unfold source_look. rewrite (find_unique s_name l s N H). reflexivity. Qed.
Definition fill_decl (ts : list (string * list ParserSource.comp)) (d : decl) : decl := match d with DType x ps t => DType x ps (filled ts t) | DValue _ _ _ | DClass _ _ => d end.
Definition wf_fill (ts : list (string * list ParserSource.comp)) (d : decl) : bool := match d with DType _ [] t => well_filled ts true t | DType _ (_ :: _) _ => false | DValue _ _ _ | DClass _ _ => true end.
Lemma filled_decls ts ds : forallb (wf_fill ts) ds = true -> forall n,
  thread read_decl (map (fill_decl ts) ds) n = (map (on_type (fun t => top (tree_look ts) (inner (tree_look ts) t))) (fst (thread read_decl ds n)), snd (thread read_decl ds n)) /\
  forallb (assign_ready (tree_look ts)) (fst (thread read_decl ds n)) = true.
Proof.
  induction ds as [|d ds IH]; intros H n; [split; reflexivity|]. cbn [forallb] in H. apply andb_true_iff in H as [H1 H2]. cbn [map thread].
  enough (G : read_decl (fill_decl ts d) n = (on_type (fun t => top (tree_look ts) (inner (tree_look ts) t)) (fst (read_decl d n)), snd (read_decl d n)) /\ assign_ready (tree_look ts) (fst (read_decl d n)) = true).
  { destruct G as (G1 & G2). rewrite G1. destruct (read_decl d n) as [a n1]. cbn [fst snd] in *. destruct (IH H2 n1) as (E1 & E2). rewrite E1. destruct (thread read_decl ds n1). cbn [fst snd map forallb] in *. rewrite G2, E2. split; reflexivity. }
  destruct d as [x [|p ps] t|x t v|x fs]; cbn [wf_fill fill_decl read_decl thread] in *; try discriminate H1.
  - destruct (filled_ok ts t true H1 n) as (E & R & T). rewrite E. destruct (read_ty t n). cbn [fst snd] in *. split; [reflexivity|]. unfold assign_ready. cbn [a_specific]. rewrite R, (T eq_refl). reflexivity.
  - destruct (read_ty t n). split; reflexivity.
  - destruct (thread read_field fs n). split; reflexivity.
Qed.
Lemma filled_source_read l s n : NoDup (map s_name l) -> In s l -> well_filled_source s = true ->
  read_source (filled_source s) n = (inl (source_look l) (fst (read_source s n)), snd (read_source s n)) /\ forallb (assign_ready (source_look l (s_name s))) (m_assigns (fst (read_source s n))) = true.
Proof.
  intros N Hs H. destruct (filled_decls (sequences s) (s_decls s) H n) as (E1 & E2). split.
  - unfold read_source. cbn [filled_source s_decls s_name s_tags s_imports]. change (fun d => match d with DType x ps t => DType x ps (filled (sequences s) t) | DValue _ _ _ | DClass _ _ => d end) with (fill_decl (sequences s)). rewrite E1.
    destruct (thread read_decl (s_decls s) n) as [as_ n1]. cbn [fst snd]. unfold inl, with_assigns. cbn [m_name m_tagging m_imports m_assigns]. rewrite (source_look_eq l s N Hs), map_rev. reflexivity.
  - rewrite module_of_eq. cbn [m_assigns]. rewrite (source_look_eq l s N Hs). apply forallb_forall. intros a Ha. apply in_rev in Ha. rewrite forallb_forall in E2. auto.
Qed.
Lemma filled_tree l0 l : NoDup (map s_name l0) -> incl l l0 -> forallb well_filled_source l = true -> forall n,
  fst (thread read_source (map filled_source l) n) = map (inl (source_look l0)) (fst (thread read_source l n)).
Proof.
  intros N. induction l as [|s l IH]; intros I H n; [reflexivity|]. cbn [forallb] in H. apply andb_true_iff in H as [H1 H2]. cbn [map thread]. destruct (filled_source_read l0 s n N (I s (or_introl eq_refl)) H1) as (E & _). rewrite E. destruct (read_source s n) as [m n1]. cbn [fst snd].
  specialize (IH (fun x Hx => I x (or_intror Hx)) H2 n1). destruct (thread read_source (map filled_source l) n1), (thread read_source l n1). cbn [fst map] in *. rewrite IH. reflexivity.
Qed.
Lemma sequence_in s r cs : sequence (sequences s) r = Some cs -> In (DType r [] (YRecord false cs None)) (s_decls s).
Proof.
  intros H. unfold sequence in H. destruct (find _ (sequences s)) as [[x b]|] eqn:F; [|discriminate H]. injection H as ->. apply find_some in F as [F Ex]. apply String.eqb_eq in Ex. cbn [fst] in Ex. subst x.
  apply in_flat_map in F as (d & Hd & F). destruct d as [y [|] [| | | |r0 m0|[|] root [|]| | | | | |]| |]; try (destruct F; fail). destruct F as [F|[]]. injection F as -> ->. exact Hd.
Qed.
Lemma sources_may l : well_named l -> (forall s x, In s l -> In x (names_of s) -> ~ made_up x) -> forallb well_filled_source l = true -> Forall (may_include (source_look l)) (fst (thread read_source l 0%Z)).
Proof.
  intros (N & Nn) M H. apply Forall_forall. intros m Hm. destruct (Forall2_in_r _ _ _ _ (thread_Forall2 read_source l 0%Z) Hm) as (s & Hs & k & ->). rewrite forallb_forall in H. assert (Ms : module_of s (fst (read_source s k))) by (exists k; reflexivity). pose proof (with_imports_names s _ Ms) as P. constructor.
  - rewrite (module_of_name s _ Ms), (source_look_eq l s N Hs). intros r cs L. unfold tree_look in L. destruct (sequence (sequences s) r) as [cs0|] eqn:S; [|discriminate L]. destruct (forallb level_comp cs0) eqn:Lv; [|discriminate L]. injection L as <-. split; [|apply level_comps_fixed, Lv].
    apply sequence_in in S. rewrite module_of_eq. cbn [m_assigns]. apply -> in_rev. destruct (Forall2_in_l _ _ _ _ (thread_Forall2 read_decl (s_decls s) k) S) as (a & Ha & j & ->). cbn [read_decl thread] in Ha. rewrite read_record_eq in Ha. cbn [first_part second_part thread is_some] in Ha.
    rewrite (level_comps_steady cs0 j Lv) in Ha. rewrite !app_nil_r in Ha. exact Ha.
  - rewrite (module_of_name s _ Ms). apply (filled_source_read l s k N Hs). auto.
  - split.
    + eapply Permutation_NoDup; [apply Permutation_sym, P|auto].
    + intros x Hx. apply (M s x Hs). eapply Permutation_in; eassumption.
Qed.
(** ** The first pass leaves them alone *)
Lemma omap_same_inv {A} (f : A -> out A) l : omap f l = Done l -> Forall (fun x => f x = Done x) l.
Proof.
  induction l as [|x l IH]; intros H; [constructor|]. cbn [omap] in H. destruct (f x) as [y| | |] eqn:E; try discriminate H. cbn [obind] in H. destruct (omap f l) as [l'| | |]; try discriminate H. injection H as -> ->. constructor; auto.
Qed.
Lemma no_apply_comps set cs ext : no_apply (TRecord set cs ext) -> Forall no_apply_comp cs.
Proof.
  intros H. apply Forall_forall. intros [n u o d co] Hc tr md. specialize (H tr md). cbn [to_concrete] in H. destruct (omap _ cs) as [cs'| | |] eqn:E; try discriminate H. injection H as ->. apply omap_same_inv in E. rewrite Forall_forall in E. specialize (E _ Hc). cbn beta iota in E.
  destruct (to_concrete tr md u); try discriminate E. injection E as ->. reflexivity.
Qed.
Lemma no_apply_alts alts : no_apply (ParserTree.TChoice alts) -> Forall (fun a => no_apply (snd a)) alts.
Proof.
  intros H. apply Forall_forall. intros [n u] Hc tr md. specialize (H tr md). cbn [to_concrete] in H. destruct (omap _ alts) as [cs'| | |] eqn:E; try discriminate H. injection H as ->. apply omap_same_inv in E. rewrite Forall_forall in E. specialize (E _ Hc). cbn [fst snd] in E.
  cbn [snd]. destruct (to_concrete tr md u); try discriminate E. injection E as ->. reflexivity.
Qed.
Section NoApply.
Context (look : string -> option (list component)) (Hlook : forall r cs, look r = Some cs -> Forall no_apply_comp cs).
Lemma top_no_apply t : no_apply t -> no_apply (top look t).
Proof.
  intros H. destruct t as [| | | |alts|[|] cs ext|set n u|g kw u|d]; try exact H. cbn [top]. apply no_apply_record. apply no_apply_comps in H. induction H as [|c cs Hc _ IH]; [constructor|]. cbn [flat_map]. apply Forall_app. split; [|exact IH].
  assert (One : Forall no_apply_comp [c]) by (constructor; [exact Hc|constructor]). destruct c as [n u o d [[| | | | | | | |[[m|] r args]]|]]; try exact One. cbn [splice]. destruct (look r) as [cs'|] eqn:L; [apply (Hlook r cs' L)|exact One].
Qed.
Lemma inner_no_apply t : no_apply t -> no_apply (inner look t).
Proof.
  induction t as [| | | |alts IH|set cs ext IH|set n u IH|g kw u IH|d] using type_induct; intros H; try exact H; cbn [inner].
  - apply no_apply_choice. apply no_apply_alts in H. apply Forall_map. rewrite Forall_forall in *. intros a Ha. cbn [snd]. auto.
  - apply no_apply_record. apply no_apply_comps in H. apply Forall_map. rewrite Forall_forall in *. intros [n u o d co] Ha. specialize (IH _ Ha). specialize (H _ Ha). exact (IH H).
  - apply no_apply_list, top_no_apply, IH. intros tr md. specialize (H tr md). cbn [to_concrete] in H. destruct (to_concrete tr md u); try discriminate H. injection H as ->. reflexivity.
  - apply no_apply_tagged, top_no_apply, IH. intros tr md. specialize (H tr md). cbn [to_concrete] in H. destruct (to_concrete tr md u); try discriminate H. injection H as ->. reflexivity.
Qed.
End NoApply.
Lemma done_parameters tr : Forall done_module tr -> resolve_parameters tr = Done tr.
Proof.
  intros E3. unfold Frontend.resolve_parameters. rewrite omap_same.
  - cbn [obind]. f_equal. rewrite <- (map_id tr) at 2. apply map_ext_in. intros m Hm. rewrite Forall_forall in E3. specialize (E3 m Hm). transitivity (with_assigns m (m_assigns m)); [|apply with_assigns_same]. f_equal.
    unfold done_module in E3. induction E3 as [|a l0 (A & _) _ IH]; [reflexivity|]. cbn [filter]. rewrite A. cbn [negb]. f_equal. exact IH.
  - eapply Forall_impl; [|exact E3]. intros m D. rewrite omap_same; [cbn [obind]; rewrite with_assigns_same; reflexivity|]. eapply Forall_impl; [|exact D]. intros a (_ & A). apply A.
Qed.
Lemma done_no_apply a t : done_assign a -> a_specific a = AType t -> no_apply t.
Proof. intros (T & H) E tr md. specialize (H tr md). unfold concrete in H. rewrite E, T in H. destruct (to_concrete tr md t) as [t'| | |]; try discriminate H. cbn [obind] in H. injection H as H. rewrite <- H in E. cbn in E. congruence. Qed.
Lemma done_inl look m : may_include look m -> done_module m -> done_module (inl look m).
Proof.
  intros H D. unfold done_module in *. cbn [inl with_assigns m_assigns]. apply Forall_map. rewrite Forall_forall in D. apply Forall_forall. intros a Ha. specialize (D a Ha) as Da. unfold on_type. destruct (a_specific a) as [t| | |] eqn:E; try exact Da.
  destruct Da as (T & Dc). split; [exact T|]. intros tr md. unfold concrete. cbn [a_specific]. change (is_template (Assign _ _ (a_parameters a))) with (is_template a). rewrite T.
  assert (L : forall r cs, look (m_name m) r = Some cs -> Forall no_apply_comp cs).
  { intros r cs Lr. destruct (mi_look _ _ H r cs Lr) as (I & _). specialize (D _ I). pose proof (done_no_apply _ _ D eq_refl) as N. apply no_apply_comps in N. exact N. }
  pose proof (top_no_apply _ L _ (inner_no_apply _ L t (done_no_apply a t (D a Ha) E))) as N. rewrite N. reflexivity.
Qed.
Theorem passes_filled l : well_named l -> (forall s x, In s l -> In x (names_of s) -> ~ made_up x) -> forallb well_filled_source l = true -> Forall done_module (fst (thread read_source l 0%Z)) ->
  forall fuel, passes fuel (fst (thread read_source l 0%Z)) = passes fuel (fst (thread read_source (map filled_source l) 0%Z)).
Proof.
  intros W M H D fuel. pose proof (sources_may l W M H) as Y. rewrite (filled_tree l l (proj1 W) (incl_refl _) H). set (tr := fst (thread read_source l 0%Z)) in *. unfold passes. rewrite (done_parameters tr D). cbn [obind].
  rewrite (done_parameters (map (inl (source_look l)) tr)); [cbn [obind]; symmetry; apply later_passes_inl; [unfold tr; rewrite tree_names; apply W|exact Y]|]. apply Forall_map. rewrite Forall_forall in *. intros m Hm. apply done_inl; auto.
Qed.
(** ** After parameters *)
Lemma written_out_names s : forall x, In x (names_of (written_out_source s)) -> In x (names_of s).
Proof.
  unfold names_of, imported_names. cbn [written_out_source s_decls s_imports]. intros x H. apply in_app_or in H as [H|H]; apply in_or_app; [left|right; exact H]. apply in_map_iff in H as (d & <- & H). apply in_flat_map in H as (d0 & H0 & H). apply in_map_iff. exists d0. split; [|exact H0].
  destruct d0 as [y [|] t|y t v|y fs]; cbn in H; repeat (destruct H as [<-|H]; [reflexivity|]); destruct H.
Qed.
Lemma NoDup_sub {A} (l1 l2 k : list A) : NoDup (l2 ++ k) -> NoDup l1 -> incl l1 l2 -> NoDup (l1 ++ k).
Proof.
  intros N N1 I. revert I. induction N1 as [|x l1 H _ IH]; intros I; cbn [app].
  - induction l2 as [|y l2 IH2]; [exact N|]. cbn [app] in N. inversion N; subst. apply IH2; [assumption|intros ? []].
  - constructor; [|apply IH; intros y Hy; apply I; right; exact Hy]. intros G. apply in_app_or in G as [G|G]; [exact (H G)|]. specialize (I x (or_introl eq_refl)). clear -N I G. induction l2 as [|y l2 IH]; [destruct I|]. cbn [app] in N. inversion N as [|? ? N1 N2]; subst. destruct I as [->|I]; [apply N1, in_or_app; right; exact G|auto].
Qed.
Lemma written_out_decl_names ts ds : NoDup (map decl_name ds) -> NoDup (map decl_name (flat_map (written_out_decl ts) ds)).
Proof.
  induction ds as [|d ds IH]; intros N; [constructor|]. cbn [map flat_map] in *. inversion N as [|? ? N1 N2]; subst. specialize (IH N2).
  assert (I : ~ In (decl_name d) (map decl_name (flat_map (written_out_decl ts) ds))).
  { intros H. apply N1. apply in_map_iff in H as (d1 & E & H). apply in_flat_map in H as (d0 & H0 & H). apply in_map_iff. exists d0. split; [|exact H0]. rewrite <- E. destruct d0 as [y [|] t|y t v|y fs]; cbn in H; repeat (destruct H as [<-|H]; [reflexivity|]); destruct H. }
  rewrite map_app. destruct d as [y [|] t|y t v|y fs]; cbn [written_out_decl map app decl_name] in *; try exact IH; constructor; assumption.
Qed.
Lemma written_out_well_named l : well_named l -> well_named (map written_out_source l).
Proof.
  intros (N & H). split; [rewrite map_map; exact N|]. intros s Hs. apply in_map_iff in Hs as (s0 & <- & Hs). specialize (H s0 Hs). unfold names_of, imported_names in *. cbn [written_out_source s_decls s_imports]. eapply NoDup_sub; [exact H| |].
  - apply written_out_decl_names. clear -H. induction (map decl_name (s_decls s0)) as [|x l IH]; [constructor|]. cbn [app] in H. inversion H as [|? ? H1 H2]; subst. constructor; [|auto]. intros I. apply H1, in_or_app. left. exact I.
  - intros x Hx. apply in_map_iff in Hx as (d & <- & Hd). apply in_flat_map in Hd as (d0 & H0 & Hd). apply in_map_iff. exists d0. split; [|exact H0]. destruct d0 as [y [|] t|y t v|y fs]; cbn in Hd; repeat (destruct Hd as [<-|Hd]; [reflexivity|]); destruct Hd.
Qed.
Lemma filled_names s : names_of (filled_source s) = names_of s.
Proof.
  unfold names_of, imported_names. cbn [filled_source s_decls s_imports]. f_equal. rewrite map_map. apply map_ext. intros [x ps t|x t v|x fs]; reflexivity.
Qed.
Lemma written_out_done l : well_named l -> forallb well_parameterized l = true -> Forall done_module (fst (thread read_source (map written_out_source l) 0%Z)).
Proof.
  intros W H. destruct (sources_out (fst (thread read_source l 0%Z)) l) with (n := 0%Z) as (tr1 & _ & _ & E3); [|exact E3].
  apply Forall_forall. intros s Hs. split; [apply (templates_found l s W Hs)|]. rewrite forallb_forall in H. auto.
Qed.
Theorem passes_written_out_filled l : well_named l -> forallb well_parameterized l = true -> forallb well_filled_source (map written_out_source l) = true ->
  (forall s x, In s l -> In x (names_of (written_out_source s)) -> ~ made_up x) ->
  forall fuel, passes fuel (fst (thread read_source l 0%Z)) = passes fuel (fst (thread read_source (map filled_source (map written_out_source l)) 0%Z)).
Proof.
  intros W H F M fuel. rewrite (passes_written_out l W H fuel). apply passes_filled; [apply written_out_well_named, W| |exact F|apply written_out_done; assumption].
  intros s x Hs. apply in_map_iff in Hs as (s0 & <- & Hs). apply M, Hs.
Qed.
