(** The elaboration of a parsed tree is the meaning of the written modules. *)
From Coq Require Import List String ZArith Bool Lia Permutation.
From Verif Require Import Base Ident View Prims Schema ParserTree ParserFile Compiler CompilerSpec ParserSource Elab ElabSpec.
Import ListNotations.
Local Open Scope string_scope.
Local Open Scope list_scope.

(** ** Fuel *)
Lemma traverse_some {A B} (f g : A -> option B) l r : (forall x y, f x = Some y -> g x = Some y) -> traverse f l = Some r -> traverse g l = Some r.
Proof.
  intros H. revert r. induction l as [|x l IH]; intros r E; cbn in *; [exact E|]. destruct (f x) eqn:Ex; [|discriminate].
  destruct (traverse f l) eqn:El; [|discriminate]. injection E as <-. rewrite (H _ _ Ex), (IH _ eq_refl). reflexivity.
Qed.
Lemma elab_more n : forall tr site m t a, elab n tr site m t = Some a -> elab (S n) tr site m t = Some a.
Proof.
  induction n as [|n IH]; intros tr site m t a; [discriminate|]. intros E. cbn [elab] in E. remember (S n) as n' eqn:En. cbn [elab]. subst n'. destruct t; auto.
  - destruct (traverse _ choices) eqn:T in E; [|discriminate]. cbn [option_map] in E. injection E as <-.
    erewrite traverse_some; [reflexivity| |exact T]. intros e y. cbn beta. intros Ey. destruct (elab n tr m m (snd e)) eqn:X; [|discriminate]. rewrite (IH _ _ _ _ _ X). exact Ey.
  - destruct (traverse _ components) eqn:T in E; [|discriminate]. cbn [option_map] in E. injection E as <-.
    erewrite traverse_some; [reflexivity| |exact T]. intros [x u o d [c|]] y; cbn beta iota; [discriminate|]. intros Ey. destruct (elab n tr m m u) eqn:X; [|discriminate]. rewrite (IH _ _ _ _ _ X). exact Ey.
  - destruct (elab n tr m m t) eqn:X; [|discriminate]. rewrite (IH _ _ _ _ _ X). exact E.
  - destruct tag as [c k]. destruct (elab n tr _ m t) eqn:X; [|discriminate]. rewrite (IH _ _ _ _ _ X). exact E.
  - destruct d as [mo x [|]]; [|discriminate]. destruct (module_named tr _) as [m'|]; [|discriminate]. destruct (type_named m' x) as [u|]; [|discriminate].
    destruct (bare_tagged_ref u && negb (m_name m' =? m_name site)); [discriminate|]. destruct (elab n tr _ m' u) eqn:X; [|discriminate]. rewrite (IH _ _ _ _ _ X). exact E.
Qed.
Lemma elab_mono n n' tr site m t a : (n <= n')%nat -> elab n tr site m t = Some a -> elab n' tr site m t = Some a.
Proof. induction 1; auto using elab_more. Qed.
Lemma elab_unique n n' tr site m t a a' : elab n tr site m t = Some a -> elab n' tr site m t = Some a' -> a = a'.
Proof. intros E E'. apply (elab_mono _ (Nat.max n n')) in E, E'; [congruence|lia..]. Qed.

(** ** Reading lists *)
Lemma thread_Forall2 {A B} (f : A -> Z -> B * Z) l : forall n, Forall2 (fun x y => exists k, y = fst (f x k)) l (fst (thread f l n)).
Proof.
  induction l as [|x l IH]; intros n; [constructor|]. cbn [thread]. specialize (IH (snd (f x n))). destruct (f x n) as [y k] eqn:E. cbn [snd] in IH. destruct (thread f l k) as [ys j].
  constructor; [exists n; rewrite E; reflexivity|exact IH].
Qed.
Definition read_named (e : string * ParserSource.ty) (n : Z) : (string * type) * Z := let (u, n) := read_ty (snd e) n in ((fst e, u), n).
Lemma read_choice root more n : exists n1, fst (read_ty (YChoice root more) n) = ParserTree.TChoice (fst (thread read_named (additions more) n1) ++ fst (thread read_named root n)).
Proof.
  exists (snd (thread read_named root n)). cbn [read_ty].
  change (fun (e : string * ParserSource.ty) (n0 : Z) => let (u, n1) := read_ty (snd e) n0 in (fst e, u, n1)) with read_named.
  destruct (thread read_named root n) as [r n1]. cbn [fst snd]. destruct more as [l|]; cbn [additions thread]; [|reflexivity]. destruct (thread read_named l n1). reflexivity.
Qed.
Lemma read_record set root more n : exists n1 n2, fst (read_ty (YRecord set root more) n) =
  TRecord set (fst (thread read_comp root n) ++
    fst (thread read_comp (match more with Some (l, _) => l | None => [] end) n1) ++ fst (thread read_comp (match more with Some (_, Some l) => l | _ => [] end) n2))
    (match more with Some _ => true | None => false end).
Proof.
  cbn [read_ty]. destruct (thread read_comp root n) as [r n1]. exists n1. destruct more as [[l [l2|]]|]; cbn [fst snd thread].
  - destruct (thread read_comp l n1) as [a n2]. exists n2. cbn [fst snd]. destruct (thread read_comp l2 n2) as [b n3]. reflexivity.
  - destruct (thread read_comp l n1) as [a n2]. exists n2. reflexivity.
  - exists n1. reflexivity.
Qed.

(** ** Lookup *)
Lemma find_unique {A} (f : A -> string) (l : list A) a : NoDup (map f l) -> In a l -> find (fun x => String.eqb (f x) (f a)) l = Some a.
Proof.
  induction l as [|x l IH]; intros N H; [destruct H|]. inversion N as [|? ? N1 N2]; subst. cbn [find]. destruct H as [->|H]; [rewrite String.eqb_refl; reflexivity|].
  destruct (String.eqb_spec (f x) (f a)) as [E|]; [|auto]. exfalso. apply N1. rewrite E. apply in_map, H.
Qed.
Definition module_of (s : source) (m : module) : Prop := exists k, m = fst (read_source s k).
Lemma module_of_eq s k : fst (read_source s k) = Module (s_name s) (match s_tags s with Some t => t | None => Explicit end)
  (match s_imports s with Some l => map read_import l | None => [] end) (rev (fst (thread read_decl (s_decls s) k))).
Proof. unfold read_source. destruct (thread read_decl (s_decls s) k). reflexivity. Qed.
Lemma module_of_name s m : module_of s m -> m_name m = s_name s.
Proof. intros (k & ->). rewrite module_of_eq. reflexivity. Qed.
Lemma module_of_mode s m : module_of s m -> mode_of (m_tagging m) = default_tags s.
Proof. intros (k & ->). rewrite module_of_eq. unfold default_tags. cbn. destruct (s_tags s) as [[]|]; reflexivity. Qed.
Lemma read_decl_name d k : a_name (fst (read_decl d k)) = decl_name d.
Proof. destruct d; cbn [read_decl decl_name]; [destruct (thread read_param ps k) as [l n]; destruct (read_ty t n)|destruct (read_ty t k)|destruct (thread read_field fs k)]; reflexivity. Qed.
Lemma decl_names l : forall k, map a_name (fst (thread read_decl l k)) = map decl_name l.
Proof.
  intros k. pose proof (thread_Forall2 read_decl l k) as F. induction F as [|d a l l' (j & ->) F IH]; [reflexivity|]. cbn [map]. rewrite read_decl_name, IH. reflexivity.
Qed.
Lemma with_imports_names s m : module_of s m -> Permutation (map a_name (with_imports m)) (names_of s).
Proof.
  intros (k & ->). rewrite module_of_eq. unfold with_imports, names_of, imported_names. cbn [m_assigns m_imports]. rewrite map_app. apply Permutation_app.
  - rewrite map_rev, decl_names. symmetry. apply Permutation_rev.
  - destruct (s_imports s) as [l|]; [|constructor]. cbn [additions]. induction l as [|[[names M] oid] l IH]; [constructor|]. cbn [map flat_map fst]. rewrite map_app, map_map. cbn [i_types a_name].
    rewrite map_id. apply Permutation_app_head. exact IH.
Qed.
Lemma stands_for_named s m x t : module_of s m -> NoDup (names_of s) -> stands_for s x t -> exists k, type_named m x = Some (fst (read_ty t k)).
Proof.
  intros Hm N H. assert (G : exists k, In (Assign x (AType (fst (read_ty t k))) []) (with_imports m)).
  { destruct Hm as (k & ->). rewrite module_of_eq. unfold with_imports. cbn [m_assigns m_imports]. destruct H as [H|(i & names & M & oid & Hi & H1 & H2 & ->)].
    - pose proof (thread_Forall2 read_decl (s_decls s) k) as F. set (l' := fst (thread read_decl (s_decls s) k)) in *. clearbody l'.
      assert (G : exists a, In a l' /\ exists j, a = fst (read_decl (DType x [] t) j)).
      { induction F as [|d a l l' (j & ->) F IH]; [destruct H|]. destruct H as [->|H]; [eexists; split; [left; reflexivity|eauto]|]. destruct (IH H) as (a & A1 & A2). exists a. split; [right; exact A1|exact A2]. }
      destruct G as (a & Ha & j & ->). cbn [read_decl thread] in Ha. exists j. apply in_or_app. left. apply -> in_rev. destruct (read_ty t j). exact Ha.
    - exists 0. rewrite Hi. apply in_or_app. right. apply in_flat_map. exists (read_import (names, M, oid)). split; [apply in_map, H1|]. cbn [read_import i_types i_module].
      apply in_map_iff. exists x. split; [reflexivity|]. apply in_map_iff. exists (true, x). split; [reflexivity|]. apply filter_In. split; [exact H2|reflexivity]. }
  destruct G as (k & G). exists k. unfold type_named, assign_named. rewrite (find_unique a_name _ (Assign x (AType (fst (read_ty t k))) [])); [reflexivity| |exact G].
  eapply Permutation_NoDup; [symmetry; apply (with_imports_names s m Hm)|exact N].
Qed.
Lemma decl_found s m d : module_of s m -> NoDup (names_of s) -> In d (s_decls s) -> exists j, assign_named (with_imports m) (decl_name d) = Some (fst (read_decl d j)).
Proof.
  intros Hm N H. assert (G : exists j, In (fst (read_decl d j)) (with_imports m)).
  { destruct Hm as (k & ->). rewrite module_of_eq. unfold with_imports. cbn [m_assigns m_imports].
    pose proof (thread_Forall2 read_decl (s_decls s) k) as F. set (l' := fst (thread read_decl (s_decls s) k)) in *. clearbody l'.
    assert (G : exists j, In (fst (read_decl d j)) l').
    { induction F as [|d' a l l' (j & ->) F IH]; [destruct H|]. destruct H as [->|H]; [exists j; left; reflexivity|]. destruct (IH H) as (j' & A). exists j'. right. exact A. }
    destruct G as (j & G). exists j. apply in_or_app. left. apply -> in_rev. exact G. }
  destruct G as (j & G). exists j. unfold assign_named. rewrite <- (read_decl_name d j). apply find_unique; [|exact G].
  eapply Permutation_NoDup; [symmetry; apply (with_imports_names s m Hm)|exact N].
Qed.
Lemma read_is_ref t : forall k0, is_bare_ref (fst (read_ty t k0)) = is_reference t.
Proof.
  induction t; intros k0; try reflexivity.
  - destruct (read_choice root more k0) as (n1 & ->). reflexivity.
  - destruct (read_record set root more k0) as (n1 & n2 & ->). reflexivity.
  - cbn [read_ty]. destruct (read_ty t k0); reflexivity.
  - cbn [read_ty]. destruct (read_ty t k0); reflexivity.
  - cbn [read_ty]. destruct (read_ty t k0); reflexivity.
  - apply IHt.
Qed.
Lemma read_is_tagged_ref t : forall k0, bare_tagged_ref (fst (read_ty t k0)) = is_tagged_reference t.
Proof.
  induction t; intros k0; try reflexivity.
  - destruct (read_choice root more k0) as (n1 & ->). reflexivity.
  - destruct (read_record set root more k0) as (n1 & n2 & ->). reflexivity.
  - cbn [read_ty]. destruct (read_ty t k0); reflexivity.
  - cbn [read_ty]. pose proof (read_is_ref t k0) as R. pose proof (IHt k0) as R'. destruct (read_ty t k0). cbn [fst bare_tagged_ref is_tagged_reference] in *. rewrite R, R'. reflexivity.
  - cbn [read_ty]. destruct (read_ty t k0); reflexivity.
  - apply IHt.
Qed.

(** ** Elaboration *)
Scheme means_ind2 := Induction for means Sort Prop
  with means_alternatives_ind2 := Induction for means_alternatives Sort Prop
  with means_components_ind2 := Induction for means_components Sort Prop.
Combined Scheme means_mutind from means_ind2, means_alternatives_ind2, means_components_ind2.

Lemma to_int_small n : 0 <= n < 2^31 -> to_int n = n.
Proof. intros H. unfold to_int. rewrite Z.mod_small by (change (2^32) with (2 * 2^31); lia). lia. Qed.
Lemma mode_same t : mode_of t = mode_word t. Proof. reflexivity. Qed.
Lemma class_same c : class_of_tag c = class_word c. Proof. reflexivity. Qed.
Lemma simple_same k c u : holds k c -> x680_universal k = Some u -> class_of_simple k = Some c /\ universal_of k = u.
Proof. destruct k as [| | | | | | | | | | | | | | | | | | | | |[]]; cbn; intros -> E || intros []; injection E as <-; split; reflexivity. Qed.

Section Elaborate.
Variables (l : list source) (n0 : Z).
Hypothesis Hnames : well_named l.
Hypothesis Htags : no_tagged_references l.
Hypothesis Himplied : none_implied l.
Let tr := fst (thread read_source l n0).
Lemma tree_names : map m_name tr = map s_name l.
Proof.
  unfold tr. pose proof (thread_Forall2 read_source l n0) as F. clear -F. induction F as [|s m l' tr' (k & ->) F IH]; [reflexivity|]. cbn [map]. rewrite IH, module_of_eq. reflexivity.
Qed.
Lemma tree_module s : In s l -> exists m, In m tr /\ module_of s m.
Proof.
  unfold tr. pose proof (thread_Forall2 read_source l n0) as F. clear -F. induction F as [|s' m l' tr' H F IH]; [intros []|]. intros [->|Hs]; [exists m; split; [left; reflexivity|exact H]|].
  destruct (IH Hs) as (m' & H1 & H2). exists m'. split; [right; exact H1|exact H2].
Qed.
Lemma tree_found s : In s l -> exists m, In m tr /\ module_of s m /\ module_named tr (s_name s) = Some m.
Proof.
  intros Hs. destruct (tree_module s Hs) as (m & H1 & H2). exists m. split; [exact H1|]. split; [exact H2|]. rewrite <- (module_of_name s m H2). apply find_unique; [|exact H1]. rewrite tree_names. apply Hnames.
Qed.
Lemma tree_of_source s m : In s l -> In m tr -> m_name m = s_name s -> module_of s m.
Proof.
  intros Hs Hm E. destruct (tree_found s Hs) as (m' & H1 & H2 & H3). enough (m = m') by (subst; exact H2).
  assert (F : module_named tr (m_name m) = Some m) by (apply find_unique; [rewrite tree_names; apply Hnames|exact Hm]). rewrite E in F. congruence.
Qed.
Lemma no_site s x t k m' site : In s l -> stands_for s x t -> module_of s m' -> In site tr ->
  bare_tagged_ref (fst (read_ty t k)) && negb (m_name m' =? m_name site) = false.
Proof.
  intros Hs H Hm Hsite. rewrite read_is_tagged_ref. destruct Htags as [L|T].
  - assert (E : m_name m' = m_name site).
    { rewrite (module_of_name s m' Hm). pose proof tree_names as E. apply (in_map m_name) in Hsite. rewrite E in Hsite. destruct l as [|a [|]]; try discriminate L. destruct Hs as [->|[]]. destruct Hsite as [H1|[]]. exact H1. }
    rewrite E, String.eqb_refl, andb_false_r. reflexivity.
  - destruct H as [H|(i & names & M & oid & _ & _ & _ & ->)]; [rewrite (T s x t Hs H); reflexivity|reflexivity].
Qed.
Theorem elab_means :
  (forall s t a, means l s t a -> In s l -> (exists md, everywhere small_tags md a) -> exists fuel, forall site m k, In site tr -> In m tr -> module_of s m ->
     elab fuel tr site m (fst (read_ty t k)) = Some a) /\
  (forall s es cs, means_alternatives l s es cs -> In s l -> (exists md, everywhere_comps small_tags md cs) -> exists fuel, forall m ts, In m tr -> module_of s m ->
     Forall2 (fun e e' => exists k, e' = fst (read_named e k)) es ts ->
     exists r, traverse (fun e => option_map (pair Mand) (elab fuel tr m m (snd e))) ts = Some r /\ acomps_of r = cs) /\
  (forall s es cs, means_components l s es cs -> In s l -> (exists md, everywhere_comps small_tags md cs) -> exists fuel, forall m ts, In m tr -> module_of s m ->
     Forall2 (fun c c' => exists k, c' = fst (read_comp c k)) es ts ->
     exists r, traverse (fun c => match c with
                     | Comp _ u o d None => option_map (pair (Elab.kind_of o d)) (elab fuel tr m m u)
                     | Comp _ _ _ _ (Some _) => None
                     end) ts = Some r /\ acomps_of r = cs).
Proof.
  apply (means_mutind l).
  - intros s k c u Hk Hu _ _. destruct (simple_same k c u Hk Hu) as (E1 & E2). exists 1%nat. intros site m j _ _ _. cbn [read_ty fst elab]. rewrite E1, E2. reflexivity.
  - intros s names _ _. exists 1%nat. reflexivity.
  - intros s names _ _. exists 1%nat. reflexivity.
  - intros s root more _ _. exists 1%nat. reflexivity.
  - intros s root more cs _ IH Hs (md & Ht1 & Ht2). destruct (IH Hs (ex_intro _ md Ht2)) as (n & H). exists (S n). intros site m k Hsite Hm Hmo.
    destruct (read_choice root more k) as (n1 & ->). cbn [elab].
    destruct (H m (fst (thread read_named (additions more) n1) ++ fst (thread read_named root k)) Hm Hmo) as (r & -> & <-); [|reflexivity].
    apply Forall2_app; apply thread_Forall2.
  - intros s root more cs _ IH Hs (md & Ht1 & Ht2). destruct (IH Hs (ex_intro _ md Ht2)) as (n & H). exists (S n). intros site m k Hsite Hm Hmo.
    destruct (read_record false root more k) as (n1 & n2 & ->). cbn [elab].
    match goal with |- context [traverse _ ?ts] => destruct (H m ts Hm Hmo) as (r & -> & <-) end; [|reflexivity].
    apply Forall2_app; [apply thread_Forall2|]. destruct more as [[l1 [l2|]]|]; cbn [inserted].
    + apply Forall2_app; apply thread_Forall2.
    + rewrite <- (app_nil_r l1) at 1. apply Forall2_app; apply thread_Forall2.
    + constructor.
  - intros s root more cs ext _ IH He Hs (md & Ht1 & Ht2). destruct (IH Hs (ex_intro _ md Ht2)) as (n & H). exists (S n). intros site m k Hsite Hm Hmo.
    destruct (read_record true root more k) as (n1 & n2 & ->). cbn [elab].
    match goal with |- context [traverse _ ?ts] => destruct (H m ts Hm Hmo) as (r & -> & <-) end.
    + apply Forall2_app; [apply thread_Forall2|]. destruct more as [[l1 [l2|]]|]; cbn [inserted].
      * apply Forall2_app; apply thread_Forall2.
      * rewrite <- (app_nil_r l1) at 1. apply Forall2_app; apply thread_Forall2.
      * constructor.
    + cbn [option_map]. do 2 f_equal. rewrite (Himplied s Hs) in He. destruct more, ext; try reflexivity; exfalso; destruct He as (H1 & H2); [discriminate H2; left; discriminate|destruct (H1 eq_refl); congruence].
  - intros s set size name t a _ IH Hs (md & Ht1 & Ht2). destruct (IH Hs (ex_intro _ md Ht2)) as (n & H). exists (S n). intros site m k Hsite Hm Hmo. cbn [read_ty].
    specialize (H m m k Hm Hm Hmo). destruct (read_ty t k). cbn [fst elab] in *. rewrite H. reflexivity.
  - intros s c n kw t a _ IH Hs (md & Ht1 & Ht2). destruct (IH Hs (ex_intro _ md Ht2)) as (j & H). exists (S j). intros site m k Hsite Hm Hmo. cbn [read_ty].
    specialize (H (if is_ref (fst (read_ty t k)) || is_tagged_ref (fst (read_ty t k)) then site else m) m k ltac:(destruct (is_ref _ || _); assumption) Hm Hmo). destruct (read_ty t k). cbn [fst elab] in *. rewrite H. rewrite to_int_small by (exact Ht1). reflexivity.
  - intros s M x s' t a Hs' En Hf _ IH Hs (md & Ht1 & Ht2). destruct (IH Hs' (ex_intro _ (default_tags s') Ht2)) as (j & H). exists (S j). intros site m k Hsite Hm Hmo.
    destruct (tree_found s' Hs') as (m' & H1 & H2 & H3). destruct (stands_for_named s' m' x t H2 (proj2 Hnames s' Hs') Hf) as (k' & E).
    assert (G : module_named tr (match M with Some y => y | None => m_name m end) = Some m').
    { rewrite (module_of_name s m Hmo). unfold in_module in En. destruct M; rewrite <- En; exact H3. }
    cbn [read_ty fst elab]. rewrite G, E, (no_site s' x t k' m' site Hs' Hf H2 Hsite). rewrite (H (if is_ref (fst (read_ty t k')) || is_tagged_ref (fst (read_ty t k')) then site else m') m' k'), (module_of_mode s' m' H2); auto.
    destruct (is_ref _ || _); assumption.
  - intros s t c a _ IH Hs Ht. destruct (IH Hs Ht) as (j & H). exists j. intros site m k. apply H.
  - intros s _ _. exists O. intros m ts _ _ F. inversion F; subst. exists []. split; reflexivity.
  - intros s x t a rest cs _ IH1 _ IH2 Hs (md & Ht1 & Ht2). destruct (IH1 Hs (ex_intro _ md Ht1)) as (n1 & H1). destruct (IH2 Hs (ex_intro _ md Ht2)) as (n2 & H2).
    exists (Nat.max n1 n2). intros m ts Hm Hmo F. inversion F as [|? e' ? ts' (k & ->) F']; subst. destruct (H2 m ts' Hm Hmo F') as (r & E & <-).
    exists ((Mand, a) :: r). split; [|reflexivity]. cbn [traverse]. unfold read_named at 1. specialize (H1 m m k Hm Hm Hmo). cbn [snd]. destruct (read_ty t k) as [u j]. cbn [fst snd] in *.
    rewrite (elab_mono n1 (Nat.max n1 n2) _ _ _ _ _ ltac:(lia) H1). cbn [option_map]. erewrite traverse_some; [reflexivity| |exact E].
    intros e y Ey. cbn beta in *. destruct (elab n2 tr m m (snd e)) eqn:X; [|discriminate]. rewrite (elab_mono n2 (Nat.max n1 n2) _ _ _ _ _ ltac:(lia) X). exact Ey.
  - intros s _ _. exists O. intros m ts _ _ F. inversion F; subst. exists []. split; reflexivity.
  - intros s x t p a rest cs _ IH1 _ IH2 Hs (md & Ht1 & Ht2). destruct (IH1 Hs (ex_intro _ md Ht1)) as (n1 & H1). destruct (IH2 Hs (ex_intro _ md Ht2)) as (n2 & H2).
    exists (Nat.max n1 n2). intros m ts Hm Hmo F. inversion F as [|? e' ? ts' (k & ->) F']; subst. destruct (H2 m ts' Hm Hmo F') as (r & E & <-).
    exists ((presence_kind p, a) :: r). split; [|reflexivity]. cbn [traverse read_comp]. specialize (H1 m m k Hm Hm Hmo). destruct (read_ty t k) as [u j]. cbn [fst snd] in *.
    rewrite (elab_mono n1 (Nat.max n1 n2) _ _ _ _ _ ltac:(lia) H1). cbn [option_map]. erewrite traverse_some; [|shelve|exact E]. destruct p; reflexivity.
    Unshelve. intros [? u' o d [c|]] y Ey; cbn beta iota in *; [discriminate|]. destruct (elab n2 tr m m u') eqn:X; [|discriminate]. rewrite (elab_mono n2 (Nat.max n1 n2) _ _ _ _ _ ltac:(lia) X). exact Ey.
  - intros s t p a rest cs _ IH1 _ IH2 Hs (md & Ht1 & Ht2). destruct (IH1 Hs (ex_intro _ md Ht1)) as (n1 & H1). destruct (IH2 Hs (ex_intro _ md Ht2)) as (n2 & H2).
    exists (Nat.max n1 n2). intros m ts Hm Hmo F. inversion F as [|? e' ? ts' (k & ->) F']; subst. destruct (H2 m ts' Hm Hmo F') as (r & E & <-).
    exists ((presence_kind p, a) :: r). split; [|reflexivity]. cbn [traverse read_comp]. specialize (H1 m m k Hm Hm Hmo). destruct (read_ty t k) as [u j]. cbn [fst snd] in *.
    rewrite (elab_mono n1 (Nat.max n1 n2) _ _ _ _ _ ltac:(lia) H1). cbn [option_map]. erewrite traverse_some; [|shelve|exact E]. destruct p; reflexivity.
    Unshelve. intros [? u' o d [c|]] y Ey; cbn beta iota in *; [discriminate|]. destruct (elab n2 tr m m u') eqn:X; [|discriminate]. rewrite (elab_mono n2 (Nat.max n1 n2) _ _ _ _ _ ltac:(lia) X). exact Ey.
Qed.
End Elaborate.
