(** Proofs about resolve_components_of (C63). *)
From Verif Require Import CompilerTree TreeSpec ModuleProofs.
Local Open Scope list_scope.

Lemma no_of_filter cs : no_of cs -> filter (fun c => negb (is_comp_of c)) cs = cs.
Proof. induction 1 as [|c cs Hc _ IH]; [reflexivity|]. cbn. rewrite Hc, IH. reflexivity. Qed.
Lemma expands_plain tr m cs : no_of cs -> expands tr m cs (here m cs).
Proof. induction 1 as [|[n t o d s|t] cs Hc _ IH]; cbn; [constructor|constructor; exact IH|discriminate]. Qed.

Lemma find_assign_unique l r s : NoDup (map a_name l) -> In (Assign r s) l -> find_assign l r = Done (Assign r s).
Proof.
  induction l as [|a l IH]; cbn; [tauto|]. intros Hn H. inversion Hn as [|? ? Ha Hl]; subst. destruct H as [->|H].
  - cbn. rewrite String.eqb_refl. reflexivity.
  - destruct (String.eqb (a_name a) r) eqn:E; [|auto]. apply String.eqb_eq in E. exfalso. apply Ha. rewrite E. apply (in_map a_name) in H. exact H.
Qed.
Lemma find_module_unique l m : NoDup (map m_name l) -> In m l -> find_module l (m_name m) = Done m.
Proof.
  induction l as [|a l IH]; cbn; [tauto|]. intros Hn H. inversion Hn as [|? ? Ha Hl]; subst. destruct H as [->|H].
  - rewrite String.eqb_refl. reflexivity.
  - destruct (String.eqb (m_name a) (m_name m)) eqn:E; [|auto]. apply String.eqb_eq in E. exfalso. apply Ha. rewrite E. apply in_map, H.
Qed.
Lemma forall2_names {A} (f : A -> string) (R : A -> A -> Prop) l l' : (forall x y, R x y -> f y = f x) -> Forall2 R l l' -> map f l' = map f l.
Proof. intros H. induction 1 as [|x y l l' Hx _ IH]; [reflexivity|]. cbn. rewrite (H _ _ Hx), IH. reflexivity. Qed.
Lemma forall2_in {A} (R : A -> A -> Prop) l l' x : Forall2 R l l' -> In x l -> exists y, In y l' /\ R x y.
Proof. induction 1 as [|a b l l' Hab _ IH]; [intros []|]. intros [->|H]; [exists b; cbn; auto|]. destruct (IH H) as (y & Hy & HR). exists y. cbn. auto. Qed.

Section Module_.
  Variables (tr : tree) (md : module) (pre post pre' : list module).
  Hypothesis distinct : distinct_names tr.
  Hypothesis tr_eq : tr = pre ++ md :: post.
  Hypothesis pre_names : map m_name pre' = map m_name pre.

  Lemma expand_comps_ok before a after before' cs0 :
    m_assigns md = before ++ a :: after -> Forall2 (done_as tr (m_name md)) before before' ->
    Forall (includes_ok md before a) cs0 ->
    exists l, expand_comps (current_tree (rev pre') md (rev before') (a :: after) post) (m_name md) (a_name a) cs0 = Done l /\
      no_of l /\ expands tr (m_name md) cs0 (here (m_name md) l).
  Proof.
    intros Ea Hb. unfold current_tree. rewrite !rev_involutive. set (cur := Module (m_name md) (m_imports md) (before' ++ a :: after)).
    assert (Hin : In md tr) by (rewrite tr_eq; apply in_or_app; right; left; reflexivity).
    assert (Hnames : map m_name (pre' ++ cur :: post) = map m_name tr) by (rewrite tr_eq, !map_app, pre_names; reflexivity).
    assert (Hcur : find_module (pre' ++ cur :: post) (m_name md) = Done cur).
    { change (m_name md) with (m_name cur). apply find_module_unique; [|apply in_or_app; right; left; reflexivity].
      rewrite Hnames. apply distinct. }
    assert (Hnb : map a_name before' = map a_name before) by (apply (forall2_names a_name _ _ _ (fun x y H => proj1 H) Hb)).
    assert (Hnd : NoDup (map a_name (before ++ a :: after))) by (rewrite <- Ea; apply distinct, Hin).
    assert (Hnd' : NoDup (map a_name (before' ++ a :: after))) by (rewrite map_app, Hnb, <- map_app; exact Hnd).
    induction 1 as [|c cs Hc _ IH]; [exists []; split; [reflexivity|]; split; constructor|].
    destruct IH as (l & El & Hl & Hx). cbn [expand_comps].
    destruct c as [n t o d s|t].
    { cbn. rewrite El. cbn. exists (Comp n t o d s :: l). split; [reflexivity|]. split; [constructor; [reflexivity|exact Hl]|constructor; exact Hx]. }
    destruct t as [e|mo r|s0 cs1|s0 sto t|sto alts|t]; cbn in Hc; try tauto. destruct Hc as (Hm & Hr & set & cs1 & Hdef & Hok).
    assert (Hinc : exists set' l0, find_assign (before' ++ a :: after) r = Done (Assign r (TypeA (Record set' l0))) /\ no_of l0 /\
               expands tr (m_name md) cs1 (here (m_name md) l0)).
    { rewrite Ea in Hdef. apply in_app_or in Hdef as [Hd|Hd].
      - destruct (forall2_in _ _ _ _ Hb Hd) as ([n' s'] & Hi & En & Hs). cbn in En, Hs. subst n'.
        assert (Hf : find_assign (before' ++ a :: after) r = Done (Assign r s')).
        { apply find_assign_unique; [exact Hnd'|]. apply in_or_app. left. exact Hi. }
        rewrite Hf. destruct set.
        + subst s'. exists true, cs1. split; [reflexivity|]. destruct Hok as [Hok|(Hok & _)]; [|discriminate]. split; [exact Hok|apply expands_plain, Hok].
        + destruct Hs as (l0 & -> & H1 & H2). exists false, l0. auto.
      - assert (Hno : no_of cs1).
        { destruct Hok as [Hok|(_ & Hbf)]; [exact Hok|]. exfalso. rewrite map_app in Hnd. apply (in_map a_name) in Hd, Hbf. cbn [a_name] in Hd, Hbf.
          clear -Hnd Hd Hbf. induction (map a_name before) as [|x l IH]; [destruct Hbf|]. cbn in Hnd. inversion Hnd as [|? ? Hx Hn]; subst.
          destruct Hbf as [->|Hbf]; [apply Hx; apply in_or_app; right; exact Hd|auto]. }
        exists set, cs1. split; [|split; [exact Hno|apply expands_plain, Hno]]. apply find_assign_unique; [exact Hnd'|]. apply in_or_app. right. exact Hd. }
    destruct Hinc as (set' & l0 & Hf & Hn0 & Hx0). cbn [included]. change ref_module with in_module. rewrite Hm, Hcur. cbn [obind].
    change (m_assigns cur) with (before' ++ a :: after). rewrite Hf. cbn [obind a_spec].
    assert (Er : String.eqb r (a_name a) = false) by (apply String.eqb_neq, Hr). rewrite Er, Bool.andb_false_r. cbn [obind]. rewrite El. cbn [obind].
    rewrite filter_app, (no_of_filter l0 Hn0). cbn [filter is_comp_of negb]. rewrite app_nil_r. exists (l0 ++ l). split; [reflexivity|].
    split; [apply Forall_app; split; assumption|]. unfold here. rewrite map_app. apply ex_of with (set := set) (cs0 := cs1) (m' := m_name md).
    - eapply ti_ref; [rewrite Hm; exists md; split; [exact Hin|]; split; [reflexivity|exact Hdef]|]. rewrite Hm. apply ti_final. exact I.
    - exact Hx0.
    - exact Hx.
  Qed.

  Lemma expand_module_ok : forall after before before',
    m_assigns md = before ++ after -> Forall2 (done_as tr (m_name md)) before before' ->
    (forall b a f set cs, m_assigns md = b ++ a :: f -> a_spec a = TypeA (Record set cs) -> set = false -> Forall (includes_ok md b a) cs) ->
    exists l, expand_module (rev pre') md (rev before') after post = Done l /\ Forall2 (done_as tr (m_name md)) (m_assigns md) l.
  Proof.
    induction after as [|a after IH]; intros before before' Ea Hb Hok; cbn [expand_module].
    - rewrite rev_involutive, Ea, app_nil_r. eauto.
    - assert (Ha : exists a', expand_assign (current_tree (rev pre') md (rev before') (a :: after) post) (m_name md) a = Done a' /\ done_as tr (m_name md) a a').
      { unfold expand_assign. unfold done_as. destruct a as [n [t|t v|]]; cbn [a_spec a_name]; try (eexists; split; [reflexivity|split; reflexivity]).
        destruct t as [e|mo r|[|] cs|s0 sto t|sto alts|t]; try (eexists; split; [reflexivity|split; reflexivity]).
        destruct (expand_comps_ok before _ after before' cs Ea Hb (Hok _ _ _ _ _ Ea eq_refl eq_refl)) as (l & El & H1 & H2).
        cbn [a_name] in El. rewrite El. cbn [obind]. eexists. split; [reflexivity|]. split; [reflexivity|]. exists l. auto. }
      destruct Ha as (a' & E & Hd). rewrite E. cbn [obind].
      destruct (IH (before ++ [a]) (before' ++ [a'])) as (l & El & Hl).
      + rewrite Ea, <- app_assoc. reflexivity.
      + apply Forall2_app; [exact Hb|]. constructor; [exact Hd|constructor].
      + exact Hok.
      + rewrite rev_app_distr in El. cbn in El. eauto.
  Qed.
End Module_.

Lemma expand_tree_ok tr : distinct_names tr ->
  (forall md b a f set cs, In md tr -> m_assigns md = b ++ a :: f -> a_spec a = TypeA (Record set cs) -> set = false -> Forall (includes_ok md b a) cs) ->
  forall post pre pre', tr = pre ++ post -> Forall2 (module_done tr) pre pre' ->
    exists tr', expand_tree (rev pre') post = Done tr' /\ Forall2 (module_done tr) tr tr'.
Proof.
  intros Hd Hok. induction post as [|md post IH]; intros pre pre' Et Hp; cbn [expand_tree].
  - rewrite rev_involutive, Et, app_nil_r in *. eauto.
  - assert (Hin : In md tr) by (rewrite Et; apply in_or_app; right; left; reflexivity).
    assert (Hn : map m_name pre' = map m_name pre) by (apply (forall2_names m_name _ _ _ (fun x y H => proj1 H) Hp)).
    destruct (expand_module_ok tr md pre post pre' Hd Et Hn (m_assigns md) [] [] eq_refl (Forall2_nil _)) as (l & El & Hl).
    + intros b a f set cs. apply Hok, Hin.
    + cbn [rev] in El. rewrite El. cbn [obind].
      destruct (IH (pre ++ [md]) (pre' ++ [Module (m_name md) (m_imports md) l])) as (tr' & E & H).
      * rewrite Et, <- app_assoc. reflexivity.
      * apply Forall2_app; [exact Hp|]. constructor; [|constructor]. split; [reflexivity|]. split; [reflexivity|exact Hl].
      * rewrite rev_app_distr in E. cbn in E. eauto.
Qed.
