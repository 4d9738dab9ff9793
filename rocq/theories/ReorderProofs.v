(** Proofs about reorder_assignments (C57). *)
From Coq Require Import Permutation.
From Verif Require Import CompilerTree TreeSpec ModuleProofs.
Local Open Scope list_scope.

(** * Dependencies are the names used *)
Lemma depends_record s cs : depends_on (Record s cs) = flat_map (comp_depends_on s) cs. Proof. reflexivity. Qed.
Lemma depends_choice st alts : depends_on (Choice st alts) = flat_map (fun a => depends_on (snd a)) alts. Proof. reflexivity. Qed.
Lemma uses_dep t m r : uses t m r -> set_default t \/ In (Dep r m) (depends_on t).
Proof.
  induction 1 as [m r|t m r _ IH|s st t m r _ IH|st alts n t m r Hi _ IH|s cs n t o d st m r Hi _ IH|s cs n t o v st Hi Ht].
  - right. left. reflexivity.
  - destruct IH as [IH|IH]; [left; apply sd_tag, IH|right; exact IH].
  - destruct IH as [IH|IH]; [left; apply sd_list, IH|right; exact IH].
  - destruct IH as [IH|IH]; [left; eapply sd_choice; eassumption|right].
    rewrite depends_choice. apply in_flat_map. exists (n, t). split; [exact Hi|exact IH].
  - destruct IH as [IH|IH]; [left; eapply sd_comp; eassumption|right].
    rewrite depends_record. apply in_flat_map. eexists. split; [exact Hi|]. cbn [comp_depends_on]. apply in_or_app. left. exact IH.
  - destruct s; [left; eapply sd_here; eassumption|right].
    rewrite depends_record. apply in_flat_map. eexists. split; [exact Hi|]. cbn [comp_depends_on]. apply in_or_app. right.
    destruct t as [[|]| | | | |]; try (left; reflexivity). congruence.
Qed.
Fixpoint tsize (t : typ) : nat :=
  match t with
  | Builtin _ | Ref _ _ => 1%nat
  | Record _ cs => S (list_sum (map csize cs))
  | ListOf _ _ t | Tagged t => S (tsize t)
  | Choice _ alts => S (list_sum (map (fun a => tsize (snd a)) alts))
  end
with csize (c : comp) : nat := match c with Comp _ t _ _ _ => S (tsize t) | CompOf t => S (tsize t) end.
Lemma in_sum {A} (f : A -> nat) l x : In x l -> (f x <= list_sum (map f l))%nat.
Proof.
  induction l as [|a l IH]; [intros []|]. change (list_sum (map f (a :: l))) with (f a + list_sum (map f l))%nat.
  intros [->|H]; [lia|]. specialize (IH H). lia.
Qed.
Lemma dep_uses t d : In d (depends_on t) -> uses t (d_module d) (d_name d).
Proof.
  remember (tsize t) as k eqn:Hk. assert (Hle : (tsize t <= k)%nat) by lia. clear Hk. revert t Hle.
  induction k as [|k IH]; intros t Hk; [destruct t; cbn in Hk; lia|]. destruct t as [e|m r|s cs|s st t|st alts|t]; intros H.
  - destruct H.
  - destruct H as [<-|[]]. constructor.
  - rewrite depends_record in H. apply in_flat_map in H as (c & Hc & Hd). pose proof (in_sum csize cs c Hc) as Hs.
    change (tsize (Record s cs)) with (S (list_sum (map csize cs))) in Hk. destruct c as [n t o df st|t]; [|destruct Hd]. cbn [csize] in Hs.
    cbn [comp_depends_on] in Hd. apply in_app_or in Hd as [Hd|Hd].
    + eapply u_comp; [exact Hc|]. apply IH; [lia|exact Hd].
    + destruct s; [destruct Hd|]. destruct df as [[v|]|]; [|destruct Hd..].
      assert (Ht : t <> Builtin true) by (intros ->; destruct Hd).
      assert (d = Dep v None) as -> by (destruct t as [[|]| | | | |]; cbn in Hd; intuition).
      cbn. eapply u_default; eassumption.
  - apply u_list. apply IH; [cbn in Hk; lia|exact H].
  - rewrite depends_choice in H. apply in_flat_map in H as ((n & t) & Hc & Hd). pose proof (in_sum (fun a => tsize (snd a)) alts _ Hc) as Hs.
    change (tsize (Choice st alts)) with (S (list_sum (map (fun a => tsize (snd a)) alts))) in Hk. cbn [snd] in *.
    eapply u_choice; [exact Hc|]. apply IH; [lia|exact Hd].
  - apply u_tag. apply IH; [cbn in Hk; lia|exact H].
Qed.
Lemma local_iff md d : local md d = true <-> this_module md (d_module d).
Proof.
  unfold local, this_module. destruct (d_module d) as [m|]; [|intuition]. rewrite String.eqb_eq. split; [intros ->; auto|].
  intros [H|H]; congruence.
Qed.
Lemma dep_mentions md a d : In d (dependencies a) -> local md d = true -> mentions md a (d_name d).
Proof.
  unfold mentions, dependencies. intros Hd Hl. apply local_iff in Hl. destruct (a_spec a) as [t|t v|]; [| |destruct Hd].
  - exists (d_module d). split; [apply dep_uses, Hd|exact Hl].
  - apply in_app_or in Hd as [Hd|Hd]; [left; exists (d_module d); split; [apply dep_uses, Hd|exact Hl]|right].
    destruct v as [v|]; [|destruct Hd]. destruct Hd as [<-|[]]. reflexivity.
Qed.

(** * get_dependencies_recursive *)
Lemma dep_eqb_iff a b : dep_eqb a b = true <-> a = b.
Proof.
  destruct a as [n [m|]], b as [n' [m'|]]; unfold dep_eqb; cbn; rewrite Bool.andb_true_iff, ?String.eqb_eq; intuition; congruence.
Qed.
Lemma in_deps_iff d l : existsb (dep_eqb d) l = true <-> In d l.
Proof.
  rewrite existsb_exists. split; [intros (x & H & E); apply dep_eqb_iff in E; subst; exact H|].
  intros H. exists d. split; [exact H|apply dep_eqb_iff; reflexivity].
Qed.
Section Recursive.
  Variables (md : string) (deps : string -> out (list dependency)).
  (** Reachable in one or more steps. *)
  Inductive greach : string -> dependency -> Prop :=
  | gr_one x ds d : deps x = Done ds -> In d ds -> local md d = true -> greach x d
  | gr_more x ds d e : deps x = Done ds -> In d ds -> local md d = true -> greach (d_name d) e -> greach x e.
  Lemma greach_trans x d e : greach x d -> greach (d_name d) e -> greach x e.
  Proof. induction 1 as [x ds d H1 H2 H3|x ds d f H1 H2 H3 _ IH]; intros He; eapply gr_more; eauto. Qed.
  Definition closed_at (x : string) (acc : list dependency) : Prop :=
    exists ds, deps x = Done ds /\ forall d, In d ds -> local md d = true -> In d acc.
  Lemma closed_mono x a b : incl a b -> closed_at x a -> closed_at x b.
  Proof. intros H (ds & E & Hd). exists ds. split; [exact E|]. intros d H1 H2. apply H, Hd; assumption. Qed.
  Lemma recursive_spec : forall fuel x acc acc', dependencies_recursive fuel md deps x acc = Done acc' ->
    incl acc acc' /\ closed_at x acc' /\
    forall d, In d acc' -> In d acc \/ (closed_at (d_name d) acc' /\ greach x d).
  Proof.
    induction fuel as [|fuel IH]; intros x acc acc' H; cbn in H; [discriminate|]. apply obind_done in H as (ds & Eds & H).
    set (f := fun d acc => if local md d then if existsb (dep_eqb d) acc then Done acc
                else dependencies_recursive fuel md deps (d_name d) (d :: acc) else Done acc) in H.
    assert (Hfold : forall ds0 a b, incl ds0 ds -> foldm f ds0 a = Done b ->
              incl a b /\ (forall d, In d ds0 -> local md d = true -> In d b) /\
              forall d, In d b -> In d a \/ (closed_at (d_name d) b /\ greach x d)).
    { induction ds0 as [|d ds0 IHd]; intros a b Hi E; cbn in E.
      - injection E as <-. split; [apply incl_refl|]. split; [intros d []|auto].
      - apply obind_done in E as (c & E1 & E2). destruct (IHd c b ltac:(intros z Hz; apply Hi; right; exact Hz) E2) as (H1 & H2 & H3).
        assert (Hd : In d ds) by (apply Hi; left; reflexivity).
        assert (Hc : incl a c /\ (local md d = true -> In d c) /\ forall e, In e c -> In e a \/ (closed_at (d_name e) c /\ greach x e)).
        { unfold f in E1. destruct (local md d) eqn:El; [|injection E1 as <-; split; [apply incl_refl|split; [discriminate|auto]]].
          destruct (existsb (dep_eqb d) a) eqn:Ea; [injection E1 as <-; split; [apply incl_refl|split; [intros _; apply in_deps_iff, Ea|auto]]|].
          destruct (IH _ _ _ E1) as (G1 & G2 & G3). split; [intros z Hz; apply G1; right; exact Hz|]. split; [intros _; apply G1; left; reflexivity|].
          intros e He. destruct (G3 e He) as [[<-|Hea]|(Hcl & Hr)]; [right|left; exact Hea|right].
          - split; [exact G2|]. eapply gr_one; eassumption.
          - split; [exact Hcl|]. eapply gr_more; eassumption. }
        destruct Hc as (C1 & C2 & C3). split; [eapply incl_tran; eassumption|]. split.
        + intros e [<-|He] Hl; [apply H1, C2, Hl|auto].
        + intros e He. destruct (H3 e He) as [Hec|Hr]; [|right; exact Hr]. destruct (C3 e Hec) as [Hea|(Hcl & Hr)]; [left; exact Hea|right].
          split; [eapply closed_mono; eassumption|exact Hr]. }
    destruct (Hfold ds acc acc' (incl_refl _) H) as (H1 & H2 & H3). split; [exact H1|]. split; [exists ds; auto|exact H3].
  Qed.
  (** Termination: [U] has all dependencies. *)
  Fixpoint unfound (U acc : list dependency) : nat :=
    match U with [] => O | d :: U => if existsb (dep_eqb d) acc then unfound U acc else S (unfound U acc) end.
  Lemma unfound_le U a b : incl a b -> (unfound U b <= unfound U a)%nat.
  Proof.
    intros H. induction U as [|x l IH]; cbn; [lia|]. destruct (existsb (dep_eqb x) a) eqn:Ea, (existsb (dep_eqb x) b) eqn:Eb; try lia.
    apply in_deps_iff in Ea. apply H in Ea. apply in_deps_iff in Ea. congruence.
  Qed.
  Lemma unfound_length U a : (unfound U a <= List.length U)%nat.
  Proof. induction U as [|d U IH]; cbn; [lia|]. destruct (existsb _ a); lia. Qed.
  Lemma unfound_new U a x : In x U -> ~ In x a -> (unfound U (x :: a) < unfound U a)%nat.
  Proof.
    intros Hx Ha. induction U as [|y l IH]; [destruct Hx|]. pose proof (unfound_le l a (x :: a) ltac:(right; assumption)) as Hl.
    cbn [unfound]. destruct (existsb (dep_eqb y) (x :: a)) eqn:E1.
    - destruct (existsb (dep_eqb y) a) eqn:E2; [|lia]. apply IH. destruct Hx as [->|Hx]; [|exact Hx]. apply in_deps_iff in E2. tauto.
    - assert (y <> x) by (intros ->; assert (In x (x :: a)) as Hn by (left; reflexivity); apply in_deps_iff in Hn; congruence).
      assert (E2 : existsb (dep_eqb y) a = false).
      { destruct (existsb (dep_eqb y) a) eqn:E; [|reflexivity]. apply in_deps_iff in E. assert (In y (x :: a)) as Hn by (right; exact E). apply in_deps_iff in Hn. congruence. }
      rewrite E2. destruct Hx as [->|Hx]; [tauto|]. specialize (IH Hx). lia.
  Qed.
  Lemma recursive_terminates U : (forall x, deps x <> Loop) -> (forall x ds, deps x = Done ds -> incl ds U) ->
    forall fuel x acc, (unfound U acc < fuel)%nat -> dependencies_recursive fuel md deps x acc <> Loop.
  Proof.
    intros Hl HU. induction fuel as [|fuel IH]; intros x acc Hf; [lia|]. cbn. apply obind_loop; [apply Hl|]. intros ds Eds. apply HU in Eds.
    set (f := fun d acc => if local md d then if existsb (dep_eqb d) acc then Done acc
                else dependencies_recursive fuel md deps (d_name d) (d :: acc) else Done acc).
    assert (Hx : forall ds0 a, incl ds0 U -> incl acc a -> foldm f ds0 a <> Loop).
    { induction ds0 as [|d ds0 IHd]; intros a Hi Ha; cbn; [discriminate|]. pose proof (unfound_le U acc a Ha) as Hle.
      assert (Hi' : incl ds0 U) by (intros z Hz; apply Hi; right; exact Hz). apply obind_loop.
      - unfold f. destruct (local md d); [|discriminate]. destruct (existsb (dep_eqb d) a) eqn:Ed; [discriminate|]. apply IH.
        assert (~ In d a) by (intros Hd; apply in_deps_iff in Hd; congruence). pose proof (unfound_new U a d ltac:(apply Hi; left; reflexivity) H). lia.
      - intros b E. apply IHd; [exact Hi'|]. eapply incl_tran; [exact Ha|]. unfold f in E. destruct (local md d); [|injection E as <-; apply incl_refl].
        destruct (existsb (dep_eqb d) a); [injection E as <-; apply incl_refl|]. apply recursive_spec in E as (E & _). intros z Hz. apply E. right. exact Hz. }
    apply Hx; [exact Eds|apply incl_refl].
  Qed.
  Lemma recursive_undef : (forall x, deps x <> Undef) -> forall fuel x acc, dependencies_recursive fuel md deps x acc <> Undef.
  Proof.
    intros Hl. induction fuel as [|fuel IH]; intros x acc; cbn; [discriminate|]. apply obind_undef; [apply Hl|]. intros ds _. revert acc.
    induction ds as [|d ds IHd]; intros a; cbn; [discriminate|]. apply obind_undef; [|intros; apply IHd].
    destruct (local md d); [|discriminate]. destruct (existsb (dep_eqb d) a); [discriminate|]. apply IH.
  Qed.
End Recursive.

(** * is_circular *)
Lemma map_find_in l x a : map_find l x = Done a -> In a l /\ a_name a = x.
Proof. intros H. apply find_assign_in in H as (H & E). split; [apply in_rev, H|exact E]. Qed.
Lemma map_find_cases l x : (exists a, map_find l x = Done a) \/ (map_find l x = Throw /\ ~ In x (map a_name l)).
Proof.
  destruct (find_assign_cases (rev l) x) as [H|(H & Hn)]; [left; exact H|right]. split; [exact H|]. intros Hx. apply Hn.
  rewrite map_rev. apply in_rev in Hx. exact Hx.
Qed.
Lemma map_deps_done l st x ds : map_deps l st x = Done ds ->
  exists a, In a l /\ a_name a = x /\ map_find l x = Done a /\ ds = if mem x (cleared st) then [] else dependencies a.
Proof. intros H. apply obind_done in H as (a & E & H). injection H as <-. destruct (map_find_in _ _ _ E). eauto 6. Qed.
Lemma map_deps_in l st x ds : map_deps l st x = Done ds -> In x (map a_name l).
Proof. intros H. apply map_deps_done in H as (a & H & <- & _). apply in_map, H. Qed.
Lemma greach_leads md l st x d : greach md (map_deps l st) x d -> leads_to md l x (d_name d).
Proof.
  assert (Hone : forall x ds d, map_deps l st x = Done ds -> In d ds -> local md d = true -> exists a, In a l /\ a_name a = x /\ mentions md a (d_name d)).
  { clear. intros x ds d E Hd Hl. apply map_deps_done in E as (a & Ha & Hx & _ & ->). exists a. split; [exact Ha|]. split; [exact Hx|].
    destruct (mem x (cleared st)); [destruct Hd|]. apply dep_mentions; assumption. }
  induction 1 as [x ds d E Hd Hl|x ds d e E Hd Hl _ IH]; destruct (Hone _ _ _ E Hd Hl) as (a & Ha & <- & Hm); [apply lt_one|eapply lt_more]; eassumption.
Qed.
Lemma circular_all md deps fuel : forall ds acc all, foldm (fun d acc => dependencies_recursive fuel md deps (d_name d) acc) ds acc = Done all ->
  incl acc all /\ (forall d, In d ds -> closed_at md deps (d_name d) all) /\
  forall e, In e all -> In e acc \/ (closed_at md deps (d_name e) all /\ exists d, In d ds /\ greach md deps (d_name d) e).
Proof.
  induction ds as [|d ds IH]; intros acc all H; cbn in H.
  - injection H as <-. split; [apply incl_refl|]. split; [intros d []|auto].
  - apply obind_done in H as (acc' & E & H). destruct (recursive_spec _ _ _ _ _ _ E) as (A1 & A2 & A3). destruct (IH _ _ H) as (B1 & B2 & B3).
    split; [eapply incl_tran; eassumption|]. split.
    + intros e [<-|He]; [eapply closed_mono; eassumption|auto].
    + intros e He. destruct (B3 e He) as [He'|(Hc & d' & Hd' & Hr)].
      * destruct (A3 e He') as [Ha|(Hc & Hr)]; [left; exact Ha|right]. split; [eapply closed_mono; eassumption|]. exists d. split; [left; reflexivity|exact Hr].
      * right. split; [exact Hc|]. exists d'. split; [right; exact Hd'|exact Hr].
Qed.
Section Circular.
  Variables (fuel : nat) (md : string) (l : list assignment) (st : dstate) (name : string) (ds : list dependency).
  Lemma circular_true : is_circular fuel md l st name ds = Done true ->
    exists d e, In d ds /\ greach md (map_deps l st) (d_name d) e /\ d_name e = name.
  Proof.
    intros H. apply obind_done in H as (all & E & H). injection H as H. apply existsb_exists in H as (e & He & Hn). apply String.eqb_eq in Hn.
    apply circular_all in E as (_ & _ & E). destruct (E e He) as [[]|(_ & d & Hd & Hr)]. eauto.
  Qed.
  Lemma closed_reaches all (Hall : forall e, In e all -> closed_at md (map_deps l st) (d_name e) all) x e :
    closed_at md (map_deps l st) x all -> greach md (map_deps l st) x e -> In e all.
  Proof.
    intros Hc H. induction H as [x ds' d E Hd Hl|x ds' d e E Hd Hl _ IH]; destruct Hc as (ds'' & E' & Hc); rewrite E in E'; injection E' as <-.
    - apply Hc; assumption.
    - apply IH. apply Hall, Hc; assumption.
  Qed.
  Lemma circular_false : is_circular fuel md l st name ds = Done false ->
    forall d e, In d ds -> greach md (map_deps l st) (d_name d) e -> d_name e <> name.
  Proof.
    intros H d e Hd Hr Hn. apply obind_done in H as (all & E & H). injection H as H. apply circular_all in E as (_ & E1 & E2).
    assert (He : In e all).
    { eapply closed_reaches; [|apply E1, Hd|exact Hr]. intros f Hf. destruct (E2 f Hf) as [[]|(Hc & _)]. exact Hc. }
    assert (existsb (fun d => String.eqb (d_name d) name) all = true); [|congruence]. apply existsb_exists. exists e. split; [exact He|apply String.eqb_eq, Hn].
  Qed.
  Lemma circular_defined b : is_circular fuel md l st name ds = Done b -> forall d, In d ds ->
    In (d_name d) (map a_name l) /\ forall e, greach md (map_deps l st) (d_name d) e -> In (d_name e) (map a_name l).
  Proof.
    intros H d Hd. apply obind_done in H as (all & E & _). apply circular_all in E as (_ & E1 & E2).
    assert (Hin : forall x, closed_at md (map_deps l st) x all -> In x (map a_name l)) by (intros x (ds' & E & _); eapply map_deps_in, E).
    split; [apply Hin, E1, Hd|]. intros e Hr. apply Hin. assert (Hall : forall f, In f all -> closed_at md (map_deps l st) (d_name f) all).
    { intros f Hf. destruct (E2 f Hf) as [[]|(Hc & _)]. exact Hc. } apply Hall. eapply closed_reaches; [exact Hall|apply E1, Hd|exact Hr].
  Qed.
End Circular.

(** * is_enumerated *)
Lemma resolve_ref_enumerated tr current : forall fuel md m r x, resolve_ref fuel tr current md m r = Done (Builtin true, x) ->
  exists m', type_is tr md (Ref m r) (Builtin true) m'.
Proof.
  induction fuel as [|fuel IH]; intros md m r x H; cbn in H; [discriminate|]. apply obind_done in H as (w & Ew & H). apply obind_done in H as (a & Ea & H).
  apply find_module_in in Ew as (Hw & Ew). apply find_assign_in in Ea as (Ha & Ea). destruct a as [an as_]. cbn [a_name a_spec] in *. subst an.
  assert (Hdef : defines tr (in_module md m) r as_) by (exists w; auto).
  destruct as_ as [t| |]; try discriminate. destruct t as [e|m' r'|s cs|s st t|st alts|t]; try discriminate.
  - injection H as -> _. exists (in_module md m). eapply ti_ref; [exact Hdef|]. apply ti_final. exact I.
  - apply IH in H as (m'' & H). exists m''. eapply ti_ref; [exact Hdef|]. destruct m; exact H.
  - destruct t; try discriminate. apply obind_done in H as ([t' x'] & _ & H). discriminate.
Qed.
Lemma is_enumerated_true fuel tr md t : is_enumerated fuel tr md t = Done true -> enumerated_type tr md t.
Proof.
  unfold is_enumerated, enumerated_type. intros H. apply obind_done in H as ([t' x] & E & H). injection H as H.
  assert (t' = Builtin true) as -> by (destruct t' as [[|]| | | | |]; congruence). clear H.
  induction t as [e|m r|s cs|s st t IH|st alts|t IH]; cbn in E; try (apply obind_done in E as (? & _ & E); try discriminate).
  - injection E as -> _. exists md. apply ti_final. exact I.
  - apply resolve_ref_enumerated in E. exact E.
  - apply IH in E as (m' & H). exists m'. apply ti_tagged, H.
Qed.

(** * The result of resolve_dependencies *)
Section Sound.
  Variables (tr : tree) (md : string) (l : list assignment).
  Hypothesis Hset : Forall no_nested_set_default l.
  Inductive in_order : list assignment -> Prop :=
  | io_nil : in_order []
  | io_cons a o : (forall x, needs tr md a x -> In x (map a_name o)) -> in_order o -> in_order (a :: o).
  Definition known (a' : assignment) : Prop :=
    (exists a, In a l /\ stored md l a a') /\ forall x, refers tr md a' x -> In x (map a_name l).
  Record good (st : dstate) : Prop := {
    g_names : assigned st = map a_name (ordered st);
    g_nodup : NoDup (assigned st);
    g_order : in_order (ordered st);
    g_known : Forall known (ordered st);
    g_cleared : incl (cleared st) (visited st) }.
  Record grows (st st' : dstate) : Prop := {
    w_good : good st -> good st';
    w_assigned : incl (assigned st) (assigned st');
    w_visited : incl (visited st) (visited st');
    w_pending : forall y, In y (visited st) -> In y (assigned st') -> In y (assigned st) }.
  Lemma grows_refl st : grows st st.
  Proof. split; auto using incl_refl. Qed.
  Lemma grows_trans a b c : grows a b -> grows b c -> grows a c.
  Proof.
    intros H1 H2. split.
    - intros G. apply (w_good _ _ H2), (w_good _ _ H1), G.
    - eapply incl_tran; [apply (w_assigned _ _ H1)|apply (w_assigned _ _ H2)].
    - eapply incl_tran; [apply (w_visited _ _ H1)|apply (w_visited _ _ H2)].
    - intros y Hv Ha. apply (w_pending _ _ H1); [exact Hv|]. apply (w_pending _ _ H2); [apply (w_visited _ _ H1), Hv|exact Ha].
  Qed.
  Definition ok_rd (rd : string -> dstate -> out dstate) : Prop := forall x st st', good st -> rd x st = Done st' -> grows st st' /\ In x (assigned st').
  Lemma names_grow rd ds st st' : ok_rd rd -> good st -> resolve_names rd ds st = Done st' -> grows st st' /\ forall d, In d ds -> In (d_name d) (assigned st').
  Proof.
    intros Hrd. unfold resolve_names. revert st. induction ds as [|d ds IH]; intros st Hg H; cbn in H.
    - injection H as <-. split; [apply grows_refl|intros d []].
    - apply obind_done in H as (u & E & H). destruct (Hrd _ _ _ Hg E) as (G1 & I1). destruct (IH _ (w_good _ _ G1 Hg) H) as (G2 & I2). split; [eapply grows_trans; eassumption|].
      intros e [<-|He]; [apply (w_assigned _ _ G2), I1|apply I2, He].
  Qed.
  (** What a component refers to. *)
  Definition comp_refers (c : comp) (x : string) : Prop :=
    match c with
    | Comp _ t _ d _ => (exists m, uses t m x /\ this_module md m) \/ (d = Some (Some x) /\ ~ enumerated_type tr md t)
    | CompOf _ => False
    end.
  Definition late (c : comp) : Prop := match c with Comp _ _ o d st => o = true /\ d = None /\ st = Dynamic | CompOf _ => True end.
  Definition comp_known (name : string) (c c' : comp) (st' : dstate) : Prop :=
    stored_component md l name c c' /\ (forall x, comp_refers c x -> In x (map a_name l)) /\
    (~ late c' -> forall x, comp_refers c x -> In x (assigned st')).
  Lemma good_defined st : good st -> incl (assigned st) (map a_name l).
  Proof.
    intros H x Hx. rewrite (g_names _ H) in Hx. apply in_map_iff in Hx as (a' & <- & Ha). pose proof (g_known _ H) as Hk. rewrite Forall_forall in Hk.
    destruct (Hk _ Ha) as ((a & Hin & Hn & _) & _). rewrite Hn. apply in_map, Hin.
  Qed.
  Lemma uses_local t m x : ~ set_default t -> uses t m x -> In (Dep x m) (depends_on t).
  Proof. intros H Hu. destruct (uses_dep _ _ _ Hu); [contradiction|assumption]. Qed.
  Lemma comps_known fuel rd name : ok_rd rd -> forall cs st cs' st',
    (forall n t o d s, In (Comp n t o d s) cs -> ~ set_default t) -> good st ->
    resolve_comps fuel tr md l rd name cs st = Done (cs', st') -> grows st st' /\ Forall2 (fun c c' => comp_known name c c' st') cs cs'.
  Proof.
    intros Hrd. induction cs as [|c cs IH]; intros st cs' st' Hs Hg H; cbn in H.
    - injection H as <- <-. split; [apply grows_refl|constructor].
    - apply obind_done in H as ((c' & st1) & E1 & H). apply obind_done in H as ((cs1 & st2) & E2 & H). injection H as <- <-.
      assert (Hc : grows st st1 /\ comp_known name c c' st1).
      { destruct c as [n t o d s|t]; [|injection E1 as <- <-; split; [apply grows_refl|]; split; [left; reflexivity|split; [intros x []|intros _ x []]]].
        assert (Ht : ~ set_default t) by (eapply Hs; left; reflexivity).
        assert (Hstatic : forall s1, grows st s1 -> (forall e, In e (depends_on t) -> In (d_name e) (assigned s1)) ->
                  (forall x, d = Some (Some x) -> ~ enumerated_type tr md t -> In x (assigned s1)) -> comp_known name (Comp n t o d s) (Comp n t o d s) s1).
        { intros s1 Hg1 H1 H2. assert (Hx : forall x, comp_refers (Comp n t o d s) x -> In x (assigned s1)).
          { intros x [(m & Hu & Hm)|(Hd & Hn)]; [apply (H1 (Dep x m)), uses_local; assumption|apply H2; assumption]. }
          split; [left; reflexivity|]. split; [|auto]. intros x Hr. apply (good_defined s1); [apply (w_good _ _ Hg1), Hg|apply Hx, Hr]. }
        destruct d as [dflt|].
        - apply obind_done in E1 as (st3 & E3 & E1). apply obind_done in E1 as (st4 & E4 & E1). injection E1 as <- <-.
          destruct (names_grow _ _ _ _ Hrd Hg E3) as (G3 & I3). destruct dflt as [v|].
          + apply obind_done in E4 as (e & Ee & E4). destruct e.
            * injection E4 as <-. split; [exact G3|]. apply Hstatic; [exact G3|exact I3|]. intros x _ Hn. apply is_enumerated_true in Ee. contradiction.
            * destruct (Hrd _ _ _ (w_good _ _ G3 Hg) E4) as (G4 & I4). assert (grows st st4) by (eapply grows_trans; eassumption). split; [assumption|]. apply Hstatic; [assumption| |].
              -- intros e He. apply (w_assigned _ _ G4), I3, He.
              -- intros x [= <-] _. exact I4.
          + injection E4 as <-. split; [exact G3|]. apply Hstatic; [exact G3|exact I3|]. discriminate.
        - apply obind_done in E1 as (circ & Ec & E1). destruct circ.
          + injection E1 as <- <-. split; [apply grows_refl|]. destruct o; [|discriminate]. split; [|split].
            * right. destruct (circular_true _ _ _ _ _ _ Ec) as (d0 & e & Hd & Hr & He). exists n, t, s, (d_module d0), (d_name d0).
              split; [reflexivity|]. split; [reflexivity|]. split; [apply dep_uses, Hd|]. rewrite <- He. apply (greach_leads _ _ _ _ _ Hr).
            * intros x [(m & Hu & Hm)|(Hd & _)]; [|discriminate]. apply uses_local in Hu; [|exact Ht].
              destruct (circular_defined _ _ _ _ _ _ _ Ec _ Hu) as (Hx & _). exact Hx.
            * intros Hl. exfalso. apply Hl. split; [reflexivity|auto].
          + apply obind_done in E1 as (st3 & E3 & E1). injection E1 as <- <-. destruct (names_grow _ _ _ _ Hrd Hg E3) as (G3 & I3). split; [exact G3|].
            apply Hstatic; [exact G3|exact I3|discriminate]. }
      destruct Hc as (G1 & K1). assert (Hg1 : good st1) by apply (w_good _ _ G1), Hg.
      destruct (IH st1 cs1 st2 ltac:(intros; eapply Hs; right; eassumption) Hg1 E2) as (G2 & K2).
      split; [eapply grows_trans; eassumption|]. constructor; [|exact K2]. destruct K1 as (A & B & C). split; [exact A|]. split; [exact B|].
      intros Hl x Hx. apply (w_assigned _ _ G2), C; assumption.
  Qed.
  Lemma push st1 a' name st0 : grows (DState (assigned st0) (name :: visited st0) (ordered st0) (cleared st0)) st1 -> ~ In name (visited st0) -> ~ In name (assigned st0) ->
    a_name a' = name -> (good st1 -> known a' /\ forall x, needs tr md a' x -> In x (assigned st1)) ->
    forall c, incl c (name :: cleared st1) -> grows st0 (DState (name :: assigned st1) (visited st1) (a' :: ordered st1) c).
  Proof.
    intros Hg Hv Ha Hn Hk c Hc. assert (Hnv : In name (visited st1)) by (apply (w_visited _ _ Hg); left; reflexivity). split; cbn.
    - intros G. assert (Hg1 : good st1).
      { apply (w_good _ _ Hg). destruct G. split; cbn; auto. intros z Hz. right. auto. }
      destruct (Hk Hg1) as (K & N). split; cbn.
      + f_equal; [symmetry; exact Hn|apply (g_names _ Hg1)].
      + constructor; [|apply (g_nodup _ Hg1)]. intros Hin. apply Ha. apply (w_pending _ _ Hg) in Hin; [exact Hin|left; reflexivity].
      + constructor; [|apply (g_order _ Hg1)]. intros x Hx. rewrite <- (g_names _ Hg1). apply N, Hx.
      + constructor; [exact K|apply (g_known _ Hg1)].
      + intros z Hz. apply Hc in Hz as [<-|Hz]; [exact Hnv|]. apply (g_cleared _ Hg1), Hz.
    - intros z Hz. right. apply (w_assigned _ _ Hg), Hz.
    - intros z Hz. apply (w_visited _ _ Hg). right. exact Hz.
    - intros y Hy [<-|Hin]; [contradiction|]. apply (w_pending _ _ Hg) in Hin; [exact Hin|right; exact Hy].
  Qed.
  Lemma comp_stored_refers name c c' x : stored_component md l name c c' -> comp_refers c' x -> comp_refers c x.
  Proof. intros [->|(n & t & st & m & y & -> & -> & _)]; [auto|]. intros H. exact H. Qed.
  Lemma needs_refers a x : needs tr md a x -> refers tr md a x.
  Proof.
    destruct 1 as [n t v m x Hu Hm|n t x|n t m x Ht Hu Hm|n s cs cn t o d st m x Hi _ Hu Hm|n s cs cn t o st x Hi He].
    - eapply r_value_type; eassumption.
    - apply r_value.
    - eapply r_type; try eassumption. destruct t; exact I || exact Ht.
    - eapply r_component; eassumption.
    - eapply r_default; eassumption.
  Qed.
  Definition is_record (a : assignment) : Prop := match a_spec a with TypeA (Record _ _) => True | _ => False end.
  Lemma plain_refers a x : ~ is_record a -> no_nested_set_default a -> refers tr md a x -> exists d, In d (filter (local md) (dependencies a)) /\ d_name d = x.
  Proof.
    intros Hr Hs H. destruct H as [n t v m x Hu Hm|n t x|n t m x Ht Hu Hm|n s cs cn t o d st m x Hi Hu Hm|n s cs cn t o st x Hi He]; try (exfalso; apply Hr; exact I).
    - exists (Dep x m). split; [|reflexivity]. apply filter_In. split; [|apply local_iff, Hm]. apply in_or_app. left. apply uses_local; assumption.
    - exists (Dep x None). split; [|reflexivity]. apply filter_In. split; [|reflexivity]. apply in_or_app. right. left. reflexivity.
    - exists (Dep x m). split; [|reflexivity]. apply filter_In. split; [|apply local_iff, Hm]. apply uses_local; [|exact Hu]. destruct t; exact Hs || destruct Ht.
  Qed.
  Lemma uses_dynamic_child t m x : uses (dynamic_child t) m x -> uses t m x.
  Proof.
    destruct t as [e|m' r|s cs|s st t|st alts|t]; cbn; auto.
    - inversion 1; subst. apply u_list. assumption.
    - destruct t as [e|m' r|s cs|s st t|st alts|t]; auto. inversion 1; subst. apply u_tag. match goal with H : uses (ListOf _ _ _) _ _ |- _ => inversion H; subst end.
      apply u_list. assumption.
  Qed.
  Lemma uses_make_dynamic t m x : uses (make_dynamic t) m x -> uses t m x.
  Proof.
    destruct t as [e|m' r|s cs|s st t|st alts|t]; cbn; auto.
    - inversion 1; subst. apply u_list. assumption.
    - inversion 1 as [| | |st' alts' n t m' r Hi Hu| |]; subst. apply in_map_iff in Hi as ((n0 & t0) & E & Hi). cbn in E. injection E as <- <-.
      eapply u_choice; [exact Hi|]. apply uses_dynamic_child, Hu.
  Qed.
  Lemma same_make_dynamic t : same_type t (make_dynamic t).
  Proof.
    destruct t as [e|m' r|s cs|s st t|st alts|t]; cbn; try apply s_refl; [apply s_list, s_refl|]. apply s_choice.
    induction alts as [|(n & t) alts IH]; constructor; [|exact IH]. split; [reflexivity|]. cbn.
    destruct t as [e|m' r|s cs|s st' t|st' alts'|t]; try apply s_refl; [apply s_list, s_refl|]. destruct t; try apply s_refl. apply s_tag, s_list, s_refl.
  Qed.
  Lemma stored_refl a : stored md l a a.
  Proof.
    split; [reflexivity|]. destruct (a_spec a) as [t|t v|]; try reflexivity. destruct t as [e|m r|s cs|s st t|st alts|t]; try (left; reflexivity).
    exists cs. split; [reflexivity|]. clear. induction cs; constructor; [left; reflexivity|assumption].
  Qed.
  Lemma resolve_ok : forall fuel name st st', good st -> resolve_dependencies fuel tr md l name st = Done st' -> grows st st' /\ In name (assigned st').
  Proof.
    induction fuel as [|fuel IH]; intros name st st' Hst H; [discriminate|]. cbn [resolve_dependencies] in H.
    apply obind_done in H as (a & Ea & H). destruct (map_find_in _ _ _ Ea) as (Hin & Hn).
    destruct (mem name (assigned st)) eqn:Easg; [injection H as <-; split; [apply grows_refl|apply mem_iff, Easg]|].
    destruct (mem name (visited st)) eqn:Evis; [discriminate|]. apply mem_false in Easg, Evis.
    assert (Hsd : no_nested_set_default a) by (rewrite Forall_forall in Hset; apply Hset, Hin).
    set (st0 := DState (assigned st) (name :: visited st) (ordered st) (cleared st)) in *.
    assert (Hg0 : good st0) by (destruct Hst; split; cbn; auto; intros z Hz; right; auto).
    apply obind_done in H as ((a' & st1) & Ebody & H). injection H as <-. split; [|left; reflexivity].
    assert (Hplain : ~ is_record a -> (do st <- resolve_names (resolve_dependencies fuel tr md l) (filter (local md) (dependencies a)) st0; Done (a, st)) = Done (a', st1) ->
              grows st (DState (name :: assigned st1) (visited st1) (a' :: ordered st1) (cleared st1))).
    { intros Hr E. apply obind_done in E as (st2 & E2 & E). injection E as <- <-. destruct (names_grow _ _ _ _ IH Hg0 E2) as (G & I).
      apply push with (c := cleared st2) (1 := G); [exact Evis|exact Easg|exact Hn| |intros z Hz; right; exact Hz].
      intros Hg1. assert (Hx : forall x, refers tr md a x -> In x (assigned st2)).
      { intros x Hx. destruct (plain_refers _ _ Hr Hsd Hx) as (d & Hd & <-). apply I, Hd. }
      split; [split; [exists a; split; [exact Hin|apply stored_refl]|]|].
      - intros x Hx'. apply (good_defined _ Hg1), Hx, Hx'.
      - intros x Hx'. apply Hx, needs_refers, Hx'. }
    assert (Hdyn : forall t, a_spec a = TypeA t -> match t with Choice _ _ | ListOf _ _ _ => True | _ => False end ->
              is_circular (S fuel) md l st0 name [Dep name (Some md)] = Done true ->
              grows st (DState (name :: assigned st0) (visited st0) (Assign (a_name a) (TypeA (make_dynamic t)) :: ordered st0) (name :: cleared st0))).
    { intros t Ht Hk Ec. apply push; [apply grows_refl|exact Evis|exact Easg|exact Hn| |apply incl_refl]. intros _. split; [split|].
      - exists a. split; [exact Hin|]. split; [reflexivity|]. cbn [a_spec]. rewrite Ht.
        destruct (circular_true _ _ _ _ _ _ Ec) as (d & e & [<-|[]] & Hr & He). cbn [d_name] in Hr. apply greach_leads in Hr. rewrite He, <- Hn in Hr.
        destruct t; try destruct Hk; (right; eexists; split; [reflexivity|]; split; [apply same_make_dynamic|exact Hr]).
      - intros x Hx. destruct (circular_defined _ _ _ _ _ _ _ Ec _ (or_introl eq_refl)) as (_ & Hd). cbn [d_name] in Hd.
        assert (Hx' : refers tr md a x).
        { destruct a as [an as_]. cbn in Ht. subst as_. inversion Hx; subst.
          - eapply r_type; [destruct t; exact I || destruct Hk| |eassumption]. apply uses_make_dynamic. eassumption.
          - destruct t; try destruct Hk; discriminate.
          - destruct t; try destruct Hk; discriminate. }
        assert (Hnr : ~ is_record a) by (unfold is_record; rewrite Ht; destruct t; auto).
        destruct (plain_refers _ _ Hnr Hsd Hx') as (d & Hdd & <-). apply filter_In in Hdd as (Hdd & Hl). apply Hd.
        eapply gr_one; [|exact Hdd|exact Hl]. unfold map_deps. rewrite Ea. cbn [obind].
        assert (mem name (cleared st0) = false) as ->; [|reflexivity]. apply mem_false. intros Hc. apply Evis. apply (g_cleared _ Hst), Hc.
      - intros x Hx. destruct t; try destruct Hk; cbn [make_dynamic] in Hx; inversion Hx; contradiction. }
    destruct (a_spec a) as [t|t v|] eqn:Es; [|apply Hplain; [unfold is_record; rewrite Es; auto|exact Ebody]..].
    destruct t as [e|m r|s cs|s sto t|sto alts|t];
      try (apply Hplain; [unfold is_record; rewrite Es; auto|exact Ebody]).
    - (* Record *)
      apply obind_done in Ebody as ((cs' & st2) & E2 & Ebody). injection Ebody as <- <-.
      assert (Hcs : forall n t o d st, In (Comp n t o d st) cs -> ~ set_default t) by (unfold no_nested_set_default in Hsd; rewrite Es in Hsd; exact Hsd).
      destruct (comps_known _ _ name IH cs st0 cs' st2 Hcs Hg0 E2) as (G & K).
      apply push with (1 := G); [exact Evis|exact Easg|exact Hn| |intros z Hz; right; exact Hz]. intros Hg1.
      assert (Hback : forall c', In c' cs' -> exists c, comp_known name c c' st2) by (intros c' Hc'; clear - K Hc'; induction K as [|c c2 cs cs' Hk K IHk]; [destruct Hc'|destruct Hc' as [<-|Hc']; eauto]).
      split; [split|].
      + exists a. split; [exact Hin|]. split; [reflexivity|]. cbn [a_spec]. rewrite Es. exists cs'. split; [reflexivity|]. clear - K Hn. rewrite Hn.
        induction K as [|c c2 cs cs' (Hk & _) K IHk]; constructor; assumption.
      + intros x Hx. inversion Hx; subst.
        * contradiction.
        * match goal with H : In (Comp _ _ _ _ _) cs' |- _ => destruct (Hback _ H) as (c & Hs & Hr & _) end. apply Hr. eapply comp_stored_refers; [exact Hs|]. left. eauto.
        * match goal with H : In (Comp _ _ _ _ _) cs' |- _ => destruct (Hback _ H) as (c & Hs & Hr & _) end. apply Hr. eapply comp_stored_refers; [exact Hs|]. right. auto.
      + intros x Hx. inversion Hx; subst.
        * contradiction.
        * match goal with H : In (Comp _ _ _ _ _) cs' |- _ => destruct (Hback _ H) as (c & Hs & _ & Hr) end. apply Hr; [assumption|]. eapply comp_stored_refers; [exact Hs|]. left. eauto.
        * match goal with H : In (Comp _ _ _ _ _) cs' |- _ => destruct (Hback _ H) as (c & Hs & _ & Hr) end. apply Hr; [intros (_ & Hd & _); discriminate|]. eapply comp_stored_refers; [exact Hs|]. right. auto.
    - apply obind_done in Ebody as (circ & Ec & Ebody). destruct circ.
      + injection Ebody as <- <-. apply (Hdyn (ListOf s sto t)); [reflexivity|exact I|exact Ec].
      + apply Hplain; [unfold is_record; rewrite Es; auto|exact Ebody].
    - apply obind_done in Ebody as (circ & Ec & Ebody). destruct circ.
      + injection Ebody as <- <-. apply (Hdyn (Choice sto alts)); [reflexivity|exact I|exact Ec].
      + apply Hplain; [unfold is_record; rewrite Es; auto|exact Ebody].
  Qed.
End Sound.

(** * Termination *)
Lemma map_find_fine l x : map_find l x <> Loop /\ map_find l x <> Undef.
Proof. destruct (map_find_cases l x) as [(a & ->)|(-> & _)]; split; discriminate. Qed.
Lemma map_deps_fine l st x : map_deps l st x <> Loop /\ map_deps l st x <> Undef.
Proof. unfold map_deps. destruct (map_find_cases l x) as [(a & ->)|(-> & _)]; split; discriminate. Qed.
(** [st'] has visited more. *)
Definition visits (st st' : dstate) : Prop := incl (visited st) (visited st').
Lemma visits_names rd ds st st' : (forall x a b, rd x a = Done b -> visits a b) -> resolve_names rd ds st = Done st' -> visits st st'.
Proof.
  intros Hrd. apply (foldm_done (fun d st => rd (d_name d) st) visits).
  - intros s. apply incl_refl.
  - intros a b c. apply incl_tran.
  - intros d a b _ E. eapply Hrd, E.
Qed.
Lemma visits_comps fuel tr md l rd name : (forall x a b, rd x a = Done b -> visits a b) ->
  forall cs st cs' st', resolve_comps fuel tr md l rd name cs st = Done (cs', st') -> visits st st'.
Proof.
  intros Hrd. induction cs as [|c cs IH]; intros st cs' st' H; cbn in H; [injection H as <- <-; apply incl_refl|].
  apply obind_done in H as ((c' & st1) & E1 & H). apply obind_done in H as ((cs1 & st2) & E2 & H). injection H as <- <-.
  apply IH in E2. eapply incl_tran; [|exact E2]. destruct c as [n t o d s|t]; [|injection E1 as <- <-; apply incl_refl]. destruct d as [dflt|].
  - apply obind_done in E1 as (st3 & E3 & E1). apply obind_done in E1 as (st4 & E4 & E1). injection E1 as <- <-. apply visits_names in E3; [|exact Hrd].
    eapply incl_tran; [exact E3|]. destruct dflt as [v|]; [|injection E4 as <-; apply incl_refl]. apply obind_done in E4 as (e & _ & E4).
    destruct e; [injection E4 as <-; apply incl_refl|apply Hrd in E4; exact E4].
  - apply obind_done in E1 as (circ & Ec & E1). destruct circ; [injection E1 as <- <-; apply incl_refl|].
    apply obind_done in E1 as (st3 & E3 & E1). injection E1 as <- <-. apply visits_names in E3; [|exact Hrd]. exact E3.
Qed.
Lemma visits_resolve tr md l : forall fuel x st st', resolve_dependencies fuel tr md l x st = Done st' -> visits st st'.
Proof.
  induction fuel as [|fuel IH]; intros x st st' H; [discriminate|]. cbn [resolve_dependencies] in H. apply obind_done in H as (a & Ea & H).
  destruct (mem x (assigned st)); [injection H as <-; apply incl_refl|]. destruct (mem x (visited st)); [discriminate|].
  apply obind_done in H as ((a' & st1) & E & H). injection H as <-. unfold visits. cbn.
  assert (Hn : forall ds s1 a2 s2, (do st <- resolve_names (resolve_dependencies fuel tr md l) ds s1; Done (a, st)) = Done (a2, s2) -> visits s1 s2).
  { intros ds s1 a2 s2 Hs. apply obind_done in Hs as (s3 & Hs & E3). injection E3 as <- <-. eapply visits_names; [exact IH|exact Hs]. }
  assert (Hx : visits (DState (assigned st) (x :: visited st) (ordered st) (cleared st)) st1); [|intros z Hz; apply Hx; right; exact Hz].
  destruct (a_spec a) as [t|t v|]; try (apply Hn in E; exact E). destruct t as [e|m r|s cs|s sto t|sto alts|t]; try (apply Hn in E; exact E).
  - apply obind_done in E as ((cs' & st2) & E2 & E). injection E as <- <-. eapply visits_comps; [exact IH|exact E2].
  - apply obind_done in E as (circ & _ & E). destruct circ; [injection E as <- <-; apply incl_refl|apply Hn in E; exact E].
  - apply obind_done in E as (circ & _ & E). destruct circ; [injection E as <- <-; apply incl_refl|apply Hn in E; exact E].
Qed.
Definition all_deps (l : list assignment) : list dependency := flat_map dependencies l.
Lemma map_deps_incl l st x ds : map_deps l st x = Done ds -> incl ds (all_deps l).
Proof.
  intros H. apply map_deps_done in H as (a & Ha & _ & _ & ->). destruct (mem x (cleared st)); [intros z []|].
  intros z Hz. apply in_flat_map. exists a. auto.
Qed.
Lemma circular_terminates fuel md l st name ds : (List.length (all_deps l) < fuel)%nat -> is_circular fuel md l st name ds <> Loop.
Proof.
  intros Hf. apply obind_loop; [|discriminate]. generalize (@nil dependency). induction ds as [|d ds IH]; intros acc; cbn; [discriminate|].
  apply obind_loop; [|intros; apply IH]. apply recursive_terminates with (U := all_deps l).
  - intros x. apply map_deps_fine.
  - intros x ds'. apply map_deps_incl.
  - pose proof (unfound_length (all_deps l) acc). lia.
Qed.
Lemma circular_undef fuel md l st name ds : is_circular fuel md l st name ds <> Undef.
Proof.
  apply obind_undef; [|discriminate]. generalize (@nil dependency). induction ds as [|d ds IH]; intros acc; cbn; [discriminate|].
  apply obind_undef; [|intros; apply IH]. apply recursive_undef. intros x. apply map_deps_fine.
Qed.
Definition fine {A} (m : out A) : Prop := m <> Loop /\ m <> Undef.
Lemma fine_bind {A B} (m : out A) (f : A -> out B) : fine m -> (forall a, m = Done a -> fine (f a)) -> fine (obind m f).
Proof. intros (H1 & H2) H3. split; [apply obind_loop|apply obind_undef]; try assumption; intros a E; apply H3, E. Qed.
Lemma fine_done {A} (a : A) : fine (Done a). Proof. split; discriminate. Qed.
Section Terminate.
  Variables (tr : tree) (md : string) (l : list assignment) (B : nat).
  Hypothesis HB : (List.length (all_deps l) < B)%nat.
  Hypothesis Henum : forall fuel a s cs n t o v st, (B <= fuel)%nat -> In a l -> a_spec a = TypeA (Record s cs) -> In (Comp n t o (Some (Some v)) st) cs ->
    fine (is_enumerated fuel tr md t).
  Let names := map a_name l.
  Lemma circular_fine fuel st name ds : (B <= fuel)%nat -> fine (is_circular fuel md l st name ds).
  Proof. intros Hf. split; [apply circular_terminates; lia|apply circular_undef]. Qed.
  Section Step.
    Variables (rd : string -> dstate -> out dstate) (k : nat).
    Hypothesis Hv : forall x a b, rd x a = Done b -> visits a b.
    Hypothesis Hrd : forall x st, (unseen names (visited st) <= k)%nat -> fine (rd x st).
    Lemma visits_unseen st s : (unseen names (visited st) <= k)%nat -> visits st s -> (unseen names (visited s) <= k)%nat.
    Proof. intros H E. pose proof (unseen_le names _ _ E). lia. Qed.
    Lemma names_fine ds : forall st, (unseen names (visited st) <= k)%nat -> fine (resolve_names rd ds st).
    Proof.
      unfold resolve_names. induction ds as [|d ds IH]; intros st Hk; cbn; [apply fine_done|]. apply fine_bind; [apply Hrd, Hk|].
      intros s E. apply IH. eapply visits_unseen; [exact Hk|eapply Hv, E].
    Qed.
    Lemma comps_fine fuel name : (B <= fuel)%nat ->
      forall cs, (forall n t o v st, In (Comp n t o (Some (Some v)) st) cs -> fine (is_enumerated fuel tr md t)) ->
      forall st, (unseen names (visited st) <= k)%nat -> fine (resolve_comps fuel tr md l rd name cs st).
    Proof.
      intros Hf. induction cs as [|c cs IH]; intros Hcs st Hk; [apply fine_done|]. pose proof (visits_comps fuel tr md l rd name Hv [c] st) as Hone.
      cbn [resolve_comps] in *. apply fine_bind.
      - destruct c as [n t o [dflt|] s|t]; [| |apply fine_done].
        + apply fine_bind; [apply names_fine, Hk|]. intros s1 E1. apply visits_names in E1; [|exact Hv]. pose proof (visits_unseen _ _ Hk E1) as Hk1.
          apply fine_bind; [|intros; apply fine_done]. destruct dflt as [v|]; [|apply fine_done]. apply fine_bind; [eapply Hcs; left; reflexivity|].
          intros e _. destruct e; [apply fine_done|apply Hrd, Hk1].
        + apply fine_bind; [destruct o; [apply circular_fine, Hf|apply fine_done]|]. intros circ _. destruct circ; [apply fine_done|].
          apply fine_bind; [apply names_fine, Hk|]. intros; apply fine_done.
      - intros (c' & s1) E. apply fine_bind; [|intros (? & ?) _; apply fine_done]. apply IH; [intros; eapply Hcs; right; eassumption|].
        eapply visits_unseen; [exact Hk|]. apply (Hone [c'] s1). rewrite E. reflexivity.
    Qed.
  End Step.
  Lemma resolve_fine : forall fuel x st, (B + unseen names (visited st) < fuel)%nat -> fine (resolve_dependencies fuel tr md l x st).
  Proof.
    induction fuel as [|fuel IH]; intros x st Hf; [lia|]. cbn [resolve_dependencies].
    apply fine_bind; [apply map_find_fine|]. intros a Ea. destruct (map_find_in _ _ _ Ea) as (Hin & Hn).
    destruct (mem x (assigned st)); [apply fine_done|]. destruct (mem x (visited st)) eqn:Ev; [split; discriminate|]. apply mem_false in Ev.
    assert (Hx : (unseen names (x :: visited st) < unseen names (visited st))%nat) by (apply unseen_new; [rewrite <- Hn; apply in_map, Hin|exact Ev]).
    set (st0 := DState (assigned st) (x :: visited st) (ordered st) (cleared st)). set (k := (fuel - B - 1)%nat).
    assert (Hk : (unseen names (visited st0) <= k)%nat) by (cbn; lia).
    assert (Hrd : forall y s, (unseen names (visited s) <= k)%nat -> fine (resolve_dependencies fuel tr md l y s)) by (intros y s Hs; apply IH; lia).
    pose proof (visits_resolve tr md l fuel) as Hv.
    assert (Hpl : forall ds, fine (do st <- resolve_names (resolve_dependencies fuel tr md l) ds st0; Done (a, st))).
    { intros ds. apply fine_bind; [eapply names_fine; eassumption|]. intros; apply fine_done. }
    apply fine_bind; [|intros (? & ?) _; apply fine_done].
    destruct (a_spec a) as [t|t v|] eqn:Es; try apply Hpl. destruct t as [e|m r|s cs|s sto t|sto alts|t]; try apply Hpl.
    - apply fine_bind; [|intros (? & ?) _; apply fine_done]. apply (comps_fine _ k Hv Hrd); [lia| |exact Hk]. intros n t o v st' Hc. eapply Henum; try eassumption. lia.
    - apply fine_bind; [apply circular_fine; lia|]. intros circ _. destruct circ; [apply fine_done|apply Hpl].
    - apply fine_bind; [apply circular_fine; lia|]. intros circ _. destruct circ; [apply fine_done|apply Hpl].
  Qed.
  Lemma reorder_fine fuel : (B + List.length l < fuel)%nat -> fine (reorder_assignments fuel tr md l).
  Proof.
    intros Hf. apply fine_bind; [|intros st _; destruct (Nat.eqb _ _); split; discriminate].
    assert (H : forall l0 st, fine (foldm (fun a st => resolve_dependencies fuel tr md l (a_name a) st) l0 st)).
    { induction l0 as [|a l0 IH]; intros st; cbn; [apply fine_done|]. apply fine_bind; [|intros; apply IH]. apply resolve_fine.
      pose proof (unseen_length names (visited st)). unfold names in H at 2. rewrite map_length in H. lia. }
    apply H.
  Qed.
End Terminate.

(** * Success *)
Section Success.
  Variables (tr : tree) (md : string) (l : list assignment) (B : nat) (rank : string -> nat).
  Hypothesis HB : (List.length (all_deps l) < B)%nat.
  Let names := map a_name l.
  Hypothesis Hnames : NoDup names.
  (** The names of the module that an assignment mentions are defined; a SEQUENCE or SET mentions no others. *)
  Hypothesis Hdefined : forall a d, In a l -> In d (dependencies a) -> local md d = true -> In (d_name d) names.
  Hypothesis Hrecord : forall a s cs d, In a l -> a_spec a = TypeA (Record s cs) -> In d (dependencies a) -> local md d = true.
  Hypothesis Hset : forall a, In a l -> match a_spec a with TypeA t => ~ set_default t | _ => True end.
  Hypothesis Henum : forall fuel a s cs n t o v st, (B <= fuel)%nat -> In a l -> a_spec a = TypeA (Record s cs) -> In (Comp n t o (Some (Some v)) st) cs ->
    exists b, is_enumerated fuel tr md t = Done b /\ (t = Builtin true -> b = true).
  Hypothesis Hrank : forall a x, In a l -> always_needs md a x -> (rank x < rank (a_name a))%nat.

  Definition edges (C : list string) (x : string) : out (list dependency) :=
    do a <- map_find l x; Done (if mem x C then [] else dependencies a).
  Definition reach (C : list string) (x y : string) : Prop := exists e, greach md (edges C) x e /\ d_name e = y.
  Lemma reach_trans C x y z : reach C x y -> reach C y z -> reach C x z.
  Proof. intros (e & H & <-) (f & G & <-). exists f. split; [eapply greach_trans; eassumption|reflexivity]. Qed.
  Lemma reach_mono C C' x y : incl C C' -> reach C' x y -> reach C x y.
  Proof.
    intros Hi (e & H & <-). exists e. split; [|reflexivity].
    assert (Hone : forall x ds d, edges C' x = Done ds -> In d ds -> exists ds', edges C x = Done ds' /\ In d ds').
    { clear - Hi. intros x ds d E Hd. unfold edges in *. apply obind_done in E as (a & -> & E). injection E as <-. cbn.
      destruct (mem x C') eqn:E'; [destruct Hd|]. assert (mem x C = false) as -> by (apply mem_false; apply mem_false in E'; auto). eauto. }
    induction H as [x ds d E Hd Hl|x ds d e E Hd Hl _ IH]; destruct (Hone _ _ _ E Hd) as (ds' & E' & Hd'); [eapply gr_one|eapply gr_more]; eassumption.
  Qed.
  Definition edge (x y : string) : Prop := exists a d, In a l /\ a_name a = x /\ In d (dependencies a) /\ local md d = true /\ d_name d = y.
  Lemma find_unique a : In a l -> map_find l (a_name a) = Done a.
  Proof.
    intros H. destruct (map_find_cases l (a_name a)) as [(b & E)|(_ & Hn)]; [|exfalso; apply Hn, in_map, H]. rewrite E. f_equal.
    apply map_find_in in E as (Hb & E). eapply (nodup_same a_name); eassumption.
  Qed.
  Lemma edge_reach C x y : edge x y -> ~ In x C -> reach C x y.
  Proof.
    intros (a & d & Ha & <- & Hd & Hl & <-) Hc. exists d. split; [|reflexivity]. eapply gr_one; [|exact Hd|exact Hl].
    unfold edges. rewrite find_unique by exact Ha. cbn. apply mem_false in Hc. rewrite Hc. reflexivity.
  Qed.
  (** The names being resolved, the last first, then [x]. *)
  Inductive stack_ok (C : list string) : list string -> string -> Prop :=
  | so_nil x : stack_ok C [] x
  | so_cons u S x : edge u x -> ~ In u C -> ((rank x < rank u)%nat \/ exists C0, incl C0 C /\ ~ reach C0 x u) -> stack_ok C S u -> stack_ok C (u :: S) x.
  Lemma stack_mono C C' S x : incl C C' -> (forall u, In u S -> ~ In u C') -> stack_ok C S x -> stack_ok C' S x.
  Proof.
    intros Hi Hd H. induction H as [x|u S x He Hu Hr _ IH]; [constructor|]. constructor; [exact He|apply Hd; left; reflexivity| |apply IH; intros v Hv; apply Hd; right; exact Hv].
    destruct Hr as [Hr|(C0 & H0 & Hr)]; [left; exact Hr|right]. exists C0. split; [eapply incl_tran; eassumption|exact Hr].
  Qed.
  Lemma stack_reach C S x y : stack_ok C S x -> In y S -> reach C y x.
  Proof.
    induction 1 as [x|u S x He Hu Hr _ IH]; [intros []|]. intros [<-|Hy]; [apply edge_reach; assumption|].
    eapply reach_trans; [apply IH, Hy|apply edge_reach; assumption].
  Qed.
  Lemma stack_rank C S x y : stack_ok C S x -> In y S -> (x = y \/ reach C x y) -> (rank x < rank y)%nat.
  Proof.
    intros H. revert y. induction H as [x|u S x He Hu Hr Hs IH]; [intros y []|]. intros y Hy Hxy.
    assert (Hxu : reach C x u).
    { assert (reach C y u \/ y = u) as [Hyu| ->] by (destruct Hy as [->|Hy]; [auto|left; eapply stack_reach; eassumption]).
      - destruct Hxy as [->|Hxy]; [exact Hyu|eapply reach_trans; eassumption].
      - destruct Hxy as [->|Hxy]; [apply edge_reach; assumption|exact Hxy]. }
    assert (Hlt : (rank x < rank u)%nat).
    { destruct Hr as [Hr|(C0 & H0 & Hr)]; [exact Hr|]. exfalso. apply Hr. eapply reach_mono; eassumption. }
    destruct Hy as [<-|Hy]; [exact Hlt|]. assert (rank u < rank y)%nat; [|lia]. apply IH; [exact Hy|]. right.
    pose proof (edge_reach C u x He Hu) as Hux. destruct Hxy as [->|Hxy]; [exact Hux|eapply reach_trans; eassumption].
  Qed.
  Lemma stack_fresh C S x : stack_ok C S x -> ~ In x S.
  Proof. intros H Hx. pose proof (stack_rank C S x x H Hx (or_introl eq_refl)). lia. Qed.
  Lemma recursive_no_throw st : forall fuel x acc, In x names -> dependencies_recursive fuel md (map_deps l st) x acc <> Throw.
  Proof.
    induction fuel as [|fuel IH]; intros x acc Hx; cbn; [discriminate|]. destruct (map_find_cases l x) as [(a & E)|(_ & Hn)]; [|contradiction].
    destruct (map_find_in _ _ _ E) as (Ha & _).
    assert (Hds : forall ds, (forall d, In d ds -> local md d = true -> In (d_name d) names) -> forall acc, foldm (fun d acc =>
        if local md d then if existsb (dep_eqb d) acc then Done acc else dependencies_recursive fuel md (map_deps l st) (d_name d) (d :: acc)
        else Done acc) ds acc <> Throw).
    { clear acc. induction ds as [|d ds IHd]; intros Hin acc; cbn; [discriminate|].
      assert (Hd : (if local md d then if existsb (dep_eqb d) acc then Done acc else dependencies_recursive fuel md (map_deps l st) (d_name d) (d :: acc) else Done acc) <> Throw).
      { destruct (local md d) eqn:El; [|discriminate]. destruct (existsb (dep_eqb d) acc); [discriminate|]. apply IH, Hin; [left; reflexivity|exact El]. }
      destruct (if local md d then _ else _) as [acc'| | |] eqn:Es; cbn; try congruence. apply IHd. intros e He. apply Hin. right. exact He. }
    unfold map_deps at 1. rewrite E. cbn. apply Hds. intros d Hd. destruct (mem x (cleared st)); [destruct Hd|]. apply (Hdefined a d Ha Hd).
  Qed.
  Lemma circular_succeeds fuel st name ds : (B <= fuel)%nat -> (forall d, In d ds -> In (d_name d) names) -> exists b, is_circular fuel md l st name ds = Done b.
  Proof.
    intros Hf Hds. destruct (circular_fine md l B HB fuel st name ds Hf) as (H1 & H2).
    assert (H3 : is_circular fuel md l st name ds <> Throw).
    { unfold is_circular. assert (Hfold : forall acc, foldm (fun d acc => dependencies_recursive fuel md (map_deps l st) (d_name d) acc) ds acc <> Throw).
      { clear H1 H2. induction ds as [|d ds IH]; intros acc; cbn; [discriminate|].
        destruct (dependencies_recursive fuel md (map_deps l st) (d_name d) acc) as [acc'| | |] eqn:E; cbn; try discriminate.
        - apply IH. intros e He. apply Hds. right. exact He.
        - exfalso. eapply recursive_no_throw; [|exact E]. apply Hds. left. reflexivity. }
      destruct (foldm _ ds []) eqn:E; cbn; try discriminate. exfalso. eapply Hfold, E. }
    destruct (is_circular fuel md l st name ds) as [b| | |]; try congruence. eauto.
  Qed.
  Record inv (S : list string) (st : dstate) : Prop := {
    i_visited : forall y, In y (visited st) -> In y (assigned st) \/ In y S;
    i_stack : forall u, In u S -> ~ In u (assigned st);
    i_cleared : incl (cleared st) (assigned st) }.
  Definition after (S : list string) (st st' : dstate) : Prop := inv S st' /\ incl (cleared st) (cleared st') /\ visits st st'.
  Lemma after_trans S a b c : after S a b -> after S b c -> after S a c.
  Proof. intros (_ & H1 & H2) (H3 & H4 & H5). split; [exact H3|]. split; eapply incl_tran; eassumption. Qed.
  Lemma after_refl S a : inv S a -> after S a a.
  Proof. intros H. split; [exact H|]. split; apply incl_refl. Qed.
  Lemma stack_after S st st' x : after S st st' -> stack_ok (cleared st) S x -> stack_ok (cleared st') S x.
  Proof. intros (H & Hc & _). apply stack_mono; [exact Hc|]. intros u Hu Hn. eapply (i_stack _ _ H); [exact Hu|]. apply (i_cleared _ _ H), Hn. Qed.
  Section Step.
    Variables (rd : string -> dstate -> out dstate) (k : nat).
    Hypothesis Hrd : forall S x st, inv S st -> stack_ok (cleared st) S x -> In x names -> (unseen names (visited st) <= k)%nat ->
      exists st', rd x st = Done st' /\ after S st st'.
    Lemma after_unseen S st st' : (unseen names (visited st) <= k)%nat -> after S st st' -> (unseen names (visited st') <= k)%nat.
    Proof. intros H (_ & _ & Hv). pose proof (unseen_le names _ _ Hv). lia. Qed.
    Lemma names_succeed S ds : forall st, inv S st -> (unseen names (visited st) <= k)%nat ->
      (forall d, In d ds -> In (d_name d) names /\ stack_ok (cleared st) S (d_name d)) -> exists st', resolve_names rd ds st = Done st' /\ after S st st'.
    Proof.
      unfold resolve_names. induction ds as [|d ds IH]; intros st Hi Hk Hd; cbn; [exists st; split; [reflexivity|apply after_refl, Hi]|].
      destruct (Hd d (or_introl eq_refl)) as (Hn & Hs). destruct (Hrd S _ st Hi Hs Hn Hk) as (st1 & -> & A1). cbn.
      destruct (IH st1) as (st2 & E & A2).
      - apply A1.
      - eapply after_unseen; eassumption.
      - intros e He. destruct (Hd e (or_intror He)) as (Hn' & Hs'). split; [exact Hn'|]. eapply stack_after; eassumption.
      - exists st2. split; [exact E|eapply after_trans; eassumption].
    Qed.
    Variables (fuel : nat) (a : assignment) (s : bool) (cs0 : list comp) (S : list string).
    Hypothesis Hf : (B <= fuel)%nat.
    Hypothesis Ha : In a l.
    Hypothesis Hspec : a_spec a = TypeA (Record s cs0).
    Lemma comps_succeed : forall cs, incl cs cs0 -> forall st, inv (a_name a :: S) st -> (unseen names (visited st) <= k)%nat ->
      stack_ok (cleared st) S (a_name a) -> exists cs' st', resolve_comps fuel tr md l rd (a_name a) cs st = Done (cs', st') /\ after (a_name a :: S) st st'.
    Proof.
      set (S' := a_name a :: S). induction cs as [|c cs IH]; intros Hcs st Hi Hk Hs; [exists [], st; split; [reflexivity|apply after_refl, Hi]|].
      assert (Hc : In c cs0) by (apply Hcs; left; reflexivity). cbn [resolve_comps].
      assert (Hdep : dependencies a = flat_map (comp_depends_on s) cs0) by (unfold dependencies; rewrite Hspec; apply depends_record).
      assert (Hu : forall st, inv S' st -> ~ In (a_name a) (cleared st)).
      { intros st1 Hi1 Hx. eapply (i_stack _ _ Hi1); [left; reflexivity|]. apply (i_cleared _ _ Hi1), Hx. }
      assert (Hown : forall d, In d (comp_depends_on s c) -> edge (a_name a) (d_name d) /\ In (d_name d) names).
      { intros d Hd. assert (Hin : In d (dependencies a)) by (rewrite Hdep; apply in_flat_map; eauto). pose proof (Hrecord a s cs0 d Ha Hspec Hin) as Hl. split; [exists a, d; auto 10|apply (Hdefined a d Ha Hin Hl)]. }
      assert (Hthis : forall d, In d (comp_depends_on s c) -> this_module md (d_module d)).
      { intros d Hd. apply local_iff, (Hrecord a s cs0 d Ha Hspec). rewrite Hdep. apply in_flat_map. eauto. }
      assert (Hmust : forall st1 d, inv S' st1 -> stack_ok (cleared st1) S (a_name a) -> In d (comp_depends_on s c) -> (rank (d_name d) < rank (a_name a))%nat -> stack_ok (cleared st1) S' (d_name d)).
      { intros st1 d Hi1 Hs1 Hd Hr. destruct (Hown d Hd) as (He & _). constructor; [exact He|apply Hu, Hi1|left; exact Hr|exact Hs1]. }
      assert (Hstep : exists c' st1, match c with
        | Comp n t optional (Some dflt) sto =>
            do st <- resolve_names rd (depends_on t) st;
            do st <- match dflt with
                     | Some v => do e <- is_enumerated fuel tr md t; if e : bool then Done st else rd v st
                     | None => Done st
                     end;
            Done (c, st)
        | Comp n t optional None sto =>
            do circ <- (if optional then is_circular fuel md l st (a_name a) (depends_on t) else Done false);
            if circ : bool then Done (Comp n t optional None Dynamic, st)
            else do st <- resolve_names rd (depends_on t) st; Done (c, st)
        | CompOf t => Done (c, st)
        end = Done (c', st1) /\ after S' st st1).
      { destruct c as [n t o [dflt|] sto|t]; [| |exists (CompOf t), st; split; [reflexivity|apply after_refl, Hi]].
        - assert (Hr : forall d, In d (depends_on t) -> (rank (d_name d) < rank (a_name a))%nat).
          { intros d Hd. apply Hrank; [exact Ha|]. destruct a as [an as_]. cbn in Hspec. subst as_. eapply an_component; [exact Hc| |apply dep_uses, Hd|apply Hthis, in_or_app; left; exact Hd].
            intros (_ & ?). discriminate. }
          destruct (names_succeed S' (depends_on t) st Hi Hk) as (st1 & E1 & A1).
          { intros d Hd. assert (Hd' : In d (comp_depends_on s (Comp n t o (Some dflt) sto))) by (apply in_or_app; left; exact Hd).
            split; [apply (Hown d Hd')|]. apply Hmust; auto. }
          rewrite E1. cbn [obind]. destruct dflt as [v|]; [|exists (Comp n t o (Some None) sto), st1; split; [reflexivity|exact A1]].
          destruct (Henum fuel a s cs0 n t o v sto Hf Ha Hspec Hc) as (b & Eb & Hb). rewrite Eb. cbn [obind]. destruct b; [exists (Comp n t o (Some (Some v)) sto), st1; split; [reflexivity|exact A1]|].
          assert (Ht : t <> Builtin true) by (intros E; specialize (Hb E); discriminate).
          assert (Hse : s = false).
          { destruct s; [|reflexivity]. exfalso. pose proof (Hset a Ha) as Hn. rewrite Hspec in Hn. apply Hn. eapply sd_here; eassumption. }
          assert (Hv : In (Dep v None) (comp_depends_on s (Comp n t o (Some (Some v)) sto))).
          { rewrite Hse. apply in_or_app. right. destruct t as [[|]| | | | |]; try (left; reflexivity). congruence. }
          assert (Hs1 : stack_ok (cleared st1) S (a_name a)).
          { destruct A1 as (I1 & C1 & _). apply stack_mono with (C := cleared st); [exact C1| |exact Hs]. intros u Hu' Hn.
            eapply (i_stack _ _ I1); [right; exact Hu'|]. apply (i_cleared _ _ I1), Hn. }
          destruct (Hrd S' v st1) as (st2 & E2 & A2).
          + apply A1.
          + apply (Hmust st1 (Dep v None)); [apply A1|exact Hs1|exact Hv|]. cbn [d_name]. apply Hrank; [exact Ha|]. destruct a as [an as_]. cbn in Hspec. subst as_.
            eapply an_default; eassumption.
          + apply (Hown _ Hv).
          + eapply after_unseen; eassumption.
          + rewrite E2. cbn [obind]. eexists _, st2. split; [reflexivity|eapply after_trans; eassumption].
        - assert (Hplain : forall P : Prop, (forall d, In d (depends_on t) -> stack_ok (cleared st) S' (d_name d)) ->
              exists c' st1, (do st <- resolve_names rd (depends_on t) st; Done (Comp n t o None sto, st)) = Done (c', st1) /\ after S' st st1).
          { intros _ Hd. destruct (names_succeed S' (depends_on t) st Hi Hk) as (st1 & E1 & A1).
            - intros d Hin. split; [apply (Hown d), in_or_app; left; exact Hin|apply Hd, Hin].
            - rewrite E1. eexists _, st1. split; [reflexivity|exact A1]. }
          destruct o.
          + destruct (circular_succeeds fuel st (a_name a) (depends_on t) Hf) as (b & Eb); [intros d Hd; apply (Hown d), in_or_app; left; exact Hd|].
            rewrite Eb. cbn [obind]. destruct b; [eexists _, st; split; [reflexivity|apply after_refl, Hi]|]. apply (Hplain True).
            intros d Hd. constructor; [apply (Hown d), in_or_app; left; exact Hd|apply Hu, Hi| |exact Hs]. right. exists (cleared st). split; [apply incl_refl|].
            intros (e & Hr & He). eapply (circular_false _ _ _ _ _ _ Eb); [exact Hd|exact Hr|exact He].
          + cbn [obind]. apply (Hplain True). intros d Hd. apply Hmust; [exact Hi|exact Hs|apply in_or_app; left; exact Hd|].
            apply Hrank; [exact Ha|]. destruct a as [an as_]. cbn in Hspec. subst as_. eapply an_component; [exact Hc| |apply dep_uses, Hd|apply Hthis, in_or_app; left; exact Hd]. intros (? & _). discriminate. }
      destruct Hstep as (c' & st1 & -> & A1). cbn [obind]. destruct (IH ltac:(intros z Hz; apply Hcs; right; exact Hz) st1) as (cs' & st2 & -> & A2).
      - apply A1.
      - eapply after_unseen; eassumption.
      - destruct A1 as (I1 & C1 & _). apply stack_mono with (C := cleared st); [exact C1| |exact Hs]. intros u Hu' Hn.
        eapply (i_stack _ _ I1); [right; exact Hu'|]. apply (i_cleared _ _ I1), Hn.
      - cbn [obind]. eexists _, st2. split; [reflexivity|eapply after_trans; eassumption].
    Qed.
  End Step.
  Lemma after_push S st0 st1 a' name : after (name :: S) st0 st1 -> ~ In name S -> forall c, incl (cleared st0) c -> incl c (name :: cleared st1) ->
    after S st0 (DState (name :: assigned st1) (visited st1) (a' :: ordered st1) c).
  Proof.
    intros (H & Hc & Hv) Hn c Hc0 Hc1. split; [|split; [exact Hc0|exact Hv]]. split; cbn.
    - intros y Hy. destruct (i_visited _ _ H y Hy) as [Hy'|[->|Hy']]; [left; right; exact Hy'|left; left; reflexivity|right; exact Hy'].
    - intros u Hu [<-|Hin]; [contradiction|]. eapply (i_stack _ _ H); [right; exact Hu|exact Hin].
    - intros z Hz. apply Hc1 in Hz as [<-|Hz]; [left; reflexivity|right; apply (i_cleared _ _ H), Hz].
  Qed.
  Lemma resolve_succeeds : forall fuel S x st, inv S st -> stack_ok (cleared st) S x -> In x names -> (B + unseen names (visited st) < fuel)%nat ->
    exists st', resolve_dependencies fuel tr md l x st = Done st' /\ after S st st'.
  Proof.
    induction fuel as [|fuel IH]; intros S x st Hi Hs Hx Hf; [lia|]. cbn [resolve_dependencies].
    destruct (map_find_cases l x) as [(a & Ea)|(_ & Hn)]; [|contradiction]. rewrite Ea. cbn [obind]. destruct (map_find_in _ _ _ Ea) as (Ha & Hn).
    destruct (mem x (assigned st)) eqn:Easg; [exists st; split; [reflexivity|apply after_refl, Hi]|]. apply mem_false in Easg.
    pose proof (stack_fresh _ _ _ Hs) as Hfresh.
    assert (Hvis : ~ In x (visited st)) by (intros Hv; destruct (i_visited _ _ Hi x Hv); contradiction).
    assert (mem x (visited st) = false) as -> by (apply mem_false, Hvis).
    set (st0 := DState (assigned st) (x :: visited st) (ordered st) (cleared st)). set (k := (fuel - B - 1)%nat).
    pose proof (unseen_new names (visited st) x Hx Hvis) as Hlt. assert (Hk : (unseen names (visited st0) <= k)%nat) by (cbn; lia).
    assert (Hrd : forall S x st, inv S st -> stack_ok (cleared st) S x -> In x names -> (unseen names (visited st) <= k)%nat ->
      exists st', resolve_dependencies fuel tr md l x st = Done st' /\ after S st st') by (intros S1 y s H1 H2 H3 H4; apply IH; try assumption; lia).
    assert (Hi0 : inv (x :: S) st0).
    { split; cbn.
      - intros y [<-|Hy]; [right; left; reflexivity|]. destruct (i_visited _ _ Hi y Hy); auto.
      - intros u [<-|Hu]; [exact Easg|apply (i_stack _ _ Hi), Hu].
      - apply (i_cleared _ _ Hi). }
    assert (Hxc : ~ In x (cleared st)) by (intros Hc; apply Easg, (i_cleared _ _ Hi), Hc).
    assert (Hst0 : forall st1, after (x :: S) st0 st1 -> visits st st1 /\ incl (cleared st) (cleared st1)).
    { intros st1 (_ & H1 & H2). split; [|exact H1]. intros z Hz. apply H2. right. exact Hz. }
    assert (Hfin : forall a' st1 c, after (x :: S) st0 st1 -> incl (cleared st) c -> incl c (x :: cleared st1) ->
              after S st (DState (x :: assigned st1) (visited st1) (a' :: ordered st1) c)).
    { intros a' st1 c A1 Hc1 Hc2. destruct (after_push S st0 st1 a' x A1 Hfresh c Hc1 Hc2) as (H1 & H2 & H3). split; [exact H1|]. split; [exact H2|].
      apply (Hst0 st1 A1). }
    assert (Hpl : (forall d, In d (dependencies a) -> local md d = true -> (rank (d_name d) < rank x)%nat \/ exists C0, incl C0 (cleared st) /\ ~ reach C0 (d_name d) x) ->
              exists st', (do (a', st1) <- (do st1 <- resolve_names (resolve_dependencies fuel tr md l) (filter (local md) (dependencies a)) st0; Done (a, st1));
                Done (DState (x :: assigned st1) (visited st1) (a' :: ordered st1) (cleared st1))) = Done st' /\ after S st st').
    { intros Hd. destruct (names_succeed _ k Hrd (x :: S) (filter (local md) (dependencies a)) st0 Hi0 Hk) as (st1 & -> & A1).
      - intros d Hin. apply filter_In in Hin as (Hin & Hl). split; [apply (Hdefined a d Ha Hin Hl)|]. constructor; [exists a, d; auto 10|exact Hxc|apply (Hd d Hin Hl)|exact Hs].
      - cbn. eexists. split; [reflexivity|]. apply Hfin; [exact A1|apply (Hst0 st1 A1)|intros z Hz; right; exact Hz]. }
    assert (Hpl' : match a_spec a with TypeA (Choice _ _ | ListOf _ _ _ | Record _ _) => False | _ => True end -> forall d, In d (dependencies a) -> local md d = true ->
              (rank (d_name d) < rank x)%nat \/ exists C0, incl C0 (cleared st) /\ ~ reach C0 (d_name d) x).
    { intros Hk' d Hd Hl. apply local_iff in Hl. left. rewrite <- Hn. apply Hrank; [exact Ha|]. destruct a as [an as_]. unfold dependencies in Hd. cbn [a_spec] in *. destruct as_ as [t|t v|].
      - eapply an_type; [|apply dep_uses, Hd|exact Hl]. destruct t; auto.
      - apply in_app_or in Hd as [Hd|Hd]; [eapply an_value_type; [apply dep_uses, Hd|exact Hl]|]. destruct v as [v|]; [|destruct Hd]. destruct Hd as [<-|[]]. apply an_value.
      - destruct Hd. }
    assert (Hcirc : forall t, a_spec a = TypeA t -> match t with Choice _ _ | ListOf _ _ _ => True | _ => False end ->
              exists st', (do (a', st1) <- (do circ <- is_circular (Datatypes.S fuel) md l st0 x [Dep x (Some md)];
                 if circ : bool then Done (Assign (a_name a) (TypeA (make_dynamic t)), DState (assigned st0) (visited st0) (ordered st0) (x :: cleared st0))
                 else do st1 <- resolve_names (resolve_dependencies fuel tr md l) (filter (local md) (dependencies a)) st0; Done (a, st1));
                 Done (DState (x :: assigned st1) (visited st1) (a' :: ordered st1) (cleared st1))) = Done st' /\ after S st st').
    { intros t Ht _. destruct (circular_succeeds (Datatypes.S fuel) st0 x [Dep x (Some md)]) as (b & Eb); [lia|intros d [<-|[]]; exact Hx|].
      rewrite Eb. cbn [obind]. destruct b.
      - cbn [obind]. eexists. split; [reflexivity|]. cbn [assigned visited ordered cleared].
        apply (Hfin _ st0 (x :: cleared st0)); [apply after_refl, Hi0|intros z Hz; right; exact Hz|apply incl_refl].
      - apply Hpl. intros d Hd Hl. right. exists (cleared st). split; [apply incl_refl|]. intros Hr.
        assert (Hxx : reach (cleared st) x x).
        { eapply reach_trans; [|exact Hr]. apply edge_reach; [exists a, d; auto 10|exact Hxc]. }
        destruct Hxx as (e & Hre & He). eapply (circular_false _ _ _ _ _ _ Eb); [left; reflexivity|exact Hre|exact He]. }
    destruct (a_spec a) as [t|t v|] eqn:Es; [|apply Hpl, Hpl', I..].
    destruct t as [e|m r|s cs|s sto t|sto alts|t]; try (apply Hpl, Hpl', I).
    - destruct (comps_succeed _ k Hrd (Datatypes.S fuel) a s cs S ltac:(lia) Ha Es cs (incl_refl _) st0) as (cs' & st1 & E & A1); rewrite ?Hn in *.
      + exact Hi0.
      + exact Hk.
      + exact Hs.
      + rewrite E. cbn [obind]. eexists. split; [reflexivity|]. apply Hfin; [exact A1|apply (Hst0 st1 A1)|intros z Hz; right; exact Hz].
    - apply (Hcirc (ListOf s sto t)); [reflexivity|exact I].
    - apply (Hcirc (Choice sto alts)); [reflexivity|exact I].
  Qed.
End Success.
