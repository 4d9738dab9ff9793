(** Resolving references and ordering definitions (C57, C58, C62, C63). *)
From Coq Require Import Permutation.
From Verif Require Import CompilerTree TreeSpec ModuleProofs ComponentsProofs ReorderProofs.
Local Open Scope string_scope.
Local Open Scope list_scope.

(** * C58: reorder_modules *)
Fixpoint index (x : string) (l : list string) : nat :=
  match l with [] => O | y :: l => if String.eqb y x then O else S (index x l) end.
Lemma index_before x l r : In x l -> (index x (l ++ r) < List.length l)%nat.
Proof.
  induction l as [|y l IH]; cbn; [tauto|]. intros [->|H]; [rewrite String.eqb_refl; lia|]. destruct (String.eqb y x); [lia|]. specialize (IH H). lia.
Qed.
Lemma index_at x l r : NoDup (l ++ x :: r) -> index x (l ++ x :: r) = List.length l.
Proof.
  induction l as [|y l IH]; cbn; [rewrite String.eqb_refl; reflexivity|]. intros H. inversion H as [|? ? Hy Hn]; subst.
  destruct (String.eqb y x) eqn:E; [|rewrite IH by exact Hn; reflexivity]. apply String.eqb_eq in E. subst. exfalso. apply Hy. apply in_or_app. right. left. reflexivity.
Qed.
Lemma modules_result fuel l o : NoDup (module_names l) -> reorder_modules fuel l = Done o -> Permutation o l /\ imports_first o.
Proof.
  intros Hn H. unfold reorder_modules in H. apply obind_done in H as (st & E & H).
  destruct (Nat.eqb _ _) eqn:Elen; [|discriminate]. injection H as <-. apply Nat.eqb_eq in Elen.
  assert (G : mgrow l (MState [] [] []) st).
  { revert E. apply foldm_done; [apply mgrow_refl|apply mgrow_trans|]. intros m s s' _ Hx. apply modules_grow in Hx. apply Hx. }
  destruct G as (G1 & _ & _ & G4). specialize (G1 eq_refl). specialize (G4 ltac:(intros x [])). cbn in G1, G4.
  assert (Hall : forall ms s s', foldm (fun m st => resolve_modules fuel l (m_name m) st) ms s = Done s' -> mgood [] s \/ mbad [] s ->
             (mgood [] s' \/ mbad [] s') /\ incl (m_assigned s) (m_assigned s') /\ incl (map m_name ms) (m_assigned s')).
  { clear. induction ms as [|m ms IH]; intros s s' E Hs; cbn in E.
    - injection E as <-. split; [exact Hs|]. split; [apply incl_refl|intros x []].
    - apply obind_done in E as (w & E1 & E2). pose proof (modules_grow _ _ _ _ _ E1) as (Gw & Hw).
      assert (Hw' : mgood [] w \/ mbad [] w).
      { destruct Hs as [Hs|Hs]; [exact (modules_order _ _ _ _ _ _ E1 Hs)|right; exact (mbad_grow l _ _ _ Gw Hs)]. }
      destruct (IH _ _ E2 Hw') as (H1 & H2 & H3). split; [exact H1|]. split.
      + intros x Hx. apply H2. destruct Gw as (_ & (e & Ee) & _). rewrite Ee. apply in_or_app. tauto.
      + intros x [<-|Hx]; auto. }
  destruct (Hall _ _ _ E) as (Hg & _ & Hi).
  { left. split; [intros x []|]. split; [|reflexivity]. intros post m pre Ep. destruct post; discriminate. }
  assert (Hd : NoDup (m_assigned st)).
  { apply NoDup_incl_NoDup with (module_names l); [exact Hn| |exact Hi]. rewrite <- G1, map_length, Elen. unfold module_names. rewrite map_length. lia. }
  destruct Hg as [(_ & Hs & _)|[Hb|(x & [] & _)]]; [|contradiction]. split.
  - apply Permutation_sym. apply NoDup_Permutation_bis.
    + rewrite <- G1 in Hd. apply NoDup_map_inv in Hn. exact Hn.
    + rewrite rev_length. lia.
    + intros m Hm. rewrite <- in_rev. assert (Hx : In (m_name m) (map m_name (m_ordered st))) by (rewrite G1; apply Hi, in_map, Hm).
      apply in_map_iff in Hx as (m' & En & Hm'). assert (m' = m) as <-; [|exact Hm'].
      clear -Hn Hm Hm' En G4. apply G4 in Hm'. clear G4. unfold module_names in Hn. induction l as [|a l IH]; [destruct Hm|].
      cbn in Hn. inversion Hn as [|? ? Ha Hl]; subst. destruct Hm as [->|Hm], Hm' as [->|Hm'].
      * reflexivity.
      * exfalso. apply Ha. rewrite <- En. apply in_map, Hm'.
      * exfalso. apply Ha. rewrite En. apply in_map, Hm.
      * auto.
  - intros before m after Eo x Hx. apply (f_equal (@rev module)) in Eo. rewrite rev_involutive, rev_app_distr in Eo. cbn in Eo.
    rewrite <- app_assoc in Eo. cbn in Eo. specialize (Hs _ _ _ Eo x Hx). rewrite map_rev, <- in_rev in Hs. exact Hs.
Qed.
(** For modules with distinct names: whatever the import graph, reorder_modules terminates; it returns exactly
    when every imported module is given and there is no import cycle, and then the result is the given modules
    with every module after those it imports; otherwise it throws. *)
Theorem C58_reorder_modules : forall l fuel, NoDup (module_names l) -> (List.length l < fuel)%nat ->
  (imports_defined l /\ imports_acyclic l /\ exists o, reorder_modules fuel l = Done o /\ Permutation o l /\ imports_first o) \/
  (~ (imports_defined l /\ imports_acyclic l) /\ reorder_modules fuel l = Throw).
Proof.
  intros l fuel Hn Hf.
  assert (Hloop : reorder_modules fuel l <> Loop).
  { unfold reorder_modules. apply obind_loop; [|intros st _; cbv beta; destruct (Nat.eqb _ _); discriminate].
    generalize (MState [] [] []). generalize l at 2 as ms. induction ms as [|m ms IH]; intros s; cbn; [discriminate|].
    apply obind_loop; [|intros; apply IH]. apply modules_terminate. pose proof (unseen_length (map m_name l) (m_visited s)) as H.
    rewrite map_length in H. lia. }
  assert (Hundef : reorder_modules fuel l <> Undef).
  { unfold reorder_modules. apply obind_undef; [|intros st _; cbv beta; destruct (Nat.eqb _ _); discriminate].
    generalize (MState [] [] []). generalize l at 2 as ms. induction ms as [|m ms IH]; intros s; cbn; [discriminate|].
    apply obind_undef; [apply modules_undef|intros; apply IH]. }
  assert (Hdone : imports_defined l /\ imports_acyclic l -> exists o, reorder_modules fuel l = Done o).
  { intros (Hd & (rank & Hr)). unfold reorder_modules.
    assert (Hx : forall ms s, incl ms l -> mclean l [] s -> exists s', foldm (fun m st => resolve_modules fuel l (m_name m) st) ms s = Done s' /\
               mclean l [] s' /\ incl (map m_name ms) (m_assigned s') /\ mgrow l s s').
    { induction ms as [|m ms IH]; intros s Hi Hc; cbn; [exists s; split; [reflexivity|]; split; [exact Hc|]; split; [intros x []|apply mgrow_refl]|].
      destruct (modules_succeed l rank Hd Hr fuel (m_name m) [] s) as (w & Ew & Hw).
      - pose proof (unseen_length (map m_name l) (m_visited s)) as H. rewrite map_length in H. lia.
      - apply in_map, Hi. left. reflexivity.
      - intros y [].
      - exact Hc.
      - rewrite Ew. cbn. destruct (IH w) as (s' & E & Hc' & Hm & G); [intros y Hy; apply Hi; right; exact Hy|exact Hw|].
        exists s'. split; [exact E|]. split; [exact Hc'|]. apply modules_grow in Ew as (Gw & Hx). split; [|exact (mgrow_trans _ _ _ _ Gw G)].
        intros x [<-|Hy]; [|auto]. destruct G as (_ & (e & Ee) & _). rewrite Ee. apply in_or_app. tauto. }
    destruct (Hx l (MState [] [] [])) as (s' & E & (_ & Hnd & _ & Hin) & Hm & (G & _)).
    - apply incl_refl.
    - split; [intros x []|]. split; [constructor|]. split; intros x [].
    - rewrite E. cbn [obind]. assert (El : List.length (m_ordered s') = List.length l).
      { rewrite <- (map_length m_name l), <- (map_length m_name (m_ordered s')), (G eq_refl). apply Nat.le_antisymm.
        - apply NoDup_incl_length; [exact Hnd|exact Hin].
        - apply NoDup_incl_length; [exact Hn|exact Hm]. }
      rewrite El, Nat.eqb_refl. eauto. }
  destruct (reorder_modules fuel l) as [o| | |] eqn:E; try congruence.
  - left. destruct (modules_result fuel l o Hn E) as (Hp & Hs). split; [|split; [|eauto]].
    + intros m x Hm Hx. apply (Permutation_in m (Permutation_sym Hp)) in Hm. apply in_split in Hm as (b & a & Eo).
      apply (Hs b m a Eo) in Hx. apply (Permutation_in x (Permutation_map m_name Hp)). fold (module_names o). rewrite Eo.
      unfold module_names in *. rewrite map_app. apply in_or_app. left. exact Hx.
    + assert (Hno : NoDup (module_names o)) by (apply (Permutation_NoDup (Permutation_map m_name (Permutation_sym Hp))), Hn).
      exists (fun x => index x (module_names o)). intros m x Hm Hx.
      apply (Permutation_in m (Permutation_sym Hp)) in Hm. apply in_split in Hm as (b & a & Eo). apply (Hs b m a Eo) in Hx.
      rewrite Eo in Hno |- *. unfold module_names in *. rewrite map_app in *. cbn [map] in *. rewrite index_at by exact Hno. apply index_before, Hx.
  - right. split; [|reflexivity]. intros H. destruct (Hdone H) as (o & Ho). discriminate.
Qed.
Definition ex_mod (n : string) (imports : list string) : module := Module n imports [].
Example C58_example :
  let l := [ex_mod "C" ["A"; "B"]; ex_mod "A" ["B"]; ex_mod "B" []] in
  NoDup (module_names l) /\ imports_defined l /\ imports_acyclic l /\
  reorder_modules 4 l = Done [ex_mod "B" []; ex_mod "A" ["B"]; ex_mod "C" ["A"; "B"]] /\
  let l := [ex_mod "A" ["B"]; ex_mod "B" ["A"]] in NoDup (module_names l) /\ reorder_modules 3 l = Throw.
Proof.
  cbv zeta. split; [repeat constructor; cbn; intuition discriminate|]. split; [|split].
  - intros m x [<-|[<-|[<-|[]]]]; cbn; intuition.
  - exists (fun x => if String.eqb x "C" then 2 else if String.eqb x "A" then 1 else 0)%nat.
    intros m x [<-|[<-|[<-|[]]]]; cbn; intuition; subst; cbn; lia.
  - split; [reflexivity|]. split; [repeat constructor; cbn; intuition discriminate|reflexivity].
Qed.
(** Two modules of the same name are not detected (nothing else does): the result has one of them twice, and an import
    cycle passes. *)
Theorem C58_same_name_refuted : exists l o, reorder_modules 9 l = Done o /\ ~ Permutation o l /\ ~ imports_first o.
Proof.
  set (a := Module "A" ["B"] [Assign "T" OtherA]).
  exists [Module "A" ["B"] []; a; ex_mod "B" ["A"]], [a; ex_mod "B" ["A"]; a]. split; [reflexivity|]. split.
  - intros H. apply Permutation_sym in H. pose proof (Permutation_in (Module "A" ["B"] []) H (or_introl eq_refl)) as H'.
    cbn in H'. intuition discriminate.
  - intros H. specialize (H [] _ _ eq_refl "B" ltac:(left; reflexivity)). destruct H.
Qed.

(** * C62: resolving a type *)
Lemma defines_unique tr m r s s' : distinct_names tr -> defines tr m r s -> defines tr m r s' -> s = s'.
Proof.
  intros (H1 & H2) (md & Hm & En & Ha) (md' & Hm' & En' & Ha'). assert (md = md') as <- by (apply (nodup_same m_name tr); auto; congruence).
  pose proof (nodup_same a_name _ _ _ (H2 md Hm) Ha Ha' eq_refl) as E. congruence.
Qed.
(** One step of [resolve_ref]: the assignment looked up. *)
Lemma lookup_cases tr m r : distinct_names tr ->
  (exists md a, find_module tr m = Done md /\ m_name md = m /\ find_assign (m_assigns md) r = Done a /\ defines tr m r (a_spec a)) \/
  ((find_module tr m = Throw \/ exists md, find_module tr m = Done md /\ find_assign (m_assigns md) r = Throw) /\ forall s, ~ defines tr m r s).
Proof.
  intros Hd. destruct (find_module_cases tr m) as [(md & E)|(E & Hn)].
  - destruct (find_module_in _ _ _ E) as (Hm & En). destruct (find_assign_cases (m_assigns md) r) as [(a & Ea)|(Ea & Hn)].
    + left. exists md, a. destruct (find_assign_in _ _ _ Ea) as (Hi & Er). repeat split; auto.
      exists md. repeat split; auto. destruct a as [n s]. cbn in *. subst. exact Hi.
    + right. split; [right; eauto|]. intros s (md' & Hm' & En' & Ha). assert (md = md') as <- by (apply (nodup_same m_name tr); [apply Hd|auto..]; congruence).
      apply Hn. apply (in_map a_name) in Ha. exact Ha.
  - right. split; [left; exact E|]. intros s (md' & Hm' & En' & Ha). apply Hn. rewrite <- En'. apply in_map, Hm'.
Qed.
(** What is excluded: two tags in one definition, and (for resolving in module [current]) a definition "[tag] reference"
    in another module with no module name. *)
Definition resolvable (tr : tree) (current : string) : Prop :=
  forall m r t, defines tr m r (TypeA (Tagged t)) ->
    match t with Ref None _ => m = current | Ref (Some _) _ => True | Tagged _ => False | _ => True end.
Lemma type_is_inv_ref tr m mo r t' m' s : distinct_names tr -> defines tr (in_module m mo) r s -> type_is tr m (Ref mo r) t' m' ->
  exists t, s = TypeA t /\ type_is tr (in_module m mo) t t' m'.
Proof.
  intros Hd Hs H. inversion H as [? ? Hf| |? ? ? t ? ? Hdef Ht]; subst; [destruct Hf|]. exists t. split; [|exact Ht].
  exact (defines_unique _ _ _ _ _ Hd Hs Hdef).
Qed.
Lemma type_is_inv_tag tr m t t' m' : type_is tr m (Tagged t) t' m' -> type_is tr m t t' m'.
Proof. intros H. inversion H as [? ? Hf| |]; subst; [destruct Hf|assumption]. Qed.
Definition verdict (tr : tree) (m : string) (t : typ) (f : nat -> out (typ * string)) (low : nat) : Prop :=
  (exists t' m', (forall fuel, (low <= fuel)%nat -> f fuel = Done (t', m')) /\ type_is tr m t (untag t') m') \/
  ((forall fuel, (low <= fuel)%nat -> f fuel = Throw) /\ forall t' m', ~ type_is tr m t t' m').
Lemma resolve_ref_verdict tr current number : distinct_names tr -> resolvable tr current ->
  (forall m r t mo r', defines tr m r (TypeA t) -> refers_to t = Some (mo, r') -> (number (in_module m mo) r' < number m r)%nat) ->
  forall k md mo r, (number (in_module md mo) r < k)%nat ->
    verdict tr md (Ref mo r) (fun fuel => resolve_ref fuel tr current md mo r) k.
Proof.
  intros Hd Hr Hn. induction k as [|k IH]; intros md mo r Hk; [lia|]. change ref_module with in_module in *.
  destruct (lookup_cases tr (in_module md mo) r Hd) as [(w & a & Ew & En & Ea & Hdef)|(He & Hundef)].
  - assert (Hstep : forall fuel, (S k <= fuel)%nat -> exists fuel', fuel = S fuel' /\ (k <= fuel')%nat)
      by (intros [|fuel]; [lia|]; intros; exists fuel; split; [reflexivity|lia]).
    assert (Hred : forall fuel, resolve_ref (S fuel) tr current md mo r =
      match a_spec a with
      | TypeA (Ref m' r') => resolve_ref fuel tr current (match mo with Some x => x | None => md end) m' r'
      | TypeA (Tagged (Ref m' r')) =>
          do (t, x) <- resolve_ref fuel tr current current m' r'; Done (Tagged t, x)
      | TypeA t => Done (t, m_name w)
      | _ => Throw
      end) by (intros fuel; cbn [resolve_ref]; change ref_module with in_module; rewrite Ew; cbn [obind]; rewrite Ea; reflexivity).
    assert (Hthrow : (forall t, a_spec a <> TypeA t) -> verdict tr md (Ref mo r) (fun fuel => resolve_ref fuel tr current md mo r) (S k)).
    { intros Hs. right. split.
      - intros fuel Hf. destruct (Hstep fuel Hf) as (f & -> & _). rewrite Hred. destruct (a_spec a); [exfalso; eapply Hs; reflexivity|reflexivity..].
      - intros t' m' H. destruct (type_is_inv_ref _ _ _ _ _ _ _ Hd Hdef H) as (t & Et & _). exact (Hs t Et). }
    assert (Hfinal : forall t, a_spec a = TypeA t -> final (untag t) -> (forall fuel, resolve_ref (S fuel) tr current md mo r = Done (t, m_name w)) ->
              verdict tr md (Ref mo r) (fun fuel => resolve_ref fuel tr current md mo r) (S k)).
    { intros t Et Hf Hres. left. exists t, (in_module md mo). split.
      - intros fuel Hfu. destruct (Hstep fuel Hfu) as (f & -> & _). rewrite Hres, En. reflexivity.
      - apply ti_ref with t; [rewrite <- Et; exact Hdef|]. clear -Hf. induction t; try (apply ti_final; exact I); [destruct Hf|].
        apply ti_tagged. apply IHt. exact Hf. }
    destruct (a_spec a) as [t| |] eqn:Es; [|apply Hthrow; discriminate..].
    destruct t as [e|m' r'|s cs|s sto t|sto alts|t].
    + eapply Hfinal; [reflexivity|exact I|exact Hred].
    + assert (Hk' : (number (in_module (in_module md mo) m') r' < k)%nat) by (pose proof (Hn _ _ _ _ _ Hdef eq_refl); lia).
      destruct (IH (in_module md mo) m' r' Hk') as [(t' & x & H1 & H2)|(H1 & H2)].
      * left. exists t', x. split; [|eapply ti_ref; [exact Hdef|exact H2]].
        intros fuel Hf. destruct (Hstep fuel Hf) as (f & -> & Hf'). rewrite Hred. apply H1, Hf'.
      * right. split.
        -- intros fuel Hf. destruct (Hstep fuel Hf) as (f & -> & Hf'). rewrite Hred. apply H1, Hf'.
        -- intros t' x H. destruct (type_is_inv_ref _ _ _ _ _ _ _ Hd Hdef H) as (t & [= <-] & Ht). exact (H2 _ _ Ht).
    + eapply Hfinal; [reflexivity|exact I|exact Hred].
    + eapply Hfinal; [reflexivity|exact I|exact Hred].
    + eapply Hfinal; [reflexivity|exact I|exact Hred].
    + pose proof (Hr _ _ _ Hdef) as Ht. destruct t as [e|m' r'|s cs|s sto t|sto alts|t]; try (eapply Hfinal; [reflexivity|exact I|exact Hred]); [|destruct Ht].
      assert (Em : in_module current m' = in_module (in_module md mo) m') by (destruct m'; [reflexivity|]; cbn; cbn in Ht; congruence).
      assert (Hk' : (number (in_module current m') r' < k)%nat) by (pose proof (Hn _ _ _ _ _ Hdef eq_refl) as Hx; cbn [in_module] in *; rewrite Em; lia).
      destruct (IH current m' r' Hk') as [(t' & x & H1 & H2)|(H1 & H2)].
      * left. exists (Tagged t'), x. split.
        -- intros fuel Hf. destruct (Hstep fuel Hf) as (f & -> & Hf'). rewrite Hred, H1 by exact Hf'. reflexivity.
        -- eapply ti_ref; [exact Hdef|]. apply ti_tagged. cbn [untag]. inversion H2 as [? ? Hf| |? ? ? t ? ? Hdef' Ht']; subst; [destruct (untag t'); destruct Hf; discriminate|].
           rewrite Em in *. eapply ti_ref; eassumption.
      * right. split.
        -- intros fuel Hf. destruct (Hstep fuel Hf) as (f & -> & Hf'). rewrite Hred, H1 by exact Hf'. reflexivity.
        -- intros t' x H. destruct (type_is_inv_ref _ _ _ _ _ _ _ Hd Hdef H) as (t & [= <-] & Ht'). apply type_is_inv_tag in Ht'.
           apply (H2 t' x). inversion Ht' as [? ? Hf| |? ? ? t ? ? Hdef' Ht'']; subst; [destruct Hf|]. rewrite <- Em in *. eapply ti_ref; eassumption.
  - right. split.
    + intros fuel Hf. destruct fuel as [|fuel]; [lia|]. cbn [resolve_ref]. change ref_module with in_module. destruct He as [He|(w & He & Ha)]; rewrite He; cbn [obind]; [reflexivity|].
      rewrite Ha. reflexivity.
    + intros t' m' H. inversion H as [? ? Hf| |? ? ? t ? ? Hdef Ht]; subst; [destruct Hf|]. exact (Hundef _ Hdef).
Qed.
(** For distinct names and definitions that are not circular: resolving a type in module [m] ends, with the type and
    module X.680 says, or with an exception if there is none.  Partial: circular definitions, and those excluded by
    [resolvable], see below. *)
Theorem C62_resolve_partial : forall tr m t, distinct_names tr -> acyclic tr -> resolvable tr m -> In m (module_names tr) ->
  exists low,
    (exists t' m', (forall fuel, (low <= fuel)%nat -> resolve_type fuel tr m t = Done (t', m')) /\ type_is tr m t (untag t') m') \/
    ((forall fuel, (low <= fuel)%nat -> resolve_type fuel tr m t = Throw) /\ forall t' m', ~ type_is tr m t t' m').
Proof.
  intros tr m t Hd (number & Hn) Hr Hm.
  assert (Hfinal : forall u, final u -> (forall fuel, resolve_type fuel tr m u = do md <- find_module tr m; Done (u, m_name md)) -> verdict tr m u (fun fuel => resolve_type fuel tr m u) 0).
  { intros u Hf Hu. left. exists u, m. split; [|destruct u; try destruct Hf; apply ti_final; exact I]. intros fuel _. rewrite Hu.
    destruct (find_module_some _ _ Hm) as (md & E). rewrite E. cbn. apply find_module_in in E as (_ & E). rewrite E. reflexivity. }
  change (exists low, verdict tr m t (fun fuel => resolve_type fuel tr m t) low).
  induction t as [e|mo r|s cs|s sto t|sto alts|t IH].
  - exists O. apply Hfinal; [exact I|reflexivity].
  - exists (S (number (in_module m mo) r)). apply (resolve_ref_verdict tr m number Hd Hr Hn); lia.
  - exists O. apply Hfinal; [exact I|reflexivity].
  - exists O. apply Hfinal; [exact I|reflexivity].
  - exists O. apply Hfinal; [exact I|reflexivity].
  - destruct IH as (low & [(t' & m' & H1 & H2)|(H1 & H2)]); exists low; [left|right].
    + exists t', m'. split; [exact H1|]. apply ti_tagged, H2.
    + split; [exact H1|]. intros t' m' H. apply (H2 t' m'). apply type_is_inv_tag, H.
Qed.
Definition ty (n : string) (t : typ) : assignment := Assign n (TypeA t).
Ltac def_check := first [eexists; split; [left; reflexivity|split; [reflexivity|cbn; tauto]]
                        |eexists; split; [right; left; reflexivity|split; [reflexivity|cbn; tauto]]].
(** Two: Y ::= [1] Z, Z ::= ENUMERATED ..., A ::= One.Y; resolved in module Two. *)
Example C62_example :
  let tr := [Module "One" [] [ty "B" (Ref (Some "Two") "Y")];
             Module "Two" [] [ty "Y" (Tagged (Ref None "Z")); ty "Z" (Builtin true); ty "A" (Ref (Some "One") "B")]] in
  distinct_names tr /\ acyclic tr /\ resolvable tr "Two" /\ In "Two" (module_names tr) /\
  resolve_type 9 tr "Two" (Ref None "A") = Done (Tagged (Builtin true), "Two") /\ type_is tr "Two" (Ref None "A") (Builtin true) "Two".
Proof.
  cbv zeta. split; [|split; [|split; [|split; [|split]]]].
  - split; [repeat constructor; cbn; intuition discriminate|]. intros md [<-|[<-|[]]]; repeat constructor; cbn; intuition discriminate.
  - exists (fun m r => if String.eqb r "A" then 3 else if String.eqb r "B" then 2 else if String.eqb r "Y" then 1 else 0)%nat.
    intros m r t mo r' (md & [<-|[<-|[]]] & <- & Ha); cbn in Ha; intuition; match goal with H : _ = _ |- _ => injection H as <- <- end;
      cbn in *; try discriminate; match goal with H : _ = _ |- _ => injection H as <- <- end; cbn; lia.
  - intros m r t (md & [<-|[<-|[]]] & <- & Ha); cbn in Ha; intuition; try discriminate. injection H as <- <-. reflexivity.
  - cbn. tauto.
  - reflexivity.
  - eapply ti_ref with (t := Ref (Some "One") "B"); [def_check|]. eapply ti_ref with (t := Ref (Some "Two") "Y"); [def_check|].
    eapply ti_ref with (t := Tagged (Ref None "Z")); [def_check|]. apply ti_tagged. eapply ti_ref with (t := Builtin true); [def_check|]. apply ti_final. exact I.
Qed.
(** A ::= B, B ::= A: the compiler never stops. *)
Theorem C62_cycle_refuted : exists tr, distinct_names tr /\ In "M" (module_names tr) /\
  forall fuel, resolve_type fuel tr "M" (Ref None "A") = Loop.
Proof.
  set (tr := [Module "M" [] [ty "A" (Ref None "B"); ty "B" (Ref None "A")]]). exists tr. split; [|split].
  - split; [repeat constructor; cbn; intuition discriminate|]. intros md [<-|[]]; repeat constructor; cbn; intuition discriminate.
  - cbn. tauto.
  - intros fuel. cbn [resolve_type]. enough (H : resolve_ref fuel tr "M" "M" None "A" = Loop /\ resolve_ref fuel tr "M" "M" None "B" = Loop) by apply H.
    induction fuel as [|fuel (IHa & IHb)]; [split; reflexivity|]. split; cbn; [exact IHb|exact IHa].
Qed.
(** Module One imports Y from Two, where Y ::= [1] Z.  In One, that Z is looked up in One: it may be another type. *)
Theorem C62_module_refuted : exists tr, distinct_names tr /\ acyclic tr /\ In "One" (module_names tr) /\
  type_is tr "One" (Ref None "Y") (Builtin false) "Two" /\
  forall fuel, resolve_type (S (S (S fuel))) tr "One" (Ref None "Y") = Done (Tagged (Builtin true), "One").
Proof.
  exists [Module "One" ["Two"] [ty "Z" (Builtin true); ty "Y" (Ref (Some "Two") "Y")];
          Module "Two" [] [ty "Y" (Tagged (Ref None "Z")); ty "Z" (Builtin false)]].
  split; [|split; [|split; [|split]]].
  - split; [repeat constructor; cbn; intuition discriminate|]. intros md [<-|[<-|[]]]; repeat constructor; cbn; intuition discriminate.
  - exists (fun m r => if String.eqb r "Y" then if String.eqb m "One" then 2 else 1 else 0)%nat.
    intros m r t mo r' (md & [<-|[<-|[]]] & <- & Ha); cbn in Ha; intuition; match goal with H : _ = _ |- _ => injection H as <- <- end;
      cbn in *; try discriminate; match goal with H : _ = _ |- _ => injection H as <- <- end; cbn; lia.
  - cbn. tauto.
  - eapply ti_ref with (t := Ref (Some "Two") "Y"); [def_check|].
    eapply ti_ref with (t := Tagged (Ref None "Z")); [def_check|]. apply ti_tagged. eapply ti_ref with (t := Builtin false); [def_check|]. apply ti_final. exact I.
  - reflexivity.
Qed.
(** A ::= [1] [2] B, B ::= INTEGER: the reference to B is left unresolved. *)
Theorem C62_two_tags_refuted : exists tr, distinct_names tr /\ type_is tr "M" (Ref None "A") (Builtin false) "M" /\
  forall fuel, resolve_type (S fuel) tr "M" (Ref None "A") = Done (Tagged (Tagged (Ref None "B")), "M").
Proof.
  exists [Module "M" [] [ty "A" (Tagged (Tagged (Ref None "B"))); ty "B" (Builtin false)]]. split; [|split].
  - split; [repeat constructor; cbn; intuition discriminate|]. intros md [<-|[]]; repeat constructor; cbn; intuition discriminate.
  - eapply ti_ref with (t := Tagged (Tagged (Ref None "B"))); [def_check|]. apply ti_tagged, ti_tagged.
    eapply ti_ref with (t := Builtin false); [def_check|]. apply ti_final. exact I.
  - reflexivity.
Qed.

(** * C63: COMPONENTS OF *)
(** If every COMPONENTS OF in a SEQUENCE definition names another SEQUENCE or SET definition of the same module,
    directly, which has no COMPONENTS OF itself or is a SEQUENCE that comes before ([includes_ok]), all of them are
    expanded, in place and in order, and nothing else changes.  Partial: see below for what goes wrong otherwise. *)
Theorem C63_components_partial : forall tr, distinct_names tr ->
  (forall md before a after cs, In md tr -> m_assigns md = before ++ a :: after -> a_spec a = TypeA (Record false cs) ->
     Forall (includes_ok md before a) cs) ->
  exists tr', resolve_components_of tr = Done tr' /\ Forall2 (module_done tr) tr tr'.
Proof.
  intros tr Hd Hok. apply (expand_tree_ok tr Hd) with (pre := []) (pre' := []); [|reflexivity|constructor].
  intros md b a f set cs Hm Ea Es ->. apply (Hok md b a f cs); assumption.
Qed.
Definition field (n : string) : comp := Comp n (Builtin false) false None Static.
Definition including (r : string) : comp := CompOf (Ref None r).
Definition seq (cs : list comp) : typ := Record false cs.
(** C ::= SEQUENCE { x }, B ::= SEQUENCE { y, COMPONENTS OF C }, A ::= SEQUENCE { COMPONENTS OF B, z, COMPONENTS OF C }. *)
Example C63_example :
  let asg := [ty "C" (seq [field "x"]); ty "B" (seq [field "y"; including "C"]); ty "A" (seq [including "B"; field "z"; including "C"])] in
  let tr := [Module "M" [] asg] in
  distinct_names tr /\
  (forall md before a after cs, In md tr -> m_assigns md = before ++ a :: after -> a_spec a = TypeA (Record false cs) ->
     Forall (includes_ok md before a) cs) /\
  resolve_components_of tr = Done [Module "M" [] [ty "C" (seq [field "x"]); ty "B" (seq [field "y"; field "x"]);
    ty "A" (seq [field "y"; field "x"; field "z"; field "x"])]].
Proof.
  cbv zeta. split; [|split; [|reflexivity]].
  - split; [repeat constructor; cbn; intuition discriminate|]. intros md [<-|[]]; repeat constructor; cbn; intuition discriminate.
  - assert (Hc : no_of [field "x"]) by (repeat constructor).
    intros md before a after cs [<-|[]] Ea Es. cbn [m_assigns] in Ea.
    destruct before as [|b1 [|b2 [|b3 [|]]]]; cbn in Ea; try discriminate; injection Ea as; subst; cbn in Es; try injection Es as <-;
      repeat (apply Forall_cons; [|]); try apply Forall_nil; cbn; try exact I;
      (split; [reflexivity|]; split; [discriminate|]).
    + exists false, [field "x"]. split; [tauto|left; exact Hc].
    + exists false, [field "y"; including "C"]. split; [tauto|right; split; [reflexivity|tauto]].
    + exists false, [field "x"]. split; [tauto|left; exact Hc].
Qed.
(** The same three definitions in the other order: the components of C are missing from A. *)
Theorem C63_order_refuted : exists tr tr' l, distinct_names tr /\ resolve_components_of tr = Done tr' /\
  defines tr' "M" "A" (TypeA (seq [field "y"])) /\
  defines tr "M" "A" (TypeA (seq [including "B"])) /\ expands tr "M" [including "B"] l /\ map snd l = [field "y"; field "x"].
Proof.
  set (tr := [Module "M" [] [ty "A" (seq [including "B"]); ty "B" (seq [field "y"; including "C"]); ty "C" (seq [field "x"])]]).
  exists tr. eexists _, _. split; [|split; [reflexivity|split; [|split; [|split]]]].
  - split; [repeat constructor; cbn; intuition discriminate|]. intros md [<-|[]]; repeat constructor; cbn; intuition discriminate.
  - def_check.
  - def_check.
  - eapply ex_of with (set := false) (cs0 := [field "y"; including "C"]) (m' := "M"); [|constructor; eapply ex_of with (set := false) (cs0 := [field "x"]) (m' := "M"); [|repeat constructor|constructor]|constructor].
    + eapply ti_ref with (t := seq [field "y"; including "C"]); [def_check|]. apply ti_final. exact I.
    + eapply ti_ref with (t := seq [field "x"]); [def_check|]. apply ti_final. exact I.
  - reflexivity.
Qed.
(** A ::= SEQUENCE { COMPONENTS OF B }, B ::= C, C ::= SEQUENCE { x }: nothing is included.  SET { COMPONENTS OF C } is not
    expanded at all. *)
Theorem C63_alias_refuted : exists tr l, distinct_names tr /\
  (exists tr', resolve_components_of tr = Done tr' /\ defines tr' "M" "A" (TypeA (seq [])) /\
               defines tr' "M" "S" (TypeA (Record true [including "C"]))) /\
  defines tr "M" "A" (TypeA (seq [including "B"])) /\ expands tr "M" [including "B"] l /\ map snd l = [field "x"].
Proof.
  set (tr := [Module "M" [] [ty "C" (seq [field "x"]); ty "B" (Ref None "C"); ty "A" (seq [including "B"]); ty "S" (Record true [including "C"])]]).
  exists tr. eexists _. split; [|split; [|split; [|split]]].
  - split; [repeat constructor; cbn; intuition discriminate|]. intros md [<-|[]]; repeat constructor; cbn; intuition discriminate.
  - eexists. split; [reflexivity|]. split; def_check.
  - def_check.
  - eapply ex_of with (set := false) (cs0 := [field "x"]) (m' := "M"); [|repeat constructor|constructor].
    eapply ti_ref with (t := Ref None "C"); [def_check|]. eapply ti_ref with (t := seq [field "x"]); [def_check|]. apply ti_final. exact I.
  - reflexivity.
Qed.
(** Components of a type of another module keep their references, which then mean something else: One imports B from
    Two, where B ::= SEQUENCE { x T }. *)
Theorem C63_module_refuted : exists tr l x, distinct_names tr /\ x = Comp "x" (Ref None "T") false None Static /\
  (exists tr', resolve_components_of tr = Done tr' /\ defines tr' "One" "A" (TypeA (seq [x])) /\ type_is tr' "One" (Ref None "T") (Builtin true) "One") /\
  defines tr "One" "A" (TypeA (seq [CompOf (Ref (Some "Two") "B")])) /\
  expands tr "One" [CompOf (Ref (Some "Two") "B")] l /\ l = [("Two", x)] /\ type_is tr "Two" (Ref None "T") (Builtin false) "Two".
Proof.
  set (x := Comp "x" (Ref None "T") false None Static).
  set (tr := [Module "One" ["Two"] [ty "T" (Builtin true); ty "A" (seq [CompOf (Ref (Some "Two") "B")])];
              Module "Two" [] [ty "T" (Builtin false); ty "B" (seq [x])]]).
  exists tr. eexists _, x. split; [|split; [reflexivity|split; [|split; [|split; [|split]]]]].
  - split; [repeat constructor; cbn; intuition discriminate|]. intros md [<-|[<-|[]]]; repeat constructor; cbn; intuition discriminate.
  - eexists. split; [reflexivity|]. split; [def_check|]. eapply ti_ref with (t := Builtin true); [def_check|]. apply ti_final. exact I.
  - def_check.
  - eapply ex_of with (set := false) (cs0 := [x]) (m' := "Two"); [|repeat constructor|constructor].
    eapply ti_ref with (t := seq [x]); [def_check|]. apply (ti_final tr "Two"). exact I.
  - reflexivity.
  - eapply ti_ref with (t := Builtin false); [def_check|]. apply (ti_final tr "Two"). exact I.
Qed.
(** COMPONENTS OF SEQUENCE { x }, with the type in place, and a SEQUENCE that includes itself: undefined behaviour. *)
Theorem C63_in_place_refuted : exists tr, distinct_names tr /\ expands tr "M" [CompOf (seq [field "x"])] [("M", field "x")] /\
  resolve_components_of tr = Undef.
Proof.
  exists [Module "M" [] [ty "A" (seq [CompOf (seq [field "x"])])]]. split; [|split; [|reflexivity]].
  - split; [repeat constructor; cbn; intuition discriminate|]. intros md [<-|[]]; repeat constructor; cbn; intuition discriminate.
  - change [("M", field "x")] with ([("M", field "x")] ++ []). eapply ex_of with (set := false) (cs0 := [field "x"]) (m' := "M"); [|repeat constructor|constructor].
    apply ti_final. exact I.
Qed.

(** * C57: reorder_assignments *)
(** check_duplicated_names throws exactly on a repeated name. *)
Theorem C57_duplicates : forall l, check_duplicated_names l = (if ListDec.NoDup_dec string_dec (map a_name l) then Done tt else Throw).
Proof.
  intros l. assert (H : forall l seen, duplicated seen l = false <-> NoDup (map a_name l) /\ forall x, In x (map a_name l) -> ~ In x seen).
  { clear l. induction l as [|a l IH]; intros seen; cbn; [split; [intros _; split; [constructor|intros x []]|reflexivity]|].
    change (existsb (String.eqb (a_name a)) seen) with (mem (a_name a) seen). rewrite Bool.orb_false_iff, mem_false, IH. split.
    - intros (H1 & H2 & H3). split; [constructor; [|exact H2]|].
      + intros Hx. apply (H3 _ Hx). left. reflexivity.
      + intros x [<-|Hx]; [exact H1|]. intros Hs. apply (H3 _ Hx). right. exact Hs.
    - intros (H1 & H2). inversion H1 as [|? ? Hn Hl]; subst. split; [apply H2; left; reflexivity|]. split; [exact Hl|].
      intros x Hx [<-|Hs]; [contradiction|]. eapply H2; [right; exact Hx|exact Hs]. }
  unfold check_duplicated_names. destruct (ListDec.NoDup_dec string_dec (map a_name l)) as [Hn|Hn].
  - assert (duplicated [] l = false) as ->; [|reflexivity]. apply H. split; [exact Hn|]. intros x _ [].
  - destruct (duplicated [] l) eqn:E; [reflexivity|]. apply H in E as (E & _). contradiction.
Qed.
Lemma in_order_first tr md o : in_order tr md o -> definitions_first tr md (rev o).
Proof.
  induction 1 as [|a o Ha _ IH]; intros before b after E x Hx; [destruct before; discriminate|]. cbn in E.
  destruct (@exists_last _ (b :: after) ltac:(discriminate)) as (pre & last & Ep). rewrite Ep in E. rewrite app_assoc in E. apply app_inj_tail in E as (E & <-).
  destruct pre as [|b' pre]; cbn in Ep; [injection Ep as -> ->|injection Ep as <- ->].
  - rewrite app_nil_r in E. rewrite <- E, map_rev. apply in_rev. rewrite rev_involutive. apply Ha, Hx.
  - eapply IH; eassumption.
Qed.
Lemma known_permutation md tr l o : Forall (known tr md l) o -> NoDup (map a_name o) -> List.length o = List.length l ->
  exists l0, Permutation l l0 /\ Forall2 (stored md l) l0 o.
Proof.
  intros Hk Hn Hl. assert (H : exists l0, Forall2 (stored md l) l0 o /\ incl l0 l /\ map a_name l0 = map a_name o).
  { clear Hn Hl. induction Hk as [|a' o ((a & Ha & Hs) & _) _ (l0 & H1 & H2 & H3)]; [exists []; split; [constructor|]; split; [intros z []|reflexivity]|].
    exists (a :: l0). split; [constructor; assumption|]. split; [intros z [<-|Hz]; auto|]. cbn. rewrite H3. destruct Hs as (-> & _). reflexivity. }
  destruct H as (l0 & H1 & H2 & H3). exists l0. split; [|exact H1]. apply Permutation_sym. apply NoDup_Permutation_bis; [|assert (List.length l0 = List.length o) by (clear - H1; induction H1; cbn; congruence); lia|exact H2].
  rewrite <- H3 in Hn. apply NoDup_map_inv in Hn. exact Hn.
Qed.
Lemma reorder_state fuel tr md l : Forall no_nested_set_default l ->
  forall l0 st st', good tr md l st -> foldm (fun a st => resolve_dependencies fuel tr md l (a_name a) st) l0 st = Done st' ->
    good tr md l st' /\ incl (assigned st) (assigned st') /\ forall a, In a l0 -> In (a_name a) (assigned st').
Proof.
  intros Hs. induction l0 as [|a l0 IH]; intros st st' Hg H; cbn in H; [injection H as <-; split; [exact Hg|split; [apply incl_refl|intros a []]]|].
  apply obind_done in H as (st1 & E & H). destruct (resolve_ok tr md l Hs _ _ _ _ Hg E) as (G & I). apply (w_good _ _ _ _ _ G) in Hg as Hg1.
  destruct (IH _ _ Hg1 H) as (H1 & H2 & H3). split; [exact H1|]. split; [eapply incl_tran; [apply (w_assigned _ _ _ _ _ G)|exact H2]|].
  intros b [<-|Hb]; [apply H2, I|apply H3, Hb].
Qed.
Lemma good_start tr md l : good tr md l (DState [] [] [] []).
Proof. split; cbn; [reflexivity|constructor|constructor|constructor|apply incl_refl]. Qed.
(** When reorder_assignments returns: no name was defined twice, no name referred to was undefined, the result has the given
    assignments, storage aside, and every assignment comes after those it needs.  Storage is dynamic only on cycles.  Partial: a
    SET inside another type with a name as default value, see below. *)
Theorem C57_order_partial : forall fuel tr md l l', Forall no_nested_set_default l -> reorder_assignments fuel tr md l = Done l' ->
  NoDup (map a_name l) /\ (forall a x, In a l -> refers tr md a x -> In x (map a_name l)) /\
  (exists l0, Permutation l l0 /\ Forall2 (stored md l) l0 l') /\ definitions_first tr md l'.
Proof.
  intros fuel tr md l l' Hs H. apply obind_done in H as (st & E & H). destruct (Nat.eqb _ _) eqn:El; [|discriminate]. injection H as <-. apply Nat.eqb_eq in El.
  destruct (reorder_state _ _ _ _ Hs _ _ _ (good_start tr md l) E) as (G & _ & I).
  assert (Hnd : NoDup (map a_name (ordered st))) by (rewrite <- (g_names _ _ _ _ G); apply (g_nodup _ _ _ _ G)).
  destruct (known_permutation _ _ _ _ (g_known _ _ _ _ G) Hnd El) as (l0 & Hp & Hf).
  assert (Hn0 : map a_name l0 = map a_name (ordered st)) by (clear - Hf; induction Hf as [|a b ? ? (E & _) _ IH]; cbn; congruence).
  split; [|split; [|split]].
  - eapply Permutation_NoDup; [apply Permutation_map, Permutation_sym, Hp|]. rewrite Hn0. exact Hnd.
  - intros a x Ha Hr. assert (Ha0 : In a l0) by (eapply Permutation_in; eassumption). destruct (forall2_in _ _ _ _ Hf Ha0) as (a' & Ha' & Hst).
    pose proof (g_known _ _ _ _ G) as Hk. rewrite Forall_forall in Hk. apply Hk in Ha' as (_ & Hx). apply Hx. clear - Hr Hst.
    destruct a' as [n' s'], Hst as (En & Hst). cbn [a_name] in En. subst n'. cbn [a_spec] in Hst.
    destruct Hr as [n t v m x Hu Hm|n t x|n t m x Ht Hu Hm|n s cs cn t o d st m x Hi Hu Hm|n s cs cn t o st x Hi He]; cbn [a_name a_spec] in *.
    + subst s'. eapply r_value_type; eassumption.
    + subst s'. apply r_value.
    + assert (exists t', s' = TypeA t' /\ same_type t t') as (t' & -> & Hst').
      { destruct t; try destruct Ht; destruct Hst as [->|(t' & -> & H & _)]; eauto using s_refl. }
      eapply r_type; [destruct Hst'; try exact I; exact Ht| |exact Hm]. clear - Hu Hst'. revert t' Hst'.
      induction Hu as [m r|t m r _ IH|s st t m r _ IH|st alts n t m r Hi _ IH|s cs n t o d st m r Hi _ IH|s cs n t o v st Hi Hv]; intros t' H; inversion H; subst.
      * constructor.
      * apply u_tag, IH, s_refl.
      * apply u_tag, IH. assumption.
      * apply u_list, IH, s_refl.
      * apply u_list, IH. assumption.
      * eapply u_choice; [exact Hi|]. apply IH, s_refl.
      * match goal with HF : Forall2 _ alts ?x |- _ => destruct (forall2_in _ _ _ _ HF Hi) as ((n' & t'') & Hi' & _ & Hs') end.
        eapply u_choice; [exact Hi'|]. apply IH. exact Hs'.
      * eapply u_comp; [exact Hi|]. apply IH, s_refl.
      * eapply u_default; eassumption.
    + destruct Hst as (cs' & -> & HF). destruct (forall2_in _ _ _ _ HF Hi) as (c' & Hi' & [->|(n0 & t0 & st0 & m0 & y & E1 & -> & _)]).
      * eapply r_component; eassumption.
      * injection E1 as <- <- -> -> ->. eapply r_component; eassumption.
    + destruct Hst as (cs' & -> & HF). destruct (forall2_in _ _ _ _ HF Hi) as (c' & Hi' & [->|(n0 & t0 & st0 & m0 & y & E1 & -> & _)]).
      * eapply r_default; eassumption.
      * discriminate.
  - exists (rev l0). split; [eapply Permutation_trans; [exact Hp|apply Permutation_rev]|]. clear - Hf. induction Hf; cbn; [constructor|].
    apply Forall2_app; [assumption|constructor; [assumption|constructor]].
  - apply in_order_first, (g_order _ _ _ _ G).
Qed.
(** Bounds that hold for all members of a list. *)
Lemma common_bound {A} (P : A -> nat -> Prop) l : (forall x, In x l -> exists k, forall n, (k <= n)%nat -> P x n) -> exists k, forall x n, In x l -> (k <= n)%nat -> P x n.
Proof.
  induction l as [|a l IH]; intros H; [exists O; intros x n []|]. destruct (H a (or_introl eq_refl)) as (k1 & H1).
  destruct IH as (k2 & H2); [intros x Hx; apply H; right; exact Hx|]. exists (k1 + k2)%nat. intros x n [<-|Hx] Hn; [apply H1; lia|apply H2; [exact Hx|lia]].
Qed.
Definition record_comps (a : assignment) : list comp := match a_spec a with TypeA (Record _ cs) => cs | _ => [] end.
Lemma comps_bound (P : typ -> nat -> Prop) l :
  (forall a s cs n t o v st, In a l -> a_spec a = TypeA (Record s cs) -> In (Comp n t o (Some (Some v)) st) cs -> exists k, forall f, (k <= f)%nat -> P t f) ->
  exists k, forall f a s cs n t o v st, (k <= f)%nat -> In a l -> a_spec a = TypeA (Record s cs) -> In (Comp n t o (Some (Some v)) st) cs -> P t f.
Proof.
  intros H. destruct (common_bound (fun c f => match c with Comp _ t _ (Some (Some _)) _ => P t f | _ => True end) (flat_map record_comps l)) as (k & Hk).
  - intros c Hc. apply in_flat_map in Hc as (a & Ha & Hc). unfold record_comps in Hc. destruct (a_spec a) as [t| |] eqn:Es; try destruct Hc.
    destruct t as [| |s cs| | |]; try destruct Hc. destruct c as [n t o [[v|]|] st|t]; try (exists O; intros; exact I). eapply H; eassumption.
  - exists k. intros f a s cs n t o v st Hf Ha Es Hc. apply (Hk (Comp n t o (Some (Some v)) st) f); [|exact Hf].
    apply in_flat_map. exists a. split; [exact Ha|]. unfold record_comps. rewrite Es. exact Hc.
Qed.
(** When type references are not circular, reorder_assignments returns or throws; it does not run forever. *)
Theorem C57_outcome_partial : forall tr md l, distinct_names tr -> acyclic tr -> resolvable tr md -> In md (module_names tr) ->
  exists low, forall fuel, (low <= fuel)%nat -> (exists l', reorder_assignments fuel tr md l = Done l') \/ reorder_assignments fuel tr md l = Throw.
Proof.
  intros tr md l Hd Hac Hr Hm.
  destruct (comps_bound (fun t f => fine (is_enumerated f tr md t)) l) as (k & Hk).
  { intros a s cs n t o v st _ _ _. destruct (C62_resolve_partial tr md t Hd Hac Hr Hm) as (low & [(t' & m' & H & _)|(H & _)]);
      exists low; intros f Hf; unfold is_enumerated; rewrite (H f Hf); split; discriminate. }
  set (B := (k + S (List.length (all_deps l)))%nat). exists (S (B + List.length l)). intros fuel Hf.
  destruct (reorder_fine tr md l B ltac:(lia)) with (fuel := fuel) as (H1 & H2); [|lia|].
  - intros f a s cs n t o v st Hf'. apply Hk. lia.
  - destruct (reorder_assignments fuel tr md l) as [l'| | |]; [left; eauto|right; reflexivity|congruence..].
Qed.
Lemma reorder_succeeds tr md l k : NoDup (map a_name l) -> all_defined md l -> finite_values md l ->
  (forall f a s cs n t o v st, (k <= f)%nat -> In a l -> a_spec a = TypeA (Record s cs) -> In (Comp n t o (Some (Some v)) st) cs -> exists b, is_enumerated f tr md t = Done b /\ (t = Builtin true -> b = true)) ->
  (forall a t, In a l -> a_spec a = TypeA t -> ~ set_default t) -> (forall a t v, In a l -> a_spec a = ValueA t v -> ~ set_default t) ->
  forall fuel, (S (k + S (List.length (all_deps l)) + List.length l) <= fuel)%nat -> exists l', reorder_assignments fuel tr md l = Done l'.
Proof.
  intros Hn Hall (rank & Hrank) Hk Hset1 Hset2.
  set (B := (k + S (List.length (all_deps l)))%nat). intros fuel Hf. change (S (B + List.length l) <= fuel)%nat in Hf.
  assert (Hdefined : forall a d, In a l -> In d (dependencies a) -> local md d = true -> In (d_name d) (map a_name l)).
  { intros a d Ha Hdd Hl. apply local_iff in Hl. destruct (Hall a Ha) as (H1 & H2 & _). unfold dependencies in Hdd. destruct (a_spec a) as [t|t v|] eqn:Es; [| |destruct Hdd].
    - apply (H1 t (d_module d) (d_name d)); [left; reflexivity|apply dep_uses, Hdd|exact Hl].
    - apply in_app_or in Hdd as [Hdd|Hdd].
      + apply (H1 t (d_module d) (d_name d)); [right; eauto|apply dep_uses, Hdd|exact Hl].
      + destruct v as [v|]; [|destruct Hdd]. destruct Hdd as [<-|[]]. eapply H2. reflexivity. }
  assert (Hrecord : forall a s cs d, In a l -> a_spec a = TypeA (Record s cs) -> In d (dependencies a) -> local md d = true).
  { intros a s cs d Ha Es Hdd. destruct (Hall a Ha) as (_ & _ & H3). apply local_iff, (H3 s cs _ (d_name d) Es). apply dep_uses. unfold dependencies in Hdd. rewrite Es in Hdd. exact Hdd. }
  assert (Hns : Forall no_nested_set_default l).
  { apply Forall_forall. intros a Ha. unfold no_nested_set_default. destruct (a_spec a) as [t|t v|] eqn:Es; [|eapply Hset2; eassumption|exact I].
    pose proof (Hset1 a t Ha Es) as Ht. destruct t; try exact Ht. intros n t o d st Hc Hsd. apply Ht. eapply sd_comp; eassumption. }
  assert (Hrun : forall l0 st, incl l0 l -> inv [] st -> exists st', foldm (fun a st => resolve_dependencies fuel tr md l (a_name a) st) l0 st = Done st').
  { induction l0 as [|a l0 IH]; intros st Hi Hinv; [eexists; reflexivity|]. cbn [foldm].
    destruct (resolve_succeeds tr md l B rank ltac:(lia) Hn Hdefined Hrecord) with (fuel := fuel) (S := @nil string) (x := a_name a) (st := st) as (st1 & -> & A1).
    - intros b Hb. destruct (a_spec b) eqn:Es; try exact I. eapply Hset1; eassumption.
    - intros f b s cs n t o v st0 Hf'. apply Hk. lia.
    - exact Hrank.
    - exact Hinv.
    - constructor.
    - apply in_map, Hi. left. reflexivity.
    - pose proof (unseen_length (map a_name l) (visited st)) as Hu. rewrite map_length in Hu. lia.
    - cbn [obind]. apply IH; [intros z Hz; apply Hi; right; exact Hz|apply A1]. }
  destruct (Hrun l (DState [] [] [] []) (incl_refl _)) as (st & E); [split; cbn; [tauto|tauto|apply incl_refl]|].
  unfold reorder_assignments. rewrite E. cbn [obind]. destruct (reorder_state _ _ _ _ Hns _ _ _ (good_start tr md l) E) as (G & _ & I).
  assert (List.length (ordered st) = List.length l) as ->; [|rewrite Nat.eqb_refl; eauto].
  rewrite <- (map_length a_name (ordered st)), <- (map_length a_name l), <- (g_names _ _ _ _ G). apply Nat.le_antisymm.
  - apply NoDup_incl_length; [apply (g_nodup _ _ _ _ G)|apply (good_defined _ _ _ _ G)].
  - apply NoDup_incl_length; [exact Hn|]. intros x Hx. apply in_map_iff in Hx as (a & <- & Ha). apply I, Ha.
Qed.
(** When it returns: distinct names, all defined; no type whose values are infinite; a default given by name in no SET.  (With
    C57_order_partial, then, correctly ordered.)  Partial: a default of a type that is a name for an ENUMERATED type is taken for the
    name of a value when looking for cycles, a reference into another module for one into this module: see below. *)
Theorem C57_success_partial : forall tr md l, distinct_names tr -> acyclic tr -> resolvable tr md -> In md (module_names tr) ->
  NoDup (map a_name l) -> all_defined md l -> default_types_defined tr md l -> finite_values md l ->
  (forall a t, In a l -> a_spec a = TypeA t -> ~ set_default t) -> (forall a t v, In a l -> a_spec a = ValueA t v -> ~ set_default t) ->
  exists low, forall fuel, (low <= fuel)%nat -> exists l', reorder_assignments fuel tr md l = Done l'.
Proof.
  intros tr md l Hd Hac Hr Hm Hn Hall Hdef Hfin Hset1 Hset2.
  destruct (comps_bound (fun t f => exists b, is_enumerated f tr md t = Done b /\ (t = Builtin true -> b = true)) l) as (k & Hk).
  { intros a s cs n t o v st Ha Es Hc. destruct (C62_resolve_partial tr md t Hd Hac Hr Hm) as (low & [(t' & m' & H & _)|(_ & H)]).
    - exists low. intros f Hf. unfold is_enumerated. rewrite (H f Hf). eexists. split; [reflexivity|]. intros ->. specialize (H f Hf). cbn in H.
      apply obind_done in H as (? & _ & H). injection H as <- _. reflexivity.
    - destruct (Hdef a s cs n t o v st Ha Es Hc) as (t' & m' & Ht). exfalso. eapply H, Ht. }
  eexists. eapply reorder_succeeds; eassumption.
Qed.
Ltac no_set := let H := fresh in intros H; repeat (inversion H; subst; clear H; cbn in *; intuition; repeat match goal with E : (_, _) = _ |- _ => injection E as <- <- | E : Comp _ _ _ _ _ = _ |- _ => injection E as <- <- <- <- <- end; try discriminate; try contradiction;
  try match goal with E : set_default _ |- _ => rename E into H end).
(** A module with a value, a list and a choice on a cycle and an optional component on a cycle. *)
Definition mod57 : list assignment :=
  [ty "T" (Record false [Comp "a" (Builtin false) false (Some (Some "v")) Static; Comp "c" (Ref None "C") false None Static;
                         Comp "next" (Ref None "T") true None Static]);
   ty "C" (Choice Static [("l", Ref None "L"); ("x", Builtin false)]); ty "L" (ListOf false Static (Ref (Some "M") "C"));
   Assign "v" (ValueA (Builtin false) (Some "w")); Assign "w" (ValueA (Builtin false) None)].
Lemma mod57_no_set a t : In a mod57 -> (a_spec a = TypeA t \/ exists v, a_spec a = ValueA t v) -> ~ set_default t.
Proof. intros Ha Hs. cbn in Ha. decompose [or] Ha; try contradiction; subst a; destruct Hs as [E|(v & E)]; try discriminate E; injection E as <-; try (intros _; no_set); no_set. Qed.
Lemma mod57_defined : all_defined "M" mod57.
Proof.
  intros a Ha.
  assert (Huses : forall t m x, (a_spec a = TypeA t \/ exists v, a_spec a = ValueA t v) -> uses t m x -> this_module "M" m /\ In x (map a_name mod57)).
  { intros t m x Hs Hu. pose proof (mod57_no_set a t Ha Hs) as Hn. destruct (uses_dep _ _ _ Hu) as [H|H]; [contradiction|]. clear Hu Hn.
    cbn in Ha. decompose [or] Ha; try contradiction; subst a; destruct Hs as [E|(v & E)]; try discriminate E; injection E as <-; cbn in H;
      decompose [or] H; try contradiction; match goal with E : Dep _ _ = Dep _ _ |- _ => injection E as <- <- end; (split; [unfold this_module; auto|cbn; auto 10]). }
  split; [intros t m x Hs Hu _; apply (Huses t m x Hs Hu)|]. split; [|intros s cs m x Es Hu; apply (Huses _ m x (or_introl Es) Hu)].
  - intros t x E. cbn in Ha. decompose [or] Ha; try contradiction; subst a; try discriminate E. injection E as _ <-. cbn. auto 10.
Qed.
Ltac names_cases := repeat match goal with
    | U : uses (Builtin _) _ _ |- _ => inversion U
    | U : uses (Ref _ _) _ _ |- _ => inversion U; subst; clear U
    | U : uses (Tagged _) _ _ |- _ => inversion U; subst; clear U
    | U : uses (Choice _ _) _ _ |- _ => inversion U; subst; clear U
    | U : this_module _ (Some _) |- _ => destruct U as [U|U]; discriminate U
    | E : In _ (_ :: _) |- _ => destruct E as [E|E]
    | E : In _ [] |- _ => destruct E
    | E : _ \/ _ |- _ => destruct E as [E|E]
    | E : False |- _ => destruct E
    | E : (_, _) = (_, _) |- _ => injection E; intros; subst; clear E
    | E : Comp _ _ _ _ _ = Comp _ _ _ _ _ |- _ => injection E; intros; subst; clear E
    | N : ~ (true = true /\ None = None) |- _ => exfalso; apply N; auto
    | E : None = Some _ |- _ => discriminate E
    end.
Lemma mod57_finite : finite_values "M" mod57.
Proof.
  exists (fun x => if String.eqb x "T" then 3 else if String.eqb x "v" then 1 else if String.eqb x "w" then 0 else 2)%nat. intros a x Ha H.
  cbn in Ha. decompose [or] Ha; try contradiction; subst a; inversion H; subst; try contradiction; cbn in *;
    names_cases; cbn; lia.
Qed.
Example C57_example : let tr := [Module "M" [] mod57] in
  distinct_names tr /\ acyclic tr /\ resolvable tr "M" /\ In "M" (module_names tr) /\ NoDup (map a_name mod57) /\ all_defined "M" mod57 /\
  default_types_defined tr "M" mod57 /\ finite_values "M" mod57 /\
  (forall a t, In a mod57 -> a_spec a = TypeA t -> ~ set_default t) /\ (forall a t v, In a mod57 -> a_spec a = ValueA t v -> ~ set_default t) /\
  reorder_assignments 20 tr "M" mod57 =
    Done [Assign "w" (ValueA (Builtin false) None); Assign "v" (ValueA (Builtin false) (Some "w"));
          ty "C" (Choice Dynamic [("l", Ref None "L"); ("x", Builtin false)]);
          ty "T" (Record false [Comp "a" (Builtin false) false (Some (Some "v")) Static; Comp "c" (Ref None "C") false None Static;
                                Comp "next" (Ref None "T") true None Dynamic]);
          ty "L" (ListOf false Static (Ref (Some "M") "C"))].
Proof.
  cbv zeta. repeat match goal with |- _ /\ _ => split end.
  - split; [repeat constructor; cbn; intuition discriminate|]. intros md [<-|[]]. repeat constructor; cbn; intuition discriminate.
  - exists (fun _ _ => 0)%nat. intros m r t mo r' (md & [<-|[]] & <- & Ha) Hr. cbn in Ha. decompose [or] Ha; try contradiction;
      match goal with E : _ = Assign _ _ |- _ => injection E as <- <- || discriminate E end; discriminate Hr.
  - intros m r t (md & [<-|[]] & <- & Ha). cbn in Ha. decompose [or] Ha; try contradiction; discriminate.
  - left. reflexivity.
  - repeat constructor; cbn; intuition discriminate.
  - apply mod57_defined.
  - intros a s cs n t o v st Ha Es Hc. cbn in Ha. decompose [or] Ha; try contradiction; subst a; try discriminate Es. injection Es as <- <-.
    cbn in Hc. decompose [or] Hc; try contradiction; match goal with E : Comp _ _ _ _ _ = _ |- _ => injection E; intros; subst end; try discriminate.
    eexists _, _. apply ti_final. exact I.
  - apply mod57_finite.
  - intros a t Ha Es. apply (mod57_no_set a t Ha). left. exact Es.
  - intros a t v Ha Es. apply (mod57_no_set a t Ha). right. eauto.
  - vm_compute. reflexivity.
Qed.
(** T ::= SEQUENCE { s SET { a INTEGER DEFAULT v } }, v INTEGER ::= ...: the C++ for [v] comes after its use. *)
Theorem C57_nested_set_refuted : exists tr l l', NoDup (map a_name l) /\ reorder_assignments 9 tr "M" l = Done l' /\ ~ definitions_first tr "M" l'.
Proof.
  set (l := [ty "T" (seq [Comp "s" (Record true [Comp "a" (Builtin false) false (Some (Some "v")) Static]) false None Static]);
             Assign "v" (ValueA (Builtin false) None)]).
  exists [Module "M" [] l], l, l. split; [repeat constructor; cbn; intuition discriminate|]. split; [vm_compute; reflexivity|].
  intros H. specialize (H [] _ _ eq_refl "v"). apply H. eapply n_component; [left; reflexivity|intros (E & _); discriminate| |left; reflexivity].
  eapply u_default; [left; reflexivity|discriminate].
Qed.
(** Modules X.680 allows, with everything they refer to defined, for which it throws. *)
Definition allowed_but_rejected (tr : tree) (md : string) (l : list assignment) : Prop :=
  distinct_names tr /\ acyclic tr /\ In md (module_names tr) /\ (exists m, In m tr /\ m_name m = md /\ m_assigns m = l) /\
  finite_values md l /\ (forall a x, In a l -> refers tr md a x -> In x (map a_name l)) /\
  forall fuel, (9 <= fuel)%nat -> reorder_assignments fuel tr md l = Throw.
(** E ::= ENUMERATED { red }, S ::= SEQUENCE { e E DEFAULT red }, C ::= CHOICE { s S }. *)
Theorem C57_enumerated_default_refuted : exists tr l, allowed_but_rejected tr "M" l.
Proof.
  set (l := [ty "E" (Builtin true); ty "S" (seq [Comp "e" (Ref None "E") false (Some (Some "red")) Static]); ty "C" (Choice Static [("s", Ref None "S")])]).
  set (tr := [Module "M" [] l]). exists tr, l. unfold allowed_but_rejected. repeat match goal with |- _ /\ _ => split end.
  - split; [repeat constructor; cbn; intuition discriminate|]. intros md [<-|[]]. repeat constructor; cbn; intuition discriminate.
  - exists (fun _ _ => 0)%nat. intros m r t mo r' (md & [<-|[]] & <- & Ha) Hr. cbn in Ha. decompose [or] Ha; try contradiction;
      match goal with E : _ = Assign _ _ |- _ => injection E as <- <- || discriminate E end; discriminate Hr.
  - left. reflexivity.
  - eexists. split; [left; reflexivity|]. split; reflexivity.
  - exists (fun x => if String.eqb x "S" then 1 else 0)%nat. intros a x Ha H. cbn in Ha. decompose [or] Ha; try contradiction; subst a; inversion H; subst; try contradiction; cbn in *;
      names_cases; cbn; lia.
  - intros a x Ha H. cbn in Ha. decompose [or] Ha; try contradiction; subst a; inversion H; subst; try contradiction; cbn in *; names_cases; auto.
    all: exfalso; match goal with N : ~ enumerated_type _ _ _ |- _ => apply N end; exists "M"; eapply ti_ref with (t := Builtin true); [|apply ti_final; exact I]; exists (Module "M" [] l);
      split; [left; reflexivity|split; [reflexivity|left; reflexivity]].
  - intros fuel Hf. do 9 (destruct fuel as [|fuel]; [lia|]). vm_compute. reflexivity.
Qed.
(** E ::= [1] ENUMERATED { red }, S ::= SEQUENCE { e E DEFAULT red }. *)
Theorem C57_tagged_default_refuted : exists tr l, allowed_but_rejected tr "M" l.
Proof.
  set (l := [ty "E" (Tagged (Builtin true)); ty "S" (seq [Comp "e" (Ref None "E") false (Some (Some "red")) Static])]).
  set (tr := [Module "M" [] l]). exists tr, l. unfold allowed_but_rejected. repeat match goal with |- _ /\ _ => split end.
  - split; [repeat constructor; cbn; intuition discriminate|]. intros md [<-|[]]. repeat constructor; cbn; intuition discriminate.
  - exists (fun _ _ => 0)%nat. intros m r t mo r' (md & [<-|[]] & <- & Ha) Hr. cbn in Ha. decompose [or] Ha; try contradiction;
      match goal with E : _ = Assign _ _ |- _ => injection E as <- <- || discriminate E end; discriminate Hr.
  - left. reflexivity.
  - eexists. split; [left; reflexivity|]. split; reflexivity.
  - exists (fun x => if String.eqb x "S" then 1 else 0)%nat. intros a x Ha H. cbn in Ha. decompose [or] Ha; try contradiction; subst a; inversion H; subst; try contradiction; cbn in *;
      names_cases; cbn; lia.
  - intros a x Ha H. cbn in Ha. decompose [or] Ha; try contradiction; subst a; inversion H; subst; try contradiction; cbn in *; names_cases; auto.
    all: exfalso; match goal with N : ~ enumerated_type _ _ _ |- _ => apply N end; exists "M"; eapply ti_ref with (t := Tagged (Builtin true)); [|apply ti_tagged, ti_final; exact I]; exists (Module "M" [] l);
      split; [left; reflexivity|split; [reflexivity|left; reflexivity]].
  - intros fuel Hf. do 9 (destruct fuel as [|fuel]; [lia|]). vm_compute. reflexivity.
Qed.
(** S ::= SEQUENCE { x Other.T }, with T in module Other. *)
Theorem C57_other_module_refuted : exists tr l, allowed_but_rejected tr "M" l.
Proof.
  set (l := [ty "S" (seq [Comp "x" (Ref (Some "Other") "T") false None Static])]).
  set (tr := [Module "Other" [] [ty "T" (Builtin false)]; Module "M" [] l]). exists tr, l. unfold allowed_but_rejected. repeat match goal with |- _ /\ _ => split end.
  - split; [repeat constructor; cbn; intuition discriminate|]. intros md [<-|[<-|[]]]; repeat constructor; cbn; intuition discriminate.
  - exists (fun _ _ => 0)%nat. intros m r t mo r' (md & [<-|[<-|[]]] & <- & Ha) Hr; cbn in Ha; decompose [or] Ha; try contradiction;
      match goal with E : _ = Assign _ _ |- _ => injection E as <- <- || discriminate E end; discriminate Hr.
  - right. left. reflexivity.
  - eexists. split; [right; left; reflexivity|]. split; reflexivity.
  - exists (fun x => if String.eqb x "S" then 1 else 0)%nat. intros a x Ha H. cbn in Ha. decompose [or] Ha; try contradiction; subst a; inversion H; subst; try contradiction; cbn in *;
      names_cases; cbn; lia.
  - intros a x Ha H. cbn in Ha. decompose [or] Ha; try contradiction; subst a; inversion H; subst; try contradiction; cbn in *; names_cases; auto.
  - intros fuel Hf. do 9 (destruct fuel as [|fuel]; [lia|]). vm_compute. reflexivity.
Qed.
