(** Resolving references, circular definitions included (C62). *)
From Verif Require Import CompilerTree TreeSpec ModuleProofs PropertiesTree.
Local Open Scope string_scope.
Local Open Scope list_scope.

Definition right (tr : tree) (m : string) (t : typ) (o : out (typ * string)) : Prop :=
  match o with Done (t', m') => type_is tr m t (untag t') m' | Throw => forall t' m', ~ type_is tr m t t' m' | Loop => True | Undef => False end.
Lemma type_is_untag tr m t : final (untag t) -> type_is tr m t (untag t) m.
Proof. induction t; intros Hf; try (apply ti_final; exact I); [destruct Hf|]. apply ti_tagged, IHt, Hf. Qed.
Lemma ref_module_only tr md md2 mo m2 r t m : in_module md mo = in_module md2 m2 -> type_is tr md (Ref mo r) t m -> type_is tr md2 (Ref m2 r) t m.
Proof. intros E H. inversion H as [? ? Hf| |? ? ? u ? ? Hdef Hu]; subst; [destruct Hf|]. rewrite E in *. eapply ti_ref; eassumption. Qed.
Lemma resolve_ref_right tr cur : distinct_names tr -> resolvable tr cur -> forall fuel md mo r, right tr md (Ref mo r) (resolve_ref fuel tr cur md mo r).
Proof.
  intros Hd Hr. induction fuel as [|fuel IH]; intros md mo r; [exact I|]. cbn [resolve_ref]. change ref_module with in_module.
  destruct (lookup_cases tr (in_module md mo) r Hd) as [(w & a & Ew & En & Ea & Hdef)|(He & Hundef)].
  - rewrite Ew. cbn [obind]. rewrite Ea. cbn [obind].
    assert (Hthrow : (forall t, a_spec a <> TypeA t) -> right tr md (Ref mo r) Throw).
    { intros Hs t' m' H. destruct (type_is_inv_ref _ _ _ _ _ _ _ Hd Hdef H) as (t & Et & _). exact (Hs t Et). }
    destruct (a_spec a) as [t| |] eqn:Es; [|apply Hthrow; discriminate..].
    assert (Hfinal : final (untag t) -> right tr md (Ref mo r) (Done (t, m_name w))).
    { intros Hf. cbn [right]. rewrite En. eapply ti_ref; [exact Hdef|]. apply type_is_untag, Hf. }
    destruct t as [e|m' r'|s cs|s sto t|sto alts|t]; try (apply Hfinal; exact I).
    + specialize (IH (in_module md mo) m' r'). change (match mo with Some x => x | None => md end) with (in_module md mo). destruct (resolve_ref fuel tr cur (in_module md mo) m' r') as [[t' x]| | |]; cbn [right] in *; [|intros t' x H|destruct IH|exact I].
      * eapply ti_ref; [exact Hdef|exact IH].
      * destruct (type_is_inv_ref _ _ _ _ _ _ _ Hd Hdef H) as (t & [= <-] & Ht). exact (IH _ _ Ht).
    + pose proof (Hr _ _ _ Hdef) as Ht. destruct t as [e|m' r'|s cs|s sto t|sto alts|t]; try (apply Hfinal; exact I); [|destruct Ht].
      assert (Em : in_module cur m' = in_module (in_module md mo) m') by (destruct m'; [reflexivity|]; cbn; cbn in Ht; congruence).
      specialize (IH cur m' r'). destruct (resolve_ref fuel tr cur cur m' r') as [[t' x]| | |]; cbn [right obind untag] in *; [|intros t' x H|destruct IH|exact I].
      * eapply ti_ref; [exact Hdef|]. apply ti_tagged. eapply ref_module_only; [exact Em|exact IH].
      * destruct (type_is_inv_ref _ _ _ _ _ _ _ Hd Hdef H) as (t & [= <-] & Ht'). apply type_is_inv_tag in Ht'. apply (IH t' x). eapply ref_module_only; [symmetry; exact Em|exact Ht'].
  - assert (Hno : right tr md (Ref mo r) Throw). { intros t' m' H. inversion H as [? ? Hf| |? ? ? t ? ? Hdef Ht]; subst; [destruct Hf|]. exact (Hundef _ Hdef). }
    destruct He as [He|(w & He & Ha)]; rewrite He; cbn [obind]; [exact Hno|]. rewrite Ha. exact Hno.
Qed.
(** Whatever the definitions are, circular ones too: if resolving a type ends, then with the type and module that X.680 says, or, if there is none, with an exception. *)
Theorem C62_right_partial : forall fuel tr m t, distinct_names tr -> resolvable tr m -> In m (module_names tr) ->
  match resolve_type fuel tr m t with Done (t', m') => type_is tr m t (untag t') m' | Throw => forall t' m', ~ type_is tr m t t' m' | Loop => True | Undef => False end.
Proof.
  intros fuel tr m t Hd Hr Hm. change (right tr m t (resolve_type fuel tr m t)).
  assert (Hfinal : forall u, final u -> right tr m u (do md <- find_module tr m; Done (u, m_name md))).
  { intros u Hf. destruct (find_module_some _ _ Hm) as (md & E). rewrite E. cbn [obind right]. apply find_module_in in E as (_ & E). rewrite E. destruct u; try destruct Hf; apply ti_final; exact I. }
  induction t as [e|mo r|s cs|s sto t|sto alts|t IH]; cbn [resolve_type]; try (apply Hfinal; exact I).
  - apply resolve_ref_right; auto.
  - unfold right in *. destruct (resolve_type fuel tr m t) as [[t' x]| | |]; [apply ti_tagged, IH| |destruct IH|exact I]. intros t' x H. apply (IH t' x). apply type_is_inv_tag, H.
Qed.

Definition reaches (tr : tree) (cur m : string) (mo : option string) (r : string) (t' : typ) (m' : string) : Prop :=
  exists low u, untag u = t' /\ forall fuel, (low <= fuel)%nat -> resolve_ref fuel tr cur m mo r = Done (u, m').
Lemma resolve_ref_module tr cur fuel md md2 mo m2 r : in_module md mo = in_module md2 m2 -> resolve_ref fuel tr cur md mo r = resolve_ref fuel tr cur md2 m2 r.
Proof.
  intros E. destruct fuel as [|fuel]; [reflexivity|]. cbn [resolve_ref]. change (match mo with Some x => x | None => md end) with (in_module md mo). change (match m2 with Some x => x | None => md2 end) with (in_module md2 m2).
  change ref_module with in_module. rewrite E. reflexivity.
Qed.
Lemma resolve_ref_reaches tr cur : distinct_names tr -> resolvable tr cur -> forall m t t' m', type_is tr m t t' m' ->
  match t with Ref mo r => reaches tr cur m mo r t' m' | Tagged (Ref mo r) => reaches tr cur m mo r t' m' | _ => True end.
Proof.
  intros Hd Hr m t t' m' H. induction H as [m t Hf|m t t' m' H IH|m mo r t t' m' Hdef H IH].
  - destruct t; try exact I; destruct Hf.
  - destruct t; try exact I. exact IH.
  - destruct (lookup_cases tr (in_module m mo) r Hd) as [(w & a & Ew & En & Ea & Hdef')|(_ & Hundef)]; [|exfalso; exact (Hundef _ Hdef)].
    assert (Es : a_spec a = TypeA t) by exact (defines_unique _ _ _ _ _ Hd Hdef' Hdef).
    assert (Hred : forall fuel, resolve_ref (S fuel) tr cur m mo r =
      match t with
      | Ref m' r' => resolve_ref fuel tr cur (in_module m mo) m' r'
      | Tagged (Ref m' r') => do (t, x) <- resolve_ref fuel tr cur cur m' r'; Done (Tagged t, x)
      | t => Done (t, m_name w)
      end).
    { intros fuel. cbn [resolve_ref]. change ref_module with in_module. rewrite Ew. cbn [obind]. rewrite Ea. cbn [obind]. rewrite Es. destruct t as [| | | | |[]]; reflexivity. }
    assert (Hfinal : (forall fuel, resolve_ref (S fuel) tr cur m mo r = Done (t, m_name w)) -> final (untag t) -> reaches tr cur m mo r t' m').
    { intros Hq Hf. exists 1%nat, t. assert (G : t' = untag t /\ m' = in_module m mo).
      { clear -H Hf. induction t; cbn [untag] in *; try (inversion H; subst; auto; fail); [destruct Hf|]. apply IHt; [apply type_is_inv_tag, H|exact Hf]. }
      destruct G as [-> ->]. split; [reflexivity|]. intros [|fuel] Hl; [inversion Hl|]. rewrite Hq, En. reflexivity. }
    destruct t as [e|m1 r1|s cs|s sto t|sto alts|t]; try (apply Hfinal; [exact Hred|exact I]).
    + destruct IH as (low & u & Eu & Hu). exists (S low), u. split; [exact Eu|]. intros [|fuel] Hl; [inversion Hl|]. rewrite Hred. apply Hu. apply le_S_n, Hl.
    + pose proof (Hr _ _ _ Hdef) as Ht. destruct t as [e|m1 r1|s cs|s sto t|sto alts|t]; try (apply Hfinal; [exact Hred|exact I]); [|destruct Ht].
      assert (Em : in_module cur m1 = in_module (in_module m mo) m1) by (destruct m1; [reflexivity|]; cbn; cbn in Ht; congruence).
      destruct IH as (low & u & Eu & Hu). exists (S low), (Tagged u). split; [exact Eu|]. intros [|fuel] Hl; [inversion Hl|]. rewrite Hred, (resolve_ref_module tr cur fuel cur (in_module m mo) m1 m1 r1 Em), Hu by (apply le_S_n, Hl). reflexivity.
Qed.
(** If X.680 says a type, it is found, whatever circles there are among the other definitions.  (So a type that resolving never returns for, is none.) *)
Theorem C62_found_partial : forall tr m t t' m', distinct_names tr -> resolvable tr m -> In m (module_names tr) -> type_is tr m t t' m' ->
  exists low u, untag u = t' /\ forall fuel, (low <= fuel)%nat -> resolve_type fuel tr m t = Done (u, m').
Proof.
  intros tr m t t' m' Hd Hr Hm. induction t as [e|mo r|s cs|s sto t _|sto alts|t IH]; intros H.
  2: exact (resolve_ref_reaches tr m Hd Hr _ _ _ _ H).
  5: { apply type_is_inv_tag in H. destruct (IH H) as (low & u & G). exists low, u. exact G. }
  all: exists 0%nat; match goal with H : type_is _ _ ?t _ _ |- _ => exists t end; (split; [inversion H; subst; reflexivity|]); intros fuel _; cbn [resolve_type]; destruct (find_module_some _ _ Hm) as (md & E); rewrite E; cbn [obind];
    apply find_module_in in E as (_ & E); rewrite E; inversion H; subst; reflexivity.
Qed.
(** A ::= B, B ::= A, C ::= [1] D, D ::= ENUMERATED ...: C is found, and resolving A never ends. *)
Example C62_found_example : let tr := [Module "M" [] [ty "A" (Ref None "B"); ty "B" (Ref None "A"); ty "C" (Tagged (Ref None "D")); ty "D" (Builtin true)]] in
  distinct_names tr /\ resolvable tr "M" /\ In "M" (module_names tr) /\ type_is tr "M" (Ref None "C") (Builtin true) "M" /\ resolve_type 9 tr "M" (Ref None "C") = Done (Tagged (Builtin true), "M") /\
  resolve_type 99 tr "M" (Ref None "A") = Loop.
Proof.
  cbv zeta. split; [|split; [|split; [|split; [|split]]]]; try reflexivity.
  - split; [repeat constructor; cbn; intuition discriminate|]. intros md [<-|[]]; repeat constructor; cbn; intuition discriminate.
  - intros m r t (md & [<-|[]] & <- & Ha); cbn in Ha; intuition; try discriminate. match goal with H : _ = _ |- _ => injection H as <- <- end. reflexivity.
  - cbn. tauto.
  - eapply ti_ref with (t := Tagged (Ref None "D")); [def_check|]. apply ti_tagged. eapply ti_ref with (t := Builtin true); [eexists; split; [left; reflexivity|split; [reflexivity|cbn; tauto]]|]. apply ti_final. exact I.
Qed.
