(** Lemmas about the meaning of types (PassesSpec.v). *)
From Verif Require Import Base CompilerPasses PassesSpec.
Local Open Scope string_scope.
Local Open Scope list_scope.

Lemma Forall2_map2 {A B C} (P : B -> C -> Prop) (f : A -> B) (g : A -> C) l : (forall x, In x l -> P (f x) (g x)) -> Forall2 P (map f l) (map g l).
Proof. induction l as [|x l IH]; intros H; constructor; [apply H; left; reflexivity|]. apply IH. intros y Hy. apply H. right. exact Hy. Qed.
Lemma Forall2_map_rel {A B C D} (R : A -> B -> Prop) (P : C -> D -> Prop) (f : A -> C) (g : B -> D) l m :
  (forall x y, R x y -> P (f x) (g y)) -> Forall2 R l m -> Forall2 P (map f l) (map g m).
Proof. intros H. induction 1; constructor; auto. Qed.
Lemma Forall2_map_rel' {A B C D} (R : A -> B -> Prop) (P : D -> C -> Prop) (f : A -> C) (g : B -> D) l m :
  (forall x y, R x y -> P (g y) (f x)) -> Forall2 R l m -> Forall2 P (map g m) (map f l).
Proof. intros H. induction 1; constructor; auto. Qed.
(** ** induction on types *)
Section ptyp_induction.
  Context (P : ptyp -> Prop).
  Definition on_comp (c : pcomp) : Prop := match c with PComp _ t _ _ => P t | PCompOf t => P t end.
  Hypothesis H_leaf : forall e k, P (PLeaf e k).
  Hypothesis H_ref : forall m r ps, Forall P ps -> P (PRef m r ps).
  Hypothesis H_record : forall s cs, Forall on_comp cs -> P (PRecord s cs).
  Hypothesis H_list : forall s t, P t -> P (PListOf s t).
  Hypothesis H_choice : forall l, Forall (fun a => P (snd a)) l -> P (PChoice l).
  Hypothesis H_tagged : forall g t, P t -> P (PTagged g t).
  Hypothesis H_field : forall m c fs, P (PField m c fs).
  Fixpoint ptyp_induct (t : ptyp) : P t :=
    match t with
    | PLeaf e k => H_leaf e k
    | PRef m r ps => H_ref m r ps ((fix go l : Forall P l := match l with [] => Forall_nil _ | x :: l => Forall_cons x (ptyp_induct x) (go l) end) ps)
    | PRecord s cs => H_record s cs ((fix go l : Forall on_comp l :=
        match l with
        | [] => Forall_nil _
        | c :: l => Forall_cons c (match c as c return on_comp c with PComp _ t _ _ => ptyp_induct t | PCompOf t => ptyp_induct t end) (go l)
        end) cs)
    | PListOf s t => H_list s t (ptyp_induct t)
    | PChoice l => H_choice l ((fix go l : Forall (fun a => P (snd a)) l :=
        match l with [] => Forall_nil _ | a :: l => Forall_cons a (ptyp_induct (snd a)) (go l) end) l)
    | PTagged g t => H_tagged g t (ptyp_induct t)
    | PField m c fs => H_field m c fs
    end.
End ptyp_induction.
(** ** induction on expanded types *)
Section dt_induction.
  Context (P : dt -> Prop).
  Definition on_dcomp (c : dcomp) : Prop := match c with DComp _ t _ _ => P t | DCompOf t => P t end.
  Hypothesis H_bot : P DBot.
  Hypothesis H_err : P DErr.
  Hypothesis H_open : P DOpen.
  Hypothesis H_leaf : forall e k, P (DLeaf e k).
  Hypothesis H_record : forall s cs, Forall on_dcomp cs -> P (DRecord s cs).
  Hypothesis H_list : forall s t, P t -> P (DListOf s t).
  Hypothesis H_choice : forall l, Forall (fun a => P (snd a)) l -> P (DChoice l).
  Hypothesis H_tagged : forall g t, P t -> P (DTagged g t).
  Fixpoint dt_induct (t : dt) : P t :=
    match t with
    | DBot => H_bot | DErr => H_err | DOpen => H_open
    | DLeaf e k => H_leaf e k
    | DRecord s cs => H_record s cs ((fix go l : Forall on_dcomp l :=
        match l with
        | [] => Forall_nil _
        | c :: l => Forall_cons c (match c as c return on_dcomp c with DComp _ t _ _ => dt_induct t | DCompOf t => dt_induct t end) (go l)
        end) cs)
    | DListOf s t => H_list s t (dt_induct t)
    | DChoice l => H_choice l ((fix go l : Forall (fun a => P (snd a)) l :=
        match l with [] => Forall_nil _ | a :: l => Forall_cons a (dt_induct (snd a)) (go l) end) l)
    | DTagged g t => H_tagged g t (dt_induct t)
    end.
End dt_induction.

Lemma dle_refl a : dle a a.
Proof.
  induction a as [ | | | |s cs IH|s t IH|l IH|g t IH] using dt_induct; try (constructor; auto; fail).
  - constructor. induction IH as [|c l Hc _ IHl]; constructor; [|exact IHl]. destruct c; constructor; exact Hc.
  - constructor. induction IH as [|c l Hc _ IHl]; constructor; [|exact IHl]. split; [reflexivity|exact Hc].
Qed.
Lemma dle_trans a : forall b c, dle a b -> dle b c -> dle a c.
Proof.
  induction a as [ | | | |s cs IH|s t IH|l IH|g t IH] using dt_induct; intros b c H1 H2.
  - constructor.
  - inversion H1; subst. exact H2.
  - inversion H1; subst. exact H2.
  - inversion H1; subst. exact H2.
  - inversion H1 as [| | | |? ? cs1 K1| | |]; subst. inversion H2 as [| | | |? ? cs2 K2| | |]; subst. constructor. clear H1 H2.
    revert cs1 cs2 K1 K2. induction IH as [|x l Hx _ IHl]; intros cs1 cs2 K1 K2; inversion K1 as [|? y ? l1 P1 Q1]; subst; inversion K2 as [|? z ? l2 P2 Q2]; subst; constructor.
    + destruct x as [nm t o d|t]; inversion P1; subst; inversion P2; subst; constructor; eapply Hx; eauto.
    + eapply IHl; eauto.
  - inversion H1; subst. inversion H2; subst. constructor. eapply IH; eauto.
  - inversion H1 as [| | | | | |? l1 K1|]; subst. inversion H2 as [| | | | | |? l2 K2|]; subst. constructor. clear H1 H2.
    revert l1 l2 K1 K2. induction IH as [|x l Hx _ IHl]; intros cs1 cs2 K1 K2; inversion K1 as [|? y ? l1 P1 Q1]; subst; inversion K2 as [|? z ? l2 P2 Q2]; subst; constructor.
    + destruct P1, P2. split; [congruence|]. eapply Hx; eauto.
    + eapply IHl; eauto.
  - inversion H1; subst. inversion H2; subst. constructor. eapply IH; eauto.
Qed.
(** a full expansion is not part of another *)
Fixpoint no_bot (a : dt) : bool :=
  match a with
  | DBot => false
  | DErr | DOpen | DLeaf _ _ => true
  | DRecord _ cs => forallb (fun c => match c with DComp _ t _ _ => no_bot t | DCompOf t => no_bot t end) cs
  | DListOf _ t => no_bot t
  | DChoice l => forallb (fun a => no_bot (snd a)) l
  | DTagged _ t => no_bot t
  end.
Lemma dle_total a : forall b, dle a b -> no_bot a = true -> a = b.
Proof.
  induction a as [ | | | |s cs IH|s t IH|l IH|g t IH] using dt_induct; intros b H Hn; cbn [no_bot] in Hn; try discriminate.
  - inversion H; subst; reflexivity.
  - inversion H; subst; reflexivity.
  - inversion H; subst; reflexivity.
  - inversion H as [| | | |? ? cs1 K1| | |]; subst. f_equal. clear H. revert cs1 K1 Hn.
    induction IH as [|x l Hx _ IHl]; intros cs1 K1 Hn; inversion K1 as [|? y ? l1 P1 Q1]; subst; [reflexivity|].
    cbn [forallb] in Hn. apply andb_true_iff in Hn as [Hn1 Hn2]. f_equal; [|apply IHl; auto].
    destruct x as [nm t o d|t]; inversion P1; subst; f_equal; apply Hx; auto.
  - inversion H; subst. f_equal. apply IH; auto.
  - inversion H as [| | | | | |? l1 K1|]; subst. f_equal. clear H. revert l1 K1 Hn.
    induction IH as [|x l Hx _ IHl]; intros cs1 K1 Hn; inversion K1 as [|? y ? l1 P1 Q1]; subst; [reflexivity|].
    cbn [forallb] in Hn. apply andb_true_iff in Hn as [Hn1 Hn2]. f_equal; [|apply IHl; auto].
    destruct x, y, P1 as [E1 E2]. cbn in *. subst. f_equal. apply Hx; auto.
  - inversion H; subst. f_equal. apply IH; auto.
Qed.
Lemma den_le n : forall k tr md env t, (n <= k)%nat -> dle (den n tr md env t) (den k tr md env t).
Proof.
  induction n as [|n IH]; intros k tr md env t Hk; [constructor|]. destruct k as [|k]; [lia|]. assert (Hk' : (n <= k)%nat) by lia.
  destruct t as [e q|m r ps|s cs|s t|l|g t|m c fs]; cbn [den].
  - constructor.
  - destruct (match m, ps with None, [] => env_find env r | _, _ => None end) as [[md' env' t']|]; [apply IH, Hk'|].
    destruct (target_of tr md m r) as [md' a|md'|]; [|apply IH, Hk'|constructor].
    destruct (p_spec a) as [body| | |]; try constructor. destruct (Nat.eqb _ _); [apply IH, Hk'|constructor].
  - constructor. apply Forall2_map2. intros [x t o d|t] _; constructor; apply IH, Hk'.
  - constructor. apply IH, Hk'.
  - constructor. apply Forall2_map2. intros a _. split; [reflexivity|apply IH, Hk'].
  - constructor. apply IH, Hk'.
  - destruct (match m with None => env_find env c | Some _ => None end) as [[md' env' [|m' c' [|]| | | | |]]|]; try constructor; [apply IH, Hk'|].
    destruct (target_of tr md m c) as [md' a|md'|]; [|apply IH, Hk'|constructor].
    destruct (p_params a); [|constructor]. destruct (p_spec a) as [body| |fields|]; try constructor.
    + destruct body as [| m' c' [|]| | | | |]; try constructor. apply IH, Hk'.
    + destruct fs as [|f [|]]; try constructor. destruct (find _ fields) as [x|]; [|constructor]. destruct (f_type x); [apply IH, Hk'|constructor].
Qed.
Lemma same_meaning_refl tr md t : same_meaning tr md t tr md t.
Proof. split; intros n; exists n; apply dle_refl. Qed.
Lemma same_meaning_sym tr md t tr' md' t' : same_meaning tr md t tr' md' t' -> same_meaning tr' md' t' tr md t.
Proof. intros [H1 H2]. split; assumption. Qed.
Lemma same_meaning_trans tr md t tr1 md1 t1 tr2 md2 t2 :
  same_meaning tr md t tr1 md1 t1 -> same_meaning tr1 md1 t1 tr2 md2 t2 -> same_meaning tr md t tr2 md2 t2.
Proof.
  intros [H1 H2] [H3 H4]. split; intros n.
  - destruct (H1 n) as [k Hk]. destruct (H3 k) as [j Hj]. exists j. eapply dle_trans; eauto.
  - destruct (H4 n) as [k Hk]. destruct (H2 k) as [j Hj]. exists j. eapply dle_trans; eauto.
Qed.
(** Types with the same meaning: if one has a finite expansion, it is that of the other. *)
Lemma same_meaning_total tr md t tr' md' t' n : same_meaning tr md t tr' md' t' -> no_bot (den n tr md [] t) = true ->
  exists k, den k tr' md' [] t' = den n tr md [] t.
Proof. intros [H _] Hn. destruct (H n) as [k Hk]. exists k. symmetry. apply dle_total; auto. Qed.

Lemma pfind_module_name tr m x : pfind_module tr m = Some x -> pm_name x = m.
Proof. induction tr as [|y tr IH]; cbn; [discriminate|]. destruct (String.eqb_spec (pm_name y) m); [intros [= <-]; assumption|exact IH]. Qed.
Lemma pfind_name l r a : pfind l r = Some a -> p_name a = r /\ In a l.
Proof.
  induction l as [|b l IH]; cbn; [discriminate|]. destruct (String.eqb_spec (p_name b) r); [intros [= <-]; auto|].
  intros H. destruct (IH H). auto.
Qed.
Lemma omap_Forall2 {A B} (f : A -> out B) l : forall l', omap f l = Done l' <-> Forall2 (fun x y => f x = Done y) l l'.
Proof.
  induction l as [|x l IH]; intros l'; cbn.
  - split; [intros [= <-]; constructor|intros H; inversion H; reflexivity].
  - split.
    + destruct (f x) as [y| | |] eqn:E; cbn; try discriminate. fold (omap f l). destruct (omap f l) as [ys| | |]; cbn; try discriminate.
      intros [= <-]. constructor; [exact E|]. apply IH. reflexivity.
    + intros H. inversion H as [|? y ? ys H1 H2]; subst. rewrite H1. cbn. fold (omap f l). apply IH in H2. rewrite H2. reflexivity.
Qed.
