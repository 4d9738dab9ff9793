(** The first pass of the compiler (Frontend.resolve_parameters) writes parameterized types out as WriteOutSpec.v says. *)
From Coq Require Import List String ZArith Bool Lia.
From Verif Require Import Base CompilerNames CompilerTree CompilerPasses Frontend FrontOrder FrontPasses FrontAccept FrontText.
From Verif Require Import ParserTree ParserFile ParserSource ParserSourceProofs Elab ElabSpec ElabProofs WriteOutSpec.
Import ListNotations.
Local Open Scope string_scope.
Local Open Scope list_scope.

Lemma thread_rel {A A' B B'} (f : A -> Z -> B * Z) (f' : A' -> Z -> B' * Z) (g : A -> A') (R : B -> B' -> Prop) l :
  Forall (fun x => forall n, R (fst (f x n)) (fst (f' (g x) n)) /\ snd (f' (g x) n) = snd (f x n)) l ->
  forall n, Forall2 R (fst (thread f l n)) (fst (thread f' (map g l) n)) /\ snd (thread f' (map g l) n) = snd (thread f l n).
Proof.
  induction 1 as [|x l Hx _ IH]; intros n; cbn [thread map]; [split; [constructor|reflexivity]|]. specialize (Hx n).
  destruct (f x n) as [y k], (f' (g x) n) as [y' k']. cbn [fst snd] in Hx. destruct Hx as [Hx ->]. specialize (IH k).
  destruct (thread f l k) as [ys m], (thread f' (map g l) k) as [ys' m']. cbn [fst snd] in *. destruct IH as [IH ->]. split; [constructor; auto|reflexivity].
Qed.
Lemma omap_Forall2 {A B} (f : A -> out B) l r : Forall2 (fun x y => f x = Done y) l r -> omap f l = Done r.
Proof. induction 1 as [|x y l r H _ IH]; [reflexivity|]. cbn. rewrite H. cbn. fold (omap f l). rewrite IH. reflexivity. Qed.
Lemma forallb_and {A} (P : A -> Prop) (b : A -> bool) (Q : A -> Prop) l : Forall P l -> forallb b l = true -> (forall x, P x -> b x = true -> Q x) -> Forall Q l.
Proof. intros H F I. rewrite forallb_forall in F. rewrite Forall_forall in *. auto. Qed.
Lemma Forall2_refl_in {A} (R : A -> A -> Prop) l : Forall (fun x => R x x) l -> Forall2 R l l.
Proof. induction 1; constructor; auto. Qed.

(** Reading a CHOICE or a SEQUENCE, as one equation. *)
Lemma read_choice_eq root more n : read_ty (YChoice root more) n =
  let (r, n) := thread read_named root n in let (m, n) := thread read_named (additions more) n in (ParserTree.TChoice (m ++ r), n).
Proof. cbn [read_ty]. change (fun (e : string * ParserSource.ty) (n0 : Z) => let (u, n1) := read_ty (snd e) n0 in (fst e, u, n1)) with read_named. destruct more; reflexivity. Qed.
Definition first_part {A} (more : option (list A * option (list A))) : list A := match more with Some (l, _) => l | None => [] end.
Definition second_part {A} (more : option (list A * option (list A))) : list A := match more with Some (_, Some l) => l | _ => [] end.
Definition is_some {A} (o : option A) : bool := match o with Some _ => true | None => false end.
Lemma read_record_eq set root more n : read_ty (YRecord set root more) n =
  let (r, n) := thread read_comp root n in let (a, n) := thread read_comp (first_part more) n in let (b, n) := thread read_comp (second_part more) n in
  (TRecord set (r ++ a ++ b) (is_some more), n).
Proof. cbn [read_ty]. destruct more as [[l [l2|]]|]; reflexivity. Qed.
Lemma inserted_parts {A} (more : option (list A * option (list A))) : inserted more = first_part more ++ second_part more.
Proof. destruct more as [[l [l2|]]|]; cbn; rewrite ?app_nil_r; reflexivity. Qed.

(** ** Types without nameless components are read the same wherever they stand *)
Definition steady (t : ParserSource.ty) : Prop := all_named t = true -> forall n m, fst (read_ty t n) = fst (read_ty t m) /\ snd (read_ty t n) = n.
Lemma thread_steady {A B} (f : A -> Z -> B * Z) l : Forall (fun x => forall n m, fst (f x n) = fst (f x m) /\ snd (f x n) = n) l ->
  forall n m, fst (thread f l n) = fst (thread f l m) /\ snd (thread f l n) = n.
Proof.
  induction 1 as [|x l Hx _ IH]; intros n m; cbn [thread]; [auto|]. pose proof (Hx n m) as H1. pose proof (Hx m m) as H2.
  destruct (f x n) as [y k], (f x m) as [y' k']. cbn [fst snd] in *. destruct H1 as [<- ->], H2 as [_ ->]. specialize (IH n m). destruct (thread f l n), (thread f l m). cbn [fst snd] in *. destruct IH as [<- ->]. auto.
Qed.
Lemma all_named_steady : forall t, steady t.
Proof.
  induction t as [k0| | |r m|root more IH1 IH2|set root more IH1 IH2|set size name t IH|c n m t IH| |x t IH| |t c IH] using ty_induct; intros H k k2; cbn [all_named] in H; try (cbn; auto; fail).
  - rewrite andb_true_iff in H. destruct H as [Ha Hb]. rewrite !read_choice_eq.
    assert (T : forall l, Forall (fun e => steady (snd e)) l -> forallb (fun e => all_named (snd e)) l = true -> forall n m, fst (thread read_named l n) = fst (thread read_named l m) /\ snd (thread read_named l n) = n).
    { intros l F G. apply thread_steady. eapply forallb_and; [exact F|exact G|]. intros [y u] Hu Gu n m. cbn [snd] in *. specialize (Hu Gu n m). unfold read_named. cbn [fst snd]. destruct (read_ty u n), (read_ty u m). cbn [fst snd] in *. destruct Hu as [-> ->]. auto. }
    assert (Hb' : forallb (fun e => all_named (snd e)) (additions more) = true) by (destruct more; [exact Hb|reflexivity]).
    pose proof (T _ IH1 Ha k k2) as E1. pose proof (T _ IH1 Ha k2 k2) as E3. pose proof (T _ IH2 Hb' k k2) as E2.
    destruct (thread read_named root k), (thread read_named root k2). cbn [fst snd] in E1, E3. destruct E1 as [<- ->], E3 as [_ ->].
    destruct (thread read_named (additions more) k), (thread read_named (additions more) k2). cbn [fst snd] in *. destruct E2 as [<- ->]. auto.
  - rewrite andb_true_iff in H. destruct H as [Ha Hb]. rewrite !read_record_eq.
    assert (T : forall l, Forall (in_comp steady) l -> forallb all_named_comp l = true -> forall n m, fst (thread read_comp l n) = fst (thread read_comp l m) /\ snd (thread read_comp l n) = n).
    { intros l F G. apply thread_steady. eapply forallb_and; [exact F|exact G|]. intros [y u p|u p|u] Hu Gu n m; try discriminate Gu; cbn [in_comp all_named_comp] in *; specialize (Hu Gu n m); cbn [read_comp];
        destruct (read_ty u n), (read_ty u m); cbn [fst snd] in *; destruct Hu as [-> ->]; auto. }
    rewrite inserted_parts in IH2. apply Forall_app in IH2 as [IH2 IH3].
    assert (Hb' : forallb all_named_comp (first_part more) = true /\ forallb all_named_comp (second_part more) = true).
    { destruct more as [[l [l2|]]|]; cbn; auto. rewrite andb_true_iff in Hb. exact Hb. }
    destruct Hb' as [Hb1 Hb2].
    pose proof (T _ IH1 Ha k k2) as E1. pose proof (T _ IH1 Ha k2 k2) as F1. pose proof (T _ IH2 Hb1 k k2) as E2. pose proof (T _ IH2 Hb1 k2 k2) as F2. pose proof (T _ IH3 Hb2 k k2) as E3.
    destruct (thread read_comp root k), (thread read_comp root k2). cbn [fst snd] in E1, F1. destruct E1 as [<- ->], F1 as [_ ->].
    destruct (thread read_comp (first_part more) k), (thread read_comp (first_part more) k2). cbn [fst snd] in E2, F2. destruct E2 as [<- ->], F2 as [_ ->].
    destruct (thread read_comp (second_part more) k), (thread read_comp (second_part more) k2). cbn [fst snd] in *. destruct E3 as [<- ->]. auto.
  - specialize (IH H k k2). cbn [read_ty]. destruct (read_ty t k), (read_ty t k2). cbn [fst snd] in *. destruct IH as [<- ->]. auto.
  - specialize (IH H k k2). cbn [read_ty]. destruct (read_ty t k), (read_ty t k2). cbn [fst snd] in *. destruct IH as [<- ->]. auto.
  - specialize (IH H k k2). cbn [read_ty]. destruct (read_ty t k), (read_ty t k2). cbn [fst snd] in *. destruct IH as [<- ->]. auto.
Qed.

(** ** A template's body with its argument *)
Definition no_apply (u : type) : Prop := forall tr md, to_concrete tr md u = Done u.
Definition no_apply_comp (c : component) : Prop := match c with Comp _ u _ _ _ => no_apply u end.
Lemma no_apply_choice alts : Forall (fun a => no_apply (snd a)) alts -> no_apply (ParserTree.TChoice alts).
Proof. intros F tr md. cbn [to_concrete]. rewrite (omap_same _ alts); [reflexivity|]. eapply Forall_impl; [|exact F]. intros [x u] H. cbn [fst snd] in *. rewrite (H tr md). reflexivity. Qed.
Lemma no_apply_record set cs ext : Forall no_apply_comp cs -> no_apply (TRecord set cs ext).
Proof. intros F tr md. cbn [to_concrete]. rewrite (omap_same _ cs); [reflexivity|]. eapply Forall_impl; [|exact F]. intros [x u o d co] H. cbn in H. rewrite (H tr md). reflexivity. Qed.
Lemma no_apply_list set n u : no_apply u -> no_apply (TListOf set n u).
Proof. intros F tr md. cbn [to_concrete]. rewrite (F tr md). reflexivity. Qed.
Lemma no_apply_tagged g kw u : no_apply u -> no_apply (TTagged g kw u).
Proof. intros F tr md. cbn [to_concrete]. rewrite (F tr md). reflexivity. Qed.

Lemma unparameterized_named : forall t, unparameterized t = true -> all_named t = true.
Proof.
  induction t as [k0| | |r m|root more IH1 IH2|set root more IH1 IH2|set size name t IH|c n m t IH| |x t IH| |t c IH] using ty_induct; intros H; cbn [unparameterized all_named] in *; auto; try discriminate H.
  - rewrite andb_true_iff in *. destruct H as [Ha Hb]. split; [rewrite forallb_forall in *; rewrite Forall_forall in IH1; auto|]. destruct more as [l|]; [|reflexivity]. cbn [additions] in IH2. rewrite forallb_forall in *. rewrite Forall_forall in IH2. auto.
  - assert (T : forall l, Forall (in_comp (fun t => unparameterized t = true -> all_named t = true)) l -> forallb unparameterized_comp l = true -> forallb all_named_comp l = true).
    { intros l F G. rewrite forallb_forall in *. rewrite Forall_forall in F. intros [y u p|u p|u] Hc; specialize (F _ Hc); specialize (G _ Hc); cbn in *; auto; discriminate. }
    rewrite inserted_parts in IH2. apply Forall_app in IH2 as [IH2 IH3]. rewrite andb_true_iff in *. destruct H as [Ha Hb]. split; [auto|].
    destruct more as [[l [l2|]]|]; cbn [first_part second_part] in *; auto. rewrite andb_true_iff in *. destruct Hb. auto.
Qed.

Section Instance.
Context (p : string) (arg : ParserSource.ty) (Harg : unparameterized arg = true).
Let u0 : type := fst (read_ty arg 0).
Definition instance (t : ParserSource.ty) : Prop := unparameterized t = true -> forall n,
  instantiate [(p, u0)] (fst (read_ty t n)) = Done (fst (read_ty (replaced p arg t) n)) /\ snd (read_ty (replaced p arg t) n) = snd (read_ty t n).
Lemma replaced_instance : forall t, instance t.
Proof.
  induction t as [k0| | |r m|root more IH1 IH2|set root more IH1 IH2|set size name t IH|c n m t IH|m x|x t IH| |t c IH] using ty_induct; intros H k; cbn [unparameterized] in H; try discriminate H; try (cbn; auto; fail).
  - rewrite andb_true_iff in H. destruct H as [Ha Hb]. cbn [replaced]. rewrite !read_choice_eq. set (alt := fun e : string * ParserSource.ty => (fst e, replaced p arg (snd e))).
    assert (T : forall l, Forall (fun e => instance (snd e)) l -> forallb (fun e => unparameterized (snd e)) l = true -> forall n,
      Forall2 (fun a b => (do u' <- instantiate [(p, u0)] (snd a); Done (fst a, u')) = Done b) (fst (thread read_named l n)) (fst (thread read_named (map alt l) n)) /\ snd (thread read_named (map alt l) n) = snd (thread read_named l n)).
    { intros l F G. apply thread_rel. eapply forallb_and; [exact F|exact G|]. intros [y u] Hu Gu n. cbn [snd] in *. specialize (Hu Gu n). unfold read_named, alt. cbn [fst snd].
      destruct (read_ty u n), (read_ty (replaced p arg u) n). cbn [fst snd] in *. destruct Hu as [-> ->]. auto. }
    assert (E : additions (option_map (map alt) more) = map alt (additions more)) by (destruct more; reflexivity). rewrite E.
    assert (Hb' : forallb (fun e => unparameterized (snd e)) (additions more) = true) by (destruct more; [exact Hb|reflexivity]).
    pose proof (T _ IH1 Ha k) as [E1 E2]. destruct (thread read_named root k) as [r1 k1], (thread read_named (map alt root) k) as [r2 k2]. cbn [fst snd] in E1, E2. subst k2.
    pose proof (T _ IH2 Hb' k1) as [E3 E4]. destruct (thread read_named (additions more) k1), (thread read_named (map alt (additions more)) k1). cbn [fst snd] in *. subst.
    split; [|reflexivity]. cbn [instantiate]. rewrite (omap_Forall2 _ _ _ (Forall2_app E3 E1)). reflexivity.
  - rewrite andb_true_iff in H. destruct H as [Ha Hb]. cbn [replaced]. rewrite !read_record_eq.
    assert (T : forall l, Forall (in_comp instance) l -> forallb unparameterized_comp l = true -> forall n,
      Forall2 (fun a b => match a with Comp n u o d co => do u' <- instantiate [(p, u0)] u; Done (Comp n u' o d co) end = Done b) (fst (thread read_comp l n)) (fst (thread read_comp (map (replaced_comp p arg) l) n)) /\ snd (thread read_comp (map (replaced_comp p arg) l) n) = snd (thread read_comp l n)).
    { intros l F G. apply thread_rel. eapply forallb_and; [exact F|exact G|]. intros [y u q|u q|u] Hu Gu n; try discriminate Gu. cbn [in_comp unparameterized_comp] in *. specialize (Hu Gu n). cbn [read_comp replaced_comp].
      destruct (read_ty u n), (read_ty (replaced p arg u) n). cbn [fst snd] in *. destruct Hu as [-> ->]. auto. }
    rewrite inserted_parts in IH2. apply Forall_app in IH2 as [IH2 IH3].
    set (mm := option_map _ more). assert (E1 : first_part mm = map (replaced_comp p arg) (first_part more)) by (destruct more as [[? [?|]]|]; reflexivity).
    assert (E2 : second_part mm = map (replaced_comp p arg) (second_part more)) by (destruct more as [[? [?|]]|]; reflexivity).
    assert (E3 : is_some mm = is_some more) by (destruct more as [[? [?|]]|]; reflexivity). rewrite E1, E2, E3. clear E1 E2 E3 mm.
    assert (Hb' : forallb unparameterized_comp (first_part more) = true /\ forallb unparameterized_comp (second_part more) = true).
    { destruct more as [[l [l2|]]|]; cbn; auto. rewrite andb_true_iff in Hb. exact Hb. }
    destruct Hb' as [Hb1 Hb2].
    pose proof (T _ IH1 Ha k) as [A1 A2]. destruct (thread read_comp root k) as [r1 k1], (thread read_comp (map _ root) k) as [r2 k2]. cbn [fst snd] in A1, A2. subst k2.
    pose proof (T _ IH2 Hb1 k1) as [B1 B2]. destruct (thread read_comp (first_part more) k1) as [r3 k3], (thread read_comp (map _ (first_part more)) k1) as [r4 k4]. cbn [fst snd] in B1, B2. subst k4.
    pose proof (T _ IH3 Hb2 k3) as [C1 C2]. destruct (thread read_comp (second_part more) k3) as [r5 k5], (thread read_comp (map _ (second_part more)) k3) as [r6 k6]. cbn [fst snd] in C1, C2. subst k6.
    split; [|reflexivity]. cbn [fst instantiate]. rewrite (omap_Forall2 _ _ _ (Forall2_app A1 (Forall2_app B1 C1))). reflexivity.
  - specialize (IH H k). cbn [read_ty replaced]. destruct (read_ty t k), (read_ty (replaced p arg t) k). cbn [fst snd] in *. destruct IH as [E ->]. split; [|reflexivity]. cbn [instantiate]. rewrite E. reflexivity.
  - specialize (IH H k). cbn [read_ty replaced]. destruct (read_ty t k), (read_ty (replaced p arg t) k). cbn [fst snd] in *. destruct IH as [E ->]. split; [|reflexivity]. cbn [instantiate]. rewrite E. reflexivity.
  - destruct m as [m|]; cbn [replaced read_ty fst snd instantiate]; [auto|]. unfold param_find. cbn [rev app find fst]. rewrite String.eqb_sym. destruct (String.eqb x p); cbn [option_map snd]; [|auto].
    destruct (all_named_steady arg (unparameterized_named arg Harg) k 0%Z) as [E1 E2]. unfold u0. rewrite E1, E2. auto.
Qed.
End Instance.
Lemma map_forallb {A B} (f : A -> B) (b : B -> bool) l : forallb b (map f l) = forallb (fun x => b (f x)) l.
Proof. induction l; cbn; congruence. Qed.
Lemma replaced_unparameterized p arg : unparameterized arg = true -> forall t, unparameterized t = true -> unparameterized (replaced p arg t) = true.
Proof.
  intros Harg. induction t as [k0| | |r m|root more IH1 IH2|set root more IH1 IH2|set size name t IH|c n m t IH|m x|x t IH| |t c IH] using ty_induct; intros H; cbn [unparameterized replaced] in *; auto; try discriminate H.
  - rewrite andb_true_iff in *. destruct H as [Ha Hb]. rewrite map_forallb. cbn [snd]. split; [rewrite forallb_forall in *; rewrite Forall_forall in IH1; auto|]. destruct more as [l|]; [|reflexivity]. cbn [additions option_map] in *. rewrite map_forallb. cbn [snd]. rewrite forallb_forall in *. rewrite Forall_forall in IH2. auto.
  - assert (T : forall l, Forall (in_comp (fun t => unparameterized t = true -> unparameterized (replaced p arg t) = true)) l -> forallb unparameterized_comp l = true -> forallb unparameterized_comp (map (replaced_comp p arg) l) = true).
    { intros l F G. rewrite map_forallb. rewrite forallb_forall in *. rewrite Forall_forall in F. intros [y u q|u q|u] Hc; specialize (F _ Hc); specialize (G _ Hc); cbn in *; auto. }
    rewrite inserted_parts in IH2. apply Forall_app in IH2 as [IH2 IH3]. rewrite andb_true_iff in *. destruct H as [Ha Hb]. split; [auto|].
    destruct more as [[l [l2|]]|]; cbn [first_part second_part option_map fst snd] in *; auto. rewrite andb_true_iff in *. destruct Hb. auto.
  - destruct m; [reflexivity|]. destruct (String.eqb x p); [exact Harg|reflexivity].
Qed.
Lemma thread_Forall {A B} (f : A -> Z -> B * Z) (P : B -> Prop) l : Forall (fun x => forall n, P (fst (f x n))) l -> forall n, Forall P (fst (thread f l n)).
Proof. induction 1 as [|x l Hx _ IH]; intros n; cbn [thread]; [constructor|]. specialize (Hx n). destruct (f x n) as [y k]. specialize (IH k). destruct (thread f l k). constructor; auto. Qed.
Lemma unparameterized_no_apply : forall t, unparameterized t = true -> forall n, no_apply (fst (read_ty t n)).
Proof.
  induction t as [k0| | |r m|root more IH1 IH2|set root more IH1 IH2|set size name t IH|c n m t IH|m x|x t IH| |t c IH] using ty_induct; intros H k; cbn [unparameterized] in H; try discriminate H; try (intros ? ?; reflexivity).
  - rewrite andb_true_iff in H. destruct H as [Ha Hb]. rewrite read_choice_eq.
    assert (T : forall l, Forall (fun e => unparameterized (snd e) = true -> forall n, no_apply (fst (read_ty (snd e) n))) l -> forallb (fun e => unparameterized (snd e)) l = true -> forall n, Forall (fun a => no_apply (snd a)) (fst (thread read_named l n))).
    { intros l F G. apply thread_Forall. eapply forallb_and; [exact F|exact G|]. intros [y u] Hu Gu n. cbn [snd] in *. specialize (Hu Gu n). unfold read_named. cbn [fst snd]. destruct (read_ty u n). exact Hu. }
    assert (Hb' : forallb (fun e => unparameterized (snd e)) (additions more) = true) by (destruct more; [exact Hb|reflexivity]).
    pose proof (T _ IH1 Ha k) as E1. destruct (thread read_named root k) as [r1 k1]. pose proof (T _ IH2 Hb' k1) as E2. destruct (thread read_named (additions more) k1). apply no_apply_choice, Forall_app. auto.
  - rewrite andb_true_iff in H. destruct H as [Ha Hb]. rewrite read_record_eq.
    assert (T : forall l, Forall (in_comp (fun t => unparameterized t = true -> forall n, no_apply (fst (read_ty t n)))) l -> forallb unparameterized_comp l = true -> forall n, Forall no_apply_comp (fst (thread read_comp l n))).
    { intros l F G. apply thread_Forall. eapply forallb_and; [exact F|exact G|]. intros [y u q|u q|u] Hu Gu n; try discriminate Gu. cbn [in_comp unparameterized_comp] in *. specialize (Hu Gu n). cbn [read_comp]. destruct (read_ty u n). exact Hu. }
    rewrite inserted_parts in IH2. apply Forall_app in IH2 as [IH2 IH3].
    assert (Hb' : forallb unparameterized_comp (first_part more) = true /\ forallb unparameterized_comp (second_part more) = true).
    { destruct more as [[l [l2|]]|]; cbn; auto. rewrite andb_true_iff in Hb. exact Hb. }
    destruct Hb' as [Hb1 Hb2].
    pose proof (T _ IH1 Ha k) as E1. destruct (thread read_comp root k) as [r1 k1]. pose proof (T _ IH2 Hb1 k1) as E2. destruct (thread read_comp (first_part more) k1) as [r2 k2]. pose proof (T _ IH3 Hb2 k2) as E3. destruct (thread read_comp (second_part more) k2).
    apply no_apply_record. apply Forall_app; split; [exact E1|apply Forall_app; split; assumption].
  - specialize (IH H k). cbn [read_ty]. destruct (read_ty t k). apply no_apply_list, IH.
  - specialize (IH H k). cbn [read_ty]. destruct (read_ty t k). apply no_apply_tagged, IH.
  - exact (IH H k).
Qed.

(** ** A type of a module *)
Section Out.
Context (ts : list (string * (string * ParserSource.ty))) (tr : list module) (md : string).
Context (Hts : forall x p body args, template ts x = Some (p, body) -> exists k, resolve tr md (Defined None x args) = Done (Assign x (AType (fst (read_ty body k))) [Param None p])).
Definition comes_out (u u' : type) : Prop := to_concrete tr md u = Done u' /\ no_apply u'.
Definition comp_comes_out (c c' : component) : Prop := match c with Comp n u o d co => exists u', c' = Comp n u' o d co /\ comes_out u u' end.
Lemma alts_out l l' : Forall2 (fun a b : string * type => fst b = fst a /\ comes_out (snd a) (snd b)) l l' -> comes_out (ParserTree.TChoice l) (ParserTree.TChoice l').
Proof.
  intros F. split.
  - cbn [to_concrete]. rewrite (omap_Forall2 _ l l'); [reflexivity|]. eapply Forall2_impl2; [|exact F]. intros [x u] [y v] (E & H & _). cbn [fst snd] in *. subst. rewrite H. reflexivity.
  - apply no_apply_choice. clear -F. induction F as [|a b l l' (_ & _ & H) _ IH]; constructor; auto.
Qed.
Lemma comps_out set ext l l' : Forall2 comp_comes_out l l' -> comes_out (TRecord set l ext) (TRecord set l' ext).
Proof.
  intros F. split.
  - cbn [to_concrete]. rewrite (omap_Forall2 _ l l'); [reflexivity|]. eapply Forall2_impl2; [|exact F]. intros [n u o d co] c (v & -> & H & _). rewrite H. reflexivity.
  - apply no_apply_record. clear -F. induction F as [|[n u o d co] b l l' (v & -> & _ & H) _ IH]; constructor; auto.
Qed.
Definition out_ok (t : ParserSource.ty) : Prop := well_applied ts t = true -> forall n,
  comes_out (fst (read_ty t n)) (fst (read_ty (written_out ts t) n)) /\ snd (read_ty (written_out ts t) n) = snd (read_ty t n).
Lemma written_out_ok : forall t, out_ok t.
Proof.
  induction t as [k0| | |r m|root more IH1 IH2|set root more IH1 IH2|set size name t IH|c n m t IH|m x|x t IH| |t c IH] using ty_induct; intros H k; cbn [well_applied] in H; try (split; [split; [reflexivity|intros ? ?; reflexivity]|reflexivity]).
  - rewrite andb_true_iff in H. destruct H as [Ha Hb]. cbn [written_out]. rewrite !read_choice_eq. set (alt := fun e : string * ParserSource.ty => (fst e, written_out ts (snd e))).
    assert (T : forall l, Forall (fun e => out_ok (snd e)) l -> forallb (fun e => well_applied ts (snd e)) l = true -> forall n,
      Forall2 (fun a b : string * type => fst b = fst a /\ comes_out (snd a) (snd b)) (fst (thread read_named l n)) (fst (thread read_named (map alt l) n)) /\ snd (thread read_named (map alt l) n) = snd (thread read_named l n)).
    { intros l F G. apply thread_rel. eapply forallb_and; [exact F|exact G|]. intros [y u] Hu Gu n. cbn [snd] in *. specialize (Hu Gu n). unfold read_named, alt. cbn [fst snd].
      destruct (read_ty u n), (read_ty (written_out ts u) n). cbn [fst snd] in *. destruct Hu as [Hu ->]. auto. }
    assert (E : additions (option_map (map alt) more) = map alt (additions more)) by (destruct more; reflexivity). rewrite E.
    assert (Hb' : forallb (fun e => well_applied ts (snd e)) (additions more) = true) by (destruct more; [exact Hb|reflexivity]).
    pose proof (T _ IH1 Ha k) as [E1 E2]. destruct (thread read_named root k) as [r1 k1], (thread read_named (map alt root) k) as [r2 k2]. cbn [fst snd] in E1, E2. subst k2.
    pose proof (T _ IH2 Hb' k1) as [E3 E4]. destruct (thread read_named (additions more) k1), (thread read_named (map alt (additions more)) k1). cbn [fst snd] in *. subst.
    split; [|reflexivity]. apply alts_out, Forall2_app; assumption.
  - rewrite andb_true_iff in H. destruct H as [Ha Hb]. cbn [written_out]. rewrite !read_record_eq.
    assert (T : forall l, Forall (in_comp out_ok) l -> forallb (well_applied_comp ts) l = true -> forall n,
      Forall2 comp_comes_out (fst (thread read_comp l n)) (fst (thread read_comp (map (written_out_comp ts) l) n)) /\ snd (thread read_comp (map (written_out_comp ts) l) n) = snd (thread read_comp l n)).
    { intros l F G. apply thread_rel. eapply forallb_and; [exact F|exact G|]. intros [y u q|u q|u] Hu Gu n; cbn [in_comp well_applied_comp read_comp written_out_comp] in *.
      - specialize (Hu Gu n). destruct (read_ty u n), (read_ty (written_out ts u) n). cbn [fst snd] in *. destruct Hu as [Hu ->]. split; [|reflexivity]. eexists. split; [reflexivity|exact Hu].
      - specialize (Hu Gu n). destruct (read_ty u n), (read_ty (written_out ts u) n). cbn [fst snd] in *. destruct Hu as [Hu ->]. split; [|reflexivity]. eexists. split; [reflexivity|exact Hu].
      - destruct (read_ty u n). cbn [fst snd]. split; [|reflexivity]. eexists. split; [reflexivity|]. split; [reflexivity|intros ? ?; reflexivity]. }
    rewrite inserted_parts in IH2. apply Forall_app in IH2 as [IH2 IH3].
    set (mm := option_map _ more). assert (E1 : first_part mm = map (written_out_comp ts) (first_part more)) by (destruct more as [[? [?|]]|]; reflexivity).
    assert (E2 : second_part mm = map (written_out_comp ts) (second_part more)) by (destruct more as [[? [?|]]|]; reflexivity).
    assert (E3 : is_some mm = is_some more) by (destruct more as [[? [?|]]|]; reflexivity). rewrite E1, E2, E3. clear E1 E2 E3 mm.
    assert (Hb' : forallb (well_applied_comp ts) (first_part more) = true /\ forallb (well_applied_comp ts) (second_part more) = true).
    { destruct more as [[l [l2|]]|]; cbn; auto. rewrite andb_true_iff in Hb. exact Hb. }
    destruct Hb' as [Hb1 Hb2].
    pose proof (T _ IH1 Ha k) as [A1 A2]. destruct (thread read_comp root k) as [r1 k1], (thread read_comp (map _ root) k) as [r2 k2]. cbn [fst snd] in A1, A2. subst k2.
    pose proof (T _ IH2 Hb1 k1) as [B1 B2]. destruct (thread read_comp (first_part more) k1) as [r3 k3], (thread read_comp (map _ (first_part more)) k1) as [r4 k4]. cbn [fst snd] in B1, B2. subst k4.
    pose proof (T _ IH3 Hb2 k3) as [C1 C2]. destruct (thread read_comp (second_part more) k3) as [r5 k5], (thread read_comp (map _ (second_part more)) k3) as [r6 k6]. cbn [fst snd] in C1, C2. subst k6.
    split; [|reflexivity]. cbn [fst]. apply comps_out. repeat apply Forall2_app; assumption.
  - specialize (IH H k). cbn [read_ty written_out]. destruct (read_ty t k), (read_ty (written_out ts t) k). cbn [fst snd] in *. destruct IH as [[E1 E2] ->]. split; [|reflexivity]. split; [cbn [to_concrete]; rewrite E1; reflexivity|apply no_apply_list, E2].
  - specialize (IH H k). cbn [read_ty written_out]. destruct (read_ty t k), (read_ty (written_out ts t) k). cbn [fst snd] in *. destruct IH as [[E1 E2] ->]. split; [|reflexivity]. split; [cbn [to_concrete]; rewrite E1; reflexivity|apply no_apply_tagged, E2].
  - rewrite andb_true_iff in H. destruct H as [Ha Hb]. cbn [read_ty written_out]. destruct (template ts x) as [[p body]|] eqn:Et; [|discriminate Hb].
    destruct (all_named_steady t (unparameterized_named t Ha) k 0%Z) as [S1 S2]. destruct (read_ty t k) as [u k'] eqn:Eu. cbn [fst snd] in *. subst k' u.
    destruct (all_named_steady _ (unparameterized_named _ (replaced_unparameterized p t Ha body Hb)) k 0%Z) as [_ S3]. split; [|rewrite S3; reflexivity].
    split; [|apply unparameterized_no_apply, replaced_unparameterized; assumption]. cbn [to_concrete]. destruct (Hts x p body [fst (read_ty t 0)] Et) as (kb & ->). cbn [obind a_parameters List.length Nat.eqb a_specific map combine p_reference].
    destruct (replaced_instance p t Ha body Hb kb) as [E _]. rewrite E. f_equal. apply (all_named_steady _ (unparameterized_named _ (replaced_unparameterized p t Ha body Hb)) kb k).
  - exact (IH H k).
Qed.
End Out.

(** ** Modules *)
Lemma named_params_steady ps : forallb named_param ps = true -> forall n, snd (thread read_param ps n) = n.
Proof.
  induction ps as [|p ps IH]; intros H n; [reflexivity|]. cbn [forallb] in H. rewrite andb_true_iff in H. destruct H as [Hp H]. cbn [thread].
  assert (E : snd (read_param p n) = n). { destruct p as [x|t y]; [reflexivity|]. cbn [read_param named_param] in *. pose proof (all_named_steady t Hp n n) as [_ E]. destruct (read_ty t n). exact E. }
  destruct (read_param p n) as [q k]. cbn [snd] in E. subst k. specialize (IH H n). destruct (thread read_param ps n). exact IH.
Qed.
Definition done_assign (a : assignment) : Prop := is_template a = false /\ forall tr md, concrete tr md a = Done a.
Definition wp_decl (ts : list (string * (string * ParserSource.ty))) (d : decl) : bool :=
  match d with
  | DType _ [] t => well_applied ts t
  | DType _ ((_ :: _) as ps) t => forallb named_param ps && all_named t
  | DValue _ _ _ | DClass _ _ => true
  end.
Section Decls.
Context (ts : list (string * (string * ParserSource.ty))) (tr : list module) (md : string).
Context (Hts : forall x p body args, template ts x = Some (p, body) -> exists k, resolve tr md (Defined None x args) = Done (Assign x (AType (fst (read_ty body k))) [Param None p])).
Lemma thread_app {A B} (f : A -> Z -> B * Z) l1 l2 n : thread f (l1 ++ l2) n = (let (r1, n1) := thread f l1 n in let (r2, n2) := thread f l2 n1 in (r1 ++ r2, n2)).
Proof.
  revert n. induction l1 as [|x l1 IH]; intros n; cbn [thread app]; [destruct (thread f l2 n); reflexivity|]. destruct (f x n) as [y k]. rewrite IH. destruct (thread f l1 k) as [r1 n1]. destruct (thread f l2 n1). reflexivity.
Qed.
Lemma decls_out ds : forallb (wp_decl ts) ds = true -> forall n, exists l', Forall2 (fun a b => concrete tr md a = Done b) (fst (thread read_decl ds n)) l' /\
  filter (fun a => negb (is_template a)) l' = fst (thread read_decl (flat_map (written_out_decl ts) ds) n) /\
  snd (thread read_decl (flat_map (written_out_decl ts) ds) n) = snd (thread read_decl ds n) /\
  Forall done_assign (fst (thread read_decl (flat_map (written_out_decl ts) ds) n)).
Proof.
  induction ds as [|d ds IH]; intros H n; [exists []; repeat split; constructor|]. cbn [forallb] in H. rewrite andb_true_iff in H. destruct H as [Hd H]. cbn [thread flat_map]. rewrite thread_app.
  enough (G : exists b, concrete tr md (fst (read_decl d n)) = Done b /\ filter (fun a => negb (is_template a)) [b] = fst (thread read_decl (written_out_decl ts d) n) /\
    snd (thread read_decl (written_out_decl ts d) n) = snd (read_decl d n) /\ Forall done_assign (fst (thread read_decl (written_out_decl ts d) n))).
  { destruct G as (b & G1 & G2 & G3 & G4). destruct (read_decl d n) as [a k]. destruct (thread read_decl (written_out_decl ts d) n) as [r1 k1]. cbn [fst snd] in *. subst k1.
    destruct (IH H k) as (l' & I1 & I2 & I3 & I4). destruct (thread read_decl ds k) as [r k2]. destruct (thread read_decl (flat_map _ ds) k) as [r2 k3]. cbn [fst snd] in *. subst k3 r2 r1. exists (b :: l').
    split; [constructor; assumption|]. split; [|split; [reflexivity|apply Forall_app; split; assumption]]. cbn [filter app]. destruct (negb (is_template b)); reflexivity. }
  destruct d as [x ps t|x t v|x fs].
  - destruct ps as [|p ps]; cbn [wp_decl] in Hd.
    + cbn [read_decl written_out_decl thread]. destruct (written_out_ok ts tr md Hts t Hd n) as ((E1 & E2) & E3). destruct (read_ty t n) as [u k], (read_ty (written_out ts t) n) as [u' k']. cbn [fst snd] in *. subst k'.
      exists (Assign x (AType u') []). split; [unfold concrete; cbn [a_specific is_template a_parameters]; rewrite E1; reflexivity|]. split; [reflexivity|]. split; [reflexivity|].
      constructor; [|constructor]. split; [reflexivity|]. intros tr0 md0. unfold concrete. cbn [a_specific is_template a_parameters]. rewrite (E2 tr0 md0). reflexivity.
    + rewrite andb_true_iff in Hd. destruct Hd as [Hp Ht]. cbn [read_decl written_out_decl]. pose proof (named_params_steady _ Hp n) as S. pose proof (thread_Forall2 read_param (p :: ps) n) as F.
      destruct (thread read_param (p :: ps) n) as [q k]. cbn [fst snd] in *.
      subst k. destruct (all_named_steady t Ht n n) as [_ S2]. destruct (read_ty t n) as [u k]. cbn [snd] in S2. subst k.
      destruct q as [|q0 q]; [inversion F|]. eexists. split; [reflexivity|]. cbn [thread fst snd filter is_template a_parameters negb]. split; [reflexivity|]. split; [reflexivity|constructor].
  - cbn [read_decl written_out_decl thread]. destruct (read_ty t n) as [u k]. eexists. split; [reflexivity|]. split; [reflexivity|]. split; [reflexivity|]. constructor; [|constructor]. split; [reflexivity|]. intros; reflexivity.
  - cbn [read_decl written_out_decl thread]. destruct (thread read_field fs n) as [u k]. eexists. split; [reflexivity|]. split; [reflexivity|]. split; [reflexivity|]. constructor; [|constructor]. split; [reflexivity|]. intros; reflexivity.
Qed.
End Decls.
Lemma Forall2_reverse {A B} (R : A -> B -> Prop) l l' : Forall2 R l l' -> Forall2 R (rev l) (rev l').
Proof. induction 1 as [|x y l l' H _ IH]; [constructor|]. cbn [rev]. apply Forall2_app; [exact IH|]. constructor; [exact H|constructor]. Qed.
Lemma filter_rev {A} (b : A -> bool) l : filter b (rev l) = rev (filter b l).
Proof. induction l as [|x l IH]; [reflexivity|]. cbn [rev filter]. rewrite filter_app, IH. cbn [filter]. destruct (b x); [reflexivity|apply app_nil_r]. Qed.
Definition done_module (m : module) : Prop := Forall done_assign (m_assigns m).
Lemma source_out s tr n : (forall x p body args, template (templates s) x = Some (p, body) -> exists k, resolve tr (s_name s) (Defined None x args) = Done (Assign x (AType (fst (read_ty body k))) [Param None p])) ->
  well_parameterized s = true -> let m := fst (read_source s n) in let m' := fst (read_source (written_out_source s) n) in
  (exists l', omap (concrete tr (m_name m)) (m_assigns m) = Done l' /\ m' = with_assigns m (filter (fun a => negb (is_template a)) l')) /\ done_module m' /\
  snd (read_source (written_out_source s) n) = snd (read_source s n).
Proof.
  intros Hts H. cbn zeta. rewrite !module_of_eq. cbn [m_name m_assigns written_out_source s_name s_tags s_imports s_decls].
  destruct (decls_out (templates s) tr (s_name s) Hts (s_decls s) H n) as (l' & E1 & E2 & E3 & E4). split; [|split].
  - exists (rev l'). split; [apply omap_Forall2, Forall2_reverse, E1|]. rewrite filter_rev, E2. reflexivity.
  - unfold done_module. cbn [m_assigns]. apply Forall_rev, E4.
  - unfold read_source. cbn [written_out_source s_decls]. destruct (thread read_decl (s_decls s) n), (thread read_decl (flat_map _ _) n). exact E3.
Qed.
Lemma templates_found l s : well_named l -> In s l -> forall x p body args, template (templates s) x = Some (p, body) ->
  exists k, resolve (fst (thread read_source l 0)) (s_name s) (Defined None x args) = Done (Assign x (AType (fst (read_ty body k))) [Param None p]).
Proof.
  intros W Hs x p body args E. unfold template in E. destruct (find _ (templates s)) as [[x' b]|] eqn:F; [|discriminate E]. injection E as ->. apply find_some in F as [F Ex]. apply String.eqb_eq in Ex. cbn [fst] in Ex. subst x'.
  apply in_flat_map in F as (d & Hd & F). destruct d as [y ps t|y t v|y fs]; try (destruct F; fail). destruct ps as [|[q|? ?] [|]]; try (destruct F; fail). destruct F as [F|[]]. injection F as -> -> ->.
  destruct (tree_found l 0 W s Hs) as (m & _ & Hm & Hf). destruct (decl_found s m _ Hm (proj2 W s Hs) Hd) as (j & Hj). unfold resolve. cbn [ref_module]. rewrite Hf. cbn [olift obind].
  enough (G : assign_named (m_assigns m) x = Some (fst (read_decl (DType x [PPlain p] body) j))).
  { rewrite G. cbn [olift read_decl thread read_param]. exists j. destruct (read_ty body j). reflexivity. }
  assert (I : In (fst (read_decl (DType x [PPlain p] body) j)) (m_assigns m)).
  { unfold assign_named in Hj. apply find_some in Hj as [Hj _]. unfold with_imports in Hj. apply in_app_or in Hj as [Hj|Hj]; [exact Hj|]. exfalso.
    apply in_flat_map in Hj as (i & _ & Hj). apply in_map_iff in Hj as (z & Hz & _). cbn [read_decl thread read_param] in Hz. destruct (read_ty body j). discriminate Hz. }
  unfold assign_named. change x with (decl_name (DType x [PPlain p] body)) at 1. rewrite <- (read_decl_name _ j). apply find_unique; [|exact I].
  pose proof (Permutation.Permutation_NoDup (Permutation.Permutation_sym (with_imports_names s m Hm)) (proj2 W s Hs)) as N. unfold with_imports in N. rewrite map_app in N. clear -N.
  induction (map a_name (m_assigns m)) as [|y l IH]; [constructor|]. inversion N as [|? ? N1 N2]; subst. constructor; [|auto]. intros H. apply N1, in_or_app. left. exact H.
Qed.
Lemma sources_out tr l : Forall (fun s => (forall x p body args, template (templates s) x = Some (p, body) -> exists k, resolve tr (s_name s) (Defined None x args) = Done (Assign x (AType (fst (read_ty body k))) [Param None p])) /\ well_parameterized s = true) l ->
  forall n, exists tr1, omap (fun m => do l <- omap (concrete tr (m_name m)) (m_assigns m); Done (with_assigns m l)) (fst (thread read_source l n)) = Done tr1 /\
  map (fun m => with_assigns m (filter (fun a => negb (is_template a)) (m_assigns m))) tr1 = fst (thread read_source (map written_out_source l) n) /\
  Forall done_module (fst (thread read_source (map written_out_source l) n)).
Proof.
  induction 1 as [|s l (H1 & H2) _ IH]; intros n; [exists []; repeat split; constructor|]. cbn [map thread]. destruct (source_out s tr n H1 H2) as ((l' & E1 & E2) & E3 & E4).
  destruct (read_source s n) as [m k], (read_source (written_out_source s) n) as [m' k']. cbn [fst snd] in *. subst k'. destruct (IH k) as (tr1 & I1 & I2 & I3). destruct (thread read_source l k) as [r k1], (thread read_source (map written_out_source l) k) as [r' k2]. cbn [fst snd] in *.
  exists (with_assigns m l' :: tr1). cbn [omap]. rewrite E1. cbn [obind]. rewrite I1. split; [reflexivity|]. split; [|constructor; assumption]. cbn [map]. rewrite I2. f_equal. symmetry. exact E2.
Qed.
Theorem parameters_written_out l : well_named l -> forallb well_parameterized l = true ->
  Frontend.resolve_parameters (fst (thread read_source l 0)) = Done (fst (thread read_source (map written_out_source l) 0)) /\
  Frontend.resolve_parameters (fst (thread read_source (map written_out_source l) 0)) = Done (fst (thread read_source (map written_out_source l) 0)).
Proof.
  intros W H. destruct (sources_out (fst (thread read_source l 0)) l) with (n := 0%Z) as (tr1 & E1 & E2 & E3).
  { apply Forall_forall. intros s Hs. split; [apply (templates_found l s W Hs)|]. rewrite forallb_forall in H. auto. }
  unfold Frontend.resolve_parameters at 1. rewrite E1. cbn [obind]. rewrite E2. split; [reflexivity|]. unfold Frontend.resolve_parameters. rewrite omap_same.
  - cbn [obind]. f_equal. rewrite <- (map_id (fst _)) at 2. apply map_ext_in. intros m Hm. rewrite Forall_forall in E3. specialize (E3 m Hm). transitivity (with_assigns m (m_assigns m)); [|apply with_assigns_same]. f_equal.
    unfold done_module in E3. induction E3 as [|a l0 (A & _) _ IH]; [reflexivity|]. cbn [filter]. rewrite A. cbn [negb]. f_equal. exact IH.
  - eapply Forall_impl; [|exact E3]. intros m D. rewrite omap_same; [cbn [obind]; rewrite with_assigns_same; reflexivity|]. eapply Forall_impl; [|exact D]. intros a (_ & A). apply A.
Qed.
Theorem passes_written_out l : well_named l -> forallb well_parameterized l = true ->
  forall fuel, passes fuel (fst (thread read_source l 0)) = passes fuel (fst (thread read_source (map written_out_source l) 0)).
Proof. intros W H fuel. destruct (parameters_written_out l W H) as (E1 & E2). unfold passes. rewrite E1, E2. reflexivity. Qed.
