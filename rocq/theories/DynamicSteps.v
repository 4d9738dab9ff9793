(** Proofs about operations (C64, C65). *)
From Coq Require Import List Arith Bool Lia.
From Verif Require Import Dynamic DynamicSpec DynamicProofs.
Import ListNotations.
Local Open Scope mem_scope.

Section Steps.
Context {V : Type}.
Variable k : kind V.
Notation heap := (heap V). Notation state := (state V). Notation contents := (@contents V). Notation cell := (cell V). Notation world := (@world V).
Notation Rep := (Rep k). Notation RepH := (RepH k). Notation chain := (chain k).
Definition none : nat -> Prop := fun _ => False.

Lemma at_some (s : world) x d m : at_ k s (x, d) = Some m -> exists l, s x = Some l /\ sub k l d = Some m.
Proof. unfold at_. cbn. destruct (s x) as [l|]; [|discriminate]. eauto. Qed.
Lemma put_some (s : world) x d l (m : contents) : s x = Some l -> put_ s (x, d) m = upd s x (Some (firstn d l ++ m)).
Proof. unfold put_. cbn. intros ->. reflexivity. Qed.
Lemma sub_split (l : contents) d m : sub k l d = Some m -> l = firstn d l ++ m.
Proof.
  revert d. induction l as [|[i v] l IH]; intros [|d] H; cbn in *; try discriminate; try (injection H as <-; reflexivity).
  destruct (nested k i); [|discriminate]. f_equal. apply IH, H.
Qed.
Lemma sub_length (l : contents) d m : sub k l d = Some m -> d <= length l.
Proof.
  revert d. induction l as [|[i v] l IH]; intros [|d] H; cbn in *; try discriminate; try lia.
  destruct (nested k i); [|discriminate]. apply IH in H. lia.
Qed.
Lemma sub_prefix (l : contents) e m d r : sub k l e = Some m -> d <= e -> exists m', sub k (firstn e l ++ r) d = Some m'.
Proof.
  revert e d. induction l as [|[i v] l IH]; intros e d H Hd.
  - destruct e as [|e]; [|discriminate]. assert (d = 0) as -> by lia. cbn. exists r. destruct r; reflexivity.
  - destruct d as [|d]; [exists (firstn e ((i, v) :: l) ++ r); destruct (firstn e ((i, v) :: l) ++ r); reflexivity|]. destruct e as [|e]; [lia|]. cbn in *. destruct (nested k i); [|discriminate]. eapply IH; [exact H|lia].
Qed.
Lemma Rep_none (st : state) s F E x : Rep st s F E -> s x = None -> vars st x = None.
Proof. intros [A _] Hx. specialize (A x). unfold var_ok in A. rewrite Hx in A. apply A. Qed.
Lemma or_none (A : nat -> Prop) : forall a, A a <-> (A a \/ none a).
Proof. unfold none. intros a. tauto. Qed.
Lemma Rep_add (st : state) s F E : Rep st s F E -> Rep st s F (fun a => In a [] \/ E a).
Proof. intros H. eapply Rep_ext; [exact H|reflexivity|reflexivity|]. cbn. intros a. tauto. Qed.
Lemma start_rep : Rep start nothing (fun _ => []) none.
Proof.
  split; [intros x; unfold var_ok; cbn; auto|]. split; cbn; try contradiction; try (intros ? ? ? ? []; fail). intros a c H. destruct a; discriminate.
Qed.
Lemma Rep_shows (st : state) s F : Rep st s F none -> shows k st s /\ tidy k st.
Proof.
  intros [A B]. assert (Ho : forall x a, owner k st x a <-> In a (F x)).
  { intros x a. specialize (A x). unfold var_ok in A. unfold owner. destruct (s x) as [l|].
    - destruct A as (o & Hx & C). split.
      + intros (o' & Hx' & Hw). assert (o' = o) as -> by congruence. apply (chain_owns _ _ _ _ _ _ C), Hw.
      + intros Hi. exists o. split; [exact Hx|]. apply (chain_owns _ _ _ _ _ _ C), Hi.
    - destruct A as (Hx & ->). split; [intros (o & E & _); congruence|intros []]. }
  split; [|split].
  - intros x. specialize (A x). unfold var_ok in A. destruct (s x) as [l|]; [|apply A]. destruct A as (o & Hx & C). exists o. split; [exact Hx|]. eapply chain_holds, C.
  - intros a. split.
    + intros (c & Hc). destruct (sp_all _ _ _ B a c Hc) as [[]|[x Hx]]. exists x. apply Ho, Hx.
    + intros (x & Hx). apply Ho in Hx. specialize (A x). unfold var_ok in A. destruct (s x) as [l|]; [|destruct A as (_ & E); rewrite E in Hx; destruct Hx].
      destruct A as (o & _ & C). eapply chain_live; eassumption.
  - intros a x y Hx Hy. apply Ho in Hx, Hy. destruct (Nat.eq_dec x y) as [|Hne]; [assumption|]. exfalso. eapply (sp_apart _ _ _ B x y); eassumption.
Qed.
Ltac dx H := repeat match type of H with exists _, _ => let x := fresh "x" in destruct H as [x H] end.

Lemma chain_ptr (h : heap) o p m G : chain h o (p :: m) G -> exists a, o_ptr o = Some a.
Proof. remember (p :: m) as l eqn:El. destruct 1; [discriminate| |]; cbn; eauto. Qed.
(** ** Replacing: exchange and delete what was there *)
Lemma replace (st : state) s F x d l m n m' N : Rep st s F (fun a => In a N \/ none a) -> s x = Some l -> sub k l d = Some m -> chain (mem st) n m' N ->
  exists old st1 st2 F', get k st (slot_of x (firstn d (F x))) = Fine old /\ set k st (slot_of x (firstn d (F x))) n = Fine st1 /\ delete_in k st1 old = Fine st2 /\
    Rep st2 (upd s x (Some (firstn d l ++ m'))) F' none.
Proof.
  intros HR Hx Hs C. destruct (exchange k _ _ _ _ _ _ _ _ _ _ _ HR Hx Hs C ltac:(intros a _ [])) as (old & st1 & Hg & Hset & HR1 & C1 & _).
  destruct (Rep_delete k _ _ _ _ _ _ _ HR1 C1 ltac:(intros a _ [])) as (st2 & Hdel & HR2). exists old, st1, st2. eexists. split; [exact Hg|]. split; [exact Hset|]. split; [exact Hdel|exact HR2].
Qed.
Theorem opt_step_ok : variant k = false -> forall o (st : state) s s' F, Rep st s F none -> effect k o s = Some s' -> exists st' F', opt_step k o st = Fine st' /\ Rep st' s' F' none.
Proof.
  intros Hopt o st s s' F HR He. assert (Hb : variant k = true -> nested k 0 = false) by congruence. assert (Hcp : forall m, copyable k m) by (intros m E; congruence).
  destruct o as [x|x i v|x [y e]|x [y e]|x|[x d] [y e]|[x d] [y e]|[x d] [y e]|[x d] i v|[x d] i|[x d]|[x d] v|[x d] [y e]]; cbn [effect opt_step] in *.
  - destruct (s x) eqn:Hx; [discriminate|]. injection He as <-. rewrite (Rep_none _ _ _ _ _ HR Hx). eexists _, _. split; [reflexivity|].
    unfold default. rewrite Hopt. eapply Rep_new; [apply Rep_add, HR|exact Hx|constructor|intros a []].
  - destruct (s x) eqn:Hx; [discriminate|]. injection He as <-. rewrite (Rep_none _ _ _ _ _ HR Hx).
    destruct (Rep_build k _ _ _ _ i v HR Hb) as (n & st1 & N & -> & HR1 & C & D). cbn [mbind]. eexists _, _. split; [reflexivity|]. eapply Rep_new; eassumption.
  - destruct (s x) eqn:Hx; [discriminate|]. rewrite (Rep_none _ _ _ _ _ HR Hx). destruct (at_ k s (y, e)) as [m|] eqn:Hq; [|discriminate]. injection He as <-. apply at_some in Hq as (l & Hy & Hs).
    destruct (open k _ _ _ _ _ _ _ _ HR Hy Hs) as (q & -> & Hg & C & _ & _). cbn [mbind]. rewrite Hg. cbn [mbind].
    destruct (Rep_copy k _ _ _ _ _ _ _ HR C (Hcp _)) as (n & st1 & N & -> & HR1 & C1 & D). cbn [mbind]. eexists _, _. split; [reflexivity|]. eapply Rep_new; eassumption.
  - destruct (s x) eqn:Hx; [discriminate|]. rewrite (Rep_none _ _ _ _ _ HR Hx). destruct (at_ k s (y, e)) as [m|] eqn:Hq; [|discriminate]. injection He as <-. apply at_some in Hq as (l & Hy & Hs).
    destruct (open k _ _ _ _ _ _ _ _ HR Hy Hs) as (q & -> & Hg & _ & _ & _). cbn [mbind]. rewrite Hg. cbn [mbind].
    destruct (exchange k _ _ _ _ _ _ _ _ null [] [] (Rep_add _ _ _ _ HR) Hy Hs (ch_nil _ _ _) ltac:(intros a [])) as (q' & st1 & Hg' & -> & HR1 & C & D). assert (q' = q) as -> by congruence.
    cbn [mbind]. eexists _, _. split; [reflexivity|]. rewrite (put_some _ _ _ _ _ Hy). eapply Rep_new; [exact HR1| |exact C|exact D]. rewrite upd_other; [exact Hx|]. intros ->. congruence.
  - destruct (s x) as [l|] eqn:Hx; [|discriminate]. injection He as <-. destruct (Rep_drop k _ _ _ _ _ _ HR Hx) as (o & st1 & -> & Hd & HR1). cbn [mbind]. rewrite Hd. cbn [mbind]. eauto.
  - destruct (at_ k s (x, d)) as [m|] eqn:Hp; [|discriminate]. destruct (at_ k s (y, e)) as [m'|] eqn:Hq; [|discriminate]. injection He as <-.
    apply at_some in Hp as (l & Hx & Hs), Hq as (l' & Hy & Hs'). destruct (open k _ _ _ _ _ _ _ _ HR Hx Hs) as (g & -> & Hg & C & _ & _). cbn [mbind].
    destruct (open k _ _ _ _ _ _ _ _ HR Hy Hs') as (q & -> & Hg' & C' & _ & _). cbn [mbind]. rewrite Hg'. cbn [mbind].
    destruct (Rep_copy k _ _ _ _ _ _ _ HR C' (Hcp _)) as (n & st1 & N & -> & HR1 & C1 & _). cbn [mbind].
    destruct (replace _ _ _ _ _ _ _ _ _ _ HR1 Hx Hs C1) as (old & st2 & st3 & F' & -> & H2 & H3 & HR3). cbn [mbind]. rewrite H2. cbn [mbind]. rewrite H3. rewrite (put_some _ _ _ _ _ Hx). eauto.
  - destruct (at_ k s (x, d)) as [m|] eqn:Hp; [|discriminate]. destruct (at_ k s (y, e)) as [m'|] eqn:Hq; [|discriminate]. cbn [ifSome] in He.
    apply at_some in Hp as (l & Hx & Hs), Hq as (l' & Hy & Hs'). destruct (open k _ _ _ _ _ _ _ _ HR Hx Hs) as (g & -> & Hg & C & _ & _). cbn [mbind].
    destruct (open k _ _ _ _ _ _ _ _ HR Hy Hs') as (q & -> & Hg' & C' & _ & _). cbn [mbind]. rewrite Hg'. cbn [mbind].
    destruct (exchange k _ _ _ _ _ _ _ _ null [] [] (Rep_add _ _ _ _ HR) Hy Hs' (ch_nil _ _ _) ltac:(intros a [])) as (q' & st1 & Hg2 & -> & HR1 & C1 & _). assert (q' = q) as -> by congruence.
    cbn [mbind]. destruct (part (x, d) (y, e)) eqn:Epart; [discriminate|]. unfold part in Epart. cbn in Epart.
    assert (Hsl : exists l1 m1, upd s y (Some (firstn e l' ++ [])) x = Some l1 /\ sub k l1 d = Some m1 /\ firstn d l1 = firstn d l /\ firstn d (move_to F y (firstn e (F y) ++ []) x) = firstn d (F x)).
    { destruct (Nat.eq_dec x y) as [->|Hne].
      - rewrite Nat.eqb_refl in Epart. cbn in Epart. apply Nat.ltb_ge in Epart. rewrite upd_same, move_to_same. assert (l' = l) as -> by congruence.
        destruct (sub_prefix _ _ _ d [] Hs' Epart) as (m1 & Hm1). exists (firstn e l ++ []), m1. split; [reflexivity|]. split; [exact Hm1|]. rewrite !app_nil_r, !firstn_firstn, Nat.min_l by exact Epart. auto.
      - rewrite upd_other by exact Hne. rewrite move_to_other by exact Hne. exists l, m. auto. }
    destruct Hsl as (l1 & m1 & Hx1 & Hs1 & El & EF). destruct (replace _ _ _ _ _ _ _ _ _ _ HR1 Hx1 Hs1 C1) as (old & st2 & st3 & F' & Hget & H2 & H3 & HR3). rewrite EF in Hget, H2. rewrite Hget. cbn [mbind]. rewrite H2. cbn [mbind]. rewrite H3.
    exists st3, F'. split; [reflexivity|]. destruct (same (x, d) (y, e)) eqn:Es; injection He as <-.
    + unfold same in Es. cbn in Es. apply andb_prop in Es as [Ex Ed]. apply Nat.eqb_eq in Ex, Ed. subst y e. assert (l' = l) as -> by congruence. rewrite Hopt.
      eapply Rep_ext; [exact HR3| |reflexivity|reflexivity]. intros z. destruct (Nat.eq_dec z x) as [->|Hz]; [|rewrite !upd_other by exact Hz; reflexivity]. rewrite upd_same, Hx, El. f_equal. apply (sub_split _ _ _ Hs').
    + rewrite (put_some _ _ _ _ _ Hy), (put_some _ _ _ _ _ Hx1). exact HR3.
  - destruct (at_ k s (x, d)) as [m|] eqn:Hp; [|discriminate]. destruct (at_ k s (y, e)) as [m'|] eqn:Hq; [|discriminate]. cbn [ifSome] in He. destruct m' as [|[i v] m']; [discriminate|]. injection He as <-.
    apply at_some in Hp as (l & Hx & Hs), Hq as (l' & Hy & Hs'). destruct (open k _ _ _ _ _ _ _ _ HR Hx Hs) as (g & -> & Hg & C & _ & _). cbn [mbind].
    destruct (open k _ _ _ _ _ _ _ _ HR Hy Hs') as (q & -> & Hg' & C' & _ & _). cbn [mbind]. rewrite Hg'. cbn [mbind].
    destruct (Rep_copy k _ _ _ _ _ _ _ HR C' (Hcp _)) as (n & st1 & N & Hc & HR1 & C1 & _).
    assert (exists a, o_ptr q = Some a) as (a & ->) by exact (chain_ptr _ _ _ _ _ C'). rewrite Hc. cbn [mbind].
    destruct (replace _ _ _ _ _ _ _ _ _ _ HR1 Hx Hs C1) as (old & st2 & st3 & F' & -> & H2 & H3 & HR3). cbn [mbind]. rewrite H2. cbn [mbind]. rewrite H3. rewrite (put_some _ _ _ _ _ Hx). eauto.
  - destruct (at_ k s (x, d)) as [m|] eqn:Hp; [|discriminate]. injection He as <-. apply at_some in Hp as (l & Hx & Hs). destruct (open k _ _ _ _ _ _ _ _ HR Hx Hs) as (g & -> & Hg & C & _ & _). cbn [mbind].
    destruct (Rep_build k _ _ _ _ i v HR Hb) as (n & st1 & N & -> & HR1 & C1 & _). cbn [mbind].
    destruct (replace _ _ _ _ _ _ _ _ _ _ HR1 Hx Hs C1) as (old & st2 & st3 & F' & -> & H2 & H3 & HR3). cbn [mbind]. rewrite H2. cbn [mbind]. rewrite H3. rewrite (put_some _ _ _ _ _ Hx). eauto.
  - destruct (at_ k s (x, d)) as [m|] eqn:Hp; [|discriminate]. injection He as <-. apply at_some in Hp as (l & Hx & Hs). destruct (open k _ _ _ _ _ _ _ _ HR Hx Hs) as (g & -> & Hg & C & _ & _). cbn [mbind]. rewrite Hopt. eauto.
  - rewrite Hopt in He. destruct (at_ k s (x, d)) as [m|] eqn:Hp; [|discriminate]. injection He as <-. apply at_some in Hp as (l & Hx & Hs). destruct (open k _ _ _ _ _ _ _ _ HR Hx Hs) as (g & -> & Hg & C & _ & _). cbn [mbind].
    destruct (replace _ _ _ _ _ _ _ null [] [] (Rep_add _ _ _ _ HR) Hx Hs (ch_nil _ _ _)) as (old & st2 & st3 & F' & -> & H2 & H3 & HR3). cbn [mbind]. rewrite H2. cbn [mbind]. rewrite H3. rewrite (put_some _ _ _ _ _ Hx). eauto.
  - destruct (at_ k s (x, d)) as [m|] eqn:Hp; [|discriminate]. cbn [ifSome] in He. destruct m as [|[i w] m]; [discriminate|]. injection He as <-. apply at_some in Hp as (l & Hx & Hs).
    destruct (open k _ _ _ _ _ _ _ _ HR Hx Hs) as (g & -> & Hg & C & _ & _). cbn [mbind]. destruct (Rep_write k _ _ _ _ _ _ _ _ _ _ v HR Hx Hs) as (o & a & c & h & -> & H1 & H2 & H3 & HR1). cbn [mbind].
    rewrite H1, H2. cbn [mbind]. rewrite H3. cbn [mbind]. rewrite (put_some _ _ _ _ _ Hx). eauto.
  - rewrite Hopt in He. discriminate.
Qed.

(** * Variants *)
Lemma RepH_read (st : state) s F E x d s1 g l0 y e l m : RepH st s F E x d s1 g l0 -> y <> x -> s y = Some l -> sub k l e = Some m ->
  exists q, place k st y e = Fine (slot_of y (firstn e (F y))) /\ get k st (slot_of y (firstn e (F y))) = Fine q /\ chain (mem st) q m (skipn e (F y)).
Proof.
  intros (A & _ & _) Hne Hy Hs. specialize (A y Hne). unfold var_ok in A. rewrite Hy in A. destruct A as (o & Ho & C).
  destruct (chain_walk k _ _ _ _ C (Var y) e m Hs) as (s' & q & F0 & F1 & W & C1 & HF & Hd). destruct (walk_slot _ _ _ _ _ _ _ _ _ W) as (-> & HL).
  assert (HF0 : firstn e (F y) = F0) by (rewrite HF, firstn_app, <- HL, Nat.sub_diag, firstn_all; cbn; apply app_nil_r).
  assert (HF1 : skipn e (F y) = F1) by (rewrite HF, skipn_app, <- HL, Nat.sub_diag, skipn_all; reflexivity).
  rewrite HF0, HF1. exists q. destruct (walk_place k _ _ _ _ _ _ _ _ Ho W) as (Hp & Hg). auto.
Qed.
Lemma RepH_grown (st : state) s F (E : nat -> Prop) x d s1 g l0 h' N : RepH st s F E x d s1 g l0 -> grown (mem st) h' N ->
  RepH (State (vars st) h') s F (fun a => In a N \/ E a) x d s1 g l0 /\ (forall a, In a N -> ~ E a).
Proof.
  intros HH Hg. destruct (grown_space _ _ _ _ _ (proj1 (proj2 HH)) Hg) as (Hs & Hd). split; [|exact Hd]. eapply RepH_keep; [exact HH|exact Hs|]. eapply grown_old; [apply HH|exact Hg].
Qed.
Lemma RepH_exchange (st : state) s F (E : nat -> Prop) x d s1 g l0 y e l m n m' N : RepH st s F (fun a => In a N \/ E a) x d s1 g l0 -> y <> x -> s y = Some l -> sub k l e = Some m ->
  chain (mem st) n m' N -> (forall a, In a N -> ~ E a) ->
  exists st', set k st (slot_of y (firstn e (F y))) n = Fine st' /\
    RepH st' (upd s y (Some (firstn e l ++ m'))) (move_to F y (firstn e (F y) ++ N)) (fun a => In a (skipn e (F y)) \/ E a) x d s1 g l0 /\ (forall a, In a (skipn e (F y)) -> ~ E a) /\
    (forall a, ~ In a (firstn e (F y)) -> nth_error (mem st') a = nth_error (mem st) a) /\ (forall a, In a (skipn e (F y)) -> ~ In a (firstn e (F y))).
Proof.
  intros (A & B & o & Ho & W) Hne Hy Hs C D. pose proof (A y Hne) as Ay. unfold var_ok in Ay. rewrite Hy in Ay. destruct Ay as (p & Hp & Cy).
  destruct (chain_walk k _ _ _ _ Cy (Var y) e m Hs) as (s' & q & F0 & F1 & Wy & C1 & HF & Hd). destruct (walk_slot _ _ _ _ _ _ _ _ _ Wy) as (-> & HL).
  assert (HF0 : firstn e (F y) = F0) by (rewrite HF, firstn_app, <- HL, Nat.sub_diag, firstn_all; cbn; apply app_nil_r).
  assert (HF1 : skipn e (F y) = F1) by (rewrite HF, skipn_app, <- HL, Nat.sub_diag, skipn_all; reflexivity).
  rewrite HF0, HF1. destruct (walk_set k st y p e _ q _ F0 n Hp Wy) as (st' & p1 & Hset & Hp1 & Hv & Wy' & HLn & Hk). exists st'. split; [exact Hset|].
  assert (HinF : forall a, In a F0 \/ In a F1 -> In a (F y)) by (intros a Ha; rewrite HF; apply in_or_app, Ha).
  assert (Hin : forall z a, In a (move_to F y (F0 ++ N) z) -> (In a (F z) /\ (z = y -> In a F0)) \/ (z = y /\ In a N)).
  { intros z a. unfold move_to. destruct (Nat.eqb_spec z y) as [->|]; [|left; split; [assumption|contradiction]]. intros Ha. apply in_app_or in Ha as [Ha|Ha]; auto. }
  split; [split; [|split]|split; [|split; [exact Hk|]]].
  - intros z Hz. destruct (Nat.eq_dec z y) as [->|Hzy].
    + unfold var_ok. rewrite upd_same, move_to_same. exists p1. split; [exact Hp1|]. eapply walk_chain; [exact Wy'| |].
      * eapply chain_frame; [exact C|]. intros a Ha. apply Hk. intros Hf. apply (sp_out _ _ _ B y a); auto.
      * intros a Ha Hn. apply (sp_out _ _ _ B y a); auto.
    + eapply var_ok_frame; [apply A, Hz|apply Hv, Hzy|apply upd_other, Hzy|apply move_to_other, Hzy|]. intros a Ha. apply Hk. intros Hf. eapply (sp_apart _ _ _ B z y); [exact Hzy|exact Ha|auto].
  - split.
    + intros z w a Hzw Hz Hw. apply Hin in Hz, Hw. destruct Hz as [[Hz _]|[-> Hz]], Hw as [[Hw _]|[-> Hw]].
      * eapply (sp_apart _ _ _ B z w); eassumption.
      * eapply (sp_out _ _ _ B); [exact Hz|left; exact Hw].
      * eapply (sp_out _ _ _ B); [exact Hw|left; exact Hz].
      * contradiction.
    + intros z a Hz [Ha|Ha].
      * apply Hin in Hz as [[Hz Hz']|[-> Hz]]; [|apply (sp_out _ _ _ B y a); auto]. destruct (Nat.eq_dec z y) as [->|Hzy]; [exact (Hd a (Hz' eq_refl) Ha)|]. eapply (sp_apart _ _ _ B z y); eauto.
      * apply Hin in Hz as [[Hz _]|[-> Hz]]; [eapply (sp_out _ _ _ B); [exact Hz|right; exact Ha]|eapply D; eassumption].
    + intros a c Hc. assert (Hc' : In a F0 \/ cell_at (mem st) a c). { destruct (in_dec Nat.eq_dec a F0) as [Hi|Hi]; [left; exact Hi|right]. unfold cell_at in *. rewrite <- Hk by exact Hi. exact Hc. }
      destruct Hc' as [Hi|Hc']; [right; exists y; rewrite move_to_same; apply in_or_app; left; exact Hi|].
      destruct (sp_all _ _ _ B a c Hc') as [[Hg|He]|[z Hz]].
      * right. exists y. rewrite move_to_same. apply in_or_app. right. exact Hg.
      * left. right. exact He.
      * destruct (Nat.eq_dec z y) as [->|Hzy]; [|right; exists z; rewrite move_to_other by exact Hzy; exact Hz]. rewrite HF in Hz. apply in_app_or in Hz as [Hz|Hz]; [|left; left; exact Hz].
        right. exists y. rewrite move_to_same. apply in_or_app. left. exact Hz.
    + intros z a Hz. rewrite HLn. apply Hin in Hz as [[Hz _]|[-> Hz]]; [eapply (sp_in _ _ _ B), Hz|apply (sp_ext _ _ _ B); left; exact Hz].
    + intros a [Ha|Ha]; rewrite HLn; [eapply (sp_in _ _ _ B y); auto|apply (sp_ext _ _ _ B); right; exact Ha].
  - exists o. split; [rewrite Hv by (intros E1; apply Hne; symmetry; exact E1); exact Ho|]. rewrite move_to_other by (intros E1; apply Hne; symmetry; exact E1). eapply walk_frame; [exact W|].
    intros a Ha. apply Hk. intros Hf. eapply (sp_apart _ _ _ B x y); [intros E1; apply Hne; symmetry; exact E1|exact Ha|auto].
  - intros a Ha He. eapply (sp_out _ _ _ B y); [apply HinF; right; exact Ha|right; exact He].
  - intros a Ha Hf. exact (Hd a Hf Ha).
Qed.
Lemma RepH_Rep_ext (st : state) s F (E : nat -> Prop) x d s1 g l0 l m G : RepH st s (move_to F x (firstn d (F x))) (fun a => In a G \/ E a) x d s1 g l0 -> chain (mem st) g m G -> (forall a, In a G -> ~ E a) ->
  s x = Some l -> l0 = firstn d l -> exists F', Rep st (put_ s (x, d) m) F' E.
Proof. intros HH C D Hx ->. rewrite (put_some _ _ _ _ _ Hx). eexists. eapply close; eassumption. Qed.
Lemma RepH_none (st : state) s F E x d s1 g l0 : RepH st s F E x d s1 g l0 -> RepH st s F (fun a => In a [] \/ E a) x d s1 g l0.
Proof. intros H. eapply RepH_ext; [exact H|]. cbn. intros a. tauto. Qed.

Theorem var_step_ok : variant k = true -> nested k 0 = false -> forall o (st : state) s s' F, Rep st s F none -> effect k o s = Some s' -> careful k o s ->
  exists st' F', var_step k o st = Fine st' /\ Rep st' s' F' none.
Proof.
  intros Hvar H0 o st s s' F HR He Hcf. assert (Hb : variant k = true -> nested k 0 = false) by auto.
  destruct o as [x|x i v|x [y e]|x [y e]|x|[x d] [y e]|[x d] [y e]|[x d] [y e]|[x d] i v|[x d] i|[x d]|[x d] v|[x d] [y e]]; cbn [effect var_step careful fst snd] in *.
  - destruct (s x) eqn:Hx; [discriminate|]. injection He as <-. rewrite (Rep_none _ _ _ _ _ HR Hx), H0.
    destruct (Rep_build k _ _ _ _ 0 (first k) HR Hb) as (n & st1 & N & -> & HR1 & C & D). cbn [mbind]. eexists _, _. split; [reflexivity|]. eapply Rep_new; [exact HR1|exact Hx| |exact D].
    unfold default. rewrite Hvar. unfold made in C. rewrite H0 in C. exact C.
  - destruct (s x) eqn:Hx; [discriminate|]. injection He as <-. rewrite (Rep_none _ _ _ _ _ HR Hx).
    destruct (Rep_build k _ _ _ _ i v HR Hb) as (n & st1 & N & -> & HR1 & C & D). cbn [mbind]. eexists _, _. split; [reflexivity|]. eapply Rep_new; eassumption.
  - destruct (s x) eqn:Hx; [discriminate|]. rewrite (Rep_none _ _ _ _ _ HR Hx). destruct Hcf as (m & Hq & Hw). rewrite Hq in He. injection He as <-. apply at_some in Hq as (l & Hy & Hs).
    destruct (open k _ _ _ _ _ _ _ _ HR Hy Hs) as (q & -> & Hg & C & _ & _). cbn [mbind]. rewrite Hg. cbn [mbind].
    destruct (Rep_copy k _ _ _ _ _ _ _ HR C ltac:(intros _; exact Hw)) as (n & st1 & N & -> & HR1 & C1 & D). cbn [mbind]. eexists _, _. split; [reflexivity|]. eapply Rep_new; eassumption.
  - destruct (s x) eqn:Hx; [discriminate|]. rewrite (Rep_none _ _ _ _ _ HR Hx). destruct (at_ k s (y, e)) as [m|] eqn:Hq; [|discriminate]. injection He as <-. apply at_some in Hq as (l & Hy & Hs).
    destruct (open k _ _ _ _ _ _ _ _ HR Hy Hs) as (q & -> & Hg & _ & _ & _). cbn [mbind]. rewrite Hg. cbn [mbind].
    destruct (exchange k _ _ _ _ _ _ _ _ (Obj (o_index q) None) [] [] (Rep_add _ _ _ _ HR) Hy Hs (ch_nil _ _ _) ltac:(intros a [])) as (q' & st1 & Hg' & -> & HR1 & C & D). assert (q' = q) as -> by congruence.
    cbn [mbind]. eexists _, _. split; [reflexivity|]. rewrite (put_some _ _ _ _ _ Hy). eapply Rep_new; [exact HR1| |exact C|exact D]. rewrite upd_other; [exact Hx|]. intros ->. congruence.
  - destruct (s x) as [l|] eqn:Hx; [|discriminate]. injection He as <-. destruct (Rep_drop k _ _ _ _ _ _ HR Hx) as (o & st1 & -> & Hd & HR1). cbn [mbind]. rewrite Hd. cbn [mbind]. eauto.
  - (* copy *)
    destruct Hcf as (Hne & mq & Hq & Hw). destruct (at_ k s (x, d)) as [m|] eqn:Hp; [|discriminate]. rewrite Hq in He. injection He as <-.
    apply at_some in Hp as (l & Hx & Hs), Hq as (l' & Hy & Hs'). destruct (open k _ _ _ _ _ _ _ _ HR Hx Hs) as (old & -> & Hg & C & HH & D). cbn [mbind].
    assert (Hyx : y <> x) by congruence.
    assert (HF : move_to F x (firstn d (F x)) y = F y) by (apply move_to_other, Hyx).
    destruct (RepH_read _ _ _ _ _ _ _ _ _ _ _ _ _ HH Hyx Hy Hs') as (q0 & -> & _ & _). cbn [mbind]. rewrite Hg. cbn [mbind].
    destruct (RepH_delete k _ _ _ _ _ _ _ _ _ _ _ _ HH C D) as (st1 & -> & HH1 & _ & _). cbn [mbind].
    destruct (RepH_read _ _ _ _ _ _ _ _ _ _ _ _ _ HH1 Hyx Hy Hs') as (q1 & _ & -> & _). cbn [mbind].
    destruct (store k _ _ _ _ _ _ _ _ _ (Obj (o_index q1) (o_ptr old)) HH1) as (st2 & -> & HH2 & _ & _). cbn [mbind].
    destruct (RepH_read _ _ _ _ _ _ _ _ _ _ _ _ _ HH2 Hyx Hy Hs') as (q2 & _ & -> & C2). cbn [mbind].
    destruct (copy_chain k _ _ _ _ C2 ltac:(intros _; exact Hw) (fuel_for (mem st2))) as (n & h3 & N & Hcopy & Hgr & C3 & Hidx). { unfold fuel_for. pose proof (chain_small _ _ _ _ _ C2). lia. }
    unfold copy_in. rewrite Hcopy. cbn [mbind]. destruct (RepH_grown _ _ _ _ _ _ _ _ _ _ _ HH2 Hgr) as (HH3 & D3).
    assert (Hn : Obj (o_index q2) (o_ptr n) = n). { rewrite <- Hidx; [destruct n; reflexivity|]. inversion C2; subst; cbn; try discriminate. destruct Hw. }
    rewrite Hn. destruct (store k _ _ _ _ _ _ _ _ _ n HH3) as (st4 & -> & HH4 & _ & Hk4).
    destruct (RepH_Rep_ext _ _ _ _ _ _ _ _ _ l mq N HH4) as (F' & HR'); [|intros a _ []|exact Hx|reflexivity|exists st4, F'; split; [reflexivity|exact HR']].
    eapply chain_frame; [exact C3|]. intros a Ha. apply Hk4. intros Hf. destruct HH3 as (_ & B3 & _). eapply (sp_out _ _ _ B3); [exact Hf|left; exact Ha].
  - (* move *)
    destruct (at_ k s (x, d)) as [m|] eqn:Hp; [|discriminate]. destruct (at_ k s (y, e)) as [m'|] eqn:Hq; [|discriminate]. cbn [ifSome] in He.
    apply at_some in Hp as (l & Hx & Hs), Hq as (l' & Hy & Hs'). destruct (open k _ _ _ _ _ _ _ _ HR Hx Hs) as (old & Hpl & Hg & C & HH & D). rewrite Hpl. cbn [mbind].
    destruct (Nat.eq_dec x y) as [->|Hne].
    + specialize (Hcf eq_refl). subst e. rewrite Hpl. cbn [mbind]. rewrite Hg. cbn [mbind]. destruct (RepH_delete k _ _ _ _ _ _ _ _ _ _ _ _ HH C D) as (st1 & -> & HH1 & _ & _). cbn [mbind].
      destruct (RepH_get k _ _ _ _ _ _ _ _ _ HH1) as (-> & _). cbn [mbind].
      destruct (store k _ _ _ _ _ _ _ _ _ (Obj (o_index old) (o_ptr old)) HH1) as (st2 & -> & HH2 & _ & _). cbn [mbind].
      destruct (RepH_get k _ _ _ _ _ _ _ _ _ HH2) as (-> & _). cbn [mbind o_index].
      destruct (store k _ _ _ _ _ _ _ _ _ (Obj (o_index old) None) HH2) as (st3 & -> & HH3 & _ & _). cbn [mbind].
      destruct (RepH_Rep_ext _ _ _ _ _ _ _ _ _ l [] [] (RepH_none _ _ _ _ _ _ _ _ _ HH3)) as (F' & HR'); [constructor|intros a []|exact Hx|reflexivity|]. exists st3, F'. split; [reflexivity|].
      unfold part, same in He. cbn [fst snd] in He. rewrite !Nat.eqb_refl, Nat.ltb_irrefl, Hvar in He. cbn [andb] in He. injection He as <-. exact HR'.
    + assert (Hyx : y <> x) by congruence.
      assert (HF : move_to F x (firstn d (F x)) y = F y) by (apply move_to_other, Hyx).
      destruct (RepH_read _ _ _ _ _ _ _ _ _ _ _ _ _ HH Hyx Hy Hs') as (q0 & -> & _ & _). cbn [mbind]. rewrite Hg. cbn [mbind].
      destruct (RepH_delete k _ _ _ _ _ _ _ _ _ _ _ _ HH C D) as (st1 & -> & HH1 & _ & _). cbn [mbind].
      destruct (RepH_read _ _ _ _ _ _ _ _ _ _ _ _ _ HH1 Hyx Hy Hs') as (q1 & _ & Hq1 & C1). rewrite Hq1. cbn [mbind].
      destruct (store k _ _ _ _ _ _ _ _ _ (Obj (o_index q1) (o_ptr q1)) HH1) as (st2 & -> & HH2 & Hv2 & Hk2). cbn [mbind].
      assert (C1' : chain (mem st2) q1 m' (skipn e (move_to F x (firstn d (F x)) y))).
      { eapply chain_frame; [exact C1|]. intros a Ha. apply Hk2. rewrite HF in Ha. intros Hf. destruct HH1 as (_ & B1 & _). eapply (sp_apart _ _ _ B1 y x a Hyx); [|exact Hf]. rewrite HF.
        rewrite <- (firstn_skipn e (F y)). apply in_or_app. right. exact Ha. }
      destruct (RepH_read _ _ _ _ _ _ _ _ _ _ _ _ _ HH2 Hyx Hy Hs') as (q2 & _ & Hq2 & _). rewrite Hq2. cbn [mbind].
      destruct (RepH_exchange _ _ _ _ _ _ _ _ _ y e l' m' (Obj (o_index q2) None) [] [] (RepH_none _ _ _ _ _ _ _ _ _ HH2) Hyx Hy Hs' (ch_nil _ _ _) ltac:(intros a [])) as (st3 & -> & HH3 & D3 & Hk3 & Hd3).
      assert (Hq1eta : Obj (o_index q1) (o_ptr q1) = q1) by (destruct q1; reflexivity). rewrite Hq1eta in *.
      exists st3. assert (HF2 : exists F', Rep st3 (put_ (put_ s (y, e) []) (x, d) m') F' none).
      { rewrite (put_some _ _ _ _ _ Hy). eapply (RepH_Rep_ext _ _ (move_to (move_to F x (firstn d (F x))) y (firstn e (move_to F x (firstn d (F x)) y) ++ [])) none _ _ _ _ _ _ _ (skipn e (move_to F x (firstn d (F x)) y))).
        - destruct HH3 as (A3 & B3 & W3). split; [|split].
          + intros z Hz. eapply var_ok_frame; [apply A3, Hz|reflexivity|reflexivity|apply move_to_other, Hz|intros a _; reflexivity].
          + eapply space_ext; [exact B3| |reflexivity]. intros z. destruct (Nat.eq_dec z x) as [->|Hz]; [|apply move_to_other, Hz]. rewrite move_to_same. rewrite !(move_to_other _ y _ x) by (intros E1; apply Hyx; symmetry; exact E1). rewrite move_to_same, firstn_firstn, Nat.min_id. reflexivity.
          + destruct W3 as (o & Ho & W). exists o. split; [exact Ho|]. rewrite move_to_same. rewrite !(move_to_other _ y _ x) in * by (intros E1; apply Hyx; symmetry; exact E1). rewrite move_to_same in *. rewrite firstn_firstn, Nat.min_id. exact W.
        - eapply chain_frame; [exact C1'|]. intros a Ha. apply Hk3, Hd3, Ha.
        - exact D3.
        - rewrite upd_other by exact Hne. exact Hx.
        - reflexivity. }
      destruct HF2 as (F' & HF2). exists F'. split; [reflexivity|]. unfold part, same in He. cbn in He. apply Nat.eqb_neq in Hne. rewrite Hne in He. cbn in He. injection He as <-. exact HF2.
  - (* assigning a value *)
    destruct Hcf as (Hne & i & v & mq & Hq & Hn). destruct (at_ k s (x, d)) as [m|] eqn:Hp; [|discriminate]. rewrite Hq in He. injection He as <-.
    apply at_some in Hp as (l & Hx & Hs), Hq as (l' & Hy & Hs'). destruct (open k _ _ _ _ _ _ _ _ HR Hx Hs) as (old & -> & Hg & C & HH & D). cbn [mbind].
    assert (Hyx : y <> x) by congruence.
    assert (HF : move_to F x (firstn d (F x)) y = F y) by (apply move_to_other, Hyx).
    destruct (RepH_read _ _ _ _ _ _ _ _ _ _ _ _ _ HH Hyx Hy Hs') as (q0 & -> & Hq0 & C0). cbn [mbind]. rewrite Hq0. cbn [mbind].
    assert (HC0 : exists a w, q0 = Obj (Some i) (Some a) /\ cell_at (mem st) a (Cell i v w) /\ mq = [] /\ skipn e (move_to F x (firstn d (F x)) y) = [a]).
    { clear - C0 Hn. remember (skipn e (move_to F x (firstn d (F x)) y)) as K. remember ((i, v) :: mq) as L eqn:EL. destruct C0; [discriminate| |]; injection EL as -> -> <-; [eauto 8|congruence]. }
    destruct HC0 as (a & w & -> & Hc & -> & HK). cbn [o_ptr]. rewrite (target_fine (mem st) i a _ Hc eq_refl). cbn [mbind c_alt]. rewrite Hg. cbn [mbind].
    destruct (RepH_delete k _ _ _ _ _ _ _ _ _ _ _ _ HH C D) as (st1 & -> & HH1 & _ & Hk1). cbn [mbind].
    destruct (store k _ _ _ _ _ _ _ _ _ (Obj (Some i) (o_ptr old)) HH1) as (st2 & -> & HH2 & _ & Hk2). cbn [mbind].
    assert (Hay : In a (F y)) by (rewrite <- (firstn_skipn e (F y)); apply in_or_app; right; rewrite HF in HK; rewrite HK; left; reflexivity).
    assert (Hc2 : cell_at (mem st2) a (Cell i v w)).
    { unfold cell_at. rewrite Hk2, Hk1; [exact Hc| |].
      - intros Hf. apply (sp_apart _ _ _ (proj2 HR) y x a Hyx Hay). rewrite <- (firstn_skipn d (F x)). apply in_or_app. right. exact Hf.
      - rewrite move_to_same. intros Hf. apply (sp_apart _ _ _ (proj2 HR) y x a Hyx Hay). rewrite <- (firstn_skipn d (F x)). apply in_or_app. left. exact Hf. }
    rewrite (read_fine _ _ _ Hc2). cbn [mbind alloc c_alt c_val]. rewrite Hn. cbn [mbind].
    destruct (grown_alloc (mem st2) (mem st2) [] (Cell i v null) (grown_refl _)) as (G & Hc' & _). destruct (RepH_grown _ _ _ _ _ _ _ _ _ _ _ HH2 G) as (HH3 & D3).
    destruct (store k _ _ _ _ _ _ _ _ _ (Obj (Some i) (Some (length (mem st2)))) HH3) as (st4 & -> & HH4 & _ & Hk4).
    destruct (RepH_Rep_ext _ _ _ _ _ _ _ _ _ l [(i, v)] [length (mem st2)] HH4) as (F' & HR'); [|intros b _ []|exact Hx|reflexivity|exists st4, F'; split; [reflexivity|exact HR']].
    eapply chain_frame; [eapply ch_leaf; [exact Hc'|exact Hn]|]. intros b Hb'. apply Hk4. intros Hf. destruct HH3 as (_ & B3 & _). eapply (sp_out _ _ _ B3); [exact Hf|left; exact Hb'].
  - (* emplace *)
    destruct (at_ k s (x, d)) as [m|] eqn:Hp; [|discriminate]. injection He as <-. apply at_some in Hp as (l & Hx & Hs). destruct (open k _ _ _ _ _ _ _ _ HR Hx Hs) as (old & -> & Hg & C & HH & D). cbn [mbind].
    rewrite Hg. cbn [mbind]. destruct (RepH_delete k _ _ _ _ _ _ _ _ _ _ _ _ HH C D) as (st1 & -> & HH1 & _ & Hk1). cbn [mbind].
    destruct (store k _ _ _ _ _ _ _ _ _ (Obj (Some i) (o_ptr old)) HH1) as (st2 & -> & HH2 & _ & Hk2). cbn [mbind].
    destruct (build_chain k (mem st2) i v Hb) as (n & h3 & N & Hbuild & Hgr & C3). unfold build_in. rewrite Hbuild. cbn [mbind].
    destruct (RepH_grown _ _ _ _ _ _ _ _ _ _ _ HH2 Hgr) as (HH3 & D3). destruct (store k _ _ _ _ _ _ _ _ _ n HH3) as (st4 & -> & HH4 & _ & Hk4).
    destruct (RepH_Rep_ext _ _ _ _ _ _ _ _ _ l (made k i v) N HH4) as (F' & HR'); [|intros b _ []|exact Hx|reflexivity|exists st4, F'; split; [reflexivity|exact HR']].
    eapply chain_frame; [exact C3|]. intros b Hb'. apply Hk4. intros Hf. destruct HH3 as (_ & B3 & _). eapply (sp_out _ _ _ B3); [exact Hf|left; exact Hb'].
  - destruct Hcf.
  - rewrite Hvar in He. discriminate.
  - destruct (at_ k s (x, d)) as [m|] eqn:Hp; [|discriminate]. cbn [ifSome] in He. destruct m as [|[i w] m]; [discriminate|]. injection He as <-. apply at_some in Hp as (l & Hx & Hs).
    destruct (open k _ _ _ _ _ _ _ _ HR Hx Hs) as (g & -> & Hg & C & _ & _). cbn [mbind]. destruct (Rep_write k _ _ _ _ _ _ _ _ _ _ v HR Hx Hs) as (o & a & c & h & -> & H1 & H2 & H3 & HR1). cbn [mbind].
    rewrite H1, H2. cbn [mbind]. rewrite H3. cbn [mbind]. rewrite (put_some _ _ _ _ _ Hx). eauto.
  - (* swap *)
    rewrite Hvar in He. destruct (at_ k s (x, d)) as [m|] eqn:Hp; [|discriminate]. destruct (at_ k s (y, e)) as [m'|] eqn:Hq; [|discriminate]. cbn [ifSome] in He.
    apply at_some in Hp as (l & Hx & Hs), Hq as (l' & Hy & Hs'). destruct (open k _ _ _ _ _ _ _ _ HR Hx Hs) as (g & Hpl & Hg & C & HH & D). rewrite Hpl. cbn [mbind].
    destruct (Nat.eq_dec x y) as [->|Hne].
    + unfold same in He. cbn [fst snd] in He. rewrite Nat.eqb_refl in He. destruct (Nat.eqb_spec d e) as [->|Hde]; [|discriminate]. cbn [andb] in He. injection He as <-. assert (l' = l) as -> by congruence.
      rewrite Hpl. cbn [mbind]. rewrite Hg. cbn [mbind]. rewrite ?Hg. cbn [mbind].
      destruct (store k _ _ _ _ _ _ _ _ _ g HH) as (st1 & -> & HH1 & _ & Hk1). cbn [mbind]. destruct (store k _ _ _ _ _ _ _ _ _ g HH1) as (st2 & -> & HH2 & _ & Hk2).
      destruct (RepH_Rep_ext _ _ _ _ _ _ _ _ _ l m (skipn e (F y)) HH2) as (F' & HR'); [|intros b _ []|exact Hx|reflexivity|exists st2, F'; split; [reflexivity|]].
      * eapply chain_frame; [exact C|]. intros a Ha. assert (Hna : ~ In a (move_to F y (firstn e (F y)) y)) by (intros Hf; destruct HH as (_ & B & _); eapply (sp_out _ _ _ B); [exact Hf|left; exact Ha]).
        rewrite Hk2 by exact Hna. apply Hk1, Hna.
      * eapply Rep_ext; [exact HR'| |reflexivity|reflexivity]. intros z. rewrite (put_some _ _ _ _ _ Hx). destruct (Nat.eq_dec z y) as [->|Hz]; [|rewrite upd_other by exact Hz; reflexivity]. rewrite upd_same, Hx. f_equal. apply (sub_split _ _ _ Hs).
    + assert (Hyx : y <> x) by congruence. assert (Hxy : x <> y) by congruence.
      assert (HF : move_to F x (firstn d (F x)) y = F y) by (apply move_to_other, Hyx).
      destruct (RepH_read _ _ _ _ _ _ _ _ _ _ _ _ _ HH Hyx Hy Hs') as (q & -> & Hq & Cq). cbn [mbind]. rewrite Hg. cbn [mbind]. rewrite Hq. cbn [mbind].
      destruct (store k _ _ _ _ _ _ _ _ _ q HH) as (st1 & -> & HH1 & _ & Hk1). cbn [mbind].
      assert (Hout : forall a, In a (skipn d (F x)) -> ~ In a (move_to F x (firstn d (F x)) x)) by (intros a Ha Hf; destruct HH as (_ & B & _); eapply (sp_out _ _ _ B); [exact Hf|left; exact Ha]).
      assert (C1 : chain (mem st1) g m (skipn d (F x))) by (eapply chain_frame; [exact C|]; intros a Ha; apply Hk1, Hout, Ha).
      assert (Cq1 : chain (mem st1) q m' (skipn e (move_to F x (firstn d (F x)) y))).
      { eapply chain_frame; [exact Cq|]. intros a Ha. apply Hk1. rewrite HF in Ha. intros Hf. destruct HH as (_ & B1 & _). eapply (sp_apart _ _ _ B1 y x a Hyx); [|exact Hf]. rewrite HF.
        rewrite <- (firstn_skipn e (F y)). apply in_or_app. right. exact Ha. }
      destruct (RepH_exchange _ _ _ _ _ _ _ _ _ y e l' m' g m (skipn d (F x)) HH1 Hyx Hy Hs' C1 D) as (st2 & -> & HH2 & D2 & Hk2 & Hd2).
      exists st2. assert (HF2 : exists F', Rep st2 (put_ (put_ s (y, e) m) (x, d) m') F' none).
      { rewrite (put_some _ _ _ _ _ Hy). eapply (RepH_Rep_ext _ _ (move_to (move_to F x (firstn d (F x))) y (firstn e (move_to F x (firstn d (F x)) y) ++ skipn d (F x))) none _ _ _ _ _ _ _ (skipn e (move_to F x (firstn d (F x)) y))).
        - destruct HH2 as (A3 & B3 & W3). split; [|split].
          + intros z Hz. eapply var_ok_frame; [apply A3, Hz|reflexivity|reflexivity|apply move_to_other, Hz|intros a _; reflexivity].
          + eapply space_ext; [exact B3| |reflexivity]. intros z. destruct (Nat.eq_dec z x) as [->|Hz]; [|apply move_to_other, Hz]. rewrite move_to_same. rewrite !(move_to_other _ y _ x) by exact Hxy. rewrite move_to_same, firstn_firstn, Nat.min_id. reflexivity.
          + destruct W3 as (o & Ho & W). exists o. split; [exact Ho|]. rewrite move_to_same. rewrite !(move_to_other _ y _ x) in * by exact Hxy. rewrite move_to_same in *. rewrite firstn_firstn, Nat.min_id. exact W.
        - eapply chain_frame; [exact Cq1|]. intros a Ha. apply Hk2, Hd2, Ha.
        - exact D2.
        - rewrite upd_other by exact Hne. exact Hx.
        - reflexivity. }
      destruct HF2 as (F' & HF2). exists F'. split; [reflexivity|]. unfold same in He. cbn in He. apply Nat.eqb_neq in Hne as Hne'. rewrite Hne' in He. cbn in He. injection He as <-.
      eapply Rep_ext; [exact HF2| |reflexivity|reflexivity]. assert (E2 : Nat.eqb y x = false) by (apply Nat.eqb_neq; exact Hyx). intros z. unfold put_, upd. cbn [fst snd]. rewrite E2, Hne'.
      destruct (Nat.eqb z y) eqn:Ey, (Nat.eqb z x) eqn:Ex; try reflexivity. apply Nat.eqb_eq in Ey, Ex. congruence.
Qed.

(** * Histories *)
Lemma opt_run_ok : variant k = false -> forall l (st : state) s s' F, Rep st s F none -> effects k l s = Some s' -> exists st' F', run k l st = Fine st' /\ Rep st' s' F' none.
Proof.
  intros Hopt l. induction l as [|o l IH]; intros st s s' F HR He; cbn in *; [injection He as <-; eauto|].
  destruct (effect k o s) as [s1|] eqn:E; [|discriminate]. unfold step. rewrite Hopt. destruct (opt_step_ok Hopt _ _ _ _ _ HR E) as (st1 & F1 & -> & HR1). cbn. eapply IH; eassumption.
Qed.
Lemma var_run_ok : variant k = true -> nested k 0 = false -> forall l (st : state) s s' F, Rep st s F none -> effects k l s = Some s' -> all_careful k l s -> exists st' F', run k l st = Fine st' /\ Rep st' s' F' none.
Proof.
  intros Hvar H0 l. induction l as [|o l IH]; intros st s s' F HR He Hc; cbn in *; [injection He as <-; eauto|]. destruct Hc as (Hc & Hl).
  destruct (effect k o s) as [s1|] eqn:E; [|discriminate]. unfold step. rewrite Hvar. destruct (var_step_ok Hvar H0 _ _ _ _ _ HR E Hc) as (st1 & F1 & -> & HR1). cbn. eapply IH; eassumption.
Qed.
(** * Self-assignment of a variant *)
Lemma var_self_copy (st : state) s F x d m : variant k = true -> Rep st s F none -> at_ k s (x, d) = Some m -> var_step k (Copy (x, d) (x, d)) st = UB.
Proof.
  intros Hvar HR Hp. apply at_some in Hp as (l & Hx & Hs). cbn [var_step]. destruct (open k _ _ _ _ _ _ _ _ HR Hx Hs) as (old & -> & Hg & C & HH & D). cbn [mbind]. rewrite Hg. cbn [mbind].
  destruct (RepH_delete k _ _ _ _ _ _ _ _ _ _ _ _ HH C D) as (st1 & -> & HH1 & _ & Hk1). cbn [mbind].
  destruct (RepH_get k _ _ _ _ _ _ _ _ _ HH1) as (-> & _). cbn [mbind].
  destruct (store k _ _ _ _ _ _ _ _ _ (Obj (o_index old) (o_ptr old)) HH1) as (st2 & -> & HH2 & _ & Hk2). cbn [mbind].
  destruct (RepH_get k _ _ _ _ _ _ _ _ _ HH2) as (-> & _). cbn [mbind]. unfold copy_in, fuel_for. cbn [copy o_ptr].
  destruct (o_ptr old) as [a|] eqn:Ea; [|rewrite Hvar; reflexivity].
  assert (Hr : read (mem st2) a = UB); [|unfold target; rewrite Hr; reflexivity].
  unfold read. destruct (nth_error (mem st2) a) as [[c|]|] eqn:Ec; try reflexivity. exfalso.
  assert (Ha : In a (skipn d (F x))). { apply (chain_owns k _ _ _ _ a C). destruct old as [i p]. cbn in Ea. subst p. constructor. }
  destruct HH2 as (_ & B2 & _). destruct HH as (_ & B & _). destruct (sp_all _ _ _ B2 a c Ec) as [[]|[y Hy]]. eapply (sp_out _ _ _ B); [exact Hy|left; exact Ha].
Qed.
(** * Comparison *)
Definition comparable (l : contents) : Prop := variant k = true -> whole k l.
Lemma equal_chain (eqv : V -> V -> bool) (h : heap) : (forall a b, eqv a b = true <-> a = b) -> forall fuel o l F o' l' F', chain h o l F -> chain h o' l' F' -> comparable l -> comparable l' -> length l < fuel ->
  exists b, equal k eqv fuel h o o' = Fine b /\ (b = true <-> l = l').
Proof.
  intros Heqv. assert (Hv : forall a b, eqv a b = false -> a <> b) by (intros a b E1 E2; apply Heqv in E2; congruence).
  induction fuel as [|fuel IH]; intros o l F o' l' F' C C' W W' Hf; [lia|].
  assert (Hval : forall p q i v m j w m' n n', cell_at h p (Cell i v n) -> cell_at h q (Cell j w n') -> (nested k i = false /\ m = [] \/ nested k i = true /\ exists G, chain h n m G /\ comparable m /\ length m < fuel) ->
     (nested k j = false /\ m' = [] \/ nested k j = true /\ exists G, chain h n' m' G /\ comparable m') -> exists b,
     (do c <- target h (Obj (Some i) (Some p)) p; do d <- target h (Obj (Some j) (Some q)) q;
        if Nat.eqb (c_alt c) (c_alt d) && eqv (c_val c) (c_val d) then if nested k (c_alt c) then equal k eqv fuel h (c_next c) (c_next d) else Fine true else Fine false) = Fine b /\ (b = true <-> (i, v) :: m = (j, w) :: m')).
  { intros p q i v m j w m' n n' Hp Hq Hm Hm'. rewrite (target_fine h i p _ Hp eq_refl). cbn [mbind]. rewrite (target_fine h j q _ Hq eq_refl). cbn [mbind c_alt c_val c_next].
    destruct (Nat.eqb_spec i j) as [->|Hij]; [|exists false; cbn; split; [reflexivity|split; [discriminate|congruence]]].
    destruct (eqv v w) eqn:Ev; [|exists false; cbn; split; [reflexivity|split; [discriminate|intros E; exfalso; apply (Hv _ _ Ev); congruence]]]. cbn [andb]. apply Heqv in Ev. subst w.
    destruct Hm as [[Hn ->]|(Hn & G & Cm & Wm & Lm)], Hm' as [[Hn' ->]|(Hn' & G' & Cm' & Wm')]; rewrite Hn; try congruence.
    - exists true. tauto.
    - destruct (IH _ _ _ _ _ _ Cm Cm' Wm Wm' Lm) as (b & -> & Hb). exists b. split; [reflexivity|]. rewrite Hb. split; intros E; congruence. }
  assert (Hinv : forall o l F, chain h o l F -> comparable l -> (o_ptr o = None /\ l = [] /\ variant k = false) \/ exists p i v m n, o = Obj (Some i) (Some p) /\ l = (i, v) :: m /\ cell_at h p (Cell i v n) /\
     (nested k i = false /\ m = [] \/ nested k i = true /\ exists G, chain h n m G /\ comparable m)).
  { clear. intros o l F C W. destruct C as [i|a i v n Hc Hn|a i v n l F Hc Hn C Ha].
    - left. split; [reflexivity|]. split; [reflexivity|]. destruct (variant k) eqn:E; [destruct (W E)|reflexivity].
    - right. exists a, i, v, [], n. auto 6.
    - right. exists a, i, v, l, n. split; [reflexivity|]. split; [reflexivity|]. split; [exact Hc|]. right. split; [exact Hn|]. exists F. split; [exact C|]. intros E. specialize (W E). cbn in W. rewrite Hn in W. exact W. }
  cbn [equal]. destruct (Hinv _ _ _ C W) as [(E1 & -> & Hopt)|(p & i & v & m & n & -> & -> & Hp & Hm)], (Hinv _ _ _ C' W') as [(E2 & -> & Hopt')|(q & j & w & m' & n' & -> & -> & Hq & Hm')].
  - rewrite Hopt, E1, E2. exists true. tauto.
  - rewrite Hopt, E1. cbn [o_ptr]. exists false. split; [reflexivity|]. split; discriminate.
  - rewrite Hopt', E2. cbn [o_ptr]. exists false. split; [reflexivity|]. split; discriminate.
  - assert (Hm2 : nested k i = false /\ m = [] \/ nested k i = true /\ exists G, chain h n m G /\ comparable m /\ length m < fuel).
    { destruct Hm as [Hm|(Hn & G & Cm & Wm)]; [left; exact Hm|right]. split; [exact Hn|]. exists G. split; [exact Cm|]. split; [exact Wm|]. cbn in Hf. lia. }
    destruct (Hval p q i v m j w m' n n' Hp Hq Hm2 Hm') as (b & Hb & Hiff). cbn [o_index o_ptr]. destruct (variant k); [|eauto]. destruct (Nat.eqb_spec i j) as [->|Hij]; [eauto|].
    exists false. split; [reflexivity|]. split; [discriminate|congruence].
Qed.
End Steps.
