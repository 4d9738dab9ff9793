(** Proofs about reorder_modules (C58). *)
From Coq Require Import Permutation.
From Verif Require Import CompilerTree.
Local Open Scope list_scope.

Lemma mem_iff x l : mem x l = true <-> In x l.
Proof.
  unfold mem. rewrite existsb_exists. split.
  - intros (y & H & E). apply String.eqb_eq in E. subst. exact H.
  - intros H. exists x. split; [exact H|apply String.eqb_refl].
Qed.
Lemma mem_false x l : mem x l = false <-> ~ In x l.
Proof. rewrite <- mem_iff. destruct (mem x l); split; congruence. Qed.
Lemma obind_done {A B} (m : out A) (k : A -> out B) b : obind m k = Done b -> exists a, m = Done a /\ k a = Done b.
Proof. destruct m; cbn; intros; try discriminate. eauto. Qed.
Lemma obind_loop {A B} (m : out A) (k : A -> out B) : m <> Loop -> (forall a, m = Done a -> k a <> Loop) -> obind m k <> Loop.
Proof. destruct m; cbn; intros; try discriminate; auto. Qed.
Lemma obind_undef {A B} (m : out A) (k : A -> out B) : m <> Undef -> (forall a, m = Done a -> k a <> Undef) -> obind m k <> Undef.
Proof. destruct m; cbn; intros; try discriminate; auto. Qed.

(** Loops. *)
Lemma foldm_done {A S} (f : A -> S -> out S) (P : S -> S -> Prop) :
  (forall s, P s s) -> (forall a b c, P a b -> P b c -> P a c) ->
  forall l, (forall x s s', In x l -> f x s = Done s' -> P s s') -> forall s s', foldm f l s = Done s' -> P s s'.
Proof.
  intros Hr Ht l. induction l as [|x l IH]; intros Hf s s' H; cbn in H; [injection H as <-; apply Hr|].
  apply obind_done in H as (u & E & H). apply Ht with u; [apply (Hf x); [left; reflexivity|exact E]|].
  apply IH; [|exact H]. intros y s1 s2 Hy. apply Hf. right. exact Hy.
Qed.

(** A measure: how many of [names] are not in [seen]. *)
Fixpoint unseen (names seen : list string) : nat :=
  match names with [] => O | x :: l => if mem x seen then unseen l seen else S (unseen l seen) end.
Lemma unseen_le names a b : incl a b -> (unseen names b <= unseen names a)%nat.
Proof.
  intros H. induction names as [|x l IH]; cbn; [lia|]. destruct (mem x a) eqn:Ea, (mem x b) eqn:Eb; try lia.
  apply mem_iff in Ea. apply mem_false in Eb. exfalso. auto.
Qed.
Lemma unseen_length names a : (unseen names a <= List.length names)%nat.
Proof. induction names; cbn; [lia|]. destruct (mem a0 a); lia. Qed.
Lemma unseen_new names a x : In x names -> ~ In x a -> (unseen names (x :: a) < unseen names a)%nat.
Proof.
  intros Hx Ha. induction names as [|y l IH]; [destruct Hx|]. pose proof (unseen_le l a (x :: a) ltac:(right; assumption)) as Hl.
  cbn [unseen]. destruct (mem y (x :: a)) eqn:E1.
  - destruct (mem y a) eqn:E2; [|lia]. apply IH. destruct Hx as [->|Hx]; [|exact Hx]. apply mem_iff in E2. tauto.
  - assert (y <> x) by (intros ->; apply mem_false in E1; apply E1; left; reflexivity).
    assert (E2 : mem y a = false) by (apply mem_false; apply mem_false in E1; intros Hy; apply E1; right; exact Hy).
    rewrite E2. destruct Hx as [->|Hx]; [tauto|]. specialize (IH Hx). lia.
Qed.

Lemma find_assign_in l r a : find_assign l r = Done a -> In a l /\ a_name a = r.
Proof.
  induction l as [|x l IH]; cbn; [discriminate|]. destruct (String.eqb (a_name x) r) eqn:E.
  - intros [= <-]. split; [left; reflexivity|apply String.eqb_eq, E].
  - intros H. apply IH in H. tauto.
Qed.
Lemma find_assign_cases l r : (exists a, find_assign l r = Done a) \/ (find_assign l r = Throw /\ ~ In r (map a_name l)).
Proof.
  induction l as [|x l IH]; cbn; [right; tauto|]. destruct (String.eqb (a_name x) r) eqn:E; [eauto|].
  apply String.eqb_neq in E. destruct IH as [H|(H & Hn)]; [left; exact H|right; split; [exact H|]]. intros [F|F]; congruence.
Qed.
Lemma nodup_same {A} (f : A -> string) l x y : NoDup (map f l) -> In x l -> In y l -> f x = f y -> x = y.
Proof.
  induction l as [|a l IH]; cbn; [tauto|]. intros Hn Hx Hy E. inversion Hn as [|? ? Ha Hl]; subst.
  destruct Hx as [->|Hx], Hy as [->|Hy]; auto; exfalso; apply Ha.
  - rewrite E. apply in_map, Hy.
  - rewrite <- E. apply in_map, Hx.
Qed.
Lemma find_module_in l x m : find_module l x = Done m -> In m l /\ m_name m = x.
Proof.
  induction l as [|a l IH]; cbn; [discriminate|]. destruct (String.eqb (m_name a) x) eqn:E.
  - intros [= <-]. split; [left; reflexivity|apply String.eqb_eq, E].
  - intros H. apply IH in H. tauto.
Qed.
Lemma find_module_some l x : In x (map m_name l) -> exists m, find_module l x = Done m.
Proof.
  induction l as [|a l IH]; cbn; [tauto|]. intros H. destruct (String.eqb (m_name a) x) eqn:E; [eauto|].
  destruct H as [H|H]; [apply String.eqb_neq in E; congruence|auto].
Qed.
Lemma find_module_cases l x : (exists m, find_module l x = Done m) \/ (find_module l x = Throw /\ ~ In x (map m_name l)).
Proof.
  induction l as [|a l IH]; cbn; [right; tauto|]. destruct (String.eqb (m_name a) x) eqn:E; [eauto|].
  apply String.eqb_neq in E. destruct IH as [H|(H & Hn)]; [left; exact H|right; split; [exact H|]]. intros [F|F]; congruence.
Qed.
Lemma module_map_in l x m : module_map l x = Done m -> In m l /\ m_name m = x.
Proof. unfold module_map. intros H. apply find_module_in in H. rewrite <- in_rev in H. exact H. Qed.
Lemma module_map_some l x : In x (map m_name l) -> exists m, module_map l x = Done m.
Proof. intros H. apply find_module_some. rewrite map_rev, <- in_rev. exact H. Qed.
Lemma module_map_cases l x : (exists m, module_map l x = Done m) \/ (module_map l x = Throw /\ ~ In x (map m_name l)).
Proof. unfold module_map. destruct (find_module_cases (rev l) x) as [H|(H & Hn)]; [left; exact H|right]. rewrite map_rev, <- in_rev in Hn. auto. Qed.

(** Every import of a listed module is listed before it; lists are in reverse order. *)
Definition sorted (O : list module) : Prop :=
  forall post m pre, O = post ++ m :: pre -> forall x, In x (m_imports m) -> In x (map m_name pre).
Lemma sorted_cons m O : sorted O -> (forall x, In x (m_imports m) -> In x (map m_name O)) -> sorted (m :: O).
Proof.
  intros Hs Hm post m' pre E. destruct post as [|p post]; cbn in E; injection E as -> ->; [exact Hm|]. apply (Hs post). reflexivity.
Qed.

(** Growth. *)
Definition mgrow (l : list module) (st st' : mstate) : Prop :=
  (map m_name (m_ordered st) = m_assigned st -> map m_name (m_ordered st') = m_assigned st') /\
  (exists e, m_assigned st' = e ++ m_assigned st) /\ incl (m_visited st) (m_visited st') /\
  (incl (m_ordered st) l -> incl (m_ordered st') l).
Lemma mgrow_refl l st : mgrow l st st.
Proof. repeat split; auto using incl_refl. exists []. reflexivity. Qed.
Lemma mgrow_trans l a b c : mgrow l a b -> mgrow l b c -> mgrow l a c.
Proof.
  intros (H1 & (e & H2) & H3 & H4) (G1 & (f & G2) & G3 & G4). repeat split; auto; [|eapply incl_tran; eassumption].
  exists (f ++ e). rewrite G2, H2, app_assoc. reflexivity.
Qed.
Lemma modules_grow l : forall fuel x st st', resolve_modules fuel l x st = Done st' -> mgrow l st st' /\ In x (m_assigned st').
Proof.
  induction fuel as [|fuel IH]; intros x st st' H; cbn in H; [discriminate|].
  apply obind_done in H as (m & Em & H). apply module_map_in in Em as (Hm & En). destruct (mem x (m_assigned st)) eqn:Ea.
  { injection H as <-. split; [apply mgrow_refl|apply mem_iff, Ea]. }
  assert (Hpush : forall s, mgrow l s (MState (x :: m_assigned s) (m_visited s) (m :: m_ordered s))).
  { intros s. repeat split; cbn.
    - intros E. rewrite E, En. reflexivity.
    - exists [x]. reflexivity.
    - apply incl_refl.
    - intros Hi y [<-|Hy]; auto. }
  destruct (mem x (m_visited st)) eqn:Ev.
  { injection H as <-. split; [apply Hpush|left; reflexivity]. }
  apply obind_done in H as (u & E & H). injection H as <-. split; [|left; reflexivity].
  apply mgrow_trans with u; [|apply Hpush]. apply mgrow_trans with (MState (m_assigned st) (x :: m_visited st) (m_ordered st)).
  { repeat split; cbn; auto. - exists []. reflexivity. - intros y Hy. right. exact Hy. }
  revert E. apply foldm_done; [apply mgrow_refl|apply mgrow_trans|]. intros y s s' _ Hy. apply IH in Hy. apply Hy.
Qed.

(** Without a second visit of a module on the stack the order is right. *)
Definition mgood (S : list string) (st : mstate) : Prop :=
  (forall x, In x (m_visited st) -> In x S \/ In x (m_assigned st)) /\ sorted (m_ordered st) /\ map m_name (m_ordered st) = m_assigned st.
Definition mbad (S : list string) (st : mstate) : Prop := ~ NoDup (m_assigned st) \/ exists x, In x S /\ In x (m_assigned st).
Lemma mbad_grow l S st st' : mgrow l st st' -> mbad S st -> mbad S st'.
Proof.
  intros (_ & (e & E) & _) [H|(x & H1 & H2)]; [left|right].
  - rewrite E. intros Hn. apply H. clear -Hn. induction e; [exact Hn|]. inversion Hn; auto.
  - exists x. split; [exact H1|]. rewrite E. apply in_or_app. tauto.
Qed.
Lemma modules_order l : forall fuel x S st st', resolve_modules fuel l x st = Done st' -> mgood S st -> mgood S st' \/ mbad S st'.
Proof.
  induction fuel as [|fuel IH]; intros x S st st' H Hg; [discriminate|]. pose proof H as H0. cbn in H.
  apply obind_done in H as (m & Em & H). apply module_map_in in Em as (Hm & En). destruct (mem x (m_assigned st)) eqn:Ea.
  { injection H as <-. left. exact Hg. }
  destruct (mem x (m_visited st)) eqn:Ev.
  { injection H as <-. right. right. exists x. split; [|left; reflexivity]. apply mem_iff in Ev. apply Hg in Ev as [Ev|Ev]; [exact Ev|].
    apply mem_iff in Ev. congruence. }
  apply obind_done in H as (u & E & H). injection H as <-.
  assert (Hf : forall ys s s', foldm (resolve_modules fuel l) ys s = Done s' -> mgood (x :: S) s ->
             (mgood (x :: S) s' /\ forall y, In y ys -> In y (m_assigned s')) \/ mbad (x :: S) s').
  { clear -IH. induction ys as [|y ys IHy]; intros s s' E Hg; cbn in E; [injection E as <-; left; split; [exact Hg|intros y []]|].
    apply obind_done in E as (w & E1 & E2). pose proof (modules_grow l fuel y s w E1) as (_ & Hy).
    assert (Gw : mgrow l w s').
    { revert E2. apply foldm_done; [apply mgrow_refl|apply mgrow_trans|]. intros z a b _ Hz. apply modules_grow in Hz. apply Hz. }
    destruct (IH _ _ _ _ E1 Hg) as [Hg'|Hb].
    - destruct (IHy _ _ E2 Hg') as [(Hg2 & Hys)|Hb]; [left|right; exact Hb]. split; [exact Hg2|]. intros z [<-|Hz]; [|auto].
      destruct Gw as (_ & (e & Ee) & _). rewrite Ee. apply in_or_app. right. exact Hy.
    - right. exact (mbad_grow l _ _ _ Gw Hb). }
  assert (Hg' : mgood (x :: S) (MState (m_assigned st) (x :: m_visited st) (m_ordered st))).
  { destruct Hg as (H1 & H2 & H3). split; [|split; [exact H2|exact H3]]. cbn. intros y [<-|Hy]; [left; left; reflexivity|].
    apply H1 in Hy. destruct Hy; [left; right|right]; assumption. }
  destruct (Hf _ _ _ E Hg') as [((H1 & H2 & H3) & Himp)|[Hd|(y & [<-|Hy] & Hy2)]].
  - left. split; [|split]; cbn.
    + intros y Hy. apply H1 in Hy as [[<-|Hy]|Hy]; auto.
    + apply sorted_cons; [exact H2|]. intros y Hy. rewrite H3. apply Himp, Hy.
    + rewrite H3, En. reflexivity.
  - right. left. cbn. intros Hn. inversion Hn; auto.
  - right. left. cbn. intros Hn. inversion Hn; auto.
  - right. right. exists y. split; [exact Hy|right; exact Hy2].
Qed.

(** Termination. *)
Lemma modules_terminate l : forall fuel x st, (unseen (map m_name l) (m_visited st) < fuel)%nat -> resolve_modules fuel l x st <> Loop.
Proof.
  induction fuel as [|fuel IH]; intros x st Hf; [lia|]. cbn. destruct (module_map_cases l x) as [(m & Em)|(-> & _)]; [|discriminate].
  rewrite Em. cbn. apply module_map_in in Em as (Hm & En). destruct (mem x (m_assigned st)); [discriminate|].
  destruct (mem x (m_visited st)) eqn:Ev; [discriminate|]. apply mem_false in Ev.
  apply obind_loop; [|discriminate].
  assert (Hu : (unseen (map m_name l) (x :: m_visited st) < fuel)%nat).
  { pose proof (unseen_new (map m_name l) (m_visited st) x ltac:(rewrite <- En; apply in_map, Hm) Ev). lia. }
  assert (Hx : forall ys s, incl (x :: m_visited st) (m_visited s) -> foldm (resolve_modules fuel l) ys s <> Loop).
  { induction ys as [|y ys IHy]; intros s Hs; cbn; [discriminate|]. apply obind_loop.
    - apply IH. pose proof (unseen_le (map m_name l) _ _ Hs). lia.
    - intros w Ew. apply IHy. apply modules_grow in Ew as ((_ & _ & Hi & _) & _). eapply incl_tran; eassumption. }
  apply Hx. apply incl_refl.
Qed.
Lemma modules_undef l : forall fuel x st, resolve_modules fuel l x st <> Undef.
Proof.
  induction fuel as [|fuel IH]; intros x st; cbn; [discriminate|]. apply obind_undef.
  { destruct (module_map_cases l x) as [(m & ->)|(-> & _)]; discriminate. }
  intros m _. destruct (mem x (m_assigned st)); [discriminate|]. destruct (mem x (m_visited st)); [discriminate|].
  apply obind_undef; [|discriminate]. generalize (MState (m_assigned st) (x :: m_visited st) (m_ordered st)).
  induction (m_imports m) as [|y ys IHy]; intros s; cbn; [discriminate|]. apply obind_undef; auto.
Qed.

(** Success without cycles. *)
Section Acyclic.
  Variables (l : list module) (rank : string -> nat).
  Hypothesis defined : forall m x, In m l -> In x (m_imports m) -> In x (map m_name l).
  Hypothesis down : forall m x, In m l -> In x (m_imports m) -> (rank x < rank (m_name m))%nat.
  Definition mclean (S : list string) (st : mstate) : Prop :=
    (forall x, In x (m_visited st) -> In x S \/ In x (m_assigned st)) /\ NoDup (m_assigned st) /\
    (forall x, In x S -> ~ In x (m_assigned st)) /\ incl (m_assigned st) (map m_name l).
  Lemma modules_succeed : forall fuel x S st, (unseen (map m_name l) (m_visited st) < fuel)%nat -> In x (map m_name l) ->
    (forall y, In y S -> (rank x < rank y)%nat) -> mclean S st -> exists st', resolve_modules fuel l x st = Done st' /\ mclean S st'.
  Proof.
    induction fuel as [|fuel IH]; intros x S st Hf Hx HS Hc; [lia|]. cbn. destruct (module_map_some l x Hx) as (m & Em).
    rewrite Em. cbn. apply module_map_in in Em as (Hm & En). destruct (mem x (m_assigned st)) eqn:Ea; [eauto|].
    apply mem_false in Ea. destruct (mem x (m_visited st)) eqn:Ev.
    { exfalso. apply mem_iff in Ev. apply Hc in Ev as [Ev|Ev]; [apply HS in Ev; lia|auto]. }
    apply mem_false in Ev.
    assert (Hu : (unseen (map m_name l) (x :: m_visited st) < fuel)%nat).
    { pose proof (unseen_new (map m_name l) (m_visited st) x Hx Ev). lia. }
    assert (Hl : forall ys s, incl ys (m_imports m) -> incl (x :: m_visited st) (m_visited s) -> mclean (x :: S) s ->
              exists s', foldm (resolve_modules fuel l) ys s = Done s' /\ mclean (x :: S) s').
    { induction ys as [|y ys IHy]; intros s Hy Hv Hs; cbn; [eauto|].
      assert (Hyi : In y (m_imports m)) by (apply Hy; left; reflexivity).
      destruct (IH y (x :: S) s) as (w & Ew & Hw).
      - pose proof (unseen_le (map m_name l) _ _ Hv). lia.
      - apply (defined m); assumption.
      - pose proof (down m y Hm Hyi) as Hd. rewrite En in Hd. intros z [<-|Hz]; [exact Hd|]. apply HS in Hz. lia.
      - exact Hs.
      - rewrite Ew. cbn. apply IHy; [intros z Hz; apply Hy; right; exact Hz| |exact Hw].
        apply modules_grow in Ew as ((_ & _ & Hi & _) & _). eapply incl_tran; eassumption. }
    destruct (Hl (m_imports m) (MState (m_assigned st) (x :: m_visited st) (m_ordered st))) as (w & Ew & Hw).
    - apply incl_refl.
    - apply incl_refl.
    - destruct Hc as (H1 & H2 & H3 & H4). split; [|split; [exact H2|split; [|exact H4]]]; cbn.
      + intros y [<-|Hy]; [left; left; reflexivity|]. apply H1 in Hy. destruct Hy; [left; right|right]; assumption.
      + intros y [<-|Hy]; [exact Ea|apply H3, Hy].
    - rewrite Ew. cbn. eexists. split; [reflexivity|]. destruct Hw as (H1 & H2 & H3 & H4). split; [|split; [|split]]; cbn.
      + intros y Hy. apply H1 in Hy as [[<-|Hy]|Hy]; auto.
      + constructor; [apply H3; left; reflexivity|exact H2].
      + intros y Hy [<-|Hya]; [apply HS in Hy; lia|]. apply (H3 y); [right; exact Hy|exact Hya].
      + intros y [<-|Hy]; [exact Hx|apply H4, Hy].
  Qed.
End Acyclic.
