(** Proofs about memory (C64, C65). *)
From Coq Require Import List Arith Bool Lia.
From Verif Require Import Dynamic DynamicSpec.
Import ListNotations.
Local Open Scope mem_scope.

Section Proofs.
Context {V : Type}.
Variable k : kind V.
Notation heap := (heap V). Notation state := (state V). Notation contents := (@contents V). Notation cell := (cell V).

Lemma put_nth {A} (l : list A) n a m : nth_error (put l n a) m = if Nat.eqb m n then match nth_error l n with Some _ => Some a | None => None end else nth_error l m.
Proof.
  revert n m. induction l as [|x l IH]; intros n m; cbn.
  - destruct n, m; cbn; try reflexivity; destruct (Nat.eqb m n); reflexivity.
  - destruct n, m; cbn; try reflexivity. apply IH.
Qed.
Lemma put_length {A} (l : list A) n a : length (put l n a) = length l.
Proof. revert n. induction l as [|x l IH]; intros [|n]; cbn; auto. Qed.
Lemma read_fine (h : heap) a c : cell_at h a c -> read h a = Fine c.
Proof. unfold read, cell_at. intros ->. reflexivity. Qed.
Lemma cell_lt (h : heap) a c : cell_at h a c -> a < length h.
Proof. intros H. apply nth_error_Some. unfold cell_at in H. congruence. Qed.
Definition agree (h h' : heap) (F : list nat) : Prop := forall a, In a F -> nth_error h' a = nth_error h a.
Lemma agree_cell h h' F a c : agree h h' F -> In a F -> cell_at h a c -> cell_at h' a c.
Proof. intros H Ha Hc. unfold cell_at. rewrite (H a Ha). exact Hc. Qed.

(** * Objects and the memory they own *)
Inductive chain (h : heap) : obj -> contents -> list nat -> Prop :=
| ch_nil i : chain h (Obj i None) [] []
| ch_leaf a i v n : cell_at h a (Cell i v n) -> nested k i = false -> chain h (Obj (Some i) (Some a)) [(i, v)] [a]
| ch_node a i v n l F : cell_at h a (Cell i v n) -> nested k i = true -> chain h n l F -> ~ In a F -> chain h (Obj (Some i) (Some a)) ((i, v) :: l) (a :: F).
Lemma chain_frame h h' o l F : chain h o l F -> agree h h' F -> chain h' o l F.
Proof.
  induction 1 as [i|a i v n Hc Hn|a i v n l F Hc Hn _ IH Ha]; intros Hg; [constructor| |].
  - eapply ch_leaf; [|exact Hn]. eapply agree_cell; [exact Hg|left; reflexivity|exact Hc].
  - eapply ch_node; [|exact Hn| |exact Ha]; [eapply agree_cell; [exact Hg|left; reflexivity|exact Hc]|]. apply IH. intros b Hb. apply Hg. right. exact Hb.
Qed.
Lemma chain_nodup h o l F : chain h o l F -> NoDup F.
Proof. induction 1; constructor; auto; constructor. Qed.
Lemma chain_live h o l F a : chain h o l F -> In a F -> exists c, cell_at h a c.
Proof. induction 1; intros Hin; [destruct Hin| |]; destruct Hin as [<-|Hin]; eauto. destruct Hin. Qed.
Lemma chain_lt h o l F a : chain h o l F -> In a F -> a < length h.
Proof. intros H Ha. destruct (chain_live _ _ _ _ _ H Ha) as (c & Hc). eapply cell_lt, Hc. Qed.
Lemma chain_length h o l F : chain h o l F -> length l = length F.
Proof. induction 1; cbn; congruence. Qed.
Lemma chain_small h o l F : chain h o l F -> length l <= length h.
Proof.
  intros H. rewrite (chain_length _ _ _ _ H). rewrite <- (seq_length (length h) 0). apply NoDup_incl_length; [eapply chain_nodup, H|].
  intros a Ha. apply in_seq. pose proof (chain_lt _ _ _ _ _ H Ha). lia.
Qed.
Lemma chain_holds h o l F : chain h o l F -> holds k h o l.
Proof. induction 1; [constructor|eapply h_leaf; eassumption|eapply h_node; eassumption]. Qed.
Lemma chain_owns h o l F a : chain h o l F -> (In a F <-> owns k h o a).
Proof.
  induction 1 as [i|b i v n Hc Hn|b i v n l F Hc Hn _ IH Ha].
  - split; [intros []|]. inversion 1.
  - split; [intros [<-|[]]; constructor|]. inversion 1; subst; [left; reflexivity|]. unfold cell_at in *. assert (c = Cell i v n) as -> by congruence. cbn in *. congruence.
  - split.
    + intros [<-|Hin]; [constructor|]. eapply own_more; [exact Hc|exact Hn|]. apply IH, Hin.
    + inversion 1; subst; [left; reflexivity|right]. unfold cell_at in *. assert (c = Cell i v n) as -> by congruence. apply IH. assumption.
Qed.
(** Deleting. *)
Lemma target_fine (h : heap) i a c : cell_at h a c -> c_alt c = i -> target h (Obj (Some i) (Some a)) a = Fine c.
Proof. intros H <-. unfold target. rewrite (read_fine _ _ _ H). cbn. rewrite Nat.eqb_refl. reflexivity. Qed.
Definition freed (h h' : heap) (F : list nat) : Prop :=
  length h' = length h /\ (forall a, ~ In a F -> nth_error h' a = nth_error h a) /\ forall a c, In a F -> ~ cell_at h' a c.
Lemma delete_chain h o l F : chain h o l F -> forall fuel, length l <= fuel -> exists h', delete k fuel h o = Fine h' /\ freed h h' F.
Proof.
  assert (Hfree : forall (h : heap) a c, cell_at h a c -> exists h', free h a = Fine h' /\ length h' = length h /\ (forall b, b <> a -> nth_error h' b = nth_error h b) /\ forall c, ~ cell_at h' a c).
  { clear. intros h a c H. exists (put h a None). unfold free. rewrite (read_fine _ _ _ H). split; [reflexivity|]. split; [apply put_length|]. split.
    - intros b Hb. rewrite put_nth. apply Nat.eqb_neq in Hb. rewrite Hb. reflexivity.
    - intros c' Hc. unfold cell_at in *. rewrite put_nth, Nat.eqb_refl, H in Hc. discriminate. }
  induction 1 as [i|a i v n Hc Hn|a i v n l F Hc Hn Hch IH Ha]; intros fuel Hf.
  - exists h. split; [destruct i, fuel; reflexivity|]. split; [reflexivity|]. split; [reflexivity|intros a c []].
  - cbn in Hf. destruct fuel as [|fuel]; [lia|]. cbn [delete o_index o_ptr]. rewrite (target_fine _ i _ _ Hc eq_refl). cbn [mbind c_alt]. rewrite Hn. cbn [mbind].
    destruct (Hfree _ _ _ Hc) as (h' & -> & H1 & H2 & H3). exists h'. split; [reflexivity|]. split; [exact H1|]. split.
    + intros b Hb. apply H2. intros ->. apply Hb. left. reflexivity.
    + intros b c [<-|[]]. apply H3.
  - cbn in Hf. destruct fuel as [|fuel]; [lia|]. cbn [delete o_index o_ptr]. rewrite (target_fine _ i _ _ Hc eq_refl). cbn [mbind c_alt c_next]. rewrite Hn.
    destruct (IH fuel ltac:(lia)) as (h1 & -> & L1 & G1 & D1). cbn [mbind].
    assert (Hc1 : cell_at h1 a (Cell i v n)) by (unfold cell_at; rewrite G1 by exact Ha; exact Hc).
    destruct (Hfree _ _ _ Hc1) as (h' & -> & H1 & H2 & H3). exists h'. split; [reflexivity|]. split; [lia|]. split.
    + intros b Hb. rewrite H2 by (intros ->; apply Hb; left; reflexivity). apply G1. intros Hb'. apply Hb. right. exact Hb'.
    + intros b c [<-|Hb]; [apply H3|]. unfold cell_at. rewrite H2 by (intros ->; contradiction). apply D1, Hb.
Qed.
(** Allocating: [h'] is [h] with the cells [N] in addition. *)
Definition grown (h h' : heap) (N : list nat) : Prop :=
  length h <= length h' /\ (forall a, a < length h -> nth_error h' a = nth_error h a) /\ (forall a, In a N -> length h <= a < length h') /\
  (forall a c, cell_at h' a c -> length h <= a -> In a N).
Lemma grown_refl (h : heap) : grown h h [].
Proof. split; [lia|]. split; [auto|]. split; [intros a []|]. intros a c H Ha. apply cell_lt in H. lia. Qed.
Lemma grown_alloc (h h' : heap) N c : grown h h' N ->
  grown h (h' ++ [Some c]) (length h' :: N) /\ cell_at (h' ++ [Some c]) (length h') c /\ agree h' (h' ++ [Some c]) N /\ ~ In (length h') N.
Proof.
  intros (H1 & H2 & H3 & H4).
  assert (Hold : forall a, a < length h' -> nth_error (h' ++ [Some c]) a = nth_error h' a) by (intros a Ha; apply nth_error_app1, Ha).
  assert (Hnew : nth_error (h' ++ [Some c]) (length h') = Some (Some c)) by (rewrite nth_error_app2 by lia; rewrite Nat.sub_diag; reflexivity).
  split; [|split; [exact Hnew|split; [|intros Hin; apply H3 in Hin; lia]]].
  - split; [rewrite app_length; cbn; lia|]. split; [intros a Ha; rewrite Hold by lia; apply H2, Ha|].
    split; [rewrite app_length; cbn; intros a [<-|Ha]; [lia|apply H3 in Ha; lia]|].
    intros a d Hd Ha. destruct (Nat.eq_dec a (length h')) as [->|Hne]; [left; reflexivity|right]. pose proof (cell_lt _ _ _ Hd) as Hl. rewrite app_length in Hl. cbn in Hl.
    apply (H4 a d); [|exact Ha]. unfold cell_at in *. rewrite Hold in Hd by lia. exact Hd.
  - intros a Ha. apply Hold. apply H3, Ha.
Qed.
(** Can be copied: a variant moved from cannot. *)
Definition copyable (l : contents) : Prop := variant k = true -> whole k l.
Lemma copy_chain (h : heap) o l F : chain h o l F -> copyable l -> forall fuel, length l <= fuel ->
  exists n h' N, copy k fuel h o = Fine (n, h') /\ grown h h' N /\ chain h' n l N /\ (o_ptr o <> None -> o_index n = o_index o).
Proof.
  induction 1 as [i|a i v n Hc Hn|a i v n l F Hc Hn Hch IH Ha]; intros Hcp fuel Hf.
  - exists null, h, []. split; [|split; [apply grown_refl|split; [constructor|intros E; exfalso; apply E; reflexivity]]].
    destruct (variant k) eqn:Ev; [exfalso; exact (Hcp Ev)|]. destruct fuel; cbn; rewrite Ev; reflexivity.
  - cbn in Hf. destruct fuel as [|fuel]; [lia|]. cbn [copy o_ptr]. rewrite (target_fine _ i _ _ Hc eq_refl). cbn [mbind c_alt c_val]. rewrite Hn. cbn [mbind alloc].
    destruct (grown_alloc h h [] (Cell i v null) (grown_refl h)) as (G & Hc' & _). eexists _, _, _. split; [reflexivity|]. split; [exact G|]. split; [|reflexivity].
    eapply ch_leaf; [exact Hc'|exact Hn].
  - cbn in Hf. destruct fuel as [|fuel]; [lia|]. cbn [copy o_ptr]. rewrite (target_fine _ i _ _ Hc eq_refl). cbn [mbind c_alt c_val c_next]. rewrite Hn.
    destruct (IH ltac:(intros E; specialize (Hcp E); cbn in Hcp; rewrite Hn in Hcp; exact Hcp) fuel ltac:(lia)) as (m & h1 & N & -> & G1 & C1 & _). cbn [mbind alloc].
    destruct (grown_alloc h h1 N (Cell i v m) G1) as (G & Hc' & Hag & Hnew). eexists _, _, _. split; [reflexivity|]. split; [exact G|]. split; [|reflexivity].
    eapply ch_node; [exact Hc'|exact Hn|eapply chain_frame; eassumption|exact Hnew].
Qed.
Lemma build_chain (h : heap) i v : (variant k = true -> nested k 0 = false) ->
  exists n h' N, build k h i v = Fine (n, h') /\ grown h h' N /\ chain h' n (made k i v) N.
Proof.
  intros H0. unfold build, made, default. destruct (nested k i) eqn:Hn.
  - destruct (variant k) eqn:Ev.
    + rewrite (H0 eq_refl). cbn [mbind alloc].
      destruct (grown_alloc h h [] (Cell 0 (first k) null) (grown_refl h)) as (G & Hc & _).
      destruct (grown_alloc _ _ _ (Cell i v (Obj (Some 0) (Some (length h)))) G) as (G' & Hc' & Hag & Hnew).
      eexists _, _, _. split; [reflexivity|]. split; [exact G'|]. eapply ch_node; [exact Hc'|exact Hn| |exact Hnew]. eapply ch_leaf; [|apply H0; reflexivity].
      eapply agree_cell; [exact Hag|left; reflexivity|exact Hc].
    + cbn [mbind alloc]. destruct (grown_alloc h h [] (Cell i v null) (grown_refl h)) as (G & Hc & _). eexists _, _, _. split; [reflexivity|]. split; [exact G|].
      eapply ch_node; [exact Hc|exact Hn|constructor|intros []].
  - cbn [mbind alloc]. destruct (grown_alloc h h [] (Cell i v null) (grown_refl h)) as (G & Hc & _). eexists _, _, _. split; [reflexivity|]. split; [exact G|].
    eapply ch_leaf; [exact Hc|exact Hn].
Qed.

(** * Places *)
(** [d] members from slot [s], which holds [o], is slot [s'], which holds [o'], the objects [l0] at [F0] having been passed. *)
Inductive walk (h : heap) : slot -> obj -> nat -> slot -> obj -> contents -> list nat -> Prop :=
| w_here s o : walk h s o 0 s o [] []
| w_next s a i v n d s' o' l0 F0 : cell_at h a (Cell i v n) -> nested k i = true -> walk h (Field a) n d s' o' l0 F0 -> ~ In a F0 ->
    walk h s (Obj (Some i) (Some a)) (S d) s' o' ((i, v) :: l0) (a :: F0).
Lemma chain_walk h o l F : chain h o l F -> forall s d m, sub k l d = Some m ->
  exists s' o' F0 F1, walk h s o d s' o' (firstn d l) F0 /\ chain h o' m F1 /\ F = F0 ++ F1 /\ (forall a, In a F0 -> ~ In a F1).
Proof.
  induction 1 as [i|a i v n Hc Hn|a i v n l F Hc Hn Hch IH Ha]; intros s d m Hs.
  - destruct d as [|d]; [|discriminate]. injection Hs as <-. exists s, (Obj i None), [], []. split; [constructor|]. split; [constructor|]. split; [reflexivity|intros a []].
  - destruct d as [|d]; cbn in Hs; [|rewrite Hn in Hs; discriminate]. injection Hs as <-. eexists s, _, [], [a]. split; [constructor|]. split; [eapply ch_leaf; eassumption|].
    split; [reflexivity|intros b []].
  - destruct d as [|d]; cbn in Hs.
    + injection Hs as <-. eexists s, _, [], (a :: F). split; [constructor|]. split; [eapply ch_node; eassumption|]. split; [reflexivity|intros b []].
    + rewrite Hn in Hs. destruct (IH (Field a) d m Hs) as (s' & o' & F0 & F1 & W & C & -> & D). exists s', o', (a :: F0), F1.
      assert (Ha0 : ~ In a F0 /\ ~ In a F1) by (split; intros Hi; apply Ha, in_or_app; auto).
      split; [cbn [firstn]; eapply w_next; try eassumption; apply Ha0|]. split; [exact C|]. split; [reflexivity|]. intros b [<-|Hb]; [apply Ha0|apply D, Hb].
Qed.
Lemma walk_frame (h h' : heap) s o d s' o' l0 F0 : walk h s o d s' o' l0 F0 -> agree h h' F0 -> walk h' s o d s' o' l0 F0.
Proof.
  induction 1 as [s o|s a i v n d s' o' l0 F0 Hc Hn _ IH Ha]; intros Hg; [constructor|]. eapply w_next; [|exact Hn| |exact Ha].
  - eapply agree_cell; [exact Hg|left; reflexivity|exact Hc].
  - apply IH. intros b Hb. apply Hg. right. exact Hb.
Qed.
Lemma walk_chain (h : heap) s o d s' o' l0 F0 m F1 : walk h s o d s' o' l0 F0 -> chain h o' m F1 -> (forall a, In a F0 -> ~ In a F1) -> chain h o (l0 ++ m) (F0 ++ F1).
Proof.
  induction 1 as [s o|s a i v n d s' o' l0 F0 Hc Hn _ IH Ha]; intros C D; [exact C|]. cbn. eapply ch_node; [exact Hc|exact Hn| |].
  - apply IH; [exact C|]. intros b Hb. apply D. right. exact Hb.
  - intros Hi. apply in_app_or in Hi as [Hi|Hi]; [contradiction|]. eapply D; [left; reflexivity|exact Hi].
Qed.
Lemma walk_last (h : heap) s o d s2 o2 l0 F0 : walk h s o (S d) s2 o2 l0 F0 ->
  exists s1 a i v l1 F1, walk h s o d s1 (Obj (Some i) (Some a)) l1 F1 /\ cell_at h a (Cell i v o2) /\ nested k i = true /\ s2 = Field a /\ F0 = F1 ++ [a] /\ ~ In a F1.
Proof.
  revert s o l0 F0. induction d as [|d IH]; intros s o l0 F0 H.
  - inversion H as [|? a i v n ? ? ? l1 F1 Hc Hn W Ha]; subst. inversion W; subst. exists s, a, i, v, [], []. split; [constructor|]. auto.
  - inversion H as [|? a i v n ? ? ? l1 F1 Hc Hn W Ha]; subst. destruct (IH _ _ _ _ W) as (s1 & b & j & w & l2 & F2 & W2 & Hc2 & Hn2 & -> & -> & Hb).
    exists s1, b, j, w, ((i, v) :: l2), (a :: F2). split; [|split; [exact Hc2|]; split; [exact Hn2|]; split; [reflexivity|]; split; [reflexivity|]].
    + eapply w_next; [exact Hc|exact Hn|exact W2|]. intros Hi. apply Ha, in_or_app. left. exact Hi.
    + intros [->|Hi]; [|contradiction]. apply Ha, in_or_app. right. left. reflexivity.
Qed.
Lemma walk_place (st : state) x o d s' o' l0 F0 : vars st x = Some o -> walk (mem st) (Var x) o d s' o' l0 F0 -> place k st x d = Fine s' /\ get k st s' = Fine o'.
Proof.
  intros Hx. revert s' o' l0 F0. induction d as [|d IH]; intros s' o' l0 F0 W.
  - inversion W; subst. cbn. rewrite Hx. split; reflexivity.
  - destruct (walk_last _ _ _ _ _ _ _ _ W) as (s1 & a & i & v & l1 & F1 & W1 & Hc & Hn & -> & _). destruct (IH _ _ _ _ W1) as (Hp & Hg). cbn [place].
    rewrite Hp. cbn [mbind]. rewrite Hg. cbn [mbind o_ptr]. rewrite (target_fine _ i _ _ Hc eq_refl). cbn [mbind c_alt]. rewrite Hn. split; [reflexivity|].
    cbn [get]. rewrite (read_fine _ _ _ Hc). cbn [mbind c_alt c_next]. rewrite Hn. reflexivity.
Qed.
(** Writing to the place. *)
Lemma walk_set (st : state) x o d s' o' l0 F0 o2 : vars st x = Some o -> walk (mem st) (Var x) o d s' o' l0 F0 ->
  exists st' o1, set k st s' o2 = Fine st' /\ vars st' x = Some o1 /\ (forall y, y <> x -> vars st' y = vars st y) /\
    walk (mem st') (Var x) o1 d s' o2 l0 F0 /\ length (mem st') = length (mem st) /\
    (forall b, ~ In b F0 -> nth_error (mem st') b = nth_error (mem st) b).
Proof.
  intros Hx W. destruct (walk_place st x o d s' o' l0 F0 Hx W) as (Hp & Hg). destruct d as [|d].
  - inversion W; subst. exists (set_var st x (Some o2)), o2. cbn [set]. rewrite Hg. cbn. rewrite Nat.eqb_refl. split; [reflexivity|]. split; [reflexivity|].
    split; [intros y Hy; apply Nat.eqb_neq in Hy; rewrite Hy; reflexivity|]. split; [constructor|]. auto.
  - destruct (walk_last _ _ _ _ _ _ _ _ W) as (s1 & a & i & v & l1 & F1 & W1 & Hc & Hn & -> & -> & Ha).
    exists (State (vars st) (put (mem st) a (Some (Cell i v o2)))), o. cbn [set]. rewrite Hg. cbn [mbind]. rewrite (read_fine _ _ _ Hc). cbn [mbind c_alt c_val].
    unfold write. rewrite (read_fine _ _ _ Hc). cbn [mbind vars mem]. split; [reflexivity|]. split; [exact Hx|]. split; [reflexivity|].
    split; [|split; [apply put_length|]].
    + clear - W Hc. assert (Hput : cell_at (put (mem st) a (Some (Cell i v o2))) a (Cell i v o2)).
      { unfold cell_at in *. rewrite put_nth, Nat.eqb_refl, Hc. reflexivity. }
      remember (S d) as d' eqn:Ed. remember (Field a) as s' eqn:Es. remember (F1 ++ [a]) as F0 eqn:EF. revert d Ed F1 EF. generalize (Var x) W. clear W x. intros s W.
      induction W as [s o|s b j w n d' s' o' l0 F0 Hc' Hn W IH Hb]; intros d Ed F1 EF; [discriminate|]. injection Ed as ->. destruct d as [|d].
      * inversion W; subst. match goal with E : Field _ = Field _ |- _ => injection E as -> end. assert (Cell j w o' = Cell i v o') as E by (unfold cell_at in *; congruence). injection E as -> ->.
        eapply w_next; [exact Hput|exact Hn|constructor|exact Hb].
      * destruct F1 as [|c F1]; [destruct F0; [inversion W|discriminate]|]. injection EF as -> ->.
        assert (c <> a) by (intros ->; apply Hb, in_or_app; right; left; reflexivity).
        eapply w_next; [|exact Hn|eapply (IH Es Hc d eq_refl F1 eq_refl)|exact Hb]. unfold cell_at in *. rewrite put_nth. apply Nat.eqb_neq in H. rewrite H. exact Hc'.
    + intros b Hb. cbn [mem]. rewrite put_nth. destruct (Nat.eqb b a) eqn:E; [|reflexivity]. apply Nat.eqb_eq in E. subst b. exfalso. apply Hb, in_or_app. right. left. reflexivity.
Qed.

(** * The whole state *)
(** [F x]: the cells of variable [x], outermost first; [E]: the cells of objects not in a variable now. *)
Definition layout : Type := nat -> list nat.
Definition move_to (F : layout) (x : nat) (L : list nat) : layout := fun y => if Nat.eqb y x then L else F y.
Definition var_ok (st : state) (s : world) (F : layout) (x : nat) : Prop :=
  match s x with Some l => exists o, vars st x = Some o /\ chain (mem st) o l (F x) | None => vars st x = None /\ F x = [] end.
Record space (h : heap) (F : layout) (E : nat -> Prop) : Prop := {
  sp_apart : forall x y a, x <> y -> In a (F x) -> ~ In a (F y);
  sp_out : forall x a, In a (F x) -> ~ E a;
  sp_all : forall a c, cell_at h a c -> E a \/ exists x, In a (F x);
  sp_in : forall x a, In a (F x) -> a < length h;
  sp_ext : forall a, E a -> a < length h }.
Definition Rep (st : state) (s : world) (F : layout) (E : nat -> Prop) : Prop := (forall x, var_ok st s F x) /\ space (mem st) F E.
(** The same, but the object in the place [s'] of variable [x] may point anywhere. *)
Definition RepH (st : state) (s : world) (F : layout) (E : nat -> Prop) (x d : nat) (s' : slot) (g : obj) (l0 : contents) : Prop :=
  (forall y, y <> x -> var_ok st s F y) /\ space (mem st) F E /\ exists o, vars st x = Some o /\ walk (mem st) (Var x) o d s' g l0 (F x).
Definition slot_of (x : nat) (F0 : list nat) : slot := match rev F0 with [] => Var x | a :: _ => Field a end.
Lemma walk_slot (h : heap) x o d s' g l0 F0 : walk h (Var x) o d s' g l0 F0 -> s' = slot_of x F0 /\ length F0 = d.
Proof.
  intros W. split.
  - destruct d as [|d]; [inversion W; reflexivity|]. destruct (walk_last _ _ _ _ _ _ _ _ W) as (s1 & a & i & v & l1 & F1 & _ & _ & _ & -> & -> & _).
    unfold slot_of. rewrite rev_app_distr. reflexivity.
  - clear - W. induction W; cbn; congruence.
Qed.
Lemma walk_length (h : heap) s o d s' g l0 F0 : walk h s o d s' g l0 F0 -> length l0 = d.
Proof. induction 1; cbn; congruence. Qed.
Lemma walk_live (h : heap) s o d s' g l0 F0 a : walk h s o d s' g l0 F0 -> In a F0 -> a < length h.
Proof. induction 1 as [|s b i v n d s' o' l0 F0 Hc _ _ IH _]; intros Hi; [destruct Hi|]. destruct Hi as [<-|Hi]; [eapply cell_lt, Hc|auto]. Qed.
Lemma move_to_same F x L : move_to F x L x = L.
Proof. unfold move_to. rewrite Nat.eqb_refl. reflexivity. Qed.
Lemma move_to_other F x L y : y <> x -> move_to F x L y = F y.
Proof. unfold move_to. intros H. apply Nat.eqb_neq in H. rewrite H. reflexivity. Qed.
Lemma upd_same (s : world) x (l : option contents) : upd s x l x = l.
Proof. unfold upd. rewrite Nat.eqb_refl. reflexivity. Qed.
Lemma upd_other (s : world) x (l : option contents) y : y <> x -> upd s x l y = s y.
Proof. unfold upd. intros H. apply Nat.eqb_neq in H. rewrite H. reflexivity. Qed.
Lemma var_ok_frame (st st' : state) s s' (F F' : layout) x : var_ok st s F x -> vars st' x = vars st x -> s' x = s x -> F' x = F x -> agree (mem st) (mem st') (F x) -> var_ok st' s' F' x.
Proof.
  unfold var_ok. intros H Hv Hs HF Hg. rewrite Hs, HF, Hv. destruct (s x) as [l|]; [|exact H]. destruct H as (o & Ho & C). exists o. split; [exact Ho|]. eapply chain_frame; eassumption.
Qed.
Lemma space_ext (h : heap) F F' (E E' : nat -> Prop) : space h F E -> (forall x, F' x = F x) -> (forall a, E a <-> E' a) -> space h F' E'.
Proof.
  intros [A B C D D'] HF HE. split.
  - intros x y a. rewrite !HF. apply A.
  - intros x a. rewrite HF, <- HE. apply B.
  - intros a c Hc. destruct (C a c Hc) as [H|[x H]]; [left; apply HE, H|right; exists x; rewrite HF; exact H].
  - intros x a. rewrite HF. apply D.
  - intros a Ha. apply D', HE, Ha.
Qed.
Lemma Rep_ext (st : state) s s' F F' (E E' : nat -> Prop) : Rep st s F E -> (forall x, s' x = s x) -> (forall x, F' x = F x) -> (forall a, E a <-> E' a) -> Rep st s' F' E'.
Proof.
  intros [A B] Hs HF HE. split; [|eapply space_ext; eassumption]. intros x. eapply var_ok_frame; [apply A|reflexivity|apply Hs|apply HF|]. intros a _. reflexivity.
Qed.
(** Deleting an object that is in no variable. *)
Lemma delete_space (h : heap) F (E : nat -> Prop) o m G : space h F (fun a => In a G \/ E a) -> chain h o m G -> (forall a, In a G -> ~ E a) ->
  exists h', delete k (fuel_for h) h o = Fine h' /\ space h' F E /\ forall a, ~ In a G -> nth_error h' a = nth_error h a.
Proof.
  intros [A B C D D'] Hch Hd. destruct (delete_chain h o m G Hch (fuel_for h)) as (h' & Hdel & Hl & Hk & Hg). { unfold fuel_for. pose proof (chain_small _ _ _ _ Hch). lia. }
  exists h'. split; [exact Hdel|]. split; [|exact Hk]. split.
  - exact A.
  - intros x a Ha He. eapply B; [exact Ha|right; exact He].
  - intros a c Hc. destruct (in_dec Nat.eq_dec a G) as [Hi|Hi]; [exfalso; eapply Hg; eassumption|].
    destruct (C a c) as [[H|H]|H]; [unfold cell_at in *; rewrite <- Hk by exact Hi; exact Hc|contradiction|left; exact H|right; exact H].
  - intros x a Ha. rewrite Hl. eapply D, Ha.
  - intros a Ha. rewrite Hl. apply D'. right. exact Ha.
Qed.
Lemma grown_space (h h' : heap) F (E : nat -> Prop) N : space h F E -> grown h h' N -> space h' F (fun a => In a N \/ E a) /\ forall a, In a N -> ~ E a.
Proof.
  intros [A B C D D'] (H1 & H2 & H3 & H4). split; [split|].
  - exact A.
  - intros x a Ha [Hn|He]; [apply D in Ha; apply H3 in Hn; lia|eapply B; eassumption].
  - intros a c Hc. destruct (Nat.lt_ge_cases a (length h)) as [Hlt|Hge].
    + destruct (C a c) as [H|H]; [unfold cell_at in *; rewrite <- H2 by exact Hlt; exact Hc|left; right; exact H|right; exact H].
    + left. left. eapply H4; eassumption.
  - intros x a Ha. apply D in Ha. lia.
  - intros a [Ha|Ha]; [apply H3, Ha|apply D' in Ha; lia].
  - intros a Ha He. apply H3 in Ha. apply D' in He. lia.
Qed.
Lemma Rep_keep (st : state) h' s F (E E' : nat -> Prop) : Rep st s F E -> space h' F E' -> (forall x a, In a (F x) -> nth_error h' a = nth_error (mem st) a) -> Rep (State (vars st) h') s F E'.
Proof.
  intros [A B] Hs Hk. split; [|exact Hs]. intros x. eapply var_ok_frame; [apply A|reflexivity|reflexivity|reflexivity|]. intros a Ha. apply (Hk x), Ha.
Qed.
Lemma RepH_keep (st : state) h' s F (E E' : nat -> Prop) x d s' g l0 : RepH st s F E x d s' g l0 -> space h' F E' -> (forall x a, In a (F x) -> nth_error h' a = nth_error (mem st) a) ->
  RepH (State (vars st) h') s F E' x d s' g l0.
Proof.
  intros (A & B & o & Ho & W) Hs Hk. split; [|split; [exact Hs|]].
  - intros y Hy. eapply var_ok_frame; [apply A, Hy|reflexivity|reflexivity|reflexivity|]. intros a Ha. apply (Hk y), Ha.
  - exists o. split; [exact Ho|]. eapply walk_frame; [exact W|]. intros a Ha. apply (Hk x), Ha.
Qed.
Lemma Rep_delete (st : state) s F (E : nat -> Prop) o m G : Rep st s F (fun a => In a G \/ E a) -> chain (mem st) o m G -> (forall a, In a G -> ~ E a) ->
  exists st', delete_in k st o = Fine st' /\ Rep st' s F E.
Proof.
  intros HR Hch Hd. destruct (delete_space _ _ _ _ _ _ (proj2 HR) Hch Hd) as (h' & Hdel & Hs & Hk). eexists. unfold delete_in. rewrite Hdel. split; [reflexivity|].
  eapply Rep_keep; [exact HR|exact Hs|]. intros x a Ha. apply Hk. intros Hg. eapply (sp_out _ _ _ (proj2 HR)); [exact Ha|left; exact Hg].
Qed.
Lemma RepH_delete (st : state) s F (E : nat -> Prop) x d s' g l0 o m G : RepH st s F (fun a => In a G \/ E a) x d s' g l0 -> chain (mem st) o m G -> (forall a, In a G -> ~ E a) ->
  exists st', delete_in k st o = Fine st' /\ RepH st' s F E x d s' g l0 /\ vars st' = vars st /\ forall a, ~ In a G -> nth_error (mem st') a = nth_error (mem st) a.
Proof.
  intros HR Hch Hd. destruct HR as (A & B & HR'). destruct (delete_space _ _ _ _ _ _ B Hch Hd) as (h' & Hdel & Hs & Hk). eexists. unfold delete_in. rewrite Hdel. split; [reflexivity|].
  split; [|split; [reflexivity|exact Hk]]. eapply RepH_keep; [split; [exact A|split; [exact B|exact HR']]|exact Hs|]. intros y a Ha. apply Hk. intros Hg. eapply (sp_out _ _ _ B); [exact Ha|left; exact Hg].
Qed.
Lemma grown_old (h h' : heap) F (E : nat -> Prop) N : space h F E -> grown h h' N -> forall x a, In a (F x) -> nth_error h' a = nth_error h a.
Proof. intros Hs (_ & H2 & _) x a Ha. apply H2. eapply sp_in; eassumption. Qed.
Lemma Rep_copy (st : state) s F (E : nat -> Prop) o m G : Rep st s F E -> chain (mem st) o m G -> copyable m ->
  exists n st' N, copy_in k st o = Fine (n, st') /\ Rep st' s F (fun a => In a N \/ E a) /\ chain (mem st') n m N /\ (forall a, In a N -> ~ E a).
Proof.
  intros HR Hch Hcp. destruct (copy_chain _ _ _ _ Hch Hcp (fuel_for (mem st))) as (n & h' & N & Hc & Hg & Hn & _). { unfold fuel_for. pose proof (chain_small _ _ _ _ Hch). lia. }
  destruct (grown_space _ _ _ _ _ (proj2 HR) Hg) as (Hs & Hd). exists n, (State (vars st) h'), N. unfold copy_in. rewrite Hc. split; [reflexivity|]. split; [|split; [exact Hn|exact Hd]].
  eapply Rep_keep; [exact HR|exact Hs|]. eapply grown_old; [apply HR|exact Hg].
Qed.
Lemma Rep_build (st : state) s F (E : nat -> Prop) i v : Rep st s F E -> (variant k = true -> nested k 0 = false) ->
  exists n st' N, build_in k st i v = Fine (n, st') /\ Rep st' s F (fun a => In a N \/ E a) /\ chain (mem st') n (made k i v) N /\ (forall a, In a N -> ~ E a).
Proof.
  intros HR H0. destruct (build_chain (mem st) i v H0) as (n & h' & N & Hc & Hg & Hn).
  destruct (grown_space _ _ _ _ _ (proj2 HR) Hg) as (Hs & Hd). exists n, (State (vars st) h'), N. unfold build_in. rewrite Hc. split; [reflexivity|]. split; [|split; [exact Hn|exact Hd]].
  eapply Rep_keep; [exact HR|exact Hs|]. eapply grown_old; [apply HR|exact Hg].
Qed.
(** Opening a place. *)
Lemma open (st : state) s F (E : nat -> Prop) x d l m : Rep st s F E -> s x = Some l -> sub k l d = Some m ->
  exists g, place k st x d = Fine (slot_of x (firstn d (F x))) /\ get k st (slot_of x (firstn d (F x))) = Fine g /\ chain (mem st) g m (skipn d (F x)) /\
    RepH st s (move_to F x (firstn d (F x))) (fun a => In a (skipn d (F x)) \/ E a) x d (slot_of x (firstn d (F x))) g (firstn d l) /\ (forall a, In a (skipn d (F x)) -> ~ E a).
Proof.
  intros [A B] Hx Hs. pose proof (A x) as Ax. unfold var_ok in Ax. rewrite Hx in Ax. destruct Ax as (o & Ho & C).
  destruct (chain_walk _ _ _ _ C (Var x) d m Hs) as (s' & g & F0 & F1 & W & C1 & HF & Hd). destruct (walk_slot _ _ _ _ _ _ _ _ W) as (-> & HL).
  assert (HF0 : firstn d (F x) = F0) by (rewrite HF, firstn_app, <- HL, Nat.sub_diag, firstn_all; cbn; apply app_nil_r).
  assert (HF1 : skipn d (F x) = F1) by (rewrite HF, skipn_app, <- HL, Nat.sub_diag, skipn_all; reflexivity).
  rewrite HF0, HF1. exists g. destruct (walk_place _ _ _ _ _ _ _ _ Ho W) as (Hp & Hg). split; [exact Hp|]. split; [exact Hg|]. split; [exact C1|]. split.
  2:{ intros a Ha. apply (sp_out _ _ _ B x). rewrite HF. apply in_or_app. right. exact Ha. }
  assert (Hin : forall y a, In a (move_to F x F0 y) -> In a (F y)).
  { intros y a. unfold move_to. destruct (Nat.eqb_spec y x) as [->|]; [|auto]. intros Ha. rewrite HF. apply in_or_app. left. exact Ha. }
  split; [|split].
  - intros y Hy. eapply var_ok_frame; [apply A|reflexivity|reflexivity|apply move_to_other, Hy|]. intros a _. reflexivity.
  - split.
    + intros y z a Hyz Hy Hz. eapply (sp_apart _ _ _ B y z a Hyz); apply Hin; assumption.
    + intros y a Hy [Ha|Ha]; [|eapply (sp_out _ _ _ B); [apply Hin, Hy|exact Ha]]. destruct (Nat.eq_dec y x) as [->|Hne].
      * rewrite move_to_same in Hy. exact (Hd a Hy Ha).
      * eapply (sp_apart _ _ _ B y x a Hne); [apply Hin, Hy|]. rewrite HF. apply in_or_app. right. exact Ha.
    + intros a c Hc. destruct (sp_all _ _ _ B a c Hc) as [He|[y Hy]]; [left; right; exact He|]. destruct (Nat.eq_dec y x) as [->|Hne].
      * rewrite HF in Hy. apply in_app_or in Hy as [Hy|Hy]; [right; exists x; rewrite move_to_same; exact Hy|left; left; exact Hy].
      * right. exists y. rewrite move_to_other by exact Hne. exact Hy.
    + intros y a Hy. eapply (sp_in _ _ _ B), Hin, Hy.
    + intros a [Ha|Ha]; [|apply (sp_ext _ _ _ B), Ha]. apply (sp_in _ _ _ B x). rewrite HF. apply in_or_app. right. exact Ha.
  - exists o. rewrite move_to_same. auto.
Qed.
Lemma RepH_get (st : state) s F (E : nat -> Prop) x d s' g l0 : RepH st s F E x d s' g l0 -> get k st s' = Fine g /\ place k st x d = Fine s'.
Proof. intros (_ & _ & o & Ho & W). destruct (walk_place _ _ _ _ _ _ _ _ Ho W). auto. Qed.
Lemma store (st : state) s F (E : nat -> Prop) x d s' g l0 g2 : RepH st s F E x d s' g l0 ->
  exists st', set k st s' g2 = Fine st' /\ RepH st' s F E x d s' g2 l0 /\ (forall y, y <> x -> vars st' y = vars st y) /\ (forall a, ~ In a (F x) -> nth_error (mem st') a = nth_error (mem st) a).
Proof.
  intros (A & B & o & Ho & W). destruct (walk_set st x o d s' g l0 (F x) g2 Ho W) as (st' & o1 & Hset & Ho1 & Hv & W' & HL & Hk). exists st'. split; [exact Hset|].
  split; [|split; [exact Hv|exact Hk]]. split; [|split].
  - intros y Hy. eapply var_ok_frame; [apply A, Hy|apply Hv, Hy|reflexivity|reflexivity|]. intros a Ha. apply Hk. eapply (sp_apart _ _ _ B y x); assumption.
  - split; [apply (sp_apart _ _ _ B)|apply (sp_out _ _ _ B)| |intros y a Hy; rewrite HL; eapply (sp_in _ _ _ B), Hy|intros a Ha; rewrite HL; apply (sp_ext _ _ _ B), Ha].
    intros a c Hc. destruct (in_dec Nat.eq_dec a (F x)) as [Hi|Hi]; [right; exists x; exact Hi|]. apply (sp_all _ _ _ B a c). unfold cell_at in *. rewrite <- Hk by exact Hi. exact Hc.
  - exists o1. auto.
Qed.
Lemma close (st : state) s F (E : nat -> Prop) x d s' g l0 m G : RepH st s F (fun a => In a G \/ E a) x d s' g l0 -> chain (mem st) g m G -> (forall a, In a G -> ~ E a) ->
  Rep st (upd s x (Some (l0 ++ m))) (move_to F x (F x ++ G)) E.
Proof.
  intros (A & B & o & Ho & W) C D.
  assert (Hin : forall y a, In a (move_to F x (F x ++ G) y) -> In a (F y) \/ (y = x /\ In a G)).
  { intros y a. unfold move_to. destruct (Nat.eqb_spec y x) as [->|]; [|auto]. intros Ha. apply in_app_or in Ha as [Ha|Ha]; auto. }
  split; [|split].
  - intros y. destruct (Nat.eq_dec y x) as [->|Hy].
    + unfold var_ok. rewrite upd_same, move_to_same. exists o. split; [exact Ho|]. eapply walk_chain; [exact W|exact C|]. intros a Ha Hg. eapply (sp_out _ _ _ B); [exact Ha|left; exact Hg].
    + eapply var_ok_frame; [apply A, Hy|reflexivity|apply upd_other, Hy|apply move_to_other, Hy|]. intros a _. reflexivity.
  - intros y z a Hyz Hy Hz. apply Hin in Hy, Hz. destruct Hy as [Hy|[-> Hy]], Hz as [Hz|[-> Hz]].
    + eapply (sp_apart _ _ _ B y z); eassumption.
    + eapply (sp_out _ _ _ B); [exact Hy|left; exact Hz].
    + eapply (sp_out _ _ _ B); [exact Hz|left; exact Hy].
    + contradiction.
  - intros y a Hy He. apply Hin in Hy as [Hy|[-> Hy]]; [eapply (sp_out _ _ _ B); [exact Hy|right; exact He]|eapply D; eassumption].
  - intros a c Hc. destruct (sp_all _ _ _ B a c Hc) as [[Hg|He]|[y Hy]].
    + right. exists x. rewrite move_to_same. apply in_or_app. right. exact Hg.
    + left. exact He.
    + right. destruct (Nat.eq_dec y x) as [->|Hne]; [exists x; rewrite move_to_same; apply in_or_app; left; exact Hy|exists y; rewrite move_to_other by exact Hne; exact Hy].
  - intros y a Hy. apply Hin in Hy as [Hy|[-> Hy]]; [eapply (sp_in _ _ _ B), Hy|apply (sp_ext _ _ _ B); left; exact Hy].
  - intros a Ha. apply (sp_ext _ _ _ B). right. exact Ha.
Qed.
Lemma RepH_ext (st : state) s F (E E' : nat -> Prop) x d s' g l0 : RepH st s F E x d s' g l0 -> (forall a, E a <-> E' a) -> RepH st s F E' x d s' g l0.
Proof. intros (A & B & C) H. split; [exact A|]. split; [|exact C]. eapply space_ext; [exact B|reflexivity|exact H]. Qed.
(** Exchanging the object in a place for one that is in no variable. *)
Lemma exchange (st : state) s F (E : nat -> Prop) x d l m n m' N : Rep st s F (fun a => In a N \/ E a) -> s x = Some l -> sub k l d = Some m -> chain (mem st) n m' N -> (forall a, In a N -> ~ E a) ->
  exists old st', get k st (slot_of x (firstn d (F x))) = Fine old /\ set k st (slot_of x (firstn d (F x))) n = Fine st' /\
    Rep st' (upd s x (Some (firstn d l ++ m'))) (move_to F x (firstn d (F x) ++ N)) (fun a => In a (skipn d (F x)) \/ E a) /\
    chain (mem st') old m (skipn d (F x)) /\ (forall a, In a (skipn d (F x)) -> ~ E a).
Proof.
  intros HR Hx Hs Hn Hd. destruct (open _ _ _ _ _ _ _ _ HR Hx Hs) as (g & Hp & Hg & C & HH & Hd').
  destruct (store _ _ _ _ _ _ _ _ _ n HH) as (st' & Hset & HH' & Hv & Hk). exists g, st'. split; [exact Hg|]. split; [exact Hset|].
  rewrite move_to_same in Hk. assert (Hk' : forall a, In a N \/ In a (skipn d (F x)) -> nth_error (mem st') a = nth_error (mem st) a).
  { intros a Ha. apply Hk. intros Hf. destruct HH as (_ & B & _). apply (sp_out _ _ _ B x a); [rewrite move_to_same; exact Hf|]. destruct Ha; auto. }
  split; [|split].
  - eapply Rep_ext; [eapply (close _ _ _ (fun a => In a (skipn d (F x)) \/ E a) x d _ n (firstn d l) m' N)| | |].
    + eapply RepH_ext; [exact HH'|]. cbv beta. intros a. tauto.
    + eapply chain_frame; [exact Hn|]. intros a Ha. apply Hk'. left. exact Ha.
    + intros a Ha [Hb|Hb]; [eapply Hd'; [exact Hb|left; exact Ha]|eapply Hd; eassumption].
    + reflexivity.
    + intros y. unfold move_to. destruct (Nat.eqb y x) eqn:E1; [rewrite Nat.eqb_refl; reflexivity|reflexivity].
    + reflexivity.
  - eapply chain_frame; [exact C|]. intros a Ha. apply Hk'. right. exact Ha.
  - intros a Ha He. eapply Hd'; [exact Ha|right; exact He].
Qed.
(** A variable constructed from an object that is in no variable; destroyed. *)
Lemma Rep_new (st : state) s F (E : nat -> Prop) x n m N : Rep st s F (fun a => In a N \/ E a) -> s x = None -> chain (mem st) n m N -> (forall a, In a N -> ~ E a) ->
  Rep (set_var st x (Some n)) (upd s x (Some m)) (move_to F x N) E.
Proof.
  intros [A B] Hx C D. assert (Hin : forall y a, In a (move_to F x N y) -> (y <> x /\ In a (F y)) \/ (y = x /\ In a N)).
  { intros y a. unfold move_to. destruct (Nat.eqb_spec y x) as [->|]; auto. }
  split; [|split].
  - intros y. destruct (Nat.eq_dec y x) as [->|Hy].
    + unfold var_ok. rewrite upd_same, move_to_same. exists n. cbn. rewrite Nat.eqb_refl. auto.
    + eapply var_ok_frame; [apply A| |apply upd_other, Hy|apply move_to_other, Hy|intros a _; reflexivity]. cbn. apply Nat.eqb_neq in Hy. rewrite Hy. reflexivity.
  - intros y z a Hyz Hy Hz. apply Hin in Hy, Hz. destruct Hy as [[Hy1 Hy]|[-> Hy]], Hz as [[Hz1 Hz]|[-> Hz]].
    + eapply (sp_apart _ _ _ B y z); eassumption.
    + eapply (sp_out _ _ _ B); [exact Hy|left; exact Hz].
    + eapply (sp_out _ _ _ B); [exact Hz|left; exact Hy].
    + contradiction.
  - intros y a Hy He. apply Hin in Hy as [[_ Hy]|[-> Hy]]; [eapply (sp_out _ _ _ B); [exact Hy|right; exact He]|eapply D; eassumption].
  - intros a c Hc. destruct (sp_all _ _ _ B a c Hc) as [[Hg|He]|[y Hy]].
    + right. exists x. rewrite move_to_same. exact Hg.
    + left. exact He.
    + right. exists y. rewrite move_to_other; [exact Hy|]. intros ->. pose proof (A x) as Ax. unfold var_ok in Ax. rewrite Hx in Ax. destruct Ax as (_ & Ax). rewrite Ax in Hy. destruct Hy.
  - intros y a Hy. apply Hin in Hy as [[_ Hy]|[-> Hy]]; [eapply (sp_in _ _ _ B), Hy|apply (sp_ext _ _ _ B); left; exact Hy].
  - intros a Ha. apply (sp_ext _ _ _ B). right. exact Ha.
Qed.
Lemma Rep_drop (st : state) s F (E : nat -> Prop) x l : Rep st s F E -> s x = Some l ->
  exists o st', get k st (Var x) = Fine o /\ delete_in k st o = Fine st' /\ Rep (set_var st' x None) (upd s x None) (move_to F x []) E.
Proof.
  intros HR Hx. destruct (open st s F E x 0 l l HR Hx ltac:(destruct l; reflexivity)) as (g & Hp & Hg & C & HH & Hd). change (firstn 0 (F x)) with (@nil nat) in *. change (skipn 0 (F x)) with (F x) in *. change (slot_of x []) with (Var x) in *.
  destruct (RepH_delete _ _ _ _ _ _ _ _ _ _ _ _ HH C Hd) as (st' & Hdel & (A & B & _) & _). exists g, st'. split; [exact Hg|]. split; [exact Hdel|]. split; [|exact B].
  intros y. destruct (Nat.eq_dec y x) as [->|Hy].
  - unfold var_ok. rewrite upd_same, move_to_same. cbn. rewrite Nat.eqb_refl. auto.
  - eapply var_ok_frame; [apply A, Hy| |apply upd_other, Hy|reflexivity|intros a _; reflexivity]. cbn. apply Nat.eqb_neq in Hy. rewrite Hy. reflexivity.
Qed.
(** Writing to the object in a place. *)
Lemma Rep_write (st : state) s F (E : nat -> Prop) x d l i w m v : Rep st s F E -> s x = Some l -> sub k l d = Some ((i, w) :: m) ->
  exists o a c h, get k st (slot_of x (firstn d (F x))) = Fine o /\ o_ptr o = Some a /\ target (mem st) o a = Fine c /\ write (mem st) a (Cell (c_alt c) v (c_next c)) = Fine h /\
    Rep (State (vars st) h) (upd s x (Some (firstn d l ++ (i, v) :: m))) F E.
Proof.
  intros HR Hx Hs. destruct (open _ _ _ _ _ _ _ _ HR Hx Hs) as (g & Hp & Hg & C & HH & Hd).
  assert (HF : exists a G n, skipn d (F x) = a :: G /\ g = Obj (Some i) (Some a) /\ cell_at (mem st) a (Cell i w n) /\ ((nested k i = false /\ m = [] /\ G = []) \/ (nested k i = true /\ chain (mem st) n m G /\ ~ In a G))).
  { remember (skipn d (F x)) as K. clear - C. inversion C; subst; eexists _, _, _; split; try reflexivity; split; try reflexivity; split; try eassumption; auto. }
  destruct HF as (a & G & n & HF & -> & Hc & Hcase). rewrite HF in *. eexists _, a, (Cell i w n), (put (mem st) a (Some (Cell i v n))). split; [exact Hg|]. split; [reflexivity|].
  split; [apply target_fine; [exact Hc|reflexivity]|]. split; [unfold write; rewrite (read_fine _ _ _ Hc); reflexivity|].
  assert (Hk : forall b, b <> a -> nth_error (put (mem st) a (Some (Cell i v n))) b = nth_error (mem st) b).
  { intros b Hb. rewrite put_nth. apply Nat.eqb_neq in Hb. rewrite Hb. reflexivity. }
  assert (HH' : RepH (State (vars st) (put (mem st) a (Some (Cell i v n)))) s (move_to F x (firstn d (F x))) (fun b => In b (a :: G) \/ E b) x d (slot_of x (firstn d (F x))) (Obj (Some i) (Some a)) (firstn d l)).
  { pose proof (proj1 (proj2 HH)) as B. eapply RepH_keep; [exact HH| |].
    - split; [apply (sp_apart _ _ _ B)|apply (sp_out _ _ _ B)| |intros y b Hy; rewrite put_length; eapply (sp_in _ _ _ B), Hy|intros b Hb; rewrite put_length; apply (sp_ext _ _ _ B), Hb].
      intros b c Hb. destruct (Nat.eq_dec b a) as [->|Hne]; [left; left; left; reflexivity|]. apply (sp_all _ _ _ B b c). unfold cell_at in *. rewrite <- Hk by exact Hne. exact Hb.
    - intros y b Hb. apply Hk. intros ->. eapply (sp_out _ _ _ B); [exact Hb|left; left; reflexivity]. }
  eapply Rep_ext; [eapply (close _ _ _ E x d _ _ (firstn d l) ((i, v) :: m) (a :: G) HH')| | |].
  - assert (Hnew : cell_at (put (mem st) a (Some (Cell i v n))) a (Cell i v n)) by (unfold cell_at in *; rewrite put_nth, Nat.eqb_refl, Hc; reflexivity).
    cbn [mem]. destruct Hcase as [(Hn & -> & ->)|(Hn & Hch & Ha)]; [eapply ch_leaf; eassumption|]. eapply ch_node; [exact Hnew|exact Hn| |exact Ha].
    eapply chain_frame; [exact Hch|]. intros b Hb. apply Hk. intros ->. contradiction.
  - exact Hd.
  - reflexivity.
  - intros y. destruct (Nat.eq_dec y x) as [->|Hy]; [rewrite !move_to_same, <- HF; symmetry; apply firstn_skipn|rewrite !move_to_other by exact Hy; reflexivity].
  - reflexivity.
Qed.
End Proofs.
