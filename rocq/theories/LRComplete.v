(** A parser whose tables agree with the items of a (part of a) grammar accepts its sentences, and gives them their values. *)
From Coq Require Import List ZArith Bool Lia.
From Verif Require Import Base Parser LRSpec LRProofs.
Import ListNotations.
Local Open Scope Z_scope.

Section Complete.
  Variables (V ST : Type) (t : tables) (action : Z -> list V -> ST -> res (V * ST)) (v0 : V).
  (** The part of the grammar: its rule [j] is a version of rule [base j]; its symbol [X] is a version of [proj X]. *)
  Variables (sub : Z -> option (Z * list Z)) (base proj : Z -> Z) (ok : Z -> Z -> bool) (start_rule START : Z).
  Notation ntok := (ntokens t).
  Definition sub_action (j : Z) (vs : list V) (st : ST) : res (V * ST) := action (base j) vs st.
  Notation filtered := (filtered V ST ntok sub sub_action ok).
  Notation filtereds := (filtereds V ST ntok sub sub_action ok).
  (** First tokens. *)
  Variables (first : Z -> Z -> bool) (nullable : Z -> bool).
  Fixpoint starts (xs : list Z) (next b : Z) : Prop :=
    match xs with [] => next = b | x :: xs => first x b = true \/ (nullable x = true /\ starts xs next b) end.
  Hypothesis first_token : forall a, 0 <= a < ntok -> first a a = true.
  Hypothesis rule_first : forall j X rhs, sub j = Some (X, rhs) -> forall i x b, nth_error rhs i = Some x -> forallb nullable (firstn i rhs) = true ->
    first x b = true -> first X b = true.
  Hypothesis rule_nullable : forall j X rhs, sub j = Some (X, rhs) -> forallb nullable rhs = true -> nullable X = true.
  (** [has s j d a]: in state [s], rule [j] may be at position [d], to be followed by [a]. *)
  Variable has : Z -> Z -> nat -> Z -> Prop.
  Definition looks (s a : Z) (d : decision) : Prop :=
    s <> final t /\ exists n, get (t_pact t) s = Ok n /\ if n =? pact_ninf t then default_decision t s = Ok d else decide t s n a = Ok d.
  Hypothesis has_closure : forall s j d a X rhs Y b j' rhs', has s j d a -> sub j = Some (X, rhs) -> nth_error rhs d = Some Y ->
    starts (skipn (S d) rhs) a b -> sub j' = Some (Y, rhs') -> ok j' b = true -> has s j' 0 b.
  Hypothesis has_shift : forall s j d a X rhs b, has s j d a -> sub j = Some (X, rhs) -> nth_error rhs d = Some b -> 0 <= b < ntok ->
    exists s', looks s b (Shift s') /\ has s' j (S d) a.
  Hypothesis has_goto : forall s j d a X rhs Y, has s j d a -> sub j = Some (X, rhs) -> nth_error rhs d = Some Y -> ntok <= Y ->
    exists s', lr_goto t s (proj Y) = Ok s' /\ has s' j (S d) a.
  Hypothesis has_reduce : forall s j a X rhs, has s j (length rhs) a -> sub j = Some (X, rhs) -> j <> start_rule -> looks s a (Reduce (base j)).
  Hypothesis sub_base : forall j X rhs, sub j = Some (X, rhs) -> get (t_r1 t) (base j) = Ok (proj X) /\ get (t_r2 t) (base j) = Ok (zlen rhs) /\ ntok <= X.
  Hypothesis no_start : forall j X rhs S0 rhs0, sub j = Some (X, rhs) -> sub start_rule = Some (S0, rhs0) -> ~ In S0 rhs.
  Hypothesis start_is : exists S0, sub start_rule = Some (S0, [START; 0]).
  Hypothesis has_start : has 0 start_rule 0 0.
  Hypothesis has_end : forall s a, has s start_rule 2 a -> s = final t.
  Hypothesis token_0 : 0 < ntok.

  Notation Config := (Config V ST).
  Notation step := (step V ST t action v0).
  Notation run := (run V ST t action v0).
  Notation prefix := (prefix V).
  Notation first_of := (first_of V).

  Definition reaches (c c' : config V ST) : Prop := exists n, forall fuel, run (n + fuel)%nat c = run fuel c'.
  Lemma reaches_refl c : reaches c c.
  Proof. exists 0%nat. reflexivity. Qed.
  Lemma reaches_trans a b c : reaches a b -> reaches b c -> reaches a c.
  Proof. intros [n Hn] [m Hm]. exists (n + m)%nat. intros fuel. rewrite <- Nat.add_assoc, Hn. apply Hm. Qed.
  Lemma reaches_step c c' : step c = Ok (Next V ST c') -> reaches c c'.
  Proof. intros H. exists 1%nat. intros fuel. cbn [Nat.add Parser.run]. rewrite H. reflexivity. Qed.

  Lemma step_shift s a s' x stk st v i : looks s a (Shift s') ->
    step (Config ((s, x) :: stk) st (SToken a v i) 0) = Ok (Next V ST (Config ((s', v) :: (s, x) :: stk) st i 0)).
  Proof.
    intros (N & n & En & H). unfold Parser.step. cbn [c_stack c_input c_state c_errors]. destruct (Z.eqb_spec s (final t)); [contradiction|].
    rewrite En. cbn [bind]. destruct (n =? pact_ninf t); rewrite H; reflexivity.
  Qed.
  Lemma step_reduce s a k x stk st v i : looks s a (Reduce k) ->
    step (Config ((s, x) :: stk) st (SToken a v i) 0) = reduce V ST t action k (Config ((s, x) :: stk) st (SToken a v i) 0).
  Proof.
    intros (N & n & En & H). unfold Parser.step. cbn [c_stack c_input c_state c_errors]. destruct (Z.eqb_spec s (final t)); [contradiction|].
    rewrite En. cbn [bind]. destruct (n =? pact_ninf t); rewrite H; reflexivity.
  Qed.

  (** ** First tokens *)
  Lemma filtered_first :
    (forall X w next st v st', filtered X w next st v st' -> match w with [] => nullable X = true | (b, _) :: _ => first X b = true end) /\
    (forall rhs w next st vs st', filtereds rhs w next st vs st' ->
      starts rhs next (first_of w next) /\
      match w with
      | [] => forallb nullable rhs = true
      | (b, _) :: _ => exists i x, nth_error rhs i = Some x /\ forallb nullable (firstn i rhs) = true /\ first x b = true
      end).
  Proof.
    apply filtered_mutind.
    - intros a v next st Ha. cbn. apply first_token, Ha.
    - intros j X rhs w next st vs st1 v st2 Ej _ _ [_ H] _. destruct w as [|[b vb] w]; [eapply rule_nullable; eassumption|].
      destruct H as (i & x & H1 & H2 & H3). eapply rule_first; eassumption.
    - intros next st. cbn. auto.
    - intros X rhs w1 w2 next st v st1 vs st2 _ H1 _ [H2 H3]. destruct w1 as [|[b vb] w1]; cbn [app].
      + cbn [starts]. split; [right; auto|]. destruct w2 as [|[b vb] w2].
        * cbn [forallb]. rewrite H1. exact H3.
        * destruct H3 as (i & x & H4 & H5 & H6). exists (S i), x. cbn [nth_error firstn forallb]. rewrite H1. auto.
      + cbn [starts LRSpec.first_of]. split; [left; exact H1|]. exists 0%nat, X. cbn. auto.
  Qed.
  Lemma nth_error_skipn {A} (l : list A) : forall d x, nth_error l d = Some x -> skipn d l = x :: skipn (S d) l.
  Proof. induction l as [|y l IH]; intros [|d] x H; cbn in H; try discriminate; [injection H as ->; reflexivity|]. cbn [skipn]. rewrite (IH _ _ H). destruct l; [destruct d; discriminate|reflexivity]. Qed.

  (** ** Phrases *)
  Lemma phrases_reach :
    (forall X w next st v st', filtered X w next st v st' -> forall s j d a S0 rhs x stk vn i, has s j d a -> sub j = Some (S0, rhs) ->
      nth_error rhs d = Some X -> starts (skipn (S d) rhs) a next ->
      exists s', has s' j (S d) a /\
        reaches (Config ((s, x) :: stk) st (prefix w (SToken next vn i)) 0) (Config ((s', v) :: (s, x) :: stk) st' (SToken next vn i) 0)) /\
    (forall rest w next st vs st', filtereds rest w next st vs st' -> forall s j d S0 rhs x stk vn i, has s j d next -> sub j = Some (S0, rhs) ->
      skipn d rhs = rest -> (d <= length rhs)%nat ->
      exists top s' x', has s' j (length rhs) next /\ length top = length rest /\ map snd top = rev vs /\
        (exists below, top ++ (s, x) :: stk = (s', x') :: below) /\
        reaches (Config ((s, x) :: stk) st (prefix w (SToken next vn i)) 0) (Config (top ++ (s, x) :: stk) st' (SToken next vn i) 0)).
  Proof.
    apply filtered_mutind.
    - intros b v next st Hb s j d a S0 rhs x stk vn i H E En _. destruct (has_shift _ _ _ _ _ _ _ H E En Hb) as (s' & L & H').
      exists s'. split; [exact H'|]. apply reaches_step. cbn [LRProofs.prefix]. apply step_shift, L.
    - intros j' X rhs' w next st vs st1 v st2 Ej' Ok' _ IH Ea s j d a S0 rhs x stk vn i H E En St.
      pose proof (has_closure _ _ _ _ _ _ _ _ _ _ H E En St Ej' Ok') as H0.
      destruct (IH s j' 0%nat X rhs' x stk vn i H0 Ej' eq_refl ltac:(lia)) as (top & s1 & x1 & H1 & Lt & Mt & (below & Eb) & Rt).
      destruct (sub_base _ _ _ Ej') as (R1 & R2 & NX).
      destruct (has_goto _ _ _ _ _ _ _ H E En NX) as (s' & G & H'). exists s'. split; [exact H'|].
      apply (reaches_trans _ _ _ Rt). rewrite Eb. apply reaches_step. rewrite step_reduce with (k := base j').
      2: { apply (has_reduce _ _ _ _ _ H1 Ej'). intros ->. apply (no_start _ _ _ _ _ E Ej'). apply nth_error_In in En. exact En. }
      rewrite <- Eb. unfold reduce. cbn [c_stack c_state c_input c_errors]. rewrite R2. cbn [bind].
      assert (Ln : Z.to_nat (zlen rhs') = length top) by (unfold zlen; rewrite Lt; lia). rewrite Ln.
      rewrite nth_error_app2, Nat.sub_diag by lia. cbn [nth_error]. rewrite R1. cbn [bind]. rewrite G. cbn [bind].
      rewrite firstn_app, Nat.sub_diag, firstn_all, firstn_O, app_nil_r, Mt, rev_involutive. unfold sub_action in Ea. rewrite Ea. cbn [bind].
      rewrite skipn_app, Nat.sub_diag, skipn_all. reflexivity.
    - intros next st s j d S0 rhs x stk vn i H E Ed Ld. exists [], s, x. cbn [length map rev app LRProofs.prefix].
      assert (d = length rhs) as ->. { apply (f_equal (@length Z)) in Ed. rewrite skipn_length in Ed. cbn in Ed. lia. }
      split; [exact H|]. split; [reflexivity|]. split; [reflexivity|]. split; [eauto|apply reaches_refl].
    - intros X rest w1 w2 next st v st1 vs st2 _ IH1 F2 IH2 s j d S0 rhs x stk vn i H E Ed Ld.
      assert (En : nth_error rhs d = Some X).
      { rewrite <- (firstn_skipn d rhs), Ed. rewrite nth_error_app2; rewrite firstn_length_le by exact Ld; [rewrite Nat.sub_diag; reflexivity|lia]. }
      assert (Ed' : skipn (S d) rhs = rest). { rewrite (nth_error_skipn _ _ _ En) in Ed. congruence. }
      destruct (proj2 filtered_first _ _ _ _ _ _ F2) as [St _]. rewrite <- Ed' in St.
      rewrite prefix_app. assert (exists vf i', prefix w2 (SToken next vn i) = SToken (first_of w2 next) vf i') as (vf & i' & Ei).
      { destruct w2 as [|[b vb] w2]; cbn; eauto. } 
      destruct (IH1 s j d next S0 rhs x stk vf i' H E En St) as (s1 & H1 & R1). rewrite <- Ei in R1.
      assert (Ld' : (S d <= length rhs)%nat) by (apply nth_error_Some; congruence).
      destruct (IH2 s1 j (S d) S0 rhs v ((s, x) :: stk) vn i H1 E Ed' Ld') as (top & s' & x' & H' & Lt & Mt & (below & Eb) & R2).
      exists (top ++ [(s1, v)]), s', x'. split; [exact H'|]. split; [rewrite app_length; cbn; lia|]. split; [rewrite map_app, Mt; reflexivity|].
      rewrite <- app_assoc. cbn [app]. split; [eauto|]. eapply reaches_trans; eassumption.
  Qed.
  Theorem accepts w st v st' ve i : filtered START w 0 st v st' -> exists n, forall fuel, (n <= fuel)%nat ->
    run fuel (start V ST v0 st (prefix w (SToken 0 ve i))) = Ok (Accepted, st').
  Proof.
    intros F. destruct start_is as [S0 E]. destruct (proj1 phrases_reach _ _ _ _ _ _ F 0 start_rule 0%nat 0 S0 _ v0 [] ve i has_start E eq_refl) as (s1 & H1 & R1).
    { cbn. left. apply first_token. lia. }
    destruct (has_shift _ _ _ _ _ _ 0 H1 E eq_refl ltac:(lia)) as (s2 & L & H2). pose proof (has_end _ _ H2) as ->.
    pose proof (reaches_step _ _ (step_shift s1 0 (final t) v [(0, v0)] st' ve i L)) as R2. destruct (reaches_trans _ _ _ R1 R2) as [n Hn].
    exists (n + 1)%nat. intros fuel Hf. replace fuel with (n + S (fuel - n - 1))%nat by lia. unfold start. rewrite Hn. cbn [Parser.run].
    unfold Parser.step. cbn [c_stack]. rewrite Z.eqb_refl. reflexivity.
  Qed.
End Complete.
