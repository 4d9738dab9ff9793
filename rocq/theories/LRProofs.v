(** The engine of Parser.v on tables that pass the checks below: what it accepts are phrases (soundness), it stops after a number
    of steps linear in the number of tokens, without UB (safety), and it accepts the phrases of a filtered grammar (completeness). *)
From Coq Require Import List ZArith Bool Lia FSets.FMapPositive.
From Verif Require Import Base Parser LRSpec.
Import ListNotations.
Local Open Scope Z_scope.

Section LR.
  Variables (V ST : Type) (t : tables) (action : Z -> list V -> ST -> res (V * ST)) (v0 : V) (rules : Z -> option (Z * list Z)).
  Variables (nstates : Z) (preds : Z -> list Z) (stos R Q : Z -> Z) (A : Z).
  Notation ntok := (ntokens t).
  Notation phrase := (phrase V ST ntok rules action).
  Notation phrases := (phrases V ST ntok rules action).
  Definition state (s : Z) : Prop := 0 <= s < nstates.
  Definition edge (s s' : Z) : Prop := In s (preds s').
  (** Reducing to [X] after popping the symbols [xs], last one first, from [s] on. *)
  Fixpoint back_ok (xs : list Z) (s X : Z) : Prop :=
    match xs with
    | [] => exists g, lr_goto t s X = Ok g /\ state g /\ edge s g /\ stos g = X
    | x :: xs => s <> 0 /\ stos s = x /\ forall p, edge p s -> back_ok xs p X
    end.
  Definition sumR (l : list Z) : Z := fold_right (fun x z => R x + z) 0 l.
  Definition reduce_ok (s k : Z) : Prop :=
    exists X rhs, rules k = Some (X, rhs) /\ get (t_r1 t) k = Ok X /\ get (t_r2 t) k = Ok (zlen rhs) /\ back_ok (rev rhs) s X /\
      1 + sumR rhs <= R X.
  Definition decision_ok (s a : Z) (d : res decision) : Prop :=
    match d with
    | Ok (Shift s') => state s' /\ edge s s' /\ stos s' = a
    | Ok (Reduce k) => reduce_ok s k
    | Ok Error => True
    | _ => False
    end.
  Definition state_ok (s : Z) : Prop :=
    exists n, get (t_pact t) s = Ok n /\
      (if n =? pact_ninf t then s = final t \/ decision_ok s (-1) (default_decision t s)
       else (forall a, 0 <= a < ntok -> decision_ok s a (decide t s n a)) /\
            (if (0 <=? n + 1) && (n + 1 <=? last_ t) then
               exists c, get (t_check t) (n + 1) = Ok c /\ (c =? 1 = false \/ exists y, get (t_table t) (n + 1) = Ok y /\ (0 <? y) = false)
             else True)).
  Hypothesis states_ok : forall s, state s -> state_ok s.
  Hypothesis state_0 : state 0.
  Hypothesis edges_ok : forall s s', state s' -> edge s s' -> state s /\ Q s + R (stos s') <= Q s'.
  Hypothesis Q_ok : forall s, state s -> Q s <= 0.
  Hypothesis Q_0 : 0 <= Q 0.
  Hypothesis R_tokens : forall a, 0 <= a < ntok -> R a = - A.
  Hypothesis A_pos : 0 <= A.
  Variable START : Z.
  Hypothesis preds_0 : forall q, ~ edge q 0.
  Hypothesis final_ok : final t <> 0 /\ stos (final t) = 0 /\
    forall s, edge s (final t) -> s <> 0 /\ stos s = START /\ forall p, edge p s -> p = 0.
  Hypothesis token_eof : 0 < ntok.
  Hypothesis rules_lhs : forall k X rhs, rules k = Some (X, rhs) -> ntok <= X.
  Hypothesis eof_final : forall s, state s -> s <> 0 -> stos s = 0 -> s = final t.
  Variable fits : Z -> V -> Prop.
  Hypothesis action_fits : forall k X rhs vs st, rules k = Some (X, rhs) -> Forall2 fits rhs vs ->
    exists v st', action k vs st = Ok (v, st') /\ fits X v.

  Notation config := (config V ST).
  Notation Config := (Config V ST).
  Notation step := (step V ST t action v0).
  Notation run := (run V ST t action v0).
  Notation recover := (recover V t).

  (** ** Stacks *)
  Inductive good (st0 : ST) : list (Z * V) -> list (Z * V) -> ST -> Prop :=
  | good_bottom : good st0 [(0, v0)] [] st0
  | good_push s v stk w st s' u v' st' :
      good st0 ((s, v) :: stk) w st -> state s' -> edge s s' -> phrase (stos s') u st v' st' -> fits (stos s') v' ->
      good st0 ((s', v') :: (s, v) :: stk) (w ++ u) st'.
  Definition weight (stk : list (Z * V)) : Z := sumR (map (fun e => stos (fst e)) (removelast stk)).
  Lemma good_state st0 stk w st : good st0 stk w st -> match stk with [] => False | (s, _) :: _ => state s end.
  Proof. destruct 1; assumption. Qed.
  Lemma weight_cons e f stk : weight (e :: f :: stk) = R (stos (fst e)) + weight (f :: stk).
  Proof. reflexivity. Qed.
  Lemma good_weight st0 stk w st : good st0 stk w st -> match stk with [] => False | (s, _) :: _ => weight stk <= Q s end.
  Proof.
    induction 1 as [|s v stk w st s' u v' st' H IH S' E P F].
    - cbn. exact Q_0.
    - rewrite weight_cons. cbn [fst]. destruct (edges_ok _ _ S' E). lia.
  Qed.
  Lemma phrases_snoc xs x w1 w2 st vs st1 v st2 : phrases xs w1 st vs st1 -> phrase x w2 st1 v st2 ->
    phrases (xs ++ [x]) (w1 ++ w2) st (vs ++ [v]) st2.
  Proof.
    intros H. revert w2 v st2. induction H as [st|X rhs u1 u2 st v1 st1 vs st2 P H IH]; intros w2 v st3 Q3.
    - cbn. rewrite <- (app_nil_r w2). econstructor; [exact Q3|constructor].
    - cbn [app]. rewrite <- app_assoc. econstructor; [exact P|]. apply IH, Q3.
  Qed.
  Lemma sumR_app l1 l2 : sumR (l1 ++ l2) = sumR l1 + sumR l2.
  Proof. unfold sumR. induction l1 as [|x l1 IH]; cbn [app fold_right]; [lia|]. rewrite IH. lia. Qed.
  Lemma pop st0 xs X : forall stk w st, good st0 stk w st -> match stk with [] => False | (s, _) :: _ => back_ok xs s X end ->
    exists top p pv below w1 w2 st1, stk = top ++ (p, pv) :: below /\ length top = length xs /\ w = w1 ++ w2 /\
      good st0 ((p, pv) :: below) w1 st1 /\ phrases (rev xs) w2 st1 (rev (map snd top)) st /\ Forall2 fits (rev xs) (rev (map snd top)) /\
      back_ok [] p X /\ weight stk = sumR xs + weight ((p, pv) :: below).
  Proof.
    induction xs as [|x xs IH]; intros stk w st H B.
    - destruct stk as [|(s, v) stk]; [contradiction|]. exists [], s, v, stk, w, [], st. rewrite app_nil_r.
      split; [reflexivity|]. split; [reflexivity|]. split; [reflexivity|]. split; [exact H|]. split; [constructor|]. split; [constructor|].
      split; [exact B|]. cbn. lia.
    - destruct H as [|s v stk w st s' u v' st' H S' E P F].
      + destruct B as (B & _). congruence.
      + destruct B as (_ & Es & B). subst x. destruct (IH _ _ _ H (B s E)) as (top & p & pv & below & w1 & w2 & st1 & E1 & E2 & E3 & G & Ps & Fs & Bp & W).
        exists ((s', v') :: top), p, pv, below, w1, (w2 ++ u), st1.
        split; [cbn; rewrite E1; reflexivity|]. split; [cbn; rewrite E2; reflexivity|]. split; [rewrite E3, app_assoc; reflexivity|].
        split; [exact G|]. cbn [rev map]. cbn [snd]. split; [eapply phrases_snoc; [exact Ps|exact P]|].
        split. { apply Forall2_app; [exact Fs|]. constructor; [exact F|constructor]. }
        split; [exact Bp|]. rewrite weight_cons, W. cbn [fst]. unfold sumR at 2. cbn [fold_right]. fold (sumR xs). lia.
  Qed.

  (** ** Input *)
  Fixpoint size (i : stream V) : nat := match i with SToken _ _ r => S (size r) | _ => O end.
  Fixpoint good_stream (i : stream V) : Prop :=
    match i with SToken a v r => 0 <= a < ntok /\ fits a v /\ good_stream r | SThrow => True | SUB => True end.
  (** Nothing is read behind the end of file. *)
  Fixpoint no_ub (i : stream V) : Prop := match i with SToken a _ r => a = 0 \/ no_ub r | SThrow => True | SUB => False end.
  Fixpoint no_throw (i : stream V) : Prop := match i with SToken a _ r => a = 0 \/ no_throw r | SThrow => False | SUB => True end.
  Fixpoint prefix (w : list (Z * V)) (i : stream V) : stream V := match w with [] => i | (a, v) :: w => SToken a v (prefix w i) end.
  Lemma prefix_app w1 w2 i : prefix (w1 ++ w2) i = prefix w1 (prefix w2 i).
  Proof. induction w1 as [|(a, v) w1 IH]; cbn; [reflexivity|]. rewrite IH. reflexivity. Qed.

  (** ** Errors *)
  Lemma recover_none st0 stk w st : good st0 stk w st -> recover stk = Ok None.
  Proof.
    assert (O : forall s (pop : res (option (list (Z * V) * Z))) (stk' : list (Z * V)), state s -> pop = Ok None ->
      (let* n := get (t_pact t) s in
        if n =? pact_ninf t then pop
        else let i := n + 1 in
             if (0 <=? i) && (i <=? last_ t) then
               let* c := get (t_check t) i in
               if c =? 1 then let* y := get (t_table t) i in if 0 <? y then Ok (Some (stk', y)) else pop
               else pop
             else pop) = Ok None).
    { intros s pop stk' Hs Hp. destruct (states_ok s Hs) as (n & -> & H). cbn. destruct (n =? pact_ninf t); [exact Hp|].
      destruct H as (_ & H). destruct ((0 <=? n + 1) && (n + 1 <=? last_ t)); [|exact Hp].
      destruct H as (c & -> & H). cbn. destruct H as [->|(y & -> & Hy)]; [exact Hp|]. destruct (c =? 1); cbn; [rewrite Hy|]; exact Hp. }
    induction 1 as [|s v stk w st s' u v' st' H IH S' E P F].
    - change (recover [(0, v0)]) with
        (let pop := Ok None in
         let* n := get (t_pact t) 0 in
         if n =? pact_ninf t then pop
         else let i := n + 1 in
             if (0 <=? i) && (i <=? last_ t) then
               let* c := get (t_check t) i in
               if c =? 1 then let* y := get (t_table t) i in if 0 <? y then Ok (Some ([(0, v0)], y)) else pop
               else pop
             else pop). cbn zeta. apply O; [exact state_0|reflexivity].
    - change (recover ((s', v') :: (s, v) :: stk)) with
        (let pop := recover ((s, v) :: stk) in
         let* n := get (t_pact t) s' in
         if n =? pact_ninf t then pop
         else let i := n + 1 in
             if (0 <=? i) && (i <=? last_ t) then
               let* c := get (t_check t) i in
               if c =? 1 then let* y := get (t_table t) i in if 0 <? y then Ok (Some ((s', v') :: (s, v) :: stk, y)) else pop
               else pop
             else pop). cbn zeta. apply O; assumption.
  Qed.

  (** ** One step *)
  Definition measure (c : config) : Z := (A + 1) * Z.of_nat (size (c_input V ST c)) - weight (c_stack V ST c).
  Definition not_final (c : config) : Prop := forall v stk, c_stack V ST c <> (final t, v) :: stk.
  Inductive step_result (st0 : ST) (c : config) (w : list (Z * V)) : res (outcome V ST) -> Prop :=
  | sr_accept : (exists v stk, c_stack V ST c = (final t, v) :: stk) -> step_result st0 c w (Ok (Stop V ST Accepted (c_state V ST c)))
  | sr_reject : step_result st0 c w (Ok (Stop V ST Rejected (c_state V ST c)))
  | sr_throw : c_input V ST c = SThrow -> not_final c -> step_result st0 c w (Ok (Stop V ST Thrown (c_state V ST c)))
  | sr_ub : c_input V ST c = SUB -> not_final c -> step_result st0 c w UB
  | sr_next c' u : good st0 (c_stack V ST c') (w ++ u) (c_state V ST c') -> c_input V ST c = prefix u (c_input V ST c') -> c_errors V ST c' = 0 ->
      measure c' < measure c -> not_final c ->
      (forall e, In e u -> fst e = 0 -> ~ not_final c') -> step_result st0 c w (Ok (Next V ST c')).
  Lemma reduce_result st0 stk w st i k : good st0 stk w st -> match stk with [] => False | (s, _) :: _ => reduce_ok s k /\ s <> final t end ->
    step_result st0 (Config stk st i 0) w (reduce V ST t action k (Config stk st i 0)).
  Proof.
    intros G B. assert (B' : exists X rhs, rules k = Some (X, rhs) /\ get (t_r1 t) k = Ok X /\ get (t_r2 t) k = Ok (zlen rhs) /\
      match stk with [] => False | (s, _) :: _ => back_ok (rev rhs) s X end /\ 1 + sumR rhs <= R X).
    { destruct stk as [|(s, v) stk]; [contradiction|]. exact (proj1 B). }
    assert (NF : not_final (Config stk st i 0)). { unfold not_final. cbn [c_stack]. destruct stk as [|(s, v) stk]; [contradiction|]. intros v' stk' X. apply (proj2 B). congruence. }
    clear B.
    destruct B' as (X & rhs & Ek & E1 & E2 & B & W).
    destruct (pop st0 _ _ _ _ _ G B) as (top & p & pv & below & w1 & w2 & st1 & Es & El & Ew & G' & Ps & Fs & Bp & Wk).
    rewrite rev_involutive in Ps, Fs. rewrite rev_length in El. destruct Bp as (g & Eg & Sg & Edg & Esg).
    unfold reduce. cbn [c_stack c_state c_input c_errors]. rewrite E2. cbn [bind].
    assert (En : Z.to_nat (zlen rhs) = length top). { unfold zlen. rewrite El. lia. } rewrite En.
    rewrite Es, nth_error_app2, Nat.sub_diag by lia. cbn [nth_error]. rewrite E1. cbn [bind]. rewrite Eg. cbn [bind].
    rewrite firstn_app, Nat.sub_diag, firstn_all. cbn [firstn]. rewrite app_nil_r.
    destruct (action_fits k X rhs (rev (map snd top)) st Ek Fs) as (v & st' & Ea & Fv). rewrite Ea. cbn [bind].
    rewrite skipn_app, Nat.sub_diag, skipn_all. cbn [skipn app].
    apply sr_next with (u := []).
    - cbn [c_stack c_state]. rewrite app_nil_r, Ew. apply good_push with (st := st1); [exact G'|exact Sg|exact Edg| |].
      + rewrite Esg. econstructor; [exact Ek|exact Ps|exact Ea].
      + rewrite Esg. exact Fv.
    - reflexivity.
    - reflexivity.
    - unfold measure. cbn [c_input c_stack]. rewrite <- Es, Wk, weight_cons. cbn [fst]. rewrite Esg.
      assert (sumR (rev rhs) = sumR rhs). { clear. induction rhs as [|x l IH]; [reflexivity|]. cbn [rev]. rewrite sumR_app, IH. unfold sumR. cbn [fold_right]. lia. }
      lia.
    - rewrite <- Es. exact NF.
    - intros e [].
  Qed.
  Lemma step_ok st0 c w : good st0 (c_stack V ST c) w (c_state V ST c) -> good_stream (c_input V ST c) -> c_errors V ST c = 0 ->
    step_result st0 c w (step c).
  Proof.
    destruct c as [stk st i e]. cbn [c_stack c_state c_input c_errors]. intros G I ->. unfold Parser.step. cbn [c_stack c_state c_input c_errors].
    destruct stk as [|(s, v) stk]; [inversion G|]. pose proof (good_state _ _ _ _ G) as Ss. cbn in Ss.
    destruct (Z.eqb_spec s (final t)) as [->|NF]. { apply sr_accept. cbn. eauto. }
    assert (NFc : not_final (Config ((s, v) :: stk) st i 0)). { intros v' stk' X. cbn in X. congruence. }
    destruct (states_ok s Ss) as (n & En & H). rewrite En. cbn [bind].
    assert (ERR : forall j, step_result st0 (Config ((s, v) :: stk) st j 0) w (error V ST t v0 (Config ((s, v) :: stk) st j 0))).
    { intros j. unfold error. cbn [c_errors c_input c_stack c_state]. rewrite (recover_none _ _ _ _ G). cbn. apply sr_reject. }
    destruct (n =? pact_ninf t).
    - destruct H as [H|H]; [contradiction|]. destruct (default_decision t s) as [[s'|k|]| |] eqn:Ed; cbn [bind]; try contradiction.
      + unfold default_decision in Ed. destruct (get (t_defact t) s) as [y| |]; cbn in Ed; try discriminate. destruct (y =? 0); discriminate.
      + apply reduce_result; [exact G|split; [exact H|exact NF]].
      + apply ERR.
    - destruct H as (H & _). destruct i as [a x i| |].
      + destruct I as (Ia & Fa & Ii). specialize (H a Ia). destruct (decide t s n a) as [[s'|k|]| |]; cbn [bind]; try contradiction.
        * destruct H as (S' & E & Es). apply sr_next with (u := [(a, x)]).
          -- cbn [c_stack c_state]. apply good_push with (st := st); [exact G|exact S'|exact E| |]; rewrite Es; [constructor; exact Ia|exact Fa].
          -- reflexivity.
          -- reflexivity.
          -- unfold measure. cbn [c_input c_stack size]. rewrite weight_cons. cbn [fst]. rewrite Es, (R_tokens a Ia). lia.
          -- exact NFc.
          -- intros e [<-|[]] Ea X. cbn [fst] in Ea. apply (X x ((s, v) :: stk)). cbn [c_stack]. f_equal. f_equal.
             apply eof_final; [exact S'| |congruence]. intros ->. exact (preds_0 _ E).
        * apply reduce_result; [exact G|split; [exact H|exact NF]].
        * apply ERR.
      + apply sr_throw; [reflexivity|exact NFc].
      + apply sr_ub; [reflexivity|exact NFc].
  Qed.

  (** ** All steps *)
  Lemma good_stream_prefix u i : good_stream (prefix u i) -> good_stream i.
  Proof. induction u as [|(a, v) u IH]; cbn; [trivial|]. intros (_ & _ & H). apply IH, H. Qed.
  Lemma no_ub_prefix u : (forall e, In e u -> fst e <> 0) -> ~ no_ub (prefix u SUB).
  Proof.
    induction u as [|(a, v) u IH]; cbn; intros N; [tauto|]. intros [H|H]; [exact (N (a, v) (or_introl eq_refl) H)|].
    apply IH; [|exact H]. intros e He. apply N. right. exact He.
  Qed.
  Lemma no_throw_prefix u : (forall e, In e u -> fst e <> 0) -> ~ no_throw (prefix u SThrow).
  Proof.
    induction u as [|(a, v) u IH]; cbn; intros N; [tauto|]. intros [H|H]; [exact (N (a, v) (or_introl eq_refl) H)|].
    apply IH; [|exact H]. intros e He. apply N. right. exact He.
  Qed.
  (** What [run] gives: acceptance only of a sentence (a phrase for the start symbol, and the end of file behind it); UB only
      where the lexer has it; never [NoFuel]. *)
  Definition result_ok (st0 : ST) (input : stream V) (r : res (verdict * ST)) : Prop :=
    match r with
    | Ok (Accepted, st) => exists w v ve rest, input = prefix w (SToken 0 ve rest) /\ phrase START w st0 v st
    | Ok (Thrown, _) => ~ no_throw input
    | Ok (Rejected, _) => True
    | UB => ~ no_ub input
    | NoFuel => False
    end.
  Lemma good_final st0 v stk w st : good st0 ((final t, v) :: stk) w st ->
    exists w' v' ve, w = w' ++ [(0, ve)] /\ phrase START w' st0 v' st.
  Proof.
    destruct final_ok as (F0 & Fs & Fe). intros G. inversion G as [|s x stk' w1 st1 s' u v' st' G1 S' E P F]; subst; [congruence|].
    destruct (Fe _ E) as (N0 & Es & Ep).
    inversion G1 as [|s2 x2 stk2 w2 st2 s2' u2 v2' st2' G2 S2' E2 P2 F2]; subst; [congruence|].
    rewrite (Ep _ E2) in *. inversion G2 as [|s3 x3 stk3 w3 st3 s3' u3 v3' st3' G3 S3' E3 P3 F3]; subst; [|exfalso; exact (preds_0 _ E3)].
    rewrite Fs in P. inversion P as [a va sta Ha|k X rhs wa sta vs sta1 va sta2 Ek]; subst; [|specialize (rules_lhs _ _ _ Ek); lia].
    rewrite app_nil_l. exists u2, x, v. split; [reflexivity|]. exact P2.
  Qed.
  Lemma run_ok st0 input : forall fuel c w, input = prefix w (c_input V ST c) -> good st0 (c_stack V ST c) w (c_state V ST c) ->
    good_stream (c_input V ST c) -> c_errors V ST c = 0 -> measure c < Z.of_nat fuel ->
    (not_final c -> forall e, In e w -> fst e <> 0) -> result_ok st0 input (run fuel c).
  Proof.
    induction fuel as [|fuel IH]; intros c w Ei G I E M L.
    - exfalso. pose proof (good_weight _ _ _ _ G) as W. pose proof (good_state _ _ _ _ G) as Ss. unfold measure in M.
      destruct (c_stack V ST c) as [|(s, v) stk]; [contradiction|]. specialize (Q_ok _ Ss). nia.
    - cbn [Parser.run]. pose proof (step_ok st0 c w G I E) as H. inversion H as [(v & stk & Es) Er|Er|T N Er|T N Er|c' u G' Eu E' M' N N' Er]; cbn [bind].
      + rewrite Es in G. destruct (good_final _ _ _ _ _ G) as (w' & v' & ve & -> & P). cbn. exists w', v', ve, (c_input V ST c).
        split; [|exact P]. rewrite Ei, prefix_app. reflexivity.
      + exact Logic.I.
      + cbn. rewrite Ei, T. apply no_throw_prefix, L, N.
      + cbn. rewrite Ei, T. apply no_ub_prefix, L, N.
      + apply (IH c' (w ++ u)).
        * rewrite prefix_app, <- Eu. exact Ei.
        * exact G'.
        * apply (good_stream_prefix u). rewrite <- Eu. exact I.
        * exact E'.
        * lia.
        * intros NF e He. apply in_app_or in He. destruct He as [He|He]; [exact (L N e He)|]. intros E0. exact (N' e He E0 NF).
  Qed.
  Theorem parse_ok st0 input fuel : good_stream input -> (A + 1) * Z.of_nat (size input) < Z.of_nat fuel ->
    result_ok st0 input (run fuel (start V ST v0 st0 input)).
  Proof.
    intros I F. apply (run_ok st0 input fuel _ []); [reflexivity|constructor|exact I|reflexivity| |intros _ e []]. unfold measure. cbn. lia.
  Qed.
End LR.
