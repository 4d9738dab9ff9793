(** What has been read before makes no difference to a file, except for the numbers of components without a name. *)
From Coq Require Import List String ZArith Bool Lia.
From Verif Require Import Base CompilerNames Lexer Parser ParserTable ParserGrammar ParserTree ParserActions ParserFile.
Import ListNotations.
Local Open Scope Z_scope.
Local Open Scope list_scope.

Definition behind (ms : list module) (s : state) : state := State (ms ++ st_modules s) (st_anon s).
Fixpoint framed {ks : list kind} {k : kind} : function ks (state -> denote k * state) -> Prop :=
  match ks return function ks (state -> denote k * state) -> Prop with
  | [] => fun f => forall ms s, f (behind ms s) = (fst (f s), behind ms (snd (f s)))
  | k' :: ks => fun f => forall x : denote k', framed (f x)
  end.
Definition framed_action (a : action) : Prop := match a with Action ks k f => framed f end.
Lemma framed_apply ks k : forall (f : function ks (state -> denote k * state)) vs g, framed f -> apply f vs = Some g ->
  forall ms s, g (behind ms s) = (fst (g s), behind ms (snd (g s))).
Proof.
  induction ks as [|k' ks IH]; intros f vs g F E; cbn [apply] in E.
  - destruct vs; [|discriminate]. injection E as <-. exact F.
  - destruct vs as [|v vs]; [discriminate|]. destruct (cast k' v) as [x|]; [|discriminate]. eapply IH; [apply (F x)|exact E].
Qed.
Lemma actions_framed : Forall framed_action actions.
Proof.
  unfold actions. repeat (apply Forall_cons; [cbn [framed_action framed]; intros; unfold behind; cbn [st_modules st_anon fst snd]; rewrite ?app_assoc; reflexivity|]). apply Forall_nil.
Qed.
Definition framed_result {A} (ms : list module) (r : res (A * state)) : res (A * state) := let* (x, s) := r in Ok (x, behind ms s).
Lemma perform_framed k vs ms s : perform k vs (behind ms s) = framed_result ms (perform k vs s).
Proof.
  unfold perform. destruct (nth_error actions (Z.to_nat (k - 1))) as [a|] eqn:E; [|reflexivity]. apply nth_error_In in E. pose proof actions_framed as F. rewrite Forall_forall in F. specialize (F a E). destruct a as [ks k' f]. cbn [act framed_action] in *.
  destruct (apply f vs) as [g|] eqn:G; [|reflexivity]. rewrite (framed_apply _ _ _ _ _ F G). destruct (g s) as [v s']. reflexivity.
Qed.
Section Engine.
  Variable (t : tables).
  Notation config := (config semantic state).
  Notation Config := (Config semantic state).
  Definition behind_config (ms : list module) (c : config) : config := Config (c_stack _ _ c) (behind ms (c_state _ _ c)) (c_input _ _ c) (c_errors _ _ c).
  Definition behind_outcome (ms : list module) (o : outcome semantic state) : outcome semantic state :=
    match o with Next _ _ c => Next _ _ (behind_config ms c) | Stop _ _ r s => Stop _ _ r (behind ms s) end.
  Definition framed_outcome (ms : list module) (r : res (outcome semantic state)) : res (outcome semantic state) := let* o := r in Ok (behind_outcome ms o).
  Lemma error_framed ms c : error semantic state t nothing (behind_config ms c) = framed_outcome ms (error semantic state t nothing c).
  Proof.
    destruct c as [stk s i e]. unfold error, behind_config. cbn [c_stack c_state c_input c_errors].
    assert (G : forall j, (let* o := recover semantic t stk in Ok match o with None => Stop _ _ Rejected (behind ms s) | Some (stk, x) => Next _ _ (Config ((x, nothing) :: stk) (behind ms s) j 3) end) =
      framed_outcome ms (let* o := recover semantic t stk in Ok match o with None => Stop _ _ Rejected s | Some (stk, x) => Next _ _ (Config ((x, nothing) :: stk) s j 3) end)).
    { intros j. destruct (recover semantic t stk) as [[[stk' x]|]| |]; reflexivity. }
    destruct (e =? 3); [|apply G]. destruct i as [a v i| |]; [|apply G..]. destruct (a =? 0); [reflexivity|apply G].
  Qed.
  Lemma reduce_framed ms k c : reduce semantic state t perform k (behind_config ms c) = framed_outcome ms (reduce semantic state t perform k c).
  Proof.
    destruct c as [stk s i e]. unfold reduce, behind_config. cbn [c_stack c_state c_input c_errors]. destruct (get (t_r2 t) k) as [len| |]; cbn [bind framed_outcome]; [|reflexivity..].
    destruct (nth_error stk (Z.to_nat len)) as [[p v]|]; [|reflexivity]. destruct (get (t_r1 t) k) as [lhs| |]; cbn [bind framed_outcome]; [|reflexivity..]. destruct (lr_goto t p lhs) as [g| |]; cbn [bind framed_outcome]; [|reflexivity..].
    rewrite perform_framed. destruct (perform k _ s) as [[v' s']| |]; reflexivity.
  Qed.
  Lemma step_framed ms c : step semantic state t perform nothing (behind_config ms c) = framed_outcome ms (step semantic state t perform nothing c).
  Proof.
    unfold step. assert (S : forall d, match d with
        | Error => error semantic state t nothing (behind_config ms c)
        | Reduce k => reduce semantic state t perform k (behind_config ms c)
        | Shift s' => match c_input _ _ (behind_config ms c) with
            | SToken _ v rest => Ok (Next _ _ (Config ((s', v) :: c_stack _ _ (behind_config ms c)) (c_state _ _ (behind_config ms c)) rest (if c_errors _ _ (behind_config ms c) =? 0 then 0 else c_errors _ _ (behind_config ms c) - 1)))
            | _ => UB
            end
        end = framed_outcome ms match d with
        | Error => error semantic state t nothing c
        | Reduce k => reduce semantic state t perform k c
        | Shift s' => match c_input _ _ c with
            | SToken _ v rest => Ok (Next _ _ (Config ((s', v) :: c_stack _ _ c) (c_state _ _ c) rest (if c_errors _ _ c =? 0 then 0 else c_errors _ _ c - 1)))
            | _ => UB
            end
        end).
    { intros [s'|k|]; [|apply reduce_framed|apply error_framed]. destruct c as [stk s i e]. cbn. destruct i; reflexivity. }
    change (c_stack _ _ (behind_config ms c)) with (c_stack _ _ c) in *. change (c_input _ _ (behind_config ms c)) with (c_input _ _ c) in *. destruct (c_stack _ _ c) as [|[s v] stk] eqn:Es; [reflexivity|]. destruct (s =? final t); [reflexivity|].
    destruct (get (t_pact t) s) as [n| |]; cbn [bind]; [|reflexivity..]. destruct (n =? pact_ninf t).
    - destruct (default_decision t s) as [d| |]; cbn [bind]; [|reflexivity..]. apply S.
    - destruct (c_input _ _ c) as [a va rest| |] eqn:Ei; [|reflexivity..]. destruct (decide t s n a) as [d| |]; cbn [bind]; [|reflexivity..]. apply S.
  Qed.
  Lemma run_framed ms : forall fuel c, run semantic state t perform nothing fuel (behind_config ms c) = framed_result ms (run semantic state t perform nothing fuel c).
  Proof.
    induction fuel as [|fuel IH]; intros c; [reflexivity|]. cbn [run]. rewrite step_framed. destruct (step semantic state t perform nothing c) as [[c'|r s]| |]; cbn [bind framed_outcome behind_outcome]; [apply IH|reflexivity..].
  Qed.
End Engine.
Theorem parse_file_framed ms s text : parse_file (behind ms s) text = framed_result ms (parse_file s text).
Proof. unfold parse_file. rewrite <- run_framed. reflexivity. Qed.
