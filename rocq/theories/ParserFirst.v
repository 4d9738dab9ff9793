(** The parser's verdict depends on no more than the tokens it has read. *)
From Coq Require Import List String ZArith Bool Lia FSets.FMapPositive.
From Verif Require Import Base CompilerNames Lexer LexerTable LexerSpec LexerFacts LexerFile Parser LRSpec LRProofs ParserTable ParserGrammar ParserTree ParserActions ParserFile ParserValid ParserFileProofs.
Import ListNotations.
Local Open Scope Z_scope.
Local Open Scope list_scope.

Section First.
  Variables (V ST : Type) (t : tables) (action : Z -> list V -> ST -> res (V * ST)) (v0 : V).
  Notation config := (config V ST).
  Notation Config := (Config V ST).
  Notation run := (run V ST t action v0).
  Definition starts (i : stream V) (w : list (Z * V)) : Prop := exists i', i = LRProofs.prefix V w i'.
  Hypothesis no_recovery : forall stk y, recover V t stk <> Ok (Some y).
  Lemma starts_nil i : starts i [].
  Proof. exists i. reflexivity. Qed.
  Lemma starts_cons a v i w : starts (SToken a v i) ((a, v) :: w) <-> starts i w.
  Proof. split; intros [i' E]; exists i'; cbn in *; congruence. Qed.
  Lemma starts_first i a v w : starts i ((a, v) :: w) -> exists i', i = SToken a v i' /\ starts i' w.
  Proof. intros [i' ->]. exists (LRProofs.prefix V w i'). split; [reflexivity|]. exists i'. reflexivity. Qed.
  Lemma error_rejects stk st i j : forall o, error V ST t v0 (Config stk st i 0) = Ok o -> o = Stop V ST Rejected st /\ error V ST t v0 (Config stk st j 0) = Ok o.
  Proof.
    intros o. unfold error. cbn [c_errors c_stack c_state]. change (0 =? 3) with false. cbn iota. destruct (recover V t stk) as [[y|]| |] eqn:R; cbn [bind]; try discriminate.
    - destruct (no_recovery _ _ R).
    - intros E. injection E as <-. auto.
  Qed.
  Lemma run_first : forall fuel stk st i r st', r <> Thrown -> run fuel (Config stk st i 0) = Ok (r, st') ->
    exists w, starts i w /\ forall j, starts j w -> run fuel (Config stk st j 0) = Ok (r, st').
  Proof.
    induction fuel as [|fuel IH]; intros stk st i r st' Hr; [discriminate|]. cbn [Parser.run]. unfold step. cbn [c_stack c_input c_state c_errors].
    destruct stk as [|[s v] stk]; [discriminate|]. destruct (s =? final t).
    { cbn [bind]. intros E. exists []. split; [apply starts_nil|]. intros j _. exact E. }
    destruct (get (t_pact t) s) as [n| |]; cbn [bind]; try discriminate. destruct (n =? pact_ninf t).
    - unfold default_decision. destruct (get (t_defact t) s) as [k| |]; cbn [bind]; try discriminate. destruct (k =? 0).
      + destruct (error V ST t v0 (Config ((s, v) :: stk) st i 0)) as [o| |] eqn:E; cbn [bind]; try discriminate.
        intros R. exists []. split; [apply starts_nil|]. intros j _. destruct (error_rejects _ _ _ j _ E) as [_ Ej]. rewrite Ej. cbn [bind]. destruct (error_rejects _ _ _ j _ E) as [-> _]. exact R.
      + unfold reduce. cbn [c_stack c_state c_input c_errors]. destruct (get (t_r2 t) k) as [len| |]; cbn [bind]; try discriminate. destruct (nth_error ((s, v) :: stk) (Z.to_nat len)) as [[p pv]|]; [|discriminate].
        destruct (get (t_r1 t) k) as [lhs| |]; cbn [bind]; try discriminate. destruct (lr_goto t p lhs) as [g| |]; cbn [bind]; try discriminate.
        destruct (action k (rev (map snd (firstn (Z.to_nat len) ((s, v) :: stk)))) st) as [[v1 st1]| |]; cbn [bind]; try discriminate. apply IH, Hr.
    - destruct i as [a va rest| |]; [|cbn [bind]; intros E; injection E as <- _; contradiction Hr; reflexivity|discriminate].
      assert (F : forall w, starts (SToken a va rest) w -> exists w', starts (SToken a va rest) ((a, va) :: w') /\ forall j, starts j ((a, va) :: w') -> starts j w).
      { intros [|[a1 v1] w] Hw; [exists []; split; [exists rest; reflexivity|intros j _; apply starts_nil]|]. exists w. destruct (starts_first _ _ _ _ Hw) as (i' & Ei & Hi). injection Ei as -> -> ->. auto. }
      destruct (decide t s n a) as [d| |] eqn:D; cbn [bind]; try discriminate. destruct d as [s'|k|].
      + cbn [bind]. change (0 =? 0) with true. cbn iota. intros R. destruct (IH _ _ _ _ _ Hr R) as (w & Hw & Hj). exists ((a, va) :: w). split; [apply starts_cons, Hw|].
        intros j Sj. destruct (starts_first _ _ _ _ Sj) as (i' & -> & Si). rewrite D. cbn [bind]. apply Hj, Si.
      + unfold reduce. cbn [c_stack c_state c_input c_errors]. destruct (get (t_r2 t) k) as [len| |] eqn:E1; cbn [bind]; try discriminate. destruct (nth_error ((s, v) :: stk) (Z.to_nat len)) as [[p pv]|] eqn:E2; [|discriminate].
        destruct (get (t_r1 t) k) as [lhs| |] eqn:E3; cbn [bind]; try discriminate. destruct (lr_goto t p lhs) as [g| |] eqn:E4; cbn [bind]; try discriminate.
        destruct (action k (rev (map snd (firstn (Z.to_nat len) ((s, v) :: stk)))) st) as [[v1 st1]| |] eqn:E5; cbn [bind]; try discriminate. intros R. destruct (IH _ _ _ _ _ Hr R) as (w & Hw & Hj).
        destruct (F w Hw) as (w' & Hw' & Hf). exists ((a, va) :: w'). split; [exact Hw'|]. intros j Sj. pose proof (Hf j Sj) as Sj'. destruct (starts_first _ _ _ _ Sj) as (i' & -> & Si). rewrite D. cbn [bind]. rewrite E1. cbn [bind]. rewrite E2, E3. cbn [bind]. rewrite E4. cbn [bind]. rewrite E5. cbn [bind]. apply Hj, Sj'.
      + destruct (error V ST t v0 (Config ((s, v) :: stk) st (SToken a va rest) 0)) as [o| |] eqn:E; cbn [bind]; try discriminate.
        intros R. exists [(a, va)]. split; [exists rest; reflexivity|]. intros j Sj. destruct (starts_first _ _ _ _ Sj) as (i' & -> & Si). rewrite D. cbn [bind].
        destruct (error_rejects _ _ _ (SToken a va i') _ E) as [Eo Ej]. rewrite Ej. cbn [bind]. exact R.
  Qed.
End First.

(** No state can shift the error token. *)
Lemma in_array l x : forall s m p, (forall q y, PositiveMap.find q m = Some y -> Zpos q < Zpos p) ->
  PositiveMap.find s (snd (fold_left (fun (a : positive * PositiveMap.t Z) x => (Pos.succ (fst a), PositiveMap.add (fst a) x (snd a))) l (p, m))) = Some x ->
  Zpos s < Zpos p + Z.of_nat (length l).
Proof.
  induction l as [|y l IH]; intros s m p H E; cbn [fold_left fst snd length] in *; [specialize (H _ _ E); lia|]. specialize (IH s (PositiveMap.add p y m) (Pos.succ p)).
  assert (Zpos s < Zpos (Pos.succ p) + Z.of_nat (length l)); [|lia]. apply IH; [|exact E]. intros q z F. destruct (Pos.eq_dec p q) as [->|N]; [lia|]. rewrite PositiveMap.gso in F by congruence. specialize (H _ _ F). lia.
Qed.
Lemma get_array l i x : get (array l) i = Ok x -> 0 <= i < Z.of_nat (length l).
Proof.
  unfold get, array. destruct (i <? 0) eqn:E; [discriminate|]. apply Z.ltb_ge in E. destruct (PositiveMap.find _ _) as [y|] eqn:F; [|discriminate]. intros _.
  apply in_array in F; [|intros q z G; rewrite PositiveMap.gempty in G; discriminate]. rewrite Z2Pos.id in F by lia. lia.
Qed.
Definition no_error_shift (s : Z) : bool :=
  match get (t_pact yy_tables) s with
  | Ok n => (n =? pact_ninf yy_tables) || negb ((0 <=? n + 1) && (n + 1 <=? last_ yy_tables)) ||
      match get (t_check yy_tables) (n + 1) with Ok c => negb (c =? 1) || match get (t_table yy_tables) (n + 1) with Ok y => negb (0 <? y) | _ => true end | _ => true end
  | _ => true
  end.
Lemma no_error_shifts : forallb no_error_shift (upto nstates) = true.
Proof. vm_compute. reflexivity. Qed.
Lemma yy_no_recovery V : forall stk y, recover V yy_tables stk <> Ok (Some y).
Proof.
  induction stk as [|[s v] stk IH]; intros y; cbn [recover]; [discriminate|].
  assert (P : match stk with [] => Ok None | _ => recover V yy_tables stk end <> Ok (Some y)) by (destruct stk; [discriminate|apply IH]).
  destruct (get (t_pact yy_tables) s) as [n| |] eqn:E; cbn [bind]; try discriminate.
  assert (C : no_error_shift s = true). { pose proof no_error_shifts as C. rewrite forallb_forall in C. apply C, in_upto. change nstates with (Z.of_nat (length yypact)). apply get_array in E. exact E. }
  unfold no_error_shift in C. rewrite E in C. destruct (n =? pact_ninf yy_tables); [exact P|]. destruct ((0 <=? n + 1) && (n + 1 <=? last_ yy_tables)); [|exact P]. cbn [negb orb] in C.
  destruct (get (t_check yy_tables) (n + 1)) as [c| |]; cbn [bind]; try discriminate. destruct (c =? 1); [|exact P]. cbn [negb orb] in C.
  destruct (get (t_table yy_tables) (n + 1)) as [z| |]; cbn [bind]; try discriminate. destruct (0 <? z); [discriminate|exact P].
Qed.

(** [gives text ts]: the first calls of the lexer give the tokens [ts]. *)
Inductive gives_from : list Z -> location -> list Lexer.token -> Prop :=
| gf_nil mem loc : gives_from mem loc []
| gf_cons mem loc t loc' rest ts : yylex yy_map yy_actions (S (length mem)) mem loc = Ok (Some (t, loc', rest)) -> gives_from rest loc' ts -> gives_from mem loc (t :: ts).
Definition gives (text : list Z) (ts : list Lexer.token) : Prop := gives_from (text ++ [0]) start_location ts.
Lemma yylex_shorter mem loc t loc' rest : bytes mem -> yylex yy_map yy_actions (S (length mem)) mem loc = Ok (Some (t, loc', rest)) -> bytes rest /\ (length rest < length mem)%nat.
Proof.
  intros B Y. pose proof (yylex_spec (S (length mem)) mem loc B ltac:(lia)) as S. rewrite Y in S. destruct S as (ls & k & u & L & _ & M & _).
  pose proof (lexemes_texts _ _ _ _ L) as E. destruct (lexemes_rule _ _ _ _ _ L) as [_ Nu]. split.
  - rewrite E in B. apply Forall_app in B. tauto.
  - rewrite E. unfold texts. rewrite map_app, concat_app, !app_length. cbn [map snd concat]. rewrite app_length. cbn [length]. lia.
Qed.
Lemma gives_stream : forall ts mem loc fuel, bytes mem -> (length mem < fuel)%nat -> gives_from mem loc ts -> starts _ (token_stream fuel mem loc) (map tok ts).
Proof.
  induction ts as [|t ts IH]; intros mem loc fuel B F G; [exists (token_stream fuel mem loc); reflexivity|]. inversion G as [|? ? ? loc' rest ? Y G']; subst.
  destruct (yylex_shorter _ _ _ _ _ B Y) as [Br L]. destruct fuel as [|fuel]; [lia|]. cbn [token_stream map]. rewrite Y. unfold tok at 1. apply starts_cons, IH; [exact Br|lia|exact G'].
Qed.
Lemma stream_gives : forall w mem loc fuel, bytes mem -> starts _ (token_stream fuel mem loc) w -> exists ts, w = map tok ts /\ gives_from mem loc ts.
Proof.
  induction w as [|[a v] w IH]; intros mem loc fuel B G; [exists []; split; [reflexivity|constructor]|]. apply starts_first in G. destruct G as (i & E & G). destruct fuel as [|fuel]; [discriminate|]. cbn [token_stream] in E.
  destruct (yylex yy_map yy_actions (S (length mem)) mem loc) as [[[[t loc'] rest]|]| |] eqn:Y; try discriminate. injection E as <- <- <-.
  destruct (yylex_shorter _ _ _ _ _ B Y) as [Br L]. destruct (IH rest loc' fuel Br G) as (ts & -> & Gt). exists (t :: ts). split; [reflexivity|]. econstructor; eauto.
Qed.
Theorem parse_file_first s text r s' : bytes text -> r <> Thrown -> parse_file s text = Ok (r, s') ->
  exists ts, gives text ts /\ forall text', bytes text' -> gives text' ts -> parse_file s text' = Ok (r, s').
Proof.
  intros B Hr P. unfold parse_file, start in P. apply run_first in P; [|apply yy_no_recovery|exact Hr]. destruct P as (w & Sw & Hj). unfold file_stream in Sw.
  destruct (stream_gives _ _ _ _ (file_bytes _ B) Sw) as (ts & -> & G). exists ts. split; [exact G|]. intros text' B' G'.
  assert (S' : starts _ (file_stream text') (map tok ts)). { apply gives_stream; [apply file_bytes, B'|rewrite app_length; cbn; lia|exact G']. }
  specialize (Hj _ S'). pose proof (parse_file_ok s text' B') as O. unfold parse_file, start in *.
  set (n := (12 * (length text + 4))%nat) in *. set (n' := (12 * (length text' + 4))%nat) in *.
  assert (N : run semantic state yy_tables perform nothing n' (Config semantic state [(0, nothing)] s (file_stream text') 0) <> NoFuel) by (intros X; rewrite X in O; exact O).
  rewrite <- (run_more _ _ _ _ _ (Nat.max n n') N) by lia. rewrite run_more with (n := n); [exact Hj|rewrite Hj; discriminate|lia].
Qed.
