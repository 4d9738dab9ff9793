(** Whole files: the tokens and their lines. *)
From Coq Require Import String Ascii List ZArith PArith FSets.FMapPositive Lia.
From Verif Require Import Base CompilerNames Lexer LexerTable LexerSpec LexerProofs LexerFacts.
Local Open Scope list_scope.
Local Open Scope nat_scope.

Lemma lexemes_app rules a l1 b l2 c : lexemes rules a l1 b -> lexemes rules b l2 c -> lexemes rules a (l1 ++ l2) c.
Proof. intros H1 H2. induction H1 as [|k u mem ls rest L N H IH]; [exact H2|]. cbn. constructor; auto. Qed.
Lemma lexemes_texts rules mem ls rest : lexemes rules mem ls rest -> mem = texts ls ++ rest.
Proof. intros H. induction H as [|k u mem ls rest L N H IH]; [reflexivity|]. unfold texts in *. cbn. rewrite <- app_assoc, <- IH. reflexivity. Qed.
Lemma lexemes_cons_inv rules mem k u ls rest : lexemes rules mem ((k, u) :: ls) rest ->
  exists mem', mem = u ++ mem' /\ longest_match rules mem k (length u) /\ ~ runs_out rules mem /\ lexemes rules mem' ls rest.
Proof. intros H. inversion H; subst. eauto 6. Qed.
(** The cutting is deterministic. *)
Lemma lexemes_prefix rules mem ls rest : lexemes rules mem ls rest -> forall ls' rest', lexemes rules mem ls' rest' ->
  (exists e, ls' = ls ++ e /\ lexemes rules rest e rest') \/ (exists e, ls = ls' ++ e /\ lexemes rules rest' e rest).
Proof.
  intros H0. induction H0 as [mem|k u mem ls rest L N H IH]; intros ls' rest' H'; [left; exists ls'; split; [reflexivity|exact H']|].
  destruct ls' as [|[k' u'] ls']; [inversion H'; subst; right; eexists; split; [reflexivity|constructor; eassumption]|].
  apply lexemes_cons_inv in H'. destruct H' as (mem' & E & L' & N' & H'). destruct (longest_unique _ _ _ _ _ _ L L') as [<- Hl].
  assert (u = u' /\ mem = mem') as [<- <-].
  { assert (E1 : firstn (length u) (u ++ mem) = firstn (length u') (u' ++ mem')) by congruence. rewrite !firstn_app, !firstn_all, !Nat.sub_diag, !firstn_O, !app_nil_r in E1. subst u'. split; [reflexivity|]. apply app_inv_head in E. exact E. }
  destruct (IH _ _ H') as [(e & -> & He)|(e & -> & He)]; [left|right]; exists e; auto.
Qed.
(** Lines that the lexemes add: strings do not count. *)
Definition lines_of (ls : list (nat * list Z)) : Z := fold_right (fun p n => ((if Nat.eqb (fst p) 98 then 0 else new_lines (snd p)) + n)%Z) 0%Z ls.
Lemma lines_of_app a b : lines_of (a ++ b) = (lines_of a + lines_of b)%Z.
Proof. induction a as [|p a IH]; [reflexivity|]. cbn [app lines_of fold_right]. unfold lines_of in *. rewrite IH. lia. Qed.
Lemma new_lines_none w : ~ In 10%Z w -> new_lines w = 0%Z.
Proof.
  intros H. unfold new_lines. replace (filter (Z.eqb 10) w) with (@nil Z); [reflexivity|]. symmetry. induction w as [|c w IH]; [reflexivity|]. cbn [filter].
  destruct (10 =? c)%Z eqn:E; [exfalso; apply H; left; lia|]. apply IH. intros X. apply H. right. exact X.
Qed.
Lemma new_line_rules j r w : nth_error lexer_rules j = Some r -> matches r w -> In 10%Z w -> In j [94; 98; 106].
Proof.
  intros Hn M H. assert (F : forallb (fun p => free_of 10 (snd p) || existsb (Nat.eqb (fst p)) [94; 98; 106]) (start_items lexer_rules) = true) by (vm_compute; reflexivity).
  assert (I : item_match (start_items lexer_rules) j w) by (apply start_match; eauto). destruct I as (r' & Hin & M'). rewrite forallb_forall in F. specialize (F (j, r') Hin). cbn [fst snd] in F.
  apply orb_prop in F. destruct F as [F|F]; [exfalso; exact (free_of_spec _ _ F w M' H)|]. rewrite existsb_exists in F. destruct F as (i & Hi & E). apply Nat.eqb_eq in E. congruence.
Qed.
Lemma newline_lexeme w : matches (RAlt (RSeq (one 13) (one 10)) (one 10)) w -> new_lines w = 1%Z.
Proof. rewrite alt_iff, lit2, one_iff. intros [-> | ->]; reflexivity. Qed.
Lemma block_lines u : forall l, p_line (loc_end (fold_left (fun l c => let l := loc_columns 1 l in if (c =? 10)%Z then loc_lines l else l) u l)) = (p_line (loc_end l) + new_lines u)%Z.
Proof.
  induction u as [|c u IH]; intros l; cbn [fold_left]; [change (new_lines []) with 0%Z; lia|]. rewrite IH. unfold new_lines. cbn [filter]. destruct (c =? 10)%Z eqn:E.
  - rewrite Z.eqb_sym, E. unfold zlen. cbn [length loc_lines loc_end p_line loc_columns]. lia.
  - rewrite Z.eqb_sym, E. cbn [loc_end loc_columns p_line]. lia.
Qed.
(** One call of yylex. *)
Lemma yylex_spec : forall fuel mem loc, bytes mem -> length mem < fuel ->
  match yylex yy_map yy_actions fuel mem loc with
  | Ok (Some (t, loc', rest)) => exists ls k u, lexemes lexer_rules mem (ls ++ [(k, u)]) rest /\ Forall (fun p => rule_meaning (fst p) (snd p) = Skipped) ls /\ rule_meaning k u = Gives t /\
      p_line (loc_begin loc') = (p_line (loc_end loc) + lines_of ls)%Z /\ p_line (loc_end loc') = (p_line (loc_begin loc') + lines_of [(k, u)])%Z
  | Ok None => exists ls k u rest, lexemes lexer_rules mem (ls ++ [(k, u)]) rest /\ Forall (fun p => rule_meaning (fst p) (snd p) = Skipped) ls /\ rule_meaning k u = Fails
  | UB => exists ls rest, lexemes lexer_rules mem ls rest /\ Forall (fun p => rule_meaning (fst p) (snd p) = Skipped) ls /\ runs_out lexer_rules rest
  | NoFuel => False
  end.
Proof.
  induction fuel as [|fuel IH]; intros mem loc B Hf; [lia|]. cbn [yylex]. pose proof (scan_spec mem B) as S. destruct (scan yy_map mem) as [[k n]| |]; cbn [bind].
  2:{ exists [], mem. split; [constructor|]. split; [constructor|exact S]. } 2: exact S.
  destruct S as [L N]. pose proof (longest_in _ _ _ _ L) as Hk. pose proof L as ((Hn1 & Hn2) & (r & Hr & M) & _).
  set (u := firstn n mem) in *. set (rest := skipn n mem) in *.
  assert (Hu : length u = n) by (unfold u; rewrite firstn_length; lia).
  assert (Em : mem = u ++ rest) by (unfold u, rest; rewrite firstn_skipn; reflexivity).
  assert (X1 : forall l r, lexemes lexer_rules rest l r -> lexemes lexer_rules mem ((k, u) :: l) r).
  { intros l r' H. rewrite Em. constructor; [rewrite <- Em, Hu; exact L|rewrite <- Em; exact N|exact H]. }
  assert (X2 : lexemes lexer_rules mem ([] ++ [(k, u)]) rest) by (apply X1; constructor).
  assert (Br : bytes rest) by (rewrite Em in B; apply Forall_app in B; tauto).
  assert (Hr' : length rest < fuel) by (rewrite Em, app_length in Hf; lia).
  destruct (action_meaning k u Hk) as (a & Ha & Hact). rewrite Ha.
  assert (LINE : k <> 94 -> k <> 106 -> lines_of [(k, u)] = 0%Z).
  { intros N1 N2. unfold lines_of. cbn [fold_right fst snd]. destruct (Nat.eqb k 98) eqn:E; [reflexivity|]. rewrite new_lines_none; [reflexivity|]. intros H. apply Nat.eqb_neq in E.
    destruct (new_line_rules k r u Hr M H) as [H'|[H'|[H'|[]]]]; lia. }
  assert (TOK : forall t, act a u = Gives t -> k <> 94 /\ k <> 106).
  { intros t H. split; intros ->; vm_compute in Ha; injection Ha as <-; discriminate. }
  assert (SKIP : forall loc1, act a u = Skipped -> (p_line (loc_end loc1) = p_line (loc_end loc) + lines_of [(k, u)])%Z ->
    match yylex yy_map yy_actions fuel rest loc1 with
    | Ok (Some (t, loc', rest)) => exists ls k u, lexemes lexer_rules mem (ls ++ [(k, u)]) rest /\ Forall (fun p => rule_meaning (fst p) (snd p) = Skipped) ls /\ rule_meaning k u = Gives t /\
      p_line (loc_begin loc') = (p_line (loc_end loc) + lines_of ls)%Z /\ p_line (loc_end loc') = (p_line (loc_begin loc') + lines_of [(k, u)])%Z
    | Ok None => exists ls k u rest, lexemes lexer_rules mem (ls ++ [(k, u)]) rest /\ Forall (fun p => rule_meaning (fst p) (snd p) = Skipped) ls /\ rule_meaning k u = Fails
    | UB => exists ls rest, lexemes lexer_rules mem ls rest /\ Forall (fun p => rule_meaning (fst p) (snd p) = Skipped) ls /\ runs_out lexer_rules rest
    | NoFuel => False
    end).
  { intros loc1 Hs Hl. rewrite Hact in Hs. specialize (IH rest loc1 Br Hr'). destruct (yylex yy_map yy_actions fuel rest loc1) as [[[[t loc'] rest']|]| |].
    - destruct IH as (ls & k' & u' & H1 & H2 & H3 & H4 & H5). exists ((k, u) :: ls), k', u'. split; [apply X1, H1|]. split; [constructor; assumption|]. split; [exact H3|]. split; [|exact H5].
      change ((k, u) :: ls) with ([(k, u)] ++ ls). rewrite lines_of_app. lia.
    - destruct IH as (ls & k' & u' & rest' & H1 & H2 & H3). exists ((k, u) :: ls), k', u', rest'. split; [apply X1, H1|]. split; [constructor; assumption|exact H3].
    - destruct IH as (ls & rest' & H1 & H2 & H3). exists ((k, u) :: ls), rest'. split; [apply X1, H1|]. split; [constructor; assumption|exact H3].
    - exact IH. }
  assert (GIVE : forall t, act a u = Gives t -> exists ls k0 u0, lexemes lexer_rules mem (ls ++ [(k0, u0)]) rest /\ Forall (fun p => rule_meaning (fst p) (snd p) = Skipped) ls /\ rule_meaning k0 u0 = Gives t /\
      p_line (loc_begin (loc_columns (zlen u) (loc_step loc))) = (p_line (loc_end loc) + lines_of ls)%Z /\
      p_line (loc_end (loc_columns (zlen u) (loc_step loc))) = (p_line (loc_begin (loc_columns (zlen u) (loc_step loc))) + lines_of [(k0, u0)])%Z).
  { intros t Ht. exists [], k, u. split; [exact X2|]. split; [constructor|]. split; [congruence|]. destruct (TOK t Ht) as [N1 N2]. rewrite (LINE N1 N2). unfold loc_columns, loc_step, lines_of. cbn [loc_begin loc_end p_line fold_right]. lia. }
  assert (FREE : k <> 94 -> k <> 106 -> forall loc1, p_line (loc_end loc1) = p_line (loc_end loc) -> (p_line (loc_end loc1) = p_line (loc_end loc) + lines_of [(k, u)])%Z).
  { intros N1 N2 loc1 H. rewrite (LINE N1 N2). lia. }
  assert (NB : a <> ABlock -> k <> 94) by (intros H ->; vm_compute in Ha; congruence).
  assert (NN : a <> ANewline -> k <> 106) by (intros H ->; vm_compute in Ha; congruence).
  destruct a; try (apply GIVE; reflexivity).
  - (* integers *) cbn [act] in *. destruct (stoll u) as [v|]; [apply GIVE; reflexivity|]. exists [], k, u, rest. split; [exact X2|]. split; [constructor|]. congruence.
  - apply SKIP; [reflexivity|]. apply FREE; [apply NB; discriminate|apply NN; discriminate|reflexivity].
  - apply SKIP; [reflexivity|]. rewrite block_lines. unfold lines_of. cbn [fold_right fst snd loc_step loc_end].
    assert (k <> 98) by (intros ->; vm_compute in Ha; discriminate). destruct (Nat.eqb k 98) eqn:E; [apply Nat.eqb_eq in E; lia|]. lia.
  - apply SKIP; [reflexivity|]. assert (k = 106) as ->.
    { clear - Ha Hk. change (length lexer_rules) with 128 in Hk. assert (A : forallb (fun k => match nth_error yy_actions k with Some ANewline => Nat.eqb k 106 | _ => true end) (seq 0 128) = true) by (vm_compute; reflexivity).
      rewrite forallb_forall in A. specialize (A k). rewrite Ha in A. apply Nat.eqb_eq, A, in_seq. lia. }
    change (nth_error lexer_rules 106) with (Some (RAlt (RSeq (one 13) (one 10)) (one 10))) in Hr. injection Hr as <-. apply newline_lexeme in M. fold u in M.
    unfold lines_of. cbn [fold_right fst snd Nat.eqb]. rewrite M. unfold loc_lines, loc_columns, loc_step. cbn [loc_end p_line]. lia.
  - apply SKIP; [reflexivity|]. apply FREE; [apply NB; discriminate|apply NN; discriminate|reflexivity].
  - apply SKIP; [reflexivity|]. apply FREE; [apply NB; discriminate|apply NN; discriminate|reflexivity].
Qed.

Lemma eof_rule k u t : k < 128 -> rule_meaning k u = Gives t -> (tk_name t = "END_OF_FILE"%string <-> k = 105).
Proof.
  intros H M. assert (I : forall x v, integer x v = Gives t -> tk_name t = x).
  { intros x v E. unfold integer in E. destruct (_ && _)%bool; [injection E as <-; reflexivity|discriminate]. }
  do 96 (destruct k as [|k]; [first [discriminate M|injection M as <-; split; [discriminate|lia]]|]).
  do 2 (destruct k as [|k]; [apply I in M; rewrite M; split; [discriminate|lia]|]).
  do 30 (destruct k as [|k]; [first [discriminate M|injection M as <-; split; [first [discriminate|reflexivity]|first [lia|reflexivity]]]|]). lia.
Qed.
(** As [token_lines], with new lines in strings left out. *)
Fixpoint counted_lines (n : Z) (ls : list (nat * list Z)) : list Z :=
  match ls with
  | [] => []
  | (k, u) :: ls => match rule_meaning k u with Gives _ => [n] | _ => [] end ++ counted_lines (n + (if Nat.eqb k 98 then 0 else new_lines u))%Z ls
  end.
Lemma counted_app a : forall n b, counted_lines n (a ++ b) = counted_lines n a ++ counted_lines (n + lines_of a) b.
Proof.
  induction a as [|[k u] a IH]; intros n b; cbn [app counted_lines lines_of fold_right fst snd]; [rewrite Z.add_0_r; reflexivity|].
  rewrite IH, <- app_assoc. fold (lines_of a). rewrite Z.add_assoc. reflexivity.
Qed.
Lemma tokens_of_app a b : tokens_of (a ++ b) = tokens_of a ++ tokens_of b.
Proof. induction a as [|[k u] a IH]; [reflexivity|]. cbn [app tokens_of]. rewrite IH. destruct (rule_meaning k u); reflexivity. Qed.
Lemma skipped_none ls : Forall (fun p => rule_meaning (fst p) (snd p) = Skipped) ls -> tokens_of ls = [] /\ forall n, counted_lines n ls = [].
Proof.
  induction 1 as [|[k u] ls H F [IH1 IH2]]; [auto|]. cbn [tokens_of counted_lines fst snd] in *. rewrite H. split; [exact IH1|]. intros n. apply IH2.
Qed.
Lemma skipped_good ls : Forall (fun p => rule_meaning (fst p) (snd p) = Skipped) ls -> Forall good ls /\ Forall (fun p => fst p <> 105) ls.
Proof.
  intros F. split; (eapply Forall_impl; [|exact F]); intros [k u] H; cbn [fst snd] in H; [unfold good; cbn [fst snd]; congruence|]. intros E. cbn in E. subst k. discriminate.
Qed.
Lemma eof_lexeme rules_mem ls rest u : lexemes lexer_rules rules_mem (ls ++ [(105, u)]) rest -> u = [0%Z].
Proof.
  revert rules_mem. induction ls as [|[k' u'] ls IH]; intros mem H; cbn [app] in H; apply lexemes_cons_inv in H; destruct H as (mem' & -> & L & N & H); [|eapply IH, H].
  destruct L as (_ & (r & Hr & M) & _). change (nth_error lexer_rules 105) with (Some (one 0)) in Hr. injection Hr as <-.
  rewrite firstn_app, firstn_all, Nat.sub_diag, firstn_O, app_nil_r in M. apply one_iff in M. exact M.
Qed.
Lemma lexemes_rule mem ls k u rest : lexemes lexer_rules mem (ls ++ [(k, u)]) rest -> k < 128 /\ length u <> 0.
Proof.
  revert mem. induction ls as [|[k' u'] ls IH]; intros mem H; cbn [app] in H; apply lexemes_cons_inv in H; destruct H as (mem' & -> & L & N & H); [|eapply IH, H].
  split; [apply longest_in in L; exact L|]. destruct L as ((B & _) & _). lia.
Qed.
Lemma tokens_spec : forall fuel mem loc, bytes mem -> length mem < fuel ->
  match tokens yy_map yy_actions fuel mem loc with
  | Ok (Some tls) => exists ls rest, lexemes lexer_rules mem (ls ++ [(105, [0%Z])]) rest /\ Forall good ls /\ Forall (fun p => fst p <> 105) ls /\
      map fst tls = tokens_of (ls ++ [(105, [0%Z])]) /\ map (fun p => p_line (loc_begin (snd p))) tls = counted_lines (p_line (loc_end loc)) (ls ++ [(105, [0%Z])])
  | Ok None => exists ls k u rest, lexemes lexer_rules mem (ls ++ [(k, u)]) rest /\ Forall good ls /\ Forall (fun p => fst p <> 105) ls /\ rule_meaning k u = Fails
  | UB => exists ls rest, lexemes lexer_rules mem ls rest /\ Forall good ls /\ Forall (fun p => fst p <> 105) ls /\ runs_out lexer_rules rest
  | NoFuel => False
  end.
Proof.
  induction fuel as [|fuel IH]; intros mem loc B Hf; [lia|]. cbn [tokens]. pose proof (yylex_spec (S (length mem)) mem loc B ltac:(lia)) as Y.
  destruct (yylex yy_map yy_actions (S (length mem)) mem loc) as [[[[t loc'] rest]|]| |]; cbn [bind].
  - destruct Y as (ls & k & u & H1 & H2 & H3 & H4 & H5). destruct (lexemes_rule _ _ _ _ _ H1) as [Hk Hu]. pose proof (eof_rule k u t Hk H3) as EOF.
    destruct (skipped_good ls H2) as [G1 G2]. destruct (skipped_none ls H2) as [T1 T2].
    destruct (tk_name t =? "END_OF_FILE")%string eqn:E.
    + apply String.eqb_eq in E. apply EOF in E. subst k. pose proof (eof_lexeme _ _ _ _ H1) as ->. exists ls, rest. split; [exact H1|]. split; [exact G1|]. split; [exact G2|]. split.
      * rewrite tokens_of_app, T1. cbn [tokens_of]. rewrite H3. reflexivity.
      * rewrite counted_app, T2. cbn [counted_lines map snd app]. rewrite H3. cbn. f_equal. exact H4.
    + assert (Nk : k <> 105) by (intros H; apply EOF in H; rewrite H in E; discriminate).
      pose proof (lexemes_texts _ _ _ _ H1) as Em.
      assert (Br : bytes rest) by (rewrite Em in B; apply Forall_app in B; tauto).
      assert (Hr : length rest < fuel).
      { rewrite Em, app_length in Hf. unfold texts in Hf. rewrite map_app, concat_app, app_length in Hf. cbn in Hf. rewrite app_nil_r in Hf. lia. }
      specialize (IH rest loc' Br Hr).
      assert (G : Forall good (ls ++ [(k, u)]) /\ Forall (fun p => fst p <> 105) (ls ++ [(k, u)])).
      { split; apply Forall_app; (split; [assumption|]); constructor; try constructor; cbn [fst snd]; [unfold good; cbn; congruence|exact Nk]. }
      destruct G as [G3 G4]. destruct (tokens yy_map yy_actions fuel rest loc') as [[tls|]| |]; cbn [bind].
      * destruct IH as (ls' & rest' & I1 & I2 & I3 & I4 & I5). exists ((ls ++ [(k, u)]) ++ ls'), rest'. rewrite <- (app_assoc (ls ++ [(k, u)])). split; [eapply lexemes_app; eassumption|].
        split; [apply Forall_app; auto|]. split; [apply Forall_app; auto|]. split.
        -- rewrite !tokens_of_app, T1. cbn [map fst tokens_of app]. rewrite H3, I4, tokens_of_app. reflexivity.
        -- rewrite counted_app, (counted_app ls), T2. cbn [map fst counted_lines app]. rewrite H3. cbn [snd app]. rewrite I5, H4. f_equal. f_equal. rewrite H5, H4, lines_of_app. lia.
      * destruct IH as (ls' & k' & u' & rest' & I1 & I2 & I3 & I4). exists ((ls ++ [(k, u)]) ++ ls'), k', u', rest'. rewrite <- (app_assoc (ls ++ [(k, u)])). split; [eapply lexemes_app; eassumption|].
        split; [apply Forall_app; auto|]. split; [apply Forall_app; auto|exact I4].
      * destruct IH as (ls' & rest' & I1 & I2 & I3 & I4). exists ((ls ++ [(k, u)]) ++ ls'), rest'. split; [eapply lexemes_app; eassumption|].
        split; [apply Forall_app; auto|]. split; [apply Forall_app; auto|exact I4].
      * exact IH.
  - destruct Y as (ls & k & u & rest & H1 & H2 & H3). destruct (skipped_good ls H2) as [G1 G2]. exists ls, k, u, rest. auto.
  - destruct Y as (ls & rest & H1 & H2 & H3). destruct (skipped_good ls H2) as [G1 G2]. exists ls, rest. auto.
  - exact Y.
Qed.
Lemma file_bytes text : bytes text -> bytes (text ++ [0%Z]).
Proof. intros B. apply Forall_app. split; [exact B|]. constructor; [unfold wf_byte; lia|constructor]. Qed.
Lemma lex_file_spec text : bytes text ->
  match lex_file yy_map yy_actions text with
  | Ok (Some tls) => exists ls rest, lexemes lexer_rules (text ++ [0%Z]) (ls ++ [(105, [0%Z])]) rest /\ Forall good ls /\ Forall (fun p => fst p <> 105) ls /\
      map fst tls = tokens_of (ls ++ [(105, [0%Z])]) /\ map (fun p => p_line (loc_begin (snd p))) tls = counted_lines 1 (ls ++ [(105, [0%Z])])
  | Ok None => exists ls k u rest, lexemes lexer_rules (text ++ [0%Z]) (ls ++ [(k, u)]) rest /\ Forall good ls /\ Forall (fun p => fst p <> 105) ls /\ rule_meaning k u = Fails
  | UB => exists ls rest, lexemes lexer_rules (text ++ [0%Z]) ls rest /\ Forall good ls /\ Forall (fun p => fst p <> 105) ls /\ runs_out lexer_rules rest
  | NoFuel => False
  end.
Proof. intros B. apply (tokens_spec (S (S (length text))) (text ++ [0%Z]) start_location (file_bytes text B)). rewrite app_length. cbn. lia. Qed.
(** Without a NUL in the text, the lexemes are all of it. *)
Lemma first_zero (a b c d : list Z) : ~ In 0%Z a -> a ++ 0%Z :: b = c ++ 0%Z :: d -> b = [] -> a = c /\ d = [].
Proof.
  revert c. induction a as [|x a IH]; intros c N E Eb; subst b; destruct c as [|y c]; cbn in E; [injection E as E2|injection E as E1 E2..].
  - subst d. auto.
  - destruct c; discriminate.
  - exfalso. apply N. left. exact E1.
  - subst y. destruct (IH c) with (2 := E2) as [-> ->]; [intros H; apply N; right; exact H|reflexivity|auto].
Qed.
Lemma whole_text text ls rest : ~ In 0%Z text -> lexemes lexer_rules (text ++ [0%Z]) (ls ++ [(105, [0%Z])]) rest -> texts ls = text /\ rest = [].
Proof.
  intros N H. apply lexemes_texts in H. unfold texts in H. rewrite map_app, concat_app in H. cbn in H. fold (texts ls) in H. rewrite <- app_assoc in H. cbn in H.
  destruct (first_zero text [] (texts ls) rest N H eq_refl) as [-> ->]. auto.
Qed.
(** ** The outcome is determined *)
Definition file_tokens (text : list Z) : res (option (list token)) :=
  match lex_file yy_map yy_actions text with Ok o => Ok (option_map (map fst) o) | UB => UB | NoFuel => NoFuel end.
Definition continues (p : nat * list Z) : Prop := good p /\ fst p <> 105.
Definition halts (mid : list Z) : Prop := runs_out lexer_rules mid \/ exists k u rest, lexemes lexer_rules mid [(k, u)] rest /\ ~ continues (k, u).
Lemma lexemes_split a : forall rules mem b rest, lexemes rules mem (a ++ b) rest -> exists mid, lexemes rules mem a mid /\ lexemes rules mid b rest.
Proof.
  induction a as [|[k u] a IH]; intros rules mem b rest H; cbn in H; [exists mem; split; [constructor|exact H]|].
  apply lexemes_cons_inv in H. destruct H as (mem' & -> & L & N & H). destruct (IH _ _ _ _ H) as (mid & H1 & H2). exists mid. split; [constructor; assumption|exact H2].
Qed.
Lemma one_lexeme mid k u rest k' u' rest' : lexemes lexer_rules mid [(k, u)] rest -> lexemes lexer_rules mid [(k', u')] rest' -> k = k' /\ u = u' /\ rest = rest'.
Proof.
  intros H1 H2. destruct (lexemes_prefix _ _ _ _ H1 _ _ H2) as [(e & E & He)|(e & E & He)]; cbn in E; injection E as E1 E2 E3; subst; inversion He; subst; auto.
Qed.
Lemma one_not_open mid k u rest : lexemes lexer_rules mid [(k, u)] rest -> ~ runs_out lexer_rules mid.
Proof. intros H. apply lexemes_cons_inv in H. destruct H as (m & -> & L & N & _). exact N. Qed.
Lemma halt_unique mem ls mid ls' mid' : lexemes lexer_rules mem ls mid -> Forall continues ls -> halts mid ->
  lexemes lexer_rules mem ls' mid' -> Forall continues ls' -> halts mid' -> ls = ls' /\ mid = mid'.
Proof.
  assert (A : forall ls e mid mid', lexemes lexer_rules mid e mid' -> halts mid -> Forall continues (ls ++ e) -> e = []).
  { clear. intros ls e mid mid' H Hh F. destruct e as [|[k u] e]; [reflexivity|exfalso]. apply Forall_app in F. destruct F as [_ F]. inversion F as [|? ? C _]; subst.
    change ((k, u) :: e) with ([(k, u)] ++ e) in H. apply lexemes_split in H. destruct H as (m & H & _). destruct Hh as [Hh|(k' & u' & rest & Hh & N)]; [apply (one_not_open _ _ _ _ H Hh)|].
    destruct (one_lexeme _ _ _ _ _ _ _ H Hh) as (-> & -> & _). exact (N C). }
  intros H1 F1 X1 H2 F2 X2. destruct (lexemes_prefix _ _ _ _ H1 _ _ H2) as [(e & -> & He)|(e & -> & He)].
  - pose proof (A ls e mid mid' He X1 F2) as ->. rewrite app_nil_r. inversion He; subst. auto.
  - pose proof (A ls' e mid' mid He X2 F1) as ->. rewrite app_nil_r. inversion He; subst. auto.
Qed.
Lemma both ls : Forall good ls -> Forall (fun p => fst p <> 105) ls -> Forall continues ls.
Proof. intros H1 H2. rewrite Forall_forall in *. intros p Hp. split; auto. Qed.
Lemma reads_as_unique mem o o' : reads_as mem o -> reads_as mem o' -> o = o'.
Proof.
  assert (E : forall mid rest, lexemes lexer_rules mid [(105, [0%Z])] rest -> halts mid) by (intros mid rest H; right; exists 105, [0%Z], rest; split; [exact H|intros [_ N]; apply N; reflexivity]).
  assert (F : forall mid k u rest, lexemes lexer_rules mid [(k, u)] rest -> rule_meaning k u = Fails -> halts mid) by (intros mid k u rest H N; right; exists k, u, rest; split; [exact H|intros [G _]; apply G, N]).
  assert (O : forall mid, runs_out lexer_rules mid -> halts mid) by (intros mid H; left; exact H).
  intros [ls mid rest H1 H2 H3 H4|ls mid k u rest H1 H2 H3 H4 H5|ls mid H1 H2 H3 H4] [ls' mid' rest' J1 J2 J3 J4|ls' mid' k' u' rest' J1 J2 J3 J4 J5|ls' mid' J1 J2 J3 J4];
    (destruct (halt_unique mem ls mid ls' mid') as [-> ->]; [exact H1|apply both; assumption|eauto|exact J1|apply both; assumption|eauto|]); try reflexivity; exfalso.
  - destruct (one_lexeme _ _ _ _ _ _ _ H4 J4) as (<- & <- & _). discriminate.
  - exact (one_not_open _ _ _ _ H4 J4).
  - destruct (one_lexeme _ _ _ _ _ _ _ H4 J4) as (-> & -> & _). discriminate.
  - exact (one_not_open _ _ _ _ H4 J4).
  - exact (one_not_open _ _ _ _ J4 H4).
  - exact (one_not_open _ _ _ _ J4 H4).
Qed.
Lemma file_reads text : bytes text -> reads_as (text ++ [0%Z]) (file_tokens text).
Proof.
  intros B. pose proof (lex_file_spec text B) as S. unfold file_tokens. destruct (lex_file yy_map yy_actions text) as [[tls|]| |].
  - destruct S as (ls & rest & H1 & H2 & H3 & H4 & _). cbn [option_map]. rewrite H4. apply lexemes_split in H1. destruct H1 as (mid & H1 & H1'). rewrite tokens_of_app. change (tokens_of [(105, [0%Z])]) with [eof_token].
    exact (ra_end _ ls mid rest H1 H2 H3 H1').
  - destruct S as (ls & k & u & rest & H1 & H2 & H3 & H4). cbn [option_map]. apply lexemes_split in H1. destruct H1 as (mid & H1 & H1'). exact (ra_fails _ ls mid k u rest H1 H2 H3 H1' H4).
  - destruct S as (ls & rest & H1 & H2 & H3 & H4). exact (ra_open _ ls rest H1 H2 H3 H4).
  - destruct S.
Qed.
(** A lexeme at the front. *)
Lemma reads_cons k u mem o : lexemes lexer_rules (u ++ mem) [(k, u)] mem -> continues (k, u) -> reads_as mem o ->
  reads_as (u ++ mem) (match o with Ok (Some ts) => Ok (Some (tokens_of [(k, u)] ++ ts)) | o => o end).
Proof.
  intros L [G N] [ls mid rest H1 H2 H3 H4|ls mid k' u' rest H1 H2 H3 H4 H5|ls mid H1 H2 H3 H4].
  - rewrite app_assoc, <- tokens_of_app. eapply ra_end; [eapply lexemes_app; [exact L|exact H1]| | |exact H4]; constructor; auto.
  - eapply ra_fails; [eapply lexemes_app; [exact L|exact H1]| | |exact H4|exact H5]; constructor; auto.
  - eapply ra_open; [eapply lexemes_app; [exact L|exact H1]| | |exact H4]; constructor; auto.
Qed.
