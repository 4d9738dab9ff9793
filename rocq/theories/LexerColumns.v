(** Whole files: the lines and columns of the tokens. *)
From Coq Require Import String Ascii List ZArith PArith FSets.FMapPositive Lia.
From Verif Require Import Base CompilerNames Lexer LexerTable LexerSpec LexerProofs LexerFacts LexerFile.
Local Open Scope list_scope.
Local Open Scope nat_scope.

Definition placed (p : position) : Prop := (1 <= p_column p)%Z.
Lemma zlen_pos {A} (u : list A) : (0 <= zlen u)%Z.
Proof. unfold zlen. lia. Qed.
Lemma columns_end n l : placed (loc_end l) -> (0 <= n)%Z -> loc_end (loc_columns n l) = Position (p_line (loc_end l)) (p_column (loc_end l) + n).
Proof. unfold placed, loc_columns. cbn [loc_end]. intros. f_equal. lia. Qed.
Lemma block_positions u : forall l, placed (loc_end l) ->
  loc_end (fold_left (fun l c => let l := loc_columns 1 l in if (c =? 10)%Z then loc_lines l else l) u l) =
  fold_left (fun p c => if (c =? 10)%Z then Position (p_line p + 1) 1 else Position (p_line p) (p_column p + 1)) u (loc_end l).
Proof.
  induction u as [|c u IH]; intros l P; cbn [fold_left]; [reflexivity|]. pose proof (columns_end 1 l P ltac:(lia)) as C. rewrite IH.
  - f_equal. destruct (c =? 10)%Z; [cbn [loc_lines loc_end loc_columns p_line]; reflexivity|exact C].
  - destruct (c =? 10)%Z; [unfold placed; cbn [loc_lines loc_end p_column]; lia|]. cbv zeta. rewrite C. unfold placed in *. cbn [p_column]. lia.
Qed.
Lemma after_placed p e : placed p -> placed (after p e).
Proof.
  destruct e as [k u]. unfold placed. intros P. pose proof (zlen_pos u).
  assert (B : forall u p, (1 <= p_column p)%Z -> (1 <= p_column (fold_left (fun p c => if (c =? 10)%Z then Position (p_line p + 1) 1 else Position (p_line p) (p_column p + 1)) u p))%Z).
  { clear. induction u as [|c u IH]; intros p P; cbn [fold_left]; [exact P|]. apply IH. destruct (c =? 10)%Z; cbn [p_column]; lia. }
  assert (D : forall q, q = Position (p_line p) (p_column p + zlen u) -> (1 <= p_column q)%Z) by (intros q ->; cbn [p_column]; lia).
  unfold after. cbn [fst snd]. do 94 (destruct k as [|k]; [apply D; reflexivity|]). destruct k as [|k]; [apply B, P|].
  do 11 (destruct k as [|k]; [apply D; reflexivity|]). destruct k as [|k]; [cbn [p_column]; lia|]. destruct k as [|k]; [cbn [p_column]; lia|].
  do 19 (destruct k as [|k]; [apply D; reflexivity|]). destruct k as [|k]; [exact P|]. apply D. reflexivity.
Qed.
Lemma fold_placed ls : forall p, placed p -> placed (fold_left after ls p).
Proof. induction ls as [|e ls IH]; intros p P; [exact P|]. apply IH, after_placed, P. Qed.
(** The actions of the rules that are not plain. *)
Definition plain_rule (k : nat) : Prop := k <> 94 /\ k <> 106 /\ k <> 107 /\ k <> 127.
Lemma after_plain k p u : plain_rule k -> after p (k, u) = Position (p_line p) (p_column p + zlen u).
Proof.
  intros (H1 & H2 & H3 & H4). unfold after. cbn [fst snd].
  do 128 (destruct k as [|k]; [first [lia|reflexivity]|]). reflexivity.
Qed.
Definition special (a : action) : option nat := match a with ABlock => Some 94 | ANewline => Some 106 | ASpace => Some 107 | AUnknown => Some 127 | _ => None end.
Lemma special_rules k a : nth_error yy_actions k = Some a -> match special a with Some k' => k = k' | None => plain_rule k end.
Proof.
  intros H. assert (L : k < length yy_actions) by (apply nth_error_Some; congruence). change (length yy_actions) with 128 in L.
  assert (A : forallb (fun k => match nth_error yy_actions k with
    | Some a => match special a with Some k' => Nat.eqb k k' | None => negb (Nat.eqb k 94) && negb (Nat.eqb k 106) && negb (Nat.eqb k 107) && negb (Nat.eqb k 127) end%bool
    | None => false end) (seq 0 128) = true) by (vm_compute; reflexivity).
  rewrite forallb_forall in A. specialize (A k ltac:(apply in_seq; lia)). rewrite H in A. destruct (special a); [apply Nat.eqb_eq, A|].
  rewrite !Bool.andb_true_iff, !Bool.negb_true_iff, !Nat.eqb_neq in A. unfold plain_rule. tauto.
Qed.
Lemma yylex_positions : forall fuel mem loc t loc' rest, bytes mem -> placed (loc_end loc) ->
  yylex yy_map yy_actions fuel mem loc = Ok (Some (t, loc', rest)) ->
  exists ls k u, lexemes lexer_rules mem (ls ++ [(k, u)]) rest /\ Forall (fun p => rule_meaning (fst p) (snd p) = Skipped) ls /\ rule_meaning k u = Gives t /\
    loc_begin loc' = fold_left after ls (loc_end loc) /\ loc_end loc' = after (loc_begin loc') (k, u).
Proof.
  induction fuel as [|fuel IH]; intros mem loc t loc' rest0 B P E; [discriminate|]. cbn [yylex] in E. pose proof (scan_spec mem B) as S.
  destruct (scan yy_map mem) as [[k n]| |]; cbn [bind] in E; [|discriminate|discriminate].
  destruct S as [L N]. pose proof (longest_in _ _ _ _ L) as Hk. pose proof L as ((Hn1 & Hn2) & (r & Hr & M) & _).
  set (u := firstn n mem) in *. set (rest := skipn n mem) in *.
  assert (Hu : length u = n) by (unfold u; rewrite firstn_length; lia).
  assert (Em : mem = u ++ rest) by (unfold u, rest; rewrite firstn_skipn; reflexivity).
  assert (X1 : forall l r, lexemes lexer_rules rest l r -> lexemes lexer_rules mem ((k, u) :: l) r).
  { intros l r' H. rewrite Em. constructor; [rewrite <- Em, Hu; exact L|rewrite <- Em; exact N|exact H]. }
  assert (X2 : lexemes lexer_rules mem ([] ++ [(k, u)]) rest) by (apply X1; constructor).
  assert (Br : bytes rest) by (rewrite Em in B; apply Forall_app in B; tauto).
  destruct (action_meaning k u Hk) as (a & Ha & Hact). rewrite Ha in E. pose proof (special_rules k a Ha) as SP.
  assert (P1 : placed (loc_end (loc_step loc))) by exact P.
  assert (C1 : loc_end (loc_columns (zlen u) (loc_step loc)) = Position (p_line (loc_end loc)) (p_column (loc_end loc) + zlen u)).
  { rewrite (columns_end _ _ P1) by apply zlen_pos. reflexivity. }
  assert (GIVE : forall t', plain_rule k -> act a u = Gives t' -> Some (t', loc_columns (zlen u) (loc_step loc), rest) = Some (t, loc', rest0) ->
    exists ls k u, lexemes lexer_rules mem (ls ++ [(k, u)]) rest0 /\ Forall (fun p => rule_meaning (fst p) (snd p) = Skipped) ls /\ rule_meaning k u = Gives t /\
    loc_begin loc' = fold_left after ls (loc_end loc) /\ loc_end loc' = after (loc_begin loc') (k, u)).
  { intros t' Hp Ht Eq. injection Eq as <- <- <-. exists [], k, u. split; [exact X2|]. split; [constructor|]. split; [congruence|]. split; [reflexivity|].
    rewrite C1, (after_plain _ _ _ Hp). reflexivity. }
  assert (SKIP : forall loc1, act a u = Skipped -> loc_end loc1 = after (loc_end loc) (k, u) -> yylex yy_map yy_actions fuel rest loc1 = Ok (Some (t, loc', rest0)) ->
    exists ls k u, lexemes lexer_rules mem (ls ++ [(k, u)]) rest0 /\ Forall (fun p => rule_meaning (fst p) (snd p) = Skipped) ls /\ rule_meaning k u = Gives t /\
    loc_begin loc' = fold_left after ls (loc_end loc) /\ loc_end loc' = after (loc_begin loc') (k, u)).
  { intros loc1 Hs Hl Ey. assert (P2 : placed (loc_end loc1)) by (rewrite Hl; apply after_placed, P). destruct (IH rest loc1 t loc' rest0 Br P2 Ey) as (ls & k' & u' & H1 & H2 & H3 & H4 & H5).
    exists ((k, u) :: ls), k', u'. split; [apply X1, H1|]. split; [constructor; [cbn [fst snd]; congruence|assumption]|]. split; [exact H3|]. split; [|exact H5]. cbn [fold_left]. rewrite <- Hl. exact H4. }
  destruct a; cbn [special] in SP; try (injection E as E; eapply GIVE; [exact SP|reflexivity|congruence]).
  - cbn [act] in *. destruct (stoll u) as [v|]; [|discriminate]. injection E as E. eapply GIVE; [exact SP|reflexivity|congruence].
  - eapply SKIP; [reflexivity| |exact E]. rewrite C1, (after_plain _ _ _ SP). reflexivity.
  - eapply SKIP; [reflexivity| |exact E]. rewrite block_positions by exact P1. subst k. reflexivity.
  - eapply SKIP; [reflexivity| |exact E]. subst k. reflexivity.
  - eapply SKIP; [reflexivity| |exact E]. subst k. rewrite columns_end; [rewrite C1; cbn [p_line p_column]; reflexivity| |lia]. rewrite C1. unfold placed in *. cbn [p_column]. pose proof (zlen_pos u). lia.
  - eapply SKIP; [reflexivity| |exact E]. subst k. reflexivity.
Qed.
Lemma positions_app a : forall p b, token_positions p (a ++ b) = token_positions p a ++ token_positions (fold_left after a p) b.
Proof. induction a as [|[k u] a IH]; intros p b; [reflexivity|]. cbn [app token_positions fold_left]. rewrite IH, <- app_assoc. reflexivity. Qed.
Lemma skipped_positions ls : Forall (fun p => rule_meaning (fst p) (snd p) = Skipped) ls -> forall p, token_positions p ls = [].
Proof. induction 1 as [|[k u] ls H F IH]; intros p; [reflexivity|]. cbn [token_positions fst snd] in *. rewrite H. apply IH. Qed.
Lemma tokens_positions : forall fuel mem loc tls, bytes mem -> placed (loc_end loc) -> tokens yy_map yy_actions fuel mem loc = Ok (Some tls) ->
  exists ls rest, lexemes lexer_rules mem (ls ++ [(105, [0%Z])]) rest /\ map fst tls = tokens_of (ls ++ [(105, [0%Z])]) /\
    map (fun p => loc_begin (snd p)) tls = token_positions (loc_end loc) (ls ++ [(105, [0%Z])]).
Proof.
  induction fuel as [|fuel IH]; intros mem loc tls B P E; [discriminate|]. cbn [tokens] in E.
  destruct (yylex yy_map yy_actions (S (length mem)) mem loc) as [[[[t loc'] rest]|]| |] eqn:EY; cbn [bind] in E; try discriminate.
  destruct (yylex_positions _ _ _ _ _ _ B P EY) as (ls & k & u & H1 & H2 & H3 & H4 & H5). destruct (lexemes_rule _ _ _ _ _ H1) as [Hk Hu]. pose proof (eof_rule k u t Hk H3) as EOF.
  destruct (skipped_none ls H2) as [T1 _]. pose proof (skipped_positions ls H2) as T2.
  destruct (tk_name t =? "END_OF_FILE")%string eqn:Et.
  - apply String.eqb_eq in Et. assert (k = 105) as -> by (apply EOF, Et). pose proof (eof_lexeme _ _ _ _ H1) as ->. injection E as <-. exists ls, rest. split; [exact H1|].
    rewrite tokens_of_app, positions_app, T1, T2. cbn [tokens_of token_positions app map fst snd]. rewrite H3. cbn [app]. split; [reflexivity|]. rewrite H4. reflexivity.
  - assert (Em := lexemes_texts _ _ _ _ H1). assert (Br : bytes rest) by (rewrite Em in B; apply Forall_app in B; tauto).
    destruct (tokens yy_map yy_actions fuel rest loc') as [[tl|]| |] eqn:EQ; cbn [bind] in E; try discriminate. injection E as <-.
    assert (P' : placed (loc_end loc')) by (rewrite H5; apply after_placed; rewrite H4; apply fold_placed, P).
    destruct (IH rest loc' tl Br P' EQ) as (ls' & rest' & I1 & I2 & I3). exists ((ls ++ [(k, u)]) ++ ls'), rest'. rewrite <- (app_assoc (ls ++ [(k, u)])). split; [eapply lexemes_app; eassumption|]. split.
    + rewrite !tokens_of_app, T1. cbn [map fst tokens_of app]. rewrite H3, I2, tokens_of_app. reflexivity.
    + rewrite positions_app, (positions_app ls), T2, fold_left_app. cbn [map fst token_positions app fold_left]. rewrite H3. cbn [snd app]. rewrite I3, H5, H4. reflexivity.
Qed.
Lemma lex_file_positions text tls : bytes text -> lex_file yy_map yy_actions text = Ok (Some tls) ->
  exists ls rest, lexemes lexer_rules (text ++ [0%Z]) (ls ++ [(105, [0%Z])]) rest /\ map fst tls = tokens_of (ls ++ [(105, [0%Z])]) /\
    map (fun p => loc_begin (snd p)) tls = token_positions (Position 1 1) (ls ++ [(105, [0%Z])]).
Proof.
  intros B E. assert (P : placed (loc_end start_location)) by (unfold placed; cbn; lia). exact (tokens_positions _ _ _ _ (file_bytes text B) P E).
Qed.
