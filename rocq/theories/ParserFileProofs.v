(** The parser on files: what the lexer hands to it, and what it makes of that. *)
From Coq Require Import List String ZArith Bool Lia.
From Verif Require Import Base CompilerNames Lexer LexerTable LexerSpec LexerFacts LexerFile Parser LRSpec LRProofs LRComplete ParserTable ParserGrammar ParserTree ParserActions ParserFile ParserValid ParserComplete.
Import ListNotations.
Local Open Scope Z_scope.
Local Open Scope list_scope.

(** A token as the parser sees it. *)
Definition tok (t : Lexer.token) : Z * semantic := (number (tk_name t), token_value t).
(** Every token the lexer gives has a number, and a value of the type that the grammar declares for it. *)
Lemma tok_fits k u t : (k < 128)%nat -> rule_meaning k u = Gives t -> 0 <= fst (tok t) < ntokens yy_tables /\ fits (fst (tok t)) (snd (tok t)).
Proof.
  intros H M. assert (I : forall x v, kind_of (number x) = KInt64 -> 0 <= number x < ntokens yy_tables -> integer x v = Gives t ->
    0 <= fst (tok t) < ntokens yy_tables /\ fits (fst (tok t)) (snd (tok t))).
  { intros x v K N E. unfold integer in E. destruct (_ && _)%bool; [injection E as <-|discriminate]. split; [exact N|]. unfold tok, fits, token_value. cbn [fst snd tk_name tk_value]. rewrite K. reflexivity. }
  assert (D : forall x p, rule_meaning k u = Gives (Token x p) -> 0 <= number x < ntokens yy_tables ->
    match kind_of (number x), p with KNone, PNone | KDouble, PText _ | KString, PText _ | KString, PName _ => True | _, _ => False end ->
    0 <= fst (tok t) < ntokens yy_tables /\ fits (fst (tok t)) (snd (tok t))).
  { intros x p E N K. rewrite M in E. injection E as ->. split; [exact N|]. unfold tok, fits, token_value. cbn [fst snd tk_name tk_value]. destruct (kind_of (number x)), p; try contradiction; reflexivity. }
  do 96 (destruct k as [|k]; [first [discriminate M|eapply D; [reflexivity|split; vm_compute; congruence|exact Logic.I]]|]).
  do 2 (destruct k as [|k]; [eapply I; [| |exact M]; [reflexivity|split; vm_compute; congruence]|]).
  do 30 (destruct k as [|k]; [first [discriminate M|eapply D; [reflexivity|split; vm_compute; congruence|exact Logic.I]]|]). lia.
Qed.
Lemma place_range s : forall l n, place s l n = -1 \/ n <= place s l n.
Proof. induction l as [|x l IH]; intros n; cbn [place]; [auto|]. destruct (String.eqb s x); [lia|]. specialize (IH (n + 1)). lia. Qed.
Lemma number_0 s : number s = 0 <-> s = "END_OF_FILE"%string.
Proof.
  split; [|intros ->; reflexivity]. unfold number. change symbol_names with ("END_OF_FILE"%string :: tl symbol_names). cbn [place]. destruct (String.eqb_spec s "END_OF_FILE"); [auto|].
  destruct (place_range s (tl symbol_names) (0 + 1)); lia.
Qed.
(** ** The stream of tokens *)
Notation prefix := (LRProofs.prefix semantic).
Definition no_eof (ts : list Lexer.token) : Prop := Forall (fun t => tk_name t <> "END_OF_FILE"%string) ts.
Lemma stream_tokens : forall fuel mem loc, match tokens yy_map yy_actions fuel mem loc with
  | Ok (Some tls) => exists ts e rest, map fst tls = ts ++ [e] /\ no_eof ts /\ tk_name e = "END_OF_FILE"%string /\ token_stream fuel mem loc = prefix (map tok ts) (SToken 0 (token_value e) rest)
  | Ok None => exists ts, no_eof ts /\ token_stream fuel mem loc = prefix (map tok ts) SThrow
  | _ => exists ts, no_eof ts /\ token_stream fuel mem loc = prefix (map tok ts) SUB
  end.
Proof.
  induction fuel as [|fuel IH]; intros mem loc; cbn [tokens token_stream]; [exists []; split; [constructor|reflexivity]|].
  destruct (yylex yy_map yy_actions (S (length mem)) mem loc) as [[[[t loc'] rest]|]| |]; cbn [bind].
  - destruct (String.eqb_spec (tk_name t) "END_OF_FILE") as [E|N].
    + exists [], t, (token_stream fuel rest loc'). split; [reflexivity|]. split; [constructor|]. split; [exact E|]. cbn [map LRProofs.prefix]. rewrite E. reflexivity.
    + specialize (IH rest loc'). destruct (tokens yy_map yy_actions fuel rest loc') as [[tls|]| |]; cbn [bind].
      * destruct IH as (ts & e & r & E & Ne & Ee & S). exists (t :: ts), e, r. cbn [map fst]. rewrite E. split; [reflexivity|]. split; [constructor; assumption|]. split; [exact Ee|]. cbn [LRProofs.prefix]. unfold tok at 1. rewrite S. reflexivity.
      * destruct IH as (ts & Ne & S). exists (t :: ts). split; [constructor; assumption|]. cbn [map LRProofs.prefix]. unfold tok at 1. rewrite S. reflexivity.
      * destruct IH as (ts & Ne & S). exists (t :: ts). split; [constructor; assumption|]. cbn [map LRProofs.prefix]. unfold tok at 1. rewrite S. reflexivity.
      * destruct IH as (ts & Ne & S). exists (t :: ts). split; [constructor; assumption|]. cbn [map LRProofs.prefix]. unfold tok at 1. rewrite S. reflexivity.
  - exists []. split; [constructor|reflexivity].
  - exists []. split; [constructor|reflexivity].
  - exists []. split; [constructor|reflexivity].
Qed.
Lemma eof_value e : tk_name e = "END_OF_FILE"%string -> token_value e = nothing.
Proof. intros E. unfold token_value. rewrite E. change (kind_of (number "END_OF_FILE")) with KNone. reflexivity. Qed.
Lemma file_stream_tokens text : bytes text -> match file_tokens text with
  | Ok (Some tks) => exists ts rest, tks = ts ++ [eof_token] /\ no_eof ts /\ file_stream text = prefix (map tok ts) (SToken 0 nothing rest)
  | Ok None => exists ts, no_eof ts /\ file_stream text = prefix (map tok ts) SThrow
  | UB => exists ts, no_eof ts /\ file_stream text = prefix (map tok ts) SUB
  | NoFuel => False
  end.
Proof.
  intros B. pose proof (lex_file_spec text B) as L. pose proof (file_reads text B) as R. pose proof (stream_tokens (S (S (length text))) (text ++ [0]) start_location) as S.
  unfold file_stream. unfold file_tokens in *. unfold lex_file in *.
  destruct (tokens yy_map yy_actions (Datatypes.S (Datatypes.S (length text))) (text ++ [0]) start_location) as [[tls|]| |]; cbn [option_map].
  - destruct S as (ts & e & rest & E & Ne & Ee & S). inversion R as [ls mid r _ _ _ _ Er| |]; subst. cbn [option_map] in Er.
    assert (Er' : tokens_of ls ++ [eof_token] = ts ++ [e]) by congruence. apply app_inj_tail in Er'. destruct Er' as [_ <-].
    exists ts, rest. split; [exact E|]. split; [exact Ne|]. rewrite S. reflexivity.
  - exact S.
  - exact S.
  - exact L.
Qed.
Lemma token_stream_good : forall fuel mem loc, bytes mem -> good_stream semantic yy_tables fits (token_stream fuel mem loc) /\ (size semantic (token_stream fuel mem loc) <= fuel)%nat.
Proof.
  induction fuel as [|fuel IH]; intros mem loc B; cbn [token_stream]; [cbn; auto|]. pose proof (yylex_spec (S (length mem)) mem loc B ltac:(lia)) as Y.
  destruct (yylex yy_map yy_actions (S (length mem)) mem loc) as [[[[t loc'] rest]|]| |]; cbn [good_stream size]; [|split; [exact Logic.I|lia]..].
  destruct Y as (ls & k & u & L & _ & M & _). destruct (lexemes_rule _ _ _ _ _ L) as [Hk _]. destruct (tok_fits k u t Hk M) as [T1 T2].
  assert (Br : bytes rest). { apply lexemes_texts in L. rewrite L in B. apply Forall_app in B. tauto. }
  destruct (IH rest loc' Br) as [G S]. split; [split; [exact T1|]; split; [exact T2|exact G]|lia].
Qed.
(** ** More fuel changes nothing *)
Lemma run_more {V ST} t (action : Z -> list V -> ST -> res (V * ST)) v0 : forall n c m, run V ST t action v0 n c <> NoFuel -> (n <= m)%nat -> run V ST t action v0 m c = run V ST t action v0 n c.
Proof.
  induction n as [|n IH]; intros c m H L; [contradiction H; reflexivity|]. destruct m as [|m]; [lia|]. cbn [run] in *. destruct (step V ST t action v0 c) as [[c'|r st]| |]; cbn [bind] in *; [|reflexivity..].
  apply IH; [exact H|lia].
Qed.
Lemma prefix_eof (ts : list Lexer.token) w a rest b : no_eof ts -> prefix (map tok ts) a = prefix w (SToken 0 b rest) -> exists w', w = map tok ts ++ w' /\ a = prefix w' (SToken 0 b rest).
Proof.
  revert w. induction ts as [|t ts IH]; intros w N E; cbn [map LRProofs.prefix] in *; [exists w; auto|]. inversion N as [|? ? Nt N']; subst. unfold tok in E at 1. destruct w as [|[x y] w]; cbn [LRProofs.prefix] in E.
  - injection E as E0 _ _. apply number_0 in E0. contradiction.
  - injection E as <- <- E. destruct (IH w N' E) as (w' & -> & Ea). exists w'. split; [reflexivity|exact Ea].
Qed.
(** ** Files *)
Notation sentence := (LRSpec.phrase semantic ParserTree.state (ntokens yy_tables) rules perform START).
Definition silent (w : list (Z * semantic)) : Prop := forall e, In e w -> fst e <> 0.
Lemma phrase_silent :
  (forall X w s v s', LRSpec.phrase semantic ParserTree.state (ntokens yy_tables) rules perform X w s v s' -> X <> 0 -> X <> number "$accept" -> silent w) /\
  (forall rhs w s vs s', LRSpec.phrases semantic ParserTree.state (ntokens yy_tables) rules perform rhs w s vs s' -> ~ In 0 rhs -> ~ In (number "$accept") rhs -> silent w).
Proof.
  assert (C : forallb (fun k => match rules k with Some (X, rhs) => (X =? number "$accept") || negb (mem 0 rhs) && negb (mem (number "$accept") rhs) | None => true end) all_rules = true) by (vm_compute; reflexivity).
  rewrite forallb_forall in C.
  apply phrase_mutind.
  - intros a v st Ha N0 _ e [<-|[]]. exact N0.
  - intros k X rhs w st vs st1 v st2 E _ IH _ N0 NA. specialize (C k (in_all_rules _ (rules_range _ _ _ E))). rewrite E in C. rewrite orb_true_iff, andb_true_iff, Z.eqb_eq, !negb_true_iff in C.
    destruct C as [C|[C1 C2]]; [contradiction|]. apply IH; rewrite <- mem_in; congruence.
  - intros st _ _ e [].
  - intros X rhs w1 w2 st v st1 vs st2 _ IH1 _ IH2 N0 NA e He. apply in_app_or in He. destruct He as [He|He].
    + apply IH1 with (e := e); [intros ->; apply N0; left; reflexivity|intros ->; apply NA; left; reflexivity|exact He].
    + apply IH2 with (e := e); [intros H; apply N0; right; exact H|intros H; apply NA; right; exact H|exact He].
Qed.
Lemma no_eof_prefix_ub ts i : no_eof ts -> no_ub semantic (prefix (map tok ts) i) <-> no_ub semantic i.
Proof.
  intros N. induction N as [|t ts Nt N IH]; cbn [map LRProofs.prefix]; [tauto|]. unfold tok at 1. cbn [no_ub]. rewrite IH. rewrite number_0. tauto.
Qed.
Lemma no_eof_prefix_throw ts i : no_eof ts -> no_throw semantic (prefix (map tok ts) i) <-> no_throw semantic i.
Proof.
  intros N. induction N as [|t ts Nt N IH]; cbn [map LRProofs.prefix]; [tauto|]. unfold tok at 1. cbn [no_throw]. rewrite IH. rewrite number_0. tauto.
Qed.
Theorem parse_file_ok s text : bytes text -> match parse_file s text with
  | Ok (Accepted, s') => exists ts v, file_tokens text = Ok (Some (ts ++ [eof_token])) /\ sentence (map tok ts) s v s'
  | Ok (Rejected, _) => True
  | Ok (Thrown, _) => file_tokens text = Ok None
  | UB => file_tokens text = UB
  | NoFuel => False
  end.
Proof.
  intros B. pose proof (file_stream_tokens text B) as T. destruct (token_stream_good (S (S (length text))) (text ++ [0]) start_location (file_bytes text B)) as [G Sz].
  fold (file_stream text) in G, Sz.
  assert (F : (cost + 1) * Z.of_nat (size semantic (file_stream text)) < Z.of_nat (12 * (length text + 4))) by (change cost with 10; lia).
  pose proof (yy_parse_ok s _ _ G F) as H. unfold parse_file. destruct (run semantic state yy_tables perform nothing (12 * (length text + 4)) (start semantic state nothing s (file_stream text))) as [[r s']| |]; cbn [result_ok] in H; [| |exact H].
  - destruct r; [|exact Logic.I|].
    + destruct H as (w & v & ve & rest & Ei & P). assert (Sw : silent w) by (eapply (proj1 phrase_silent); [exact P|vm_compute; congruence|vm_compute; congruence]).
      assert (X : forall a, a <> [] -> silent a -> forall b c i j, prefix a (SToken 0 b i) = SToken 0 c j -> False).
      { intros [|[x y] a] Na Sa b c i j E; [contradiction Na; reflexivity|]. cbn in E. injection E as -> _ _. exact (Sa (0, y) (or_introl eq_refl) eq_refl). }
      destruct (file_tokens text) as [[tks|]| |]; [| | |contradiction].
      * destruct T as (ts & r & -> & Ne & E). rewrite E in Ei. destruct (prefix_eof _ _ _ _ _ Ne Ei) as (w' & -> & Ew). exists ts, v. split; [reflexivity|].
        destruct w' as [|e w']; [rewrite app_nil_r in P; exact P|]. exfalso. symmetry in Ew. eapply X; [| |exact Ew]; [discriminate|]. intros e' He. apply Sw, in_or_app. right. exact He.
      * destruct T as (ts & Ne & E). rewrite E in Ei. destruct (prefix_eof _ _ _ _ _ Ne Ei) as (w' & -> & Ew). destruct w' as [|[x y] w']; discriminate.
      * destruct T as (ts & Ne & E). rewrite E in Ei. destruct (prefix_eof _ _ _ _ _ Ne Ei) as (w' & -> & Ew). destruct w' as [|[x y] w']; discriminate.
    + destruct (file_tokens text) as [[tks|]| |]; [exfalso|reflexivity|exfalso|contradiction].
      * destruct T as (ts & r & _ & Ne & E). rewrite E in H. apply H, no_eof_prefix_throw; [exact Ne|]. cbn. auto.
      * destruct T as (ts & Ne & E). rewrite E in H. apply H, no_eof_prefix_throw; [exact Ne|]. cbn. auto.
  - destruct (file_tokens text) as [[tks|]| |]; [exfalso|exfalso|reflexivity|contradiction].
    + destruct T as (ts & r & _ & Ne & E). rewrite E in H. apply H, no_eof_prefix_ub; [exact Ne|]. cbn. auto.
    + destruct T as (ts & Ne & E). rewrite E in H. apply H, no_eof_prefix_ub; [exact Ne|]. cbn. auto.
Qed.
(** Sentences of the subset. *)
Theorem parse_file_accepts s text ts v s' : bytes text -> file_tokens text = Ok (Some (ts ++ [eof_token])) -> sub_filtered START (map tok ts) 0 s v s' ->
  parse_file s text = Ok (Accepted, s').
Proof.
  intros B E F. pose proof (file_stream_tokens text B) as T. rewrite E in T. destruct T as (ts' & rest & Et & Ne & Es). apply app_inj_tail in Et. destruct Et as [<- _].
  destruct (yy_accepts _ _ _ _ nothing rest F) as [n Hn]. pose proof (parse_file_ok s text B) as P. unfold parse_file in *. rewrite Es in *.
  assert (N : run semantic state yy_tables perform nothing (12 * (length text + 4)) (start semantic state nothing s (prefix (map tok ts) (SToken 0 nothing rest))) <> NoFuel).
  { intros X. rewrite X in P. exact P. }
  rewrite <- (run_more _ _ _ _ _ (Nat.max n (12 * (length text + 4))) N) by lia. apply Hn. lia.
Qed.
