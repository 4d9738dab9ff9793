(** The grammar by names, and what the parser's numbers have to do with it. *)
From Coq Require Import List String ZArith Bool Lia.
From Verif Require Import Base CompilerNames Lexer LexerFile Parser LRSpec ParserTable ParserGrammar ParserTree ParserActions ParserFile ParserValid ParserFileProofs.
Import ListNotations.
Local Open Scope string_scope.
Local Open Scope list_scope.

(** [derives x w]: by the rules of the grammar (asn_compiler.yacc 327-1730, see ParserGrammar.v), the symbol [x] may be replaced by the
    tokens [w]. *)
Definition token_names : list string := firstn 153 symbol_names.
Inductive derives : string -> list string -> Prop :=
| dv_token a : In a token_names -> derives a [a]
| dv_rule x rhs w : In (x, rhs) grammar -> derives_all rhs w -> derives x w
with derives_all : list string -> list string -> Prop :=
| dv_nil : derives_all [] []
| dv_cons x rhs w1 w2 : derives x w1 -> derives_all rhs w2 -> derives_all (x :: rhs) (w1 ++ w2).

Definition name (n : Z) : string := nth (Z.to_nat n) symbol_names "".
Definition strings_eqb (a b : list string) : bool := if list_eq_dec string_dec a b then true else false.
Lemma rules_named : forallb (fun k => match rules k, nth_error grammar (Z.to_nat (k - 1)) with
  | Some (X, rhs), Some (x, r) => String.eqb (name X) x && strings_eqb (map name rhs) r | _, _ => false end) all_rules = true.
Proof. vm_compute. reflexivity. Qed.
Lemma rule_named k X rhs : rules k = Some (X, rhs) -> In (name X, map name rhs) grammar.
Proof.
  intros E. pose proof rules_named as C. rewrite forallb_forall in C. specialize (C k (in_all_rules _ (rules_range _ _ _ E))). rewrite E in C.
  destruct (nth_error grammar (Z.to_nat (k - 1))) as [[x r]|] eqn:G; [|discriminate]. apply nth_error_In in G. rewrite andb_true_iff, String.eqb_eq in C. destruct C as [<- C].
  unfold strings_eqb in C. destruct (list_eq_dec string_dec (map name rhs) r) as [<-|]; [exact G|discriminate].
Qed.
Lemma token_named a : (0 <= a < ntokens yy_tables)%Z -> In (name a) token_names.
Proof.
  intros H. assert (C : forallb (fun a => if in_dec string_dec (name a) token_names then true else false) (upto (ntokens yy_tables)) = true) by (vm_compute; reflexivity).
  rewrite forallb_forall in C. specialize (C a (in_upto _ _ H)). destruct (in_dec string_dec (name a) token_names); [assumption|discriminate].
Qed.
Lemma phrase_derives :
  (forall X w s v s', LRSpec.phrase semantic ParserTree.state (ntokens yy_tables) rules perform X w s v s' -> derives (name X) (map (fun e => name (fst e)) w) /\ Forall (fun e => 0 <= fst e < ntokens yy_tables)%Z w) /\
  (forall rhs w s vs s', LRSpec.phrases semantic ParserTree.state (ntokens yy_tables) rules perform rhs w s vs s' -> derives_all (map name rhs) (map (fun e => name (fst e)) w) /\ Forall (fun e => 0 <= fst e < ntokens yy_tables)%Z w).
Proof.
  apply phrase_mutind.
  - intros a v st Ha. split; [apply dv_token, token_named, Ha|]. constructor; [exact Ha|constructor].
  - intros k X rhs w st vs st1 v st2 E _ [D F] _. split; [|exact F]. eapply dv_rule; [apply (rule_named _ _ _ E)|exact D].
  - intros st. split; constructor.
  - intros X rhs w1 w2 st v st1 vs st2 _ [D1 F1] _ [D2 F2]. cbn [map]. rewrite map_app. split; [constructor; assumption|apply Forall_app; auto].
Qed.
Lemma place_name s : forall l n, (0 <= n)%Z -> place s l n <> (-1)%Z -> nth (Z.to_nat (place s l n - n)) l "" = s /\ (n <= place s l n)%Z.
Proof.
  induction l as [|x l IH]; intros n H N; cbn [place] in *; [congruence|]. destruct (String.eqb_spec s x) as [->|Ns].
  - rewrite Z.sub_diag. split; [reflexivity|lia].
  - destruct (IH (n + 1)%Z ltac:(lia) N) as [E L]. split; [|lia]. replace (Z.to_nat (place s l (n + 1) - n)) with (S (Z.to_nat (place s l (n + 1) - (n + 1)))) by lia. exact E.
Qed.
Lemma name_number s : (0 <= number s)%Z -> name (number s) = s.
Proof. intros H. unfold name, number in *. destruct (place_name s symbol_names 0 ltac:(lia) ltac:(lia)) as [E _]. rewrite Z.sub_0_r in E. exact E. Qed.
Theorem sentence_derives ts s v s' : sentence (map tok ts) s v s' -> derives "ModuleDefinitionList" (map tk_name ts).
Proof.
  intros P. apply (proj1 phrase_derives) in P. destruct P as [D F]. change (name START) with "ModuleDefinitionList" in D. rewrite map_map in D.
  rewrite (map_ext_in _ tk_name) in D; [exact D|]. intros t Ht. cbn [tok fst]. apply name_number. rewrite Forall_map, Forall_forall in F. specialize (F t Ht). cbn [tok fst] in F. lia.
Qed.

(** Derivations as trees. *)
Inductive derivation := Leaf (a : string) | Node (rule : nat) (l : list derivation).
Fixpoint leaves (d : derivation) : list string := match d with Leaf a => [a] | Node _ l => flat_map leaves l end.
Definition root (d : derivation) : string := match d with Leaf a => a | Node k _ => match nth_error grammar (k - 1) with Some (x, _) => x | None => "" end end.
Fixpoint valid (d : derivation) : bool :=
  match d with
  | Leaf a => if in_dec string_dec a token_names then true else false
  | Node k l => match nth_error grammar (k - 1) with Some (_, rhs) => strings_eqb rhs (map root l) | None => false end && forallb valid l
  end.
Fixpoint valid_derives (d : derivation) : valid d = true -> derives (root d) (leaves d).
Proof.
  destruct d as [a|k l]; cbn [valid root leaves].
  - destruct (in_dec string_dec a token_names); [|discriminate]. intros _. apply dv_token. assumption.
  - destruct (nth_error grammar (k - 1)) as [[x rhs]|] eqn:G; [|discriminate]. rewrite andb_true_iff. intros [E V]. unfold strings_eqb in E. destruct (list_eq_dec string_dec rhs (map root l)) as [->|]; [|discriminate].
    apply nth_error_In in G. apply (dv_rule _ _ _ G). clear G. revert V. induction l as [|d l IH]; cbn [forallb map flat_map]; [constructor|]. rewrite andb_true_iff. intros [V1 V2]. constructor; [apply valid_derives, V1|apply IH, V2].
Qed.
