(** Phrases of the subset, on tokens of the lexer. *)
From Coq Require Import List String ZArith NArith Bool Lia.
From Verif Require Import Base Lexer Parser LRSpec LRProofs LRComplete ParserTable ParserGrammar ParserTree ParserActions ParserFile ParserSubset ParserValid ParserComplete ParserFileProofs.
Import ListNotations.
Local Open Scope Z_scope.
Local Open Scope list_scope.

(** [ph X ts next s v s']: the tokens [ts], with a token of the name [next] behind them, are a phrase for [X]. *)
Definition ph (X : Z) (ts : list Lexer.token) (next : string) (s : ParserTree.state) (v : semantic) (s' : ParserTree.state) : Prop :=
  sub_filtered X (map tok ts) (number next) s v s'.
Definition phs (Xs : list Z) (ts : list Lexer.token) (next : string) (s : ParserTree.state) (vs : list semantic) (s' : ParserTree.state) : Prop :=
  filtereds semantic ParserTree.state (ntokens yy_tables) sub (sub_action semantic ParserTree.state perform base) allowed Xs (map tok ts) (number next) s vs s'.
(** The name of the first token. *)
Definition nxt (ts : list Lexer.token) (next : string) : string := match ts with [] => next | t :: _ => tk_name t end.
Lemma first_of_nxt ts next : first_of semantic (map tok ts) (number next) = number (nxt ts next).
Proof. destruct ts; reflexivity. Qed.
Lemma nxt_app a b next : nxt (a ++ b) next = nxt a (nxt b next).
Proof. destruct a; reflexivity. Qed.
Lemma phs_nil next s : phs [] [] next s [] s.
Proof. constructor. Qed.
Lemma phs_cons X Xs t1 t2 next s v s1 vs s2 : ph X t1 (nxt t2 next) s v s1 -> phs Xs t2 next s1 vs s2 -> phs (X :: Xs) (t1 ++ t2) next s (v :: vs) s2.
Proof. intros H1 H2. unfold phs. rewrite map_app. econstructor; [rewrite first_of_nxt; exact H1|exact H2]. Qed.
Lemma phs_token X Xs t ts next s vs s' : (number (tk_name t) =? X) && (0 <=? X) && (X <? ntokens yy_tables) = true -> phs Xs ts next s vs s' ->
  phs (X :: Xs) (t :: ts) next s (token_value t :: vs) s'.
Proof.
  rewrite !andb_true_iff, Z.eqb_eq, Z.leb_le, Z.ltb_lt. intros [[<- H1] H2] H. eapply (phs_cons _ _ [t] ts); [|exact H]. apply (filtered_token _ _ _ _ _ _ (number (tk_name t))). lia.
Qed.
Lemma ph_rule j X Xs ts next s vs s1 v s2 : sub j = Some (X, Xs) -> allowed j (number next) = true -> phs Xs ts next s vs s1 ->
  perform (base j) vs s1 = Ok (v, s2) -> ph X ts next s v s2.
Proof. intros H1 H2 H3 H4. econstructor; [exact H1|exact H2|exact H3|exact H4]. Qed.
(** Rules without restrictions. *)
Lemma allowed_always j a : forbidden j = 0%N -> allowed j a = true.
Proof. intros H. unfold allowed, member. rewrite H, N.bits_0, andb_false_r. reflexivity. Qed.
(** Rules that may not stand before certain tokens. *)
Lemma place_injective s s' : forall l n, place s l n = place s' l n -> 0 <= n -> place s l n <> -1 -> s = s'.
Proof.
  induction l as [|x l IH]; intros n E Hn N; cbn [place] in *; [contradiction|]. destruct (String.eqb_spec s x), (String.eqb_spec s' x).
  - congruence.
  - subst. destruct (place_range s' l (n + 1)); lia.
  - subst. destruct (place_range s l (n + 1)); lia.
  - apply (IH (n + 1)); [exact E|lia|exact N].
Qed.
Lemma number_injective s s' : number s = number s' -> number s <> -1 -> s = s'.
Proof. intros E N. apply (place_injective s s' symbol_names 0); [exact E|lia|exact N]. Qed.
Lemma bits_member a l : member a (bits l) = true -> (forall x, In x l -> 0 <= x) -> In a l.
Proof.
  unfold member. rewrite andb_true_iff, Z.leb_le. intros [H1 H2] P. unfold bits in H2. induction l as [|x l IH]; cbn [fold_right] in H2; [rewrite N.bits_0 in H2; discriminate|].
  rewrite N.setbit_eqb, orb_true_iff, N.eqb_eq in H2. destruct H2 as [H2|H2]; [|right; apply IH; [exact H2|intros y Hy; apply P; right; exact Hy]].
  left. specialize (P x (or_introl eq_refl)). lia.
Qed.
Lemma allowed_before j names next : forbidden j = bits (map number names) -> forallb (fun x => 0 <=? number x) names = true -> ~ In next names ->
  allowed j (number next) = true.
Proof.
  intros F P N. unfold allowed. rewrite F. destruct (member (number next) (bits (map number names))) eqn:M; [|reflexivity]. exfalso. rewrite forallb_forall in P.
  apply bits_member in M. 2:{ intros x Hx. apply in_map_iff in Hx. destruct Hx as (y & <- & Hy). apply Z.leb_le, P, Hy. }
  apply in_map_iff in M. destruct M as (y & E & Hy). apply N. rewrite (number_injective next y); [exact Hy|congruence|]. specialize (P y Hy). apply Z.leb_le in P. lia.
Qed.
