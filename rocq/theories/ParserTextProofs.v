(** Written texts are read as their tokens. *)
From Coq Require Import String Ascii List ZArith PArith Bool FSets.FMapPositive Lia.
From Verif Require Import Base CompilerNames Lexer LexerTable LexerSpec LexerProofs LexerFacts LexerFile LexerColumns LexerLexemes ParserText.
Import ListNotations.
Local Open Scope string_scope.
Local Open Scope list_scope.
Local Open Scope nat_scope.

(** * Lexemes *)
Definition symbol_places : list (nat * (string * string)) := combine (seq 0 12 ++ seq 13 6) symbol_spellings.
Lemma symbol_rule i p : In (i, p) symbol_places -> nth_error lexer_rules (108 + i) = Some (lit (fst p)) /\ (forall u, rule_meaning (108 + i) u = Gives (Token (snd p) PNone)) /\ fst p <> EmptyString.
Proof. intros H. vm_compute in H. repeat (destruct H as [[= <- <-]|H]; [split; [reflexivity|split; [intros; reflexivity|discriminate]]|]). destruct H. Qed.
Lemma symbol_place p : In p symbol_spellings -> exists i, In (i, p) symbol_places.
Proof. intros H. vm_compute in H. repeat (destruct H as [<-|H]; [eexists; vm_compute; tauto|]). destruct H. Qed.
Lemma symbol_starters i p : In (i, p) symbol_places -> forall j, In j (starters (hd 0%Z (codes (fst p)))) -> j = 127 \/ exists i' p', In (i', p') symbol_places /\ j = 108 + i'.
Proof.
  intros Hp. assert (A : forallb (fun q => forallb (fun j => Nat.eqb j 127 || existsb (fun q => Nat.eqb j (108 + fst q)) symbol_places) (starters (hd 0%Z (codes (fst (snd q)))))) symbol_places = true) by (vm_compute; reflexivity).
  rewrite forallb_forall in A. specialize (A _ Hp). cbn [fst snd] in A. rewrite forallb_forall in A. intros j Hj. specialize (A j Hj). apply orb_prop in A. destruct A as [A|A]; [left; apply Nat.eqb_eq, A|right].
  apply existsb_exists in A. destruct A as ([i' p'] & Hp' & E). apply Nat.eqb_eq in E. eauto.
Qed.
Fixpoint prefixb (a b : list Z) : bool := match a, b with [], _ => true | x :: a, y :: b => (x =? y)%Z && prefixb a b | _, [] => false end.
Lemma prefixb_app a b : prefixb a (a ++ b) = true.
Proof. induction a; cbn; [reflexivity|]. rewrite Z.eqb_refl. exact IHa. Qed.
Lemma symbol_longer i p i' p' : In (i, p) symbol_places -> In (i', p') symbol_places -> prefixb (codes (fst p)) (codes (fst p')) = true -> i' = i \/
  (length (codes (fst p)) < length (codes (fst p'))) /\ (((fst p = "." \/ fst p = "..") /\ nth (length (codes (fst p))) (codes (fst p')) 0%Z = 46%Z) \/ (fst p = ":" /\ nth (length (codes (fst p))) (codes (fst p')) 0%Z = 58%Z)).
Proof.
  intros H H'. assert (A : forallb (fun q => forallb (fun q' => negb (prefixb (codes (fst (snd q))) (codes (fst (snd q')))) || Nat.eqb (fst q') (fst q) ||
    (Nat.ltb (length (codes (fst (snd q)))) (length (codes (fst (snd q')))) && ((((fst (snd q) =? ".")%string || (fst (snd q) =? "..")%string) && (nth (length (codes (fst (snd q)))) (codes (fst (snd q'))) 0 =? 46)%Z) ||
      ((fst (snd q) =? ":")%string && (nth (length (codes (fst (snd q)))) (codes (fst (snd q'))) 0 =? 58)%Z)))) symbol_places) symbol_places = true) by (vm_compute; reflexivity).
  rewrite forallb_forall in A. specialize (A _ H). rewrite forallb_forall in A. specialize (A _ H'). cbn [fst snd] in A. intros P. rewrite P in A. cbn [negb orb] in A.
  apply orb_prop in A. destruct A as [A|A]; [left; apply Nat.eqb_eq, A|right]. apply andb_prop in A. destruct A as [A1 A2]. apply Nat.ltb_lt in A1. split; [exact A1|].
  apply orb_prop in A2. destruct A2 as [A2|A2]; apply andb_prop in A2; destruct A2 as [A2 A3]; apply Z.eqb_eq in A3; [left|right]; (split; [|exact A3]).
  - apply orb_prop in A2. rewrite !String.eqb_eq in A2. exact A2.
  - apply String.eqb_eq, A2.
Qed.
Lemma symbol_lexeme s name rest : In (s, name) symbol_spellings -> (s = "." \/ s = ".." -> next_octet (fun c => c <> 46%Z) rest) -> (s = ":" -> next_octet (fun c => c <> 58%Z) rest) ->
  exists k, lexemes lexer_rules (codes s ++ rest) [(k, codes s)] rest /\ rule_meaning k (codes s) = Gives (Token name PNone) /\ k <> 105.
Proof.
  intros H R1 R2. destruct (symbol_place _ H) as (i & Hi). destruct (symbol_rule i _ Hi) as (Hr & Hm & Hs). cbn [fst snd] in *. exists (108 + i). split; [|split; [apply Hm|lia]].
  assert (Ns : exists c v, codes s = c :: v) by (destruct s; [contradiction|]; cbn; eauto). destruct Ns as (c & v & Ec).
  apply (lexeme_by _ _ _ (lit s)); [rewrite Ec; discriminate|exact Hr|apply lit_iff; [exact Hs|reflexivity]|].
  intros j r x y z Hj M E. rewrite Ec in E. pose proof (no_empty j r x y _ Hj M E) as X. cbn in X. destruct X as (x' & -> & E'). pose proof (starts_with _ _ _ _ Hj M) as I.
  pose proof (symbol_starters _ _ Hi j) as S. cbn [fst] in S. rewrite Ec in S. cbn [hd] in S. destruct (S I) as [->|(i' & p' & Hp' & ->)].
  - pose proof (single_dot 127 r _ Hj eq_refl M) as H1. rewrite Ec. cbn [length] in *. assert (i < 19) by (clear - Hi; apply in_combine_l in Hi; apply in_app_iff in Hi; rewrite !in_seq in Hi; lia). destruct v; cbn [length]; lia.
  - destruct (symbol_rule i' _ Hp') as (Hr' & _ & Hs'). rewrite Hr' in Hj. injection Hj as <-. apply lit_iff in M; [|exact Hs']. change (c :: v ++ rest ++ z) with ((c :: v) ++ rest ++ z) in E. rewrite M, <- Ec in *.
    destruct (app_cmp _ _ _ _ E) as [(e & Ee)|(d & e & Ee & Er)].
    + destruct e as [|d e]; [rewrite app_nil_r in Ee; right; split; [congruence|]|left; rewrite Ee, app_length; cbn [length]; lia].
      assert (i' = i); [|lia]. destruct (symbol_longer i (s, name) i' p' Hi Hp') as [F|[F _]]; cbn [fst] in *; [rewrite Ee; rewrite <- (app_nil_r (codes (fst p'))) at 2; apply prefixb_app|exact F|].
      rewrite Ee in F. lia.
    + exfalso. destruct (symbol_longer i (s, name) i' p' Hi Hp') as [F|[F1 F2]]; cbn [fst] in *.
      * rewrite Ee. apply prefixb_app.
      * subst i'. rewrite Hr in Hr'. injection Hr' as Hl. assert (Q : matches (lit (fst p')) (codes s)) by (rewrite <- Hl; apply lit_iff; [exact Hs|reflexivity]).
        apply lit_iff in Q; [|exact Hs']. rewrite Q in Ee. apply (f_equal (@length Z)) in Ee. rewrite app_length in Ee. cbn [length] in Ee. lia.
      * rewrite Ee, app_nth2, Nat.sub_diag in F2 by lia. cbn [nth] in F2. destruct rest as [|d' rest].
        -- destruct F2 as [[F2 _]|[F2 _]]; [exact (R1 F2)|exact (R2 F2)].
        -- cbn in Er. injection Er as -> _. destruct F2 as [[F2 ->]|[F2 ->]]; [exact (R1 F2 eq_refl)|exact (R2 F2 eq_refl)].
Qed.
Lemma real_lexeme ds es rest : ds <> [] -> Forall is_digit ds -> es <> [] -> Forall is_digit es -> next_octet (fun c => ~ is_digit c) rest ->
  lexemes lexer_rules ((ds ++ 46%Z :: es) ++ rest) [(95, ds ++ 46%Z :: es)] rest.
Proof.
  intros Nd Fd Ne Fe R. assert (Dot : ~ is_digit 46) by (unfold is_digit; lia).
  apply (lexeme_by _ rest 95 (RSeq (plus digit) (RSeq (one 46) (plus digit)))); [destruct ds; discriminate|reflexivity| |].
  { constructor; [apply digits_iff; auto|]. change (46%Z :: es) with ([46%Z] ++ es). constructor; [apply one_iff; reflexivity|apply digits_iff; auto]. }
  intros j r x y z Hj M E. destruct Fd as [|c ds Hc Fd]; [congruence|]. pose proof (no_empty j r x y _ Hj M E) as X. cbn in X. destruct X as (x' & -> & _). pose proof (starts_with _ _ _ _ Hj M) as I.
  rewrite (digit_starters c Hc) in I. rewrite <- app_assoc in E. destruct I as [<-|[<-|[<-|[]]]].
  - change (nth_error lexer_rules 95) with (Some (RSeq (plus digit) (RSeq (one 46) (plus digit)))) in Hj. injection Hj as <-. rewrite seq_iff in M. destruct M as (a & b & Ex & Ha & Hb). rewrite seq_iff in Hb. destruct Hb as (b1 & b2 & -> & Hb1 & Hb2).
    apply one_iff in Hb1. subst b1. apply digits_iff in Ha, Hb2. destruct Ha as [_ Ha], Hb2 as [Nb Hb]. rewrite Ex in *. rewrite <- app_assoc in E.
    assert (Ea : a = c :: ds).
    { assert (L1 : length a <= length (c :: ds)) by (apply (digit_bound (c :: ds) [46%Z] a ((46%Z :: b2) ++ y) (es ++ rest ++ z) Ha Dot); exact E).
      assert (L2 : length (c :: ds) <= length a). { apply (digit_bound a [46%Z] (c :: ds) (46%Z :: es ++ rest ++ z) (b2 ++ y) ltac:(constructor; assumption) Dot). symmetry. exact E. }
      apply (same_length a (46%Z :: b2 ++ y) (c :: ds) (46%Z :: es ++ rest ++ z)); [exact E|lia]. }
    subst a. apply app_inv_head in E. injection E as E.
    pose proof (digit_bound es rest b2 y z Hb R E) as L. rewrite !app_length. cbn [length]. lia.
  - left. change (nth_error lexer_rules 96) with (Some (plus digit)) in Hj. injection Hj as <-. apply digits_iff in M. destruct M as [_ M].
    pose proof (digit_bound (c :: ds) [46%Z] _ y (es ++ rest ++ z) M Dot E) as L. rewrite app_length. cbn [length] in *. lia.
  - left. pose proof (single_dot 127 r _ Hj eq_refl M) as H1. rewrite app_length. cbn [length] in *. lia.
Qed.
Lemma field_lexeme w rest : word w -> word_ends rest -> exists c t, w = c :: t /\
  (is_upper c /\ lexemes lexer_rules ((38%Z :: w) ++ rest) [(103, 38%Z :: w)] rest \/ is_lower c /\ lexemes lexer_rules ((38%Z :: w) ++ rest) [(104, 38%Z :: w)] rest).
Proof.
  intros W We. destruct (word_name w W) as (c & t & Ew & Hn). exists c, t. split; [exact Ew|].
  assert (B : forall j r x y z, nth_error lexer_rules j = Some r -> matches r x -> x ++ y = (38%Z :: w) ++ rest ++ z -> length x < length (38%Z :: w) \/ (length x = length (38%Z :: w) /\
    (j = 103 /\ is_upper c \/ j = 104 /\ is_lower c))).
  { intros j r x y z Hj M E. pose proof (no_empty j r x y _ Hj M E) as X. cbn in X. destruct X as (x' & -> & E'). pose proof (starts_with _ _ _ _ Hj M) as I. change (starters 38) with [103; 104; 127] in I.
    assert (K : forall q, matches q x' -> (q = upper_name \/ q = lower_name) -> length x' <= length w /\ (q = upper_name -> is_upper c) /\ (q = lower_name -> is_lower c)).
    { intros q Mq Hq. split; [apply (word_bound w rest x' y z); [apply name_name_like; destruct Hq; subst; auto|exact We|exact E']|]. rewrite Ew in E'.
      split; intros ->; apply seq_iff in Mq; destruct Mq as (a & b & -> & Ha & _); [apply upper_iff in Ha|apply lower_iff in Ha]; destruct Ha as (d & -> & Hd); cbn in E'; injection E' as <- _; exact Hd. }
    destruct I as [<-|[<-|[<-|[]]]].
    - change (nth_error lexer_rules 103) with (Some (RSeq (one 38) upper_name)) in Hj. injection Hj as <-. apply seq_iff in M. destruct M as (a & b & Ex & Ha & Hb). apply one_iff in Ha. subst a. cbn in Ex. injection Ex as ->.
      destruct (K _ Hb (or_introl eq_refl)) as (L & U & _). specialize (U eq_refl). cbn [length app]. destruct (Nat.eq_dec (length b) (length w)); [right; split; [lia|left; auto]|left; lia].
    - change (nth_error lexer_rules 104) with (Some (RSeq (one 38) lower_name)) in Hj. injection Hj as <-. apply seq_iff in M. destruct M as (a & b & Ex & Ha & Hb). apply one_iff in Ha. subst a. cbn in Ex. injection Ex as ->.
      destruct (K _ Hb (or_intror eq_refl)) as (L & _ & U). specialize (U eq_refl). cbn [length app]. destruct (Nat.eq_dec (length b) (length w)); [right; split; [lia|right; auto]|left; lia].
    - left. pose proof (single_dot 127 r _ Hj eq_refl M) as H1. rewrite Ew. cbn [length] in *. lia. }
  destruct Hn as [[Hc Hn]|[Hc Hn]]; [left|right]; (split; [exact Hc|]);
    [apply (lexeme_by (38%Z :: w) rest 103 (RSeq (one 38) upper_name))|apply (lexeme_by (38%Z :: w) rest 104 (RSeq (one 38) lower_name))];
    try discriminate; try reflexivity; try (change (38%Z :: w) with ([38%Z] ++ w); constructor; [apply one_iff; reflexivity|exact Hn]);
    intros j r x y z Hj M E; destruct (B j r x y z Hj M E) as [L|[L [[-> Hu]|[-> Hl]]]]; auto; try (right; split; [exact L|lia]).
  unfold is_upper, is_lower in *. lia.
Qed.
Fixpoint pair_free (w : list Z) : bool := match w with c :: t => negb ((c =? 45)%Z && match t with d :: _ => (d =? 45)%Z | [] => false end) && pair_free t | [] => true end.
Lemma pair_free_spec w : pair_free w = true -> ~ occurs [45; 45]%Z w.
Proof.
  induction w as [|c w IH]; intros H; [apply occurs_nil|]. cbn [pair_free] in H. apply andb_prop in H. destruct H as [H1 H2]. rewrite occurs_pair_cons. intros [[-> (t & ->)]|H]; [discriminate|exact (IH H2 H)].
Qed.
Lemma keyword_word s : In s keywords -> word (codes s).
Proof.
  intros K. assert (A : forallb (fun s => match codes s with c :: t => ((65 <=? c) && (c <=? 90))%Z && forallb (fun d => in_ranges d [(65, 90); (97, 122); (95, 95); (48, 57); (45, 45)]%Z) t | [] => false end
        && negb (last (codes s) 0 =? 45)%Z && pair_free (codes s)) keywords = true) by (vm_compute; reflexivity).
  rewrite forallb_forall in A. specialize (A s K). apply andb_prop in A. destruct A as [A A3]. apply andb_prop in A. destruct A as [A1 A2]. split; [|split].
  - destruct (codes s) as [|c t]; [discriminate|]. exists c, t. split; [reflexivity|]. apply andb_prop in A1. destruct A1 as [A1 A4]. split; [left; unfold is_upper; lia|]. rewrite forallb_forall in A4. apply Forall_forall. intros d Hd. specialize (A4 d Hd).
    apply in_ranges_iff in A4. sets. unfold word_octet, is_upper, is_lower, is_digit. lia.
  - intros E. rewrite E in A2. discriminate.
  - apply pair_free_spec, A3.
Qed.
Lemma keyword_upper s : In s keywords -> starts_word is_upper (codes s).
Proof.
  intros K. assert (A : forallb (fun s => match codes s with c :: _ => ((65 <=? c) && (c <=? 90))%Z | [] => false end) keywords = true) by (vm_compute; reflexivity).
  rewrite forallb_forall in A. specialize (A s K). destruct (codes s); [discriminate|]. unfold starts_word, is_upper. lia.
Qed.
Lemma middle_of a b (ds : list Z) : firstn (length (39%Z :: ds ++ [a; b]) - 3) (tl (39%Z :: ds ++ [a; b])) = ds.
Proof. cbn [tl length]. rewrite app_length. cbn [length]. replace (S (length ds + 2) - 3) with (length ds) by lia. rewrite firstn_app, firstn_all, Nat.sub_diag. cbn. apply app_nil_r. Qed.
Lemma decimal_nonneg ds : Forall is_digit ds -> (0 <= decimal ds)%Z.
Proof. intros F. induction F as [|c ds Hc F IH]; cbn [decimal]; [lia|]. unfold is_digit in Hc. assert (0 <= 10 ^ zlen ds)%Z by (apply Z.pow_nonneg; lia). nia. Qed.
Lemma spelled_lexeme u t rest : spelled u t rest -> exists k, lexemes lexer_rules (u ++ rest) [(k, u)] rest /\ rule_meaning k u = Gives t /\ k <> 105.
Proof.
  intros [s r Hs We|s name r Hs R1 R2|w r W N U We|w r W U We|w r W U We|w r W U We|ds r Nd F V R1 R2|ds r Nd F V R|ds es r Nd Fd Ne Fe R|items r F R|ds r F|ds r F].
  - destruct (In_nth_error _ _ Hs) as (i & Hi). exists i. split; [apply (keyword_lexeme (codes s) r i s (keyword_word s Hs) We Hi eq_refl)|]. split; [unfold rule_meaning; rewrite Hi; reflexivity|].
    intros ->. vm_compute in Hi. discriminate.
  - exact (symbol_lexeme s name r Hs R1 R2).
  - destruct (name_lexeme w r W We N) as (c & v & -> & [[Hc L]|[Hc L]]); [exists 101; split; [exact L|split; [reflexivity|lia]]|]. unfold starts_word, is_upper, is_lower in *. lia.
  - assert (N : ~ In w (map codes keywords)). { intros I. apply in_map_iff in I. destruct I as (s & <- & Hs). pose proof (keyword_upper s Hs) as K. destruct (codes s); [exact K|]. unfold starts_word, is_upper, is_lower in *. lia. }
    destruct (name_lexeme w r W We N) as (c & v & -> & [[Hc L]|[Hc L]]); [|exists 102; split; [exact L|split; [reflexivity|lia]]]. unfold starts_word, is_upper, is_lower in *. lia.
  - destruct (field_lexeme w r W We) as (c & v & -> & [[Hc L]|[Hc L]]); [exists 103; split; [exact L|split; [reflexivity|lia]]|]. unfold starts_word, is_upper, is_lower in *. lia.
  - destruct (field_lexeme w r W We) as (c & v & -> & [[Hc L]|[Hc L]]); [|exists 104; split; [exact L|split; [reflexivity|lia]]]. unfold starts_word, is_upper, is_lower in *. lia.
  - exists 96. split; [apply number_lexeme; [exact Nd|exact F|]|split; [|lia]].
    + destruct r as [|c r]; [exact R1|]. split; [exact R1|]. intros ->. exact (R2 r eq_refl).
    + change (rule_meaning 96 ds) with (integer "number" ds). unfold integer. assert (E : number_value ds = decimal ds) by (destruct F as [|c ds Hc F]; [congruence|]; unfold number_value; destruct (c =? 45)%Z eqn:E; [unfold is_digit in Hc; lia|reflexivity]).
      rewrite E. pose proof (decimal_nonneg ds F). destruct ((-2 ^ 63 <=? decimal ds) && (decimal ds <? 2 ^ 63))%Z eqn:X; [reflexivity|lia].
  - exists 97. split; [apply negative_lexeme; [exact Nd|exact F|exact R]|split; [|lia]]. change (rule_meaning 97 (45%Z :: ds)) with (integer "negativenumber" (45%Z :: ds)). unfold integer. change (number_value (45%Z :: ds)) with (- decimal ds)%Z.
    pose proof (decimal_nonneg ds F). destruct ((-2 ^ 63 <=? - decimal ds) && (- decimal ds <? 2 ^ 63))%Z eqn:X; [reflexivity|lia].
  - exists 95. split; [apply real_lexeme; assumption|split; [reflexivity|lia]].
  - exists 98. split; [apply string_lexeme; [exact F|exact R]|split; [reflexivity|lia]].
  - exists 99. split; [apply (quoted_digits_lexeme 99 _ 66 ds r ltac:(left; auto) (proj2 (bit_star ds) F))|split; [|lia]]. cbn [rule_meaning nth_error keywords]. rewrite middle_of. reflexivity.
  - exists 100. split; [apply (quoted_digits_lexeme 100 _ 72 ds r ltac:(right; auto) (proj2 (hex_star ds) F))|split; [|lia]]. cbn [rule_meaning nth_error keywords]. rewrite middle_of. reflexivity.
Qed.

(** * Texts *)
Lemma written_reads text ts : written text ts -> bytes text -> reads_as (text ++ [0%Z]) (Ok (Some (ts ++ [eof_token]))).
Proof.
  intros H. induction H as [|c text ts Hc H IH|w text ts Bw N1 N2 N3 N4 H IH|w c text ts Bw N1 N2 N3 Hc H IH|w text ts Bw N H IH|u t text ts S H IH]; intros B.
  - apply (ra_end _ [] [0%Z] []); [constructor|constructor|constructor|]. change [0%Z] with ([0%Z] ++ []) at 1. apply (lexeme_by [0%Z] [] 105 (one 0)); [discriminate|reflexivity|apply one_iff; reflexivity|].
    intros j r x y z Hj M E. cbn in E. pose proof (no_empty j r x y _ Hj M E) as X. cbn in X. destruct X as (x' & -> & E'). pose proof (starts_with _ _ _ _ Hj M) as I. change (starters 0) with [105; 127] in I.
    destruct I as [<-|[<-|[]]]; [change (nth_error lexer_rules 105) with (Some (one 0)) in Hj; injection Hj as <-; apply one_iff in M; rewrite M; cbn; lia|].
    pose proof (single_dot 127 r _ Hj eq_refl M) as H1. cbn [length] in *. lia.
  - inversion B as [|? ? _ B']; subst. apply white_reads; [apply file_bytes, B'|destruct text; discriminate|exact Hc|apply IH, B'].
  - apply Forall_app in B. destruct B as [_ B]. apply Forall_app in B. destruct B as [_ B]. apply Forall_app in B. destruct B as [_ B]. pose proof (closed_comment_lexeme w (text ++ [0%Z]) Bw (conj N1 (conj N2 N3)) N4) as L. cbv zeta in L.
    pose proof (skip_lexeme 92 _ _ _ L eq_refl (IH B)) as S. rewrite <- !app_assoc in *. exact S.
  - apply Forall_app in B. destruct B as [_ B]. apply Forall_app in B. destruct B as [_ B]. pose proof (line_comment_lexeme w c (text ++ [0%Z]) Bw (conj N1 (conj N2 N3)) Hc) as L. cbv zeta in L.
    pose proof (skip_lexeme 93 _ _ _ L eq_refl (IH B)) as S. rewrite <- !app_assoc in *. exact S.
  - apply Forall_app in B. destruct B as [_ B]. apply Forall_app in B. destruct B as [_ B]. apply Forall_app in B. destruct B as [_ B]. pose proof (block_lexeme w (text ++ [0%Z]) Bw N) as L. cbv zeta in L.
    pose proof (skip_lexeme 94 _ _ _ L eq_refl (IH B)) as S. rewrite <- !app_assoc in *. exact S.
  - apply Forall_app in B. destruct B as [_ B]. destruct (spelled_lexeme u t _ S) as (k & L & E & Nk). rewrite <- app_assoc.
    pose proof (reads_cons k u (text ++ [0%Z]) _ L ltac:(split; [unfold good; cbn; rewrite E; discriminate|exact Nk]) (IH B)) as R. cbn [tokens_of] in R. rewrite E in R. exact R.
Qed.
Theorem written_tokens text ts : bytes text -> written text ts -> file_tokens text = Ok (Some (ts ++ [eof_token])).
Proof. intros B W. apply (reads_as_unique (text ++ [0%Z])); [apply file_reads, B|apply written_reads; [exact W|exact B]]. Qed.
