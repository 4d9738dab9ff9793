(** Which lexeme a text starts with: words, comments, white space, numbers, strings. *)
From Coq Require Import String Ascii List ZArith PArith FSets.FMapPositive Lia.
From Verif Require Import Base CompilerNames Lexer LexerTable LexerSpec LexerProofs LexerFacts LexerFile.
Local Open Scope list_scope.
Local Open Scope nat_scope.

Lemma lexeme_by u rest k r : u <> [] -> nth_error lexer_rules k = Some r -> matches r u ->
  (forall j r' x y z, nth_error lexer_rules j = Some r' -> matches r' x -> x ++ y = u ++ rest ++ z -> length x < length u \/ (length x = length u /\ k <= j)) ->
  lexemes lexer_rules (u ++ rest) [(k, u)] rest.
Proof.
  intros Nu Hk M A. constructor; [| |constructor].
  - split; [rewrite app_length; destruct u; [congruence|cbn; lia]|]. split; [exists r; split; [exact Hk|]; rewrite firstn_app, firstn_all, Nat.sub_diag, firstn_O, app_nil_r; exact M|].
    intros j r' m Hj Hm Mm. destruct (A j r' (firstn m (u ++ rest)) (skipn m (u ++ rest)) [] Hj Mm) as [H|[H1 H2]]; [rewrite firstn_skipn, app_nil_r; reflexivity| |]; rewrite firstn_length_le in * by exact Hm; auto.
  - intros (j & r' & w & Hj & Nw & Bw & Mw). destruct (A j r' ((u ++ rest) ++ w) [] w Hj Mw) as [H|[H _]]; [rewrite app_nil_r, app_assoc; reflexivity| |]; rewrite !app_length in H; destruct w; [congruence|cbn in H; lia|congruence|cbn in H; lia].
Qed.
(** The rules whose texts can start with [c]. *)
Definition starters (c : Z) : list nat := map fst (filter (fun p => match pd c (snd p) with [] => false | _ => true end) (start_items lexer_rules)).
Lemma starts_with c x j r : nth_error lexer_rules j = Some r -> matches r (c :: x) -> In j (starters c).
Proof.
  intros Hn M. assert (I : item_match (start_items lexer_rules) j (c :: x)) by (apply start_match; eauto). destruct I as (r' & Hin & M'). unfold starters. apply in_map_iff. exists (j, r'). split; [reflexivity|].
  apply filter_In. split; [exact Hin|]. cbn [snd]. apply pd_iff in M'. destruct M' as (r'' & H & _). destruct (pd c r'); [destruct H|reflexivity].
Qed.
Lemma no_empty j r x y (w : list Z) : nth_error lexer_rules j = Some r -> matches r x -> x ++ y = w -> match w with [] => False | c :: w => exists x', x = c :: x' /\ x' ++ y = w end.
Proof.
  intros Hn M E. destruct x as [|c x]; [exfalso; eapply no_empty_rule; eauto|]. subst w. cbn. eauto.
Qed.

(** ** Words *)
(** Every hyphen is followed by a letter, digit or underscore. *)
Definition name_like (x : list Z) : Prop := forall a c b, x = a ++ c :: b -> word_octet c \/ (c = 45%Z /\ exists d b', b = d :: b' /\ word_octet d).
Definition tail_item : re := RSeq (opt hyphen) name_char.
Lemma name_char_iff w : matches name_char w <-> exists c, w = [c] /\ word_octet c.
Proof. unfold name_char, word_octet, is_upper, is_lower, is_digit. rewrite set_iff. split; intros (c & -> & H); exists c; sets; (split; [reflexivity|lia]). Qed.
Lemma tail_item_iff v : matches tail_item v <-> exists c, word_octet c /\ (v = [c] \/ v = [45%Z; c]).
Proof.
  unfold tail_item, opt. rewrite seq_iff. split.
  - intros (a & b & -> & H1 & H2). apply name_char_iff in H2. destruct H2 as (c & -> & Hc). exists c. split; [exact Hc|]. rewrite alt_iff, eps_iff in H1. destruct H1 as [H1| ->]; [apply one_iff in H1; subst a; auto|auto].
  - intros (c & Hc & [-> | ->]); [exists [], [c]|exists [45%Z], [c]]; (split; [reflexivity|]); (split; [|apply name_char_iff; eauto]); [apply m_right; constructor|apply m_left, one_iff; reflexivity].
Qed.
Lemma name_like_cons c x : (word_octet c \/ (c = 45%Z /\ exists d b, x = d :: b /\ word_octet d)) -> name_like x -> name_like (c :: x).
Proof. intros H N a c' b E. destruct a as [|a0 a]; cbn in E; injection E as <- E; [subst b; exact H|]. eapply N, E. Qed.
Lemma name_like_nil : name_like [].
Proof. intros [|a0 a] c b E; discriminate. Qed.
Lemma tail_name_like t : matches name_tail t -> name_like t.
Proof.
  revert t. apply (star_ind tail_item name_like); [apply name_like_nil|]. intros v u Hv _ IH. apply tail_item_iff in Hv. destruct Hv as (c & Hc & [-> | ->]); cbn [app].
  - apply name_like_cons; [auto|exact IH].
  - apply name_like_cons; [right; split; [reflexivity|eauto]|]. apply name_like_cons; [auto|exact IH].
Qed.
Lemma word_tail n : forall t, length t <= n -> Forall (fun d => word_octet d \/ d = 45%Z) t -> last t 0%Z <> 45%Z -> ~ occurs [45; 45]%Z t -> matches name_tail t.
Proof.
  induction n as [|n IH]; intros t Hn F L P; [destruct t; [constructor|cbn in Hn; lia]|]. destruct t as [|c t]; [constructor|]. inversion F as [|? ? Hc Ft]; subst.
  assert (P' : ~ occurs [45; 45]%Z t) by (intros H; apply P, occurs_cons, H). destruct Hc as [Hc| ->].
  - change (c :: t) with ([c] ++ t). constructor; [apply tail_item_iff; eauto|]. apply IH; [cbn in Hn; lia|exact Ft| |exact P']. destruct t; [discriminate|exact L].
  - destruct t as [|d t]; [cbn in L; congruence|]. inversion Ft as [|? ? Hd Ft']; subst. destruct Hd as [Hd| ->]; [|exfalso; apply P; exists [], t; reflexivity].
    change (45%Z :: d :: t) with ([45%Z; d] ++ t). constructor; [apply tail_item_iff; eauto|]. apply IH; [cbn in Hn; lia|exact Ft'| |intros H; apply P', occurs_cons, H]. destruct t; [discriminate|exact L].
Qed.
Definition upper_name : re := RSeq upper name_tail.
Definition lower_name : re := RSeq lower name_tail.
Lemma upper_iff w : matches upper w <-> exists c, w = [c] /\ is_upper c.
Proof. unfold upper, is_upper. rewrite set_iff. split; intros (c & -> & H); exists c; sets; (split; [reflexivity|lia]). Qed.
Lemma lower_iff w : matches lower w <-> exists c, w = [c] /\ is_lower c.
Proof. unfold lower, is_lower. rewrite set_iff. split; intros (c & -> & H); exists c; sets; (split; [reflexivity|lia]). Qed.
Lemma word_name w : word w -> exists c t, w = c :: t /\ (is_upper c /\ matches upper_name w \/ is_lower c /\ matches lower_name w).
Proof.
  intros ((c & t & -> & Hc & F) & L & P). exists c, t. split; [reflexivity|].
  assert (T : matches name_tail t).
  { apply (word_tail (length t)); [lia|exact F| |intros H; apply P, occurs_cons, H]. destruct t; [discriminate|exact L]. }
  destruct Hc as [Hc|Hc]; [left|right]; (split; [exact Hc|]); change (c :: t) with ([c] ++ t); (constructor; [|exact T]); [apply upper_iff|apply lower_iff]; eauto.
Qed.
Lemma name_name_like x : matches upper_name x \/ matches lower_name x -> name_like x.
Proof.
  unfold upper_name, lower_name. rewrite !seq_iff. intros [(a & b & -> & H1 & H2)|(a & b & -> & H1 & H2)]; [apply upper_iff in H1|apply lower_iff in H1]; destruct H1 as (c & -> & Hc);
    cbn [app]; (apply name_like_cons; [left; unfold word_octet; tauto|apply tail_name_like, H2]).
Qed.
(** A keyword matches only itself, and is a name. *)
Lemma lit_iff s : s <> EmptyString -> forall w, matches (lit s) w <-> w = codes s.
Proof.
  induction s as [|c s IH]; intros N w; [congruence|]. destruct s as [|d s].
  - cbn [lit codes]. apply one_iff.
  - change (lit (String c (String d s))) with (RSeq (one (code_of c)) (lit (String d s))). rewrite seq_iff. split.
    + intros (a & b & -> & H1 & H2). apply one_iff in H1. apply IH in H2; [|discriminate]. subst. reflexivity.
    + intros ->. exists [code_of c], (codes (String d s)). split; [reflexivity|]. split; [apply one_iff; reflexivity|apply IH; [discriminate|reflexivity]].
Qed.
Fixpoint name_likeb (x : list Z) : bool :=
  match x with
  | [] => true
  | c :: t => (in_ranges c [(65, 90); (97, 122); (95, 95); (48, 57)]%Z || ((c =? 45)%Z && match t with d :: _ => in_ranges d [(65, 90); (97, 122); (95, 95); (48, 57)]%Z | [] => false end)) && name_likeb t
  end.
Lemma word_octet_b c : in_ranges c [(65, 90); (97, 122); (95, 95); (48, 57)]%Z = true -> word_octet c.
Proof. intros H. apply in_ranges_iff in H. sets. unfold word_octet, is_upper, is_lower, is_digit. lia. Qed.
Lemma name_likeb_spec x : name_likeb x = true -> name_like x.
Proof.
  induction x as [|c x IH]; intros H; [apply name_like_nil|]. cbn [name_likeb] in H. apply andb_prop in H. destruct H as [H1 H2]. apply name_like_cons; [|auto].
  apply orb_prop in H1. destruct H1 as [H1|H1]; [left; apply word_octet_b, H1|right]. apply andb_prop in H1. destruct H1 as [H1 H3]. split; [lia|]. destruct x as [|d x]; [discriminate|]. exists d, x. split; [reflexivity|apply word_octet_b, H3].
Qed.
Lemma keyword_name_like s : In s keywords -> name_like (codes s) /\ s <> EmptyString.
Proof.
  intros H. assert (A : forallb (fun s => name_likeb (codes s) && negb (String.eqb s "")) keywords = true) by (vm_compute; reflexivity). rewrite forallb_forall in A. specialize (A s H).
  apply andb_prop in A. destruct A as [A1 A2]. split; [apply name_likeb_spec, A1|]. intros ->. discriminate.
Qed.
Lemma keyword_rule j s : nth_error keywords j = Some s -> nth_error lexer_rules j = Some (lit s).
Proof.
  intros H. unfold lexer_rules. rewrite nth_error_app1; [|rewrite map_length; apply nth_error_Some; congruence]. apply map_nth_error, H.
Qed.
Lemma letter_rules c : is_upper c \/ is_lower c -> forall j, In j (starters c) -> (exists s, nth_error keywords j = Some s) \/ (is_upper c /\ j = 101) \/ (is_lower c /\ j = 102) \/ j = 127.
Proof.
  intros Hc. assert (A : forallb (fun c => forallb (fun j => (match nth_error keywords j with Some _ => true | None => false end) || (((65 <=? c) && (c <=? 90))%Z && Nat.eqb j 101) || (((97 <=? c) && (c <=? 122))%Z && Nat.eqb j 102) || Nat.eqb j 127) (starters c))
     (map Z.of_nat (seq 65 26 ++ seq 97 26)) = true) by (vm_compute; reflexivity).
  rewrite forallb_forall in A. assert (I : In c (map Z.of_nat (seq 65 26 ++ seq 97 26))).
  { apply in_map_iff. exists (Z.to_nat c). unfold is_upper, is_lower in Hc. split; [lia|]. apply in_or_app. rewrite !in_seq. lia. }
  specialize (A c I). rewrite forallb_forall in A. intros j Hj. specialize (A j Hj). unfold is_upper, is_lower in *. apply orb_prop in A. destruct A as [A|A]; [|right; right; right; apply Nat.eqb_eq, A].
  apply orb_prop in A. destruct A as [A|A].
  - apply orb_prop in A. destruct A as [A|A].
    + left. destruct (nth_error keywords j); [eauto|discriminate].
    + right. left. apply andb_prop in A. destruct A as [A1 A2]. apply Nat.eqb_eq in A2. split; [lia|exact A2].
  - right. right. left. apply andb_prop in A. destruct A as [A1 A2]. apply Nat.eqb_eq in A2. split; [lia|exact A2].
Qed.
Lemma app_cmp (x y u v : list Z) : x ++ y = u ++ v -> (exists e, u = x ++ e) \/ (exists c e, x = u ++ c :: e /\ v = c :: e ++ y).
Proof.
  revert u. induction x as [|a x IH]; intros u E; [left; exists u; reflexivity|]. destruct u as [|b u]; [right; exists a, x; split; [reflexivity|symmetry; exact E]|].
  cbn in E. injection E as -> E. destruct (IH u E) as [(e & ->)|(c & e & -> & ->)]; [left; exists e; reflexivity|right; exists c, e; auto].
Qed.
Lemma word_bound w rest x y z : name_like x -> word_ends rest -> x ++ y = w ++ rest ++ z -> length x <= length w.
Proof.
  intros N W E. destruct (app_cmp _ _ _ _ E) as [(e & ->)|(c & e & -> & Ev)]; [rewrite app_length; lia|exfalso].
  destruct rest as [|c' t]; [destruct W|]. cbn in Ev. injection Ev as -> Ev. destruct W as [W1 W2]. destruct (N w c e eq_refl) as [H|(-> & d & b & -> & Hd)]; [exact (W1 H)|].
  specialize (W2 eq_refl). destruct t as [|d' t]; [exact W2|]. cbn in Ev. injection Ev as -> _. exact (W2 Hd).
Qed.
Lemma same_length (x y u v : list Z) : x ++ y = u ++ v -> length x = length u -> x = u.
Proof. intros E H. apply (f_equal (firstn (length x))) in E. rewrite firstn_app, Nat.sub_diag, firstn_all, firstn_O, app_nil_r in E. rewrite H, firstn_app, Nat.sub_diag, firstn_all, firstn_O, app_nil_r in E. exact E. Qed.
(** What a rule can match at a word. *)
Lemma word_rules w rest j r x y z : word w -> word_ends rest -> nth_error lexer_rules j = Some r -> matches r x -> x ++ y = w ++ rest ++ z ->
  length x < length w \/ (x = w /\ ((exists s, nth_error keywords j = Some s /\ w = codes s) \/ (exists c t, w = c :: t /\ is_upper c /\ j = 101) \/ (exists c t, w = c :: t /\ is_lower c /\ j = 102) \/ j = 127)).
Proof.
  intros W We Hj M E. destruct (word_name w W) as (c & t & Ew & Hn).
  pose proof (no_empty j r x y _ Hj M E) as X. rewrite Ew in X. cbn in X. destruct X as (x' & -> & _).
  assert (Hc : is_upper c \/ is_lower c) by tauto.
  assert (ONE : j = 127 -> x' = []).
  { intros ->. change (nth_error lexer_rules 127) with (Some dot) in Hj. injection Hj as <-. apply set_iff in M. destruct M as (d & H & _). congruence. }
  destruct (letter_rules c Hc j (starts_with c x' j r Hj M)) as [(s & Hs)|[[Hu ->]|[[Hl ->]|Hd]]].
  - assert (r = lit s) as -> by (rewrite (keyword_rule j s Hs) in Hj; congruence). destruct (keyword_name_like s (nth_error_In _ _ Hs)) as [NL NE]. apply lit_iff in M; [|exact NE].
    rewrite M in *. pose proof (word_bound w rest (codes s) y z NL We E) as Hb. destruct (Nat.eq_dec (length (codes s)) (length w)) as [Hl|]; [right|left; lia].
    pose proof (same_length _ _ _ _ E Hl) as Ex. split; [exact Ex|]. left. exists s. split; [exact Hs|symmetry; exact Ex].
  - change (nth_error lexer_rules 101) with (Some upper_name) in Hj. injection Hj as <-. pose proof (word_bound w rest _ y z (name_name_like _ (or_introl M)) We E) as Hb.
    destruct (Nat.eq_dec (length (c :: x')) (length w)) as [Hl|]; [right|left; lia]. split; [exact (same_length _ _ _ _ E Hl)|]. right. left. eauto.
  - change (nth_error lexer_rules 102) with (Some lower_name) in Hj. injection Hj as <-. pose proof (word_bound w rest _ y z (name_name_like _ (or_intror M)) We E) as Hb.
    destruct (Nat.eq_dec (length (c :: x')) (length w)) as [Hl'|]; [right|left; lia]. split; [exact (same_length _ _ _ _ E Hl')|]. right. right. left. eauto.
  - rewrite (ONE Hd) in *. destruct (Nat.eq_dec (length [c]) (length w)) as [Hl|]; [right|left; rewrite Ew; rewrite Ew in *; cbn [length] in *; lia]. split; [exact (same_length _ _ _ _ E Hl)|]. auto.
Qed.
Lemma codes_inj a : forall b, codes a = codes b -> a = b.
Proof.
  induction a as [|c a IH]; intros [|d b] E; cbn in E; try discriminate; [reflexivity|]. injection E as E1 E2. f_equal; [|auto].
  unfold code_of in E1. apply N2Z.inj in E1. rewrite <- (ascii_N_embedding c), <- (ascii_N_embedding d), E1. reflexivity.
Qed.
Lemma keywords_nodup : NoDup keywords.
Proof.
  assert (A : (fix nd (l : list string) := match l with [] => true | s :: l => negb (existsb (String.eqb s) l) && nd l end) keywords = true) by (vm_compute; reflexivity).
  revert A. generalize keywords. induction l as [|s l IH]; intros A; [constructor|]. apply andb_prop in A. destruct A as [A1 A2]. constructor; [|auto].
  intros H. assert (existsb (String.eqb s) l = true) by (apply existsb_exists; exists s; split; [exact H|apply String.eqb_refl]). rewrite H0 in A1. discriminate.
Qed.
Lemma word_nonempty w : word w -> w <> [].
Proof. intros ((c & t & -> & _) & _). discriminate. Qed.
Lemma keyword_lexeme w rest i s : word w -> word_ends rest -> nth_error keywords i = Some s -> w = codes s -> lexemes lexer_rules (w ++ rest) [(i, w)] rest.
Proof.
  intros W We Hi Ew. destruct (keyword_name_like s (nth_error_In _ _ Hi)) as [NL NE]. apply (lexeme_by w rest i (lit s)); [apply word_nonempty, W|apply keyword_rule, Hi|apply lit_iff; assumption|].
  intros j r x y z Hj M E. destruct (word_rules w rest j r x y z W We Hj M E) as [H|[-> H]]; [auto|right; split; [reflexivity|]].
  assert (Hil : i < 92) by (change 92 with (length keywords); apply nth_error_Some; congruence).
  destruct H as [(s' & Hs & Es)|[(c & t & _ & _ & ->)|[(c & t & _ & _ & ->)| ->]]]; try lia.
  assert (s = s') as <- by (apply codes_inj; congruence). pose proof (proj1 (NoDup_nth_error keywords) keywords_nodup i j Hil) as D. rewrite (D ltac:(congruence)). lia.
Qed.
Lemma name_lexeme w rest : word w -> word_ends rest -> ~ In w (map codes keywords) ->
  exists c t, w = c :: t /\ (is_upper c /\ lexemes lexer_rules (w ++ rest) [(101, w)] rest \/ is_lower c /\ lexemes lexer_rules (w ++ rest) [(102, w)] rest).
Proof.
  intros W We N. destruct (word_name w W) as (c & t & Ew & Hn). exists c, t. split; [exact Ew|].
  assert (NK : forall j s, nth_error keywords j = Some s -> w = codes s -> False) by (intros j s Hs E; apply N, in_map_iff; exists s; split; [congruence|exact (nth_error_In _ _ Hs)]).
  destruct Hn as [[Hc Hn]|[Hc Hn]]; [left|right]; (split; [exact Hc|]); [apply (lexeme_by w rest 101 upper_name)|apply (lexeme_by w rest 102 lower_name)]; try (apply word_nonempty, W); try reflexivity; try exact Hn;
    intros j r x y z Hj M E; (destruct (word_rules w rest j r x y z W We Hj M E) as [H|[-> H]]; [auto|right; split; [reflexivity|]]);
    destruct H as [(s' & Hs & Es)|[(c' & t' & E1 & Hc' & ->)|[(c' & t' & E1 & Hc' & ->)| ->]]]; try lia; try (exfalso; eapply NK; eassumption).
  rewrite Ew in E1. injection E1 as <- <-. unfold is_upper, is_lower in *. lia.
Qed.

(** ** Comments *)
Lemma starts_45 j r x y rest : nth_error lexer_rules j = Some r -> matches r x -> x ++ y = 45%Z :: rest ->
  j = 92 \/ j = 93 \/ (j = 97 /\ exists ds, x = 45%Z :: ds /\ matches (plus digit) ds) \/ (j = 120 /\ length x = 1) \/ (j = 127 /\ length x = 1).
Proof.
  intros Hj M E. pose proof (no_empty j r x y _ Hj M E) as X. cbn in X. destruct X as (x' & -> & _). pose proof (starts_with _ _ _ _ Hj M) as I.
  change (starters 45) with [92; 93; 97; 120; 127] in I. destruct I as [<-|[<-|[<-|[<-|[<-|[]]]]]]; auto.
  - right. right. left. split; [reflexivity|]. change (nth_error lexer_rules 97) with (Some (RSeq hyphen (plus digit))) in Hj. injection Hj as <-. rewrite seq_iff in M. destruct M as (a & b & Ea & H1 & H2).
    apply one_iff in H1. subst a. cbn in Ea. injection Ea as ->. eauto.
  - right. right. right. left. split; [reflexivity|]. change (nth_error lexer_rules 120) with (Some (one 45)) in Hj. injection Hj as <-. apply one_iff in M. rewrite M. reflexivity.
  - right. right. right. right. split; [reflexivity|]. change (nth_error lexer_rules 127) with (Some dot) in Hj. injection Hj as <-. apply set_iff in M. destruct M as (d & -> & _). reflexivity.
Qed.
Lemma digits_iff ds : matches (plus digit) ds <-> ds <> [] /\ Forall is_digit ds.
Proof.
  assert (D : forall w, matches digit w <-> exists c, w = [c] /\ is_digit c).
  { intros w. unfold digit, is_digit. rewrite set_iff. split; intros (c & -> & H); exists c; sets; (split; [reflexivity|lia]). }
  assert (S : forall w, matches (RStar digit) w <-> Forall is_digit w).
  { intros w. split.
    - revert w. apply (star_ind digit (Forall is_digit)); [constructor|]. intros v u Hv _ IH. apply D in Hv. destruct Hv as (c & -> & Hc). constructor; assumption.
    - induction 1 as [|c w Hc F IH]; [constructor|]. change (c :: w) with ([c] ++ w). constructor; [apply D; eauto|exact IH]. }
  unfold plus. rewrite seq_iff. split.
  - intros (a & b & -> & H1 & H2). apply D in H1. destruct H1 as (c & -> & Hc). apply S in H2. split; [discriminate|constructor; assumption].
  - intros [N F]. destruct F as [|c ds Hc F]; [congruence|]. exists [c], ds. split; [reflexivity|]. split; [apply D; eauto|apply S, F].
Qed.
Lemma pair_start j r x y rest : nth_error lexer_rules j = Some r -> matches r x -> x ++ y = 45%Z :: 45%Z :: rest ->
  (length x = 1 /\ (j = 120 \/ j = 127)) \/ exists v, x = [45; 45]%Z ++ v /\ v ++ y = rest /\
     ((j = 92 /\ exists v', v = v' ++ [45; 45]%Z /\ matches (RStar comment_item) v') \/ (j = 93 /\ exists v', (v = v' \/ v = v' ++ [45%Z]) /\ matches (RStar comment_item) v')).
Proof.
  intros Hj M E. destruct (starts_45 j r x y _ Hj M E) as [->|[->|[[-> (ds & -> & Hd)]|[[-> H]|[-> H]]]]]; auto.
  - right. rewrite rule_92 in Hj. injection Hj as <-. apply closed_comment_iff in M. destruct M as (v & -> & Hv). cbn in E. injection E as E. exists (v ++ [45; 45]%Z). split; [reflexivity|]. split; [exact E|]. left. eauto.
  - right. rewrite rule_93 in Hj. injection Hj as <-. apply plain_comment_iff in M. destruct M as (v & [-> | ->] & Hv); cbn in E; injection E as E; [exists v|exists (v ++ [45%Z])]; (split; [reflexivity|]); (split; [exact E|]); right; eauto.
  - exfalso. apply digits_iff in Hd. destruct Hd as [N F]. destruct F as [|c ds Hc F]; [congruence|]. cbn in E. injection E as E _. unfold is_digit in Hc. lia.
Qed.
(** Hyphens in the text of a comment never follow each other. *)
Lemma closed_comment_lexeme w rest : bytes w -> no_pair w -> last w 0%Z <> 45%Z -> let u := [45; 45]%Z ++ w ++ [45; 45]%Z in lexemes lexer_rules (u ++ rest) [(92, u)] rest.
Proof.
  intros B P L u. assert (S : matches (RStar comment_item) w) by (apply (no_pair_star (length w)); auto).
  apply (lexeme_by u rest 92 closed_comment); [discriminate|apply rule_92|apply closed_comment_iff; exists w; auto|].
  intros j r x y z Hj M E. unfold u in *. cbn [app] in E. destruct (pair_start j r x y _ Hj M E) as [[H1 _]|(v & -> & Ev & Hv)]; [left; rewrite !app_length, H1; cbn; lia|].
  rewrite !app_length. cbn [length].
  assert (K : forall v' a e, matches (RStar comment_item) v' -> v' ++ a = w ++ 45%Z :: 45%Z :: e -> length v' <= length w).
  { intros v' a e Hv' Ea. apply star_no_pair in Hv'. destruct Hv' as [(_ & _ & Np) Lp]. destruct (app_cmp _ _ _ _ Ea) as [(e' & ->)|(c & e' & -> & Ee)]; [rewrite app_length; lia|exfalso].
    injection Ee as <- Ee. destruct e' as [|d e']; [rewrite last_last in Lp; apply Lp; reflexivity|]. cbn in Ee. injection Ee as <- _. apply Np. exists w, e'. reflexivity. }
  rewrite <- !app_assoc in Ev. cbn [app] in Ev.
  destruct Hv as [[-> (v' & -> & Hv)]|[-> (v' & [-> | ->] & Hv)]].
  - rewrite <- app_assoc in Ev. pose proof (K v' _ _ Hv Ev). rewrite app_length. cbn [length]. lia.
  - pose proof (K v' _ _ Hv Ev). lia.
  - rewrite <- app_assoc in Ev. pose proof (K v' _ _ Hv Ev). rewrite app_length. cbn [length]. lia.
Qed.
Lemma snoc_cases (w : list Z) c d : last w d = c -> w = [] \/ exists v, w = v ++ [c].
Proof. intros H. destruct (list_eq_dec Z.eq_dec w []) as [->|N]; [auto|right]. exists (removelast w). rewrite <- H. apply app_removelast_last, N. Qed.
Lemma line_comment_lexeme w c rest : bytes w -> no_pair w -> c = 10%Z \/ c = 13%Z -> let u := [45; 45]%Z ++ w in lexemes lexer_rules (u ++ c :: rest) [(93, u)] (c :: rest).
Proof.
  intros B P Hc u.
  assert (S : matches plain_comment u).
  { apply plain_comment_iff. destruct (Z.eq_dec (last w 0%Z) 45) as [L|L].
    - destruct (snoc_cases w _ _ L) as [->|(v & ->)]; [discriminate|]. apply Forall_app in B. exists v. split; [right; reflexivity|]. apply (no_pair_star (length v)); [lia|tauto|apply no_pair_prefix in P; exact P|].
      intros L'. destruct (snoc_cases v _ _ L') as [->|(v2 & ->)]; [discriminate|]. destruct P as (_ & _ & P). apply P. exists v2, []. rewrite <- app_assoc. reflexivity.
    - exists w. split; [left; reflexivity|]. apply (no_pair_star (length w)); auto. }
  apply (lexeme_by u (c :: rest) 93 plain_comment); [discriminate|apply rule_93|exact S|].
  intros j r x y z Hj M E. unfold u in *. cbn [app] in E. destruct (pair_start j r x y _ Hj M E) as [[H1 _]|(v & -> & Ev & Hv)]; [left; rewrite !app_length, H1; cbn; lia|].
  assert (K : length v <= length w /\ ~ In c v).
  { assert (Nc : ~ In c v).
    { destruct Hv as [[-> (v' & -> & Hv)]|[-> (v' & [-> | ->] & Hv)]]; apply star_no_pair in Hv; destruct Hv as [(N1 & N2 & _) _]; rewrite ?in_app_iff; cbn; destruct Hc as [-> | ->]; intuition lia. }
    split; [|exact Nc]. destruct (app_cmp _ _ _ _ Ev) as [(e & ->)|(d & e & -> & Ee)]; [rewrite app_length; lia|]. cbn in Ee. injection Ee as <- _. exfalso. apply Nc, in_or_app. right. left. reflexivity. }
  destruct K as [K _]. rewrite !app_length. cbn [length]. destruct Hv as [[-> (v' & -> & Hv)]|[-> _]]; [|lia].
  exfalso. destruct (app_cmp _ _ _ _ Ev) as [(e & Ew)|(d & e & Ew & Ee)].
  - destruct P as (_ & _ & P). apply P. exists v', e. rewrite Ew, <- app_assoc. reflexivity.
  - rewrite Ew, app_length in K. cbn in K. lia.
Qed.
Lemma close_behind w rest : ~ occurs [42; 47]%Z w -> close false (w ++ [42; 47]%Z ++ rest) = Some rest.
Proof.
  intros N. assert (A : forall w s, close s w = None -> close s (w ++ [42; 47]%Z ++ rest) = Some rest).
  { induction w0 as [|c w0 IH]; intros s H; cbn [close app] in *; [reflexivity|]. destruct (c =? 42)%Z; [apply IH, H|]. destruct ((c =? 47)%Z && s); [discriminate|apply IH, H]. }
  apply A. destruct (close false w) eqn:E; [|reflexivity]. exfalso. apply N. destruct (proj1 (close_occurs w false)) as [H|[H _]]; [congruence|exact H|discriminate].
Qed.
Lemma block_lexeme w rest : bytes w -> ~ occurs [42; 47]%Z w -> let u := [47; 42]%Z ++ w ++ [42; 47]%Z in lexemes lexer_rules (u ++ rest) [(94, u)] rest.
Proof.
  intros B N u. assert (C : close false w = None). { destruct (close false w) eqn:E; [|reflexivity]. exfalso. apply N. destruct (proj1 (close_occurs w false)) as [H|[H _]]; [congruence|exact H|discriminate]. }
  apply (lexeme_by u rest 94 block_comment); [discriminate|apply rule_94| |].
  - destruct (block_text (length w) w ltac:(lia) B C) as (v & m & -> & Hv). apply block_comment_iff. exists v, (S m). split; [lia|]. split; [|exact Hv]. unfold u. cbn [app]. f_equal. f_equal. rewrite <- !app_assoc. f_equal.
    cbn [repeat]. clear. induction m as [|m IH]; [reflexivity|]. cbn [repeat app] in *. rewrite IH. reflexivity.
  - intros j r x y z Hj M E. pose proof (no_empty j r x y _ Hj M E) as X. unfold u in X. cbn in X. destruct X as (x' & -> & _). pose proof (starts_with _ _ _ _ Hj M) as I.
    change (starters 47) with [94; 127] in I. destruct I as [<-|[<-|[]]].
    + rewrite rule_94 in Hj. injection Hj as <-. apply block_comment_iff in M. destruct M as (v & n & Hn & Ex & Hv). rewrite Ex in *. unfold u in *. cbn [app] in E. injection E as E. rewrite <- !app_assoc in E.
      pose proof (f_equal (close false) E) as Ec. rewrite (block_star_close v Hv), close_stars in Ec by exact Hn. cbn in Ec. change (42%Z :: 47%Z :: rest ++ z) with ([42; 47]%Z ++ rest ++ z) in Ec. rewrite (close_behind w _ N) in Ec.
      injection Ec as Ec. right. split; [|lia]. apply (f_equal (@length Z)) in E, Ec. rewrite !app_length in E. cbn [length app] in E. rewrite !app_length in *. cbn [length] in *. lia.
    + left. change (nth_error lexer_rules 127) with (Some dot) in Hj. injection Hj as <-. apply set_iff in M. destruct M as (d & Ed & _). rewrite Ed. unfold u. rewrite !app_length. cbn. lia.
Qed.
(** ** White space *)
Lemma single_dot j r x : nth_error lexer_rules j = Some r -> j = 127 -> matches r x -> length x = 1.
Proof. intros Hj -> M. change (nth_error lexer_rules 127) with (Some dot) in Hj. injection Hj as <-. apply set_iff in M. destruct M as (d & -> & _). reflexivity. Qed.
Lemma lf_lexeme rest : lexemes lexer_rules ([10%Z] ++ rest) [(106, [10%Z])] rest.
Proof.
  apply (lexeme_by [10%Z] rest 106 (RAlt (RSeq (one 13) (one 10)) (one 10))); [discriminate|reflexivity|apply m_right, one_iff; reflexivity|].
  intros j r x y z Hj M E. pose proof (no_empty j r x y _ Hj M E) as X. cbn in X. destruct X as (x' & -> & _). pose proof (starts_with _ _ _ _ Hj M) as I.
  change (starters 10) with [106] in I. destruct I as [<-|[]]. right. split; [|lia].
  change (nth_error lexer_rules 106) with (Some (RAlt (RSeq (one 13) (one 10)) (one 10))) in Hj. injection Hj as <-. rewrite alt_iff, lit2, one_iff in M. destruct M as [M|M]; [discriminate|rewrite M; reflexivity].
Qed.
Lemma white_lexeme c rest : white c -> rest <> [] -> (exists k, lexemes lexer_rules ([c] ++ rest) [(k, [c])] rest /\ rule_meaning k [c] = Skipped) \/
  (c = 13%Z /\ exists r2, rest = 10%Z :: r2 /\ lexemes lexer_rules ([13; 10]%Z ++ r2) [(106, [13; 10]%Z)] r2).
Proof.
  intros Hc Nr.
  assert (SP : forall c, In c [9; 11; 12; 32]%Z -> lexemes lexer_rules ([c] ++ rest) [(107, [c])] rest).
  { clear. intros c Hc. apply (lexeme_by [c] rest 107 (RSet [(8, 9); (11, 12); (32, 32)]%Z)); [discriminate|reflexivity|constructor; sets; cbn in Hc; lia|].
    intros j r x y z Hj M E. pose proof (no_empty j r x y _ Hj M E) as X. cbn in X. destruct X as (x' & -> & _). pose proof (starts_with _ _ _ _ Hj M) as I.
    assert (I' : j = 107 \/ j = 127).
    { destruct Hc as [<-|[<-|[<-|[<-|[]]]]]; match type of I with In _ ?l => let l' := eval vm_compute in l in change l with l' in I end; cbn in I; intuition. }
    right. split; [|lia]. destruct I' as [->| ->]; [|apply (single_dot 127 r); auto]. change (nth_error lexer_rules 107) with (Some (RSet [(8, 9); (11, 12); (32, 32)]%Z)) in Hj. injection Hj as <-. apply set_iff in M. destruct M as (d & -> & _). reflexivity. }
  assert (CASE : In c [9; 11; 12; 32]%Z \/ c = 10%Z \/ c = 13%Z) by (unfold white in Hc; cbn; lia).
  destruct CASE as [H|[->| ->]].
  - left. exists 107. split; [apply SP, H|reflexivity].
  - left. exists 106. split; [apply lf_lexeme|reflexivity].
  - assert (ST : forall j r x, nth_error lexer_rules j = Some r -> matches r (13%Z :: x) -> (j = 106 /\ x = [10%Z]) \/ (j = 127 /\ x = [])).
    { clear. intros j r x Hj M. pose proof (starts_with _ _ _ _ Hj M) as I. change (starters 13) with [106; 127] in I. destruct I as [<-|[<-|[]]].
      - left. split; [reflexivity|]. change (nth_error lexer_rules 106) with (Some (RAlt (RSeq (one 13) (one 10)) (one 10))) in Hj. injection Hj as <-. rewrite alt_iff, lit2, one_iff in M. destruct M as [M|M]; [congruence|discriminate].
      - right. split; [reflexivity|]. change (nth_error lexer_rules 127) with (Some dot) in Hj. injection Hj as <-. apply set_iff in M. destruct M as (d & M & _). congruence. }
    destruct rest as [|d rest]; [congruence|]. destruct (Z.eq_dec d 10) as [->|N].
    + right. split; [reflexivity|]. exists rest. split; [reflexivity|].
      apply (lexeme_by [13; 10]%Z rest 106 (RAlt (RSeq (one 13) (one 10)) (one 10))); [discriminate|reflexivity|apply m_left, lit2; reflexivity|].
      intros j r x y z Hj M E. pose proof (no_empty j r x y _ Hj M E) as X. cbn in X. destruct X as (x' & -> & _). destruct (ST j r x' Hj M) as [[-> ->]|[-> ->]]; cbn; lia.
    + left. exists 127. split; [|reflexivity].
      apply (lexeme_by [13%Z] (d :: rest) 127 dot); [discriminate|reflexivity|constructor; sets; lia|].
      intros j r x y z Hj M E. pose proof (no_empty j r x y _ Hj M E) as X. cbn in X. destruct X as (x' & -> & E'). destruct (ST j r x' Hj M) as [[-> ->]|[-> ->]]; cbn; [|lia]. cbn in E'. injection E' as E' _. congruence.
Qed.

(** ** Numbers *)
Lemma digit_bound ds rest x y z : Forall is_digit x -> match rest with [] => False | c :: _ => ~ is_digit c end -> x ++ y = ds ++ rest ++ z -> length x <= length ds.
Proof.
  intros F R E. destruct (app_cmp _ _ _ _ E) as [(e & ->)|(c & e & -> & Ee)]; [rewrite app_length; lia|exfalso]. destruct rest as [|c' t]; [exact R|]. cbn in Ee. injection Ee as -> _.
  apply Forall_app in F. destruct F as [_ F]. inversion F; subst. auto.
Qed.
Definition number_ends (rest : list Z) : Prop :=
  match rest with [] => False | c :: t => ~ is_digit c /\ (c = 46%Z -> match t with [] => False | d :: _ => ~ is_digit d end) end.
Lemma digit_starters c : is_digit c -> starters c = [95; 96; 127].
Proof.
  intros H. unfold is_digit in H. assert (c = 48 \/ c = 49 \/ c = 50 \/ c = 51 \/ c = 52 \/ c = 53 \/ c = 54 \/ c = 55 \/ c = 56 \/ c = 57)%Z as Hc by lia.
  repeat (destruct Hc as [->|Hc]; [vm_compute; reflexivity|]). subst c. vm_compute. reflexivity.
Qed.
Lemma number_lexeme ds rest : ds <> [] -> Forall is_digit ds -> number_ends rest -> lexemes lexer_rules (ds ++ rest) [(96, ds)] rest.
Proof.
  intros N F R. apply (lexeme_by ds rest 96 (plus digit)); [exact N|reflexivity|apply digits_iff; auto|].
  assert (R' : match rest with [] => False | c :: _ => ~ is_digit c end) by (destruct rest; [exact R|apply R]).
  intros j r x y z Hj M E. destruct F as [|c ds Hc F]; [congruence|]. pose proof (no_empty j r x y _ Hj M E) as X. cbn in X. destruct X as (x' & -> & _). pose proof (starts_with _ _ _ _ Hj M) as I.
  rewrite (digit_starters c Hc) in I. destruct I as [<-|[<-|[<-|[]]]].
  - exfalso. change (nth_error lexer_rules 95) with (Some (RSeq (plus digit) (RSeq (one 46) (plus digit)))) in Hj. injection Hj as <-. rewrite seq_iff in M. destruct M as (a & b & Ex & Ha & Hb). rewrite seq_iff in Hb. destruct Hb as (b1 & b2 & -> & Hb1 & Hb2).
    apply one_iff in Hb1. subst b1. apply digits_iff in Ha, Hb2. destruct Ha as [_ Ha], Hb2 as [Nb Hb]. rewrite Ex, <- app_assoc in E. cbn [app] in E.
    pose proof (digit_bound (c :: ds) rest a _ z Ha R' E) as Hl.
    change (c :: ds ++ rest ++ z) with ((c :: ds) ++ rest ++ z) in E. destruct (app_cmp _ _ _ _ E) as [(e & Ee)|(c' & e & -> & _)]; [|rewrite app_length in Hl; cbn in Hl; lia].
    rewrite Ee, <- app_assoc in E. apply app_inv_head in E.
    assert (Fe : Forall is_digit (c :: ds)) by (constructor; assumption). rewrite Ee in Fe. apply Forall_app in Fe. destruct Fe as [_ Fe].
    destruct e as [|c' e]; cbn in E.
    + destruct rest as [|c' t]; [exact R|]. cbn in E. injection E as E1 E2. destruct R as [_ R]. specialize (R (eq_sym E1)). destruct t as [|d t]; [exact R|]. destruct Hb as [|d' b Hd Hb]; [congruence|]. cbn in E2. injection E2 as E2 _. subst d'. exact (R Hd).
    + injection E as E1 _. inversion Fe; subst. unfold is_digit in *. lia.
  - change (nth_error lexer_rules 96) with (Some (plus digit)) in Hj. injection Hj as <-. apply digits_iff in M. destruct M as [_ M]. pose proof (digit_bound (c :: ds) rest _ y z M R' E). lia.
  - pose proof (single_dot 127 r _ Hj eq_refl M) as H1. cbn [length] in *. lia.
Qed.
Lemma negative_lexeme ds rest : ds <> [] -> Forall is_digit ds -> match rest with [] => False | c :: _ => ~ is_digit c end -> lexemes lexer_rules ((45%Z :: ds) ++ rest) [(97, 45%Z :: ds)] rest.
Proof.
  intros N F R. apply (lexeme_by (45%Z :: ds) rest 97 (RSeq hyphen (plus digit))); [discriminate|reflexivity|change (45%Z :: ds) with ([45%Z] ++ ds); constructor; [apply one_iff; reflexivity|apply digits_iff; auto]|].
  intros j r x y z Hj M E. cbn [app] in E.
  assert (NP : ~ (j = 92 \/ j = 93)).
  { intros H. destruct F as [|c ds Hc F]; [congruence|]. cbn in E. assert (exists v, x = [45; 45]%Z ++ v) as (v & ->).
    { destruct H as [->| ->]; [rewrite rule_92 in Hj|rewrite rule_93 in Hj]; injection Hj as <-; [apply closed_comment_iff in M; destruct M as (v & -> & _); eauto|apply plain_comment_iff in M; destruct M as (v & [-> | ->] & _); eauto]. }
    cbn in E. injection E as E _. unfold is_digit in Hc. lia. }
  destruct (starts_45 j r x y _ Hj M E) as [H|[H|[[-> (ds' & -> & Hd)]|[[_ H]|[_ H]]]]]; [tauto|tauto| | |].
  - apply digits_iff in Hd. destruct Hd as [_ Hd]. cbn in E. injection E as E. pose proof (digit_bound ds rest ds' y z Hd R E). cbn [length]. lia.
  - destruct ds; [congruence|]. cbn [length] in *. lia.
  - destruct ds; [congruence|]. cbn [length] in *. lia.
Qed.
(** ** Strings *)
(** Two double quotes, or an octet that is no quote and no backslash. *)
Definition tame_item (i : list Z) : Prop := i = [34; 34]%Z \/ exists c, i = [c] /\ wf_byte c /\ c <> 34%Z /\ c <> 39%Z /\ c <> 92%Z.
Lemma string_bound items : Forall tame_item items -> forall v q' y rest, matches (RStar string_piece) v -> (q' = 34 \/ q' = 39)%Z -> v ++ q' :: y = concat items ++ 34%Z :: rest ->
  match rest with [] => False | c :: _ => c <> 34%Z end -> length v <= length (concat items).
Proof.
  intros F v q' y rest Hv Hq E R. apply star_concat in Hv. destruct Hv as (ps & -> & Fp). revert items F E. induction Fp as [|p ps Hp Fp IH]; intros items F E; [cbn; lia|].
  apply string_piece_item in Hp. destruct F as [|i items Hi F].
  - exfalso. cbn in E. destruct Hp as [->|[(c & -> & _)|(c & -> & N1 & N2)]]; cbn in E; try discriminate.
    + destruct rest as [|c t]; [exact R|]. injection E; intros; subst. congruence.
    + injection E; intros; subst. congruence.
  - cbn [concat] in *. rewrite !app_length. rewrite <- !app_assoc in E. destruct Hi as [->|(d & -> & _ & D1 & D2 & D3)]; cbn [app length] in *.
    + destruct Hp as [->|[(c & -> & _)|(c & -> & N1 & N2)]]; cbn [app length] in *; try discriminate; [injection E as E2|injection E as E1 E2; congruence].
      specialize (IH items F E2). lia.
    + destruct Hp as [->|[(c & -> & _)|(c & -> & N1 & N2)]]; cbn [app length] in *; injection E as E1 E2; try congruence; try lia.
      specialize (IH items F E2). lia.
Qed.
Lemma string_lexeme items rest : Forall tame_item items -> match rest with [] => False | c :: _ => c <> 34%Z end ->
  let u := 34%Z :: concat items ++ [34%Z] in lexemes lexer_rules (u ++ rest) [(98, u)] rest.
Proof.
  intros F R u. apply (lexeme_by u rest 98 quoted); [discriminate|apply rule_98| |].
  - apply quoted_iff. exists 34%Z, (concat items), 34%Z. split; [reflexivity|]. split; [auto|]. split; [auto|]. apply star_concat. exists items. split; [reflexivity|]. eapply Forall_impl; [|exact F].
    intros i [->|(c & -> & B & N1 & N2 & N3)]; apply string_item_piece; try (left; reflexivity).
    + repeat (constructor; [unfold wf_byte; lia|]); constructor.
    + constructor; [exact B|constructor].
    + right. right. eauto.
  - intros j r x y z Hj M E. pose proof (no_empty j r x y _ Hj M E) as X. cbn in X. destruct X as (x' & -> & _). pose proof (starts_with _ _ _ _ Hj M) as I.
    change (starters 34) with [98; 127] in I. destruct I as [<-|[<-|[]]].
    + rewrite rule_98 in Hj. injection Hj as <-. apply quoted_iff in M. destruct M as (q & v & q' & Ex & Hq & Hq' & Hv). injection Ex as <- ->. unfold u in *. cbn [app] in E. injection E as E. rewrite <- !app_assoc in E. cbn [app] in E.
      assert (R' : match rest ++ z with [] => False | c :: _ => c <> 34%Z end) by (destruct rest; [destruct R|exact R]).
      pose proof (string_bound items F v q' y _ Hv Hq' E R') as Hl. cbn [length]. rewrite !app_length. cbn [length]. lia.
    + left. pose proof (single_dot 127 r _ Hj eq_refl M) as H1. rewrite H1. unfold u. cbn [length]. rewrite app_length. cbn. lia.
Qed.
(** Strings that start with an apostrophe end at the next one. *)
Lemma apostrophe_bound ds x y rest : Forall (fun c => is_digit c \/ is_upper c \/ is_lower c) ds -> matches quoted x -> x ++ y = 39%Z :: ds ++ 39%Z :: rest -> length x <= 2 + length ds.
Proof.
  intros F M E. apply quoted_iff in M. destruct M as (q & v & q' & -> & Hq & Hq' & Hv). cbn in E. injection E as -> E. rewrite <- app_assoc in E. cbn in E. cbn [length]. rewrite app_length. cbn [length].
  cut (length v <= length ds); [lia|]. clear Hq. apply star_concat in Hv. destruct Hv as (ps & -> & Fp). revert ds F E. induction Fp as [|p ps Hp Fp IH]; intros ds F E; [cbn; lia|].
  apply string_piece_item in Hp. destruct F as [|d ds Hd F].
  - exfalso. cbn in E. destruct Hp as [->|[(c & -> & _)|(c & -> & N1 & N2)]]; cbn in E; try discriminate. injection E as E1 E2; congruence.
  - cbn [concat] in *. rewrite app_length, <- app_assoc in *. unfold is_digit, is_upper, is_lower in Hd. destruct Hp as [->|[(c & -> & _)|(c & -> & N1 & N2)]]; cbn [app length] in *; injection E as E1 E2; try lia.
    specialize (IH ds F E2). lia.
Qed.
Lemma hex_star w : matches (RStar (RSet [(48, 57); (65, 70); (97, 102)]%Z)) w <-> Forall (fun c => is_digit c \/ 65 <= c <= 70 \/ 97 <= c <= 102)%Z w.
Proof.
  unfold is_digit. split.
  - revert w. apply (star_ind _ (Forall (fun c => 48 <= c <= 57 \/ 65 <= c <= 70 \/ 97 <= c <= 102)%Z)); [constructor|]. intros v u Hv _ IH. apply set_iff in Hv. destruct Hv as (c & -> & Hc). sets. constructor; [lia|exact IH].
  - induction 1 as [|c w Hc F IH]; [constructor|]. change (c :: w) with ([c] ++ w). constructor; [constructor; sets; lia|exact IH].
Qed.
Lemma bit_star w : matches (RStar (RAlt (one 48) (one 49))) w <-> Forall (fun c => c = 48 \/ c = 49)%Z w.
Proof.
  split.
  - revert w. apply (star_ind _ (Forall (fun c => c = 48 \/ c = 49)%Z)); [constructor|]. intros v u Hv _ IH. rewrite alt_iff, !one_iff in Hv. destruct Hv as [-> | ->]; constructor; auto.
  - induction 1 as [|c w Hc F IH]; [constructor|]. change (c :: w) with ([c] ++ w). constructor; [|exact IH]. destruct Hc as [-> | ->]; [apply m_left|apply m_right]; apply one_iff; reflexivity.
Qed.
Lemma tail2 (v y ds : list Z) a e rest : ~ In 39%Z v -> ~ In 39%Z ds -> (v ++ [39%Z; a]) ++ y = ds ++ 39%Z :: e :: rest -> v = ds /\ a = e.
Proof.
  intros Nv Nd E. rewrite <- app_assoc in E. cbn in E. destruct (app_cmp _ _ _ _ E) as [(t & ->)|(c & t & -> & Et)].
  - rewrite <- app_assoc in E. apply app_inv_head in E. destruct t as [|c t]; [cbn in E; injection E as -> _; rewrite app_nil_r; auto|]. cbn in E. injection E as <- _. exfalso. apply Nd, in_or_app. right. left. reflexivity.
  - injection Et as <- _. exfalso. apply Nv, in_or_app. right. left. reflexivity.
Qed.
Lemma quoted_digits_lexeme k r a ds rest : (k = 99 /\ r = RStar (RAlt (one 48) (one 49)) /\ a = 66%Z) \/ (k = 100 /\ r = RStar (RSet [(48, 57); (65, 70); (97, 102)]%Z) /\ a = 72%Z) -> matches r ds ->
  let u := 39%Z :: ds ++ [39%Z; a] in lexemes lexer_rules (u ++ rest) [(k, u)] rest.
Proof.
  intros K Hd u.
  assert (Hr : nth_error lexer_rules k = Some (RSeq (one 39) (RSeq r (RSeq (one 39) (one a))))) by (destruct K as [(-> & -> & ->)|(-> & -> & ->)]; reflexivity).
  assert (X : forall k' r' a' x, (k' = 99 /\ r' = RStar (RAlt (one 48) (one 49)) /\ a' = 66%Z) \/ (k' = 100 /\ r' = RStar (RSet [(48, 57); (65, 70); (97, 102)]%Z) /\ a' = 72%Z) ->
     matches (RSeq (one 39) (RSeq r' (RSeq (one 39) (one a')))) x <-> exists v, x = 39%Z :: v ++ [39%Z; a'] /\ matches r' v).
  { intros k' r' a' x _. rewrite seq_iff. split.
    - intros (p & q & -> & H1 & H2). apply one_iff in H1. subst p. rewrite seq_iff in H2. destruct H2 as (v & t & -> & H2 & H3). apply lit2 in H3. subst t. exists v. split; [reflexivity|exact H2].
    - intros (v & -> & H). exists [39%Z], (v ++ [39%Z; a']). split; [reflexivity|]. split; [apply one_iff; reflexivity|]. constructor; [exact H|apply lit2; reflexivity]. }
  assert (CH : forall k' r' a' v, (k' = 99 /\ r' = RStar (RAlt (one 48) (one 49)) /\ a' = 66%Z) \/ (k' = 100 /\ r' = RStar (RSet [(48, 57); (65, 70); (97, 102)]%Z) /\ a' = 72%Z) -> matches r' v ->
     Forall (fun c => is_digit c \/ is_upper c \/ is_lower c) v /\ ~ In 39%Z v).
  { unfold is_digit, is_upper, is_lower. intros k' r' a' v [(-> & -> & ->)|(-> & -> & ->)] H; [apply bit_star in H|apply hex_star in H]; unfold is_digit in H;
      (split; [eapply Forall_impl; [|exact H]; cbn; intros; lia|]); intros I; rewrite Forall_forall in H; specialize (H _ I); cbn in H; lia. }
  destruct (CH k r a ds K Hd) as [C1 C2].
  apply (lexeme_by u rest k _) with (2 := Hr); [discriminate|apply (X k r a u K); exists ds; auto|].
  intros j r' x y z Hj M E. pose proof (no_empty j r' x y _ Hj M E) as Y. cbn in Y. destruct Y as (x' & -> & _). pose proof (starts_with _ _ _ _ Hj M) as I.
  change (starters 39) with [98; 99; 100; 127] in I. unfold u in *. cbn [app] in E. rewrite <- !app_assoc in E. cbn [app] in E.
  destruct I as [<-|[<-|[<-|[<-|[]]]]].
  - rewrite rule_98 in Hj. injection Hj as <-. left. pose proof (apostrophe_bound ds _ y _ C1 M E) as Hl. cbn [length] in *. rewrite app_length. cbn [length]. lia.
  - assert (K' : (99 = 99 /\ RStar (RAlt (one 48) (one 49)) = RStar (RAlt (one 48) (one 49)) /\ 66%Z = 66%Z) \/ (99 = 100 /\ RStar (RAlt (one 48) (one 49)) = RStar (RSet [(48, 57); (65, 70); (97, 102)]%Z) /\ 66%Z = 72%Z)) by auto.
    change (nth_error lexer_rules 99) with (Some (RSeq (one 39) (RSeq (RStar (RAlt (one 48) (one 49))) (RSeq (one 39) (one 66))))) in Hj. injection Hj as <-. apply (X _ _ _ _ K') in M. destruct M as (v & Ev & Hv). destruct (CH _ _ _ v K' Hv) as [_ Nv].
    injection Ev as ->. injection E as E. destruct (tail2 v y ds 66 a _ Nv C2 E) as [-> Ea]. right. destruct K as [(-> & _ & ->)|(-> & _ & ->)]; [|discriminate]. split; [reflexivity|lia].
  - assert (K' : (100 = 99 /\ RStar (RSet [(48, 57); (65, 70); (97, 102)]%Z) = RStar (RAlt (one 48) (one 49)) /\ 72%Z = 66%Z) \/ (100 = 100 /\ RStar (RSet [(48, 57); (65, 70); (97, 102)]%Z) = RStar (RSet [(48, 57); (65, 70); (97, 102)]%Z) /\ 72%Z = 72%Z)) by auto.
    change (nth_error lexer_rules 100) with (Some (RSeq (one 39) (RSeq (RStar (RSet [(48, 57); (65, 70); (97, 102)]%Z)) (RSeq (one 39) (one 72))))) in Hj. injection Hj as <-. apply (X _ _ _ _ K') in M. destruct M as (v & Ev & Hv). destruct (CH _ _ _ v K' Hv) as [_ Nv].
    injection Ev as ->. injection E as E. destruct (tail2 v y ds 72 a _ Nv C2 E) as [-> Ea]. right. destruct K as [(-> & _ & ->)|(-> & _ & ->)]; [discriminate|]. split; [reflexivity|lia].
  - left. pose proof (single_dot 127 r' _ Hj eq_refl M) as H1. rewrite H1. cbn [length]. rewrite app_length. cbn. lia.
Qed.

(** ** Tokens *)
Lemma lexeme_scan mem k u rest : bytes mem -> lexemes lexer_rules mem [(k, u)] rest -> mem = u ++ rest /\ scan yy_map mem = Ok (k, length u).
Proof.
  intros B H. apply lexemes_cons_inv in H. destruct H as (m & -> & L & N & H). inversion H; subst. split; [reflexivity|]. apply scan_ok_iff; auto.
Qed.
Lemma yylex_lexeme mem k u rest fuel loc : bytes mem -> lexemes lexer_rules mem [(k, u)] rest ->
  match rule_meaning k u with
  | Gives t => yylex yy_map yy_actions (S fuel) mem loc = Ok (Some (t, loc_columns (zlen u) (loc_step loc), rest))
  | Fails => yylex yy_map yy_actions (S fuel) mem loc = Ok None
  | Skipped => exists loc', yylex yy_map yy_actions (S fuel) mem loc = yylex yy_map yy_actions fuel rest loc'
  end.
Proof.
  intros B H. destruct (lexeme_scan mem k u rest B H) as [E S]. apply lexemes_cons_inv in H. destruct H as (m & _ & L & _ & _). destruct (action_meaning k u (longest_in _ _ _ _ L)) as (a & Ha & Hact).
  cbn [yylex]. rewrite S. cbn [bind]. rewrite Ha. assert (E1 : firstn (length u) mem = u) by (rewrite E, firstn_app, firstn_all, Nat.sub_diag, firstn_O, app_nil_r; reflexivity).
  assert (E2 : skipn (length u) mem = rest) by (rewrite E, skipn_app, skipn_all, Nat.sub_diag; reflexivity). rewrite E1, E2.
  destruct a; cbn [act] in Hact; try (rewrite <- Hact; reflexivity); try (rewrite <- Hact; eexists; reflexivity).
  destruct (stoll u) as [v|]; rewrite <- Hact; reflexivity.
Qed.
Lemma skip_lexeme k u mem o : lexemes lexer_rules (u ++ mem) [(k, u)] mem -> rule_meaning k u = Skipped -> reads_as mem o -> reads_as (u ++ mem) o.
Proof.
  intros L S R. assert (C : continues (k, u)) by (split; [unfold good; cbn; congruence|intros E; cbn in E; subst k; discriminate]).
  pose proof (reads_cons k u mem o L C R) as H. assert (T : tokens_of [(k, u)] = []) by (cbn; rewrite S; reflexivity). rewrite T in H. destruct o as [[ts|]| |]; exact H.
Qed.
Lemma reads_total mem : bytes mem -> exists o, reads_as mem o.
Proof.
  intros B. pose proof (tokens_spec (S (length mem)) mem start_location B ltac:(lia)) as SP. destruct (tokens yy_map yy_actions (S (length mem)) mem start_location) as [[tls|]| |].
  - destruct SP as (ls & rest & H1 & H2 & H3 & _). apply lexemes_split in H1. destruct H1 as (mid & H1 & H1'). eexists. exact (ra_end _ ls mid rest H1 H2 H3 H1').
  - destruct SP as (ls & k & u & rest & H1 & H2 & H3 & H4). apply lexemes_split in H1. destruct H1 as (mid & H1 & H1'). eexists. exact (ra_fails _ ls mid k u rest H1 H2 H3 H1' H4).
  - destruct SP as (ls & rest & H1 & H2 & H3 & H4). eexists. exact (ra_open _ ls rest H1 H2 H3 H4).
  - destruct SP.
Qed.
Lemma skip_iff k u mem o : bytes mem -> lexemes lexer_rules (u ++ mem) [(k, u)] mem -> rule_meaning k u = Skipped -> (reads_as (u ++ mem) o <-> reads_as mem o).
Proof.
  intros B L S. split; [|apply (skip_lexeme k u); assumption]. intros H. destruct (reads_total mem B) as (o' & H'). pose proof (skip_lexeme k u mem o' L S H') as H2. rewrite (reads_as_unique _ _ _ H H2). exact H'.
Qed.
Lemma white_reads mem c o : bytes mem -> mem <> [] -> white c -> (reads_as (c :: mem) o <-> reads_as mem o).
Proof.
  intros B N W. destruct (white_lexeme c mem W N) as [(k & L & S)|(-> & r2 & -> & L)].
  - exact (skip_iff k [c] mem o B L S).
  - assert (B2 : bytes r2) by (inversion B; assumption). rewrite (skip_iff 106 [13; 10]%Z r2 o B2 L eq_refl). symmetry. apply (skip_iff 106 [10%Z] r2 o B2 (lf_lexeme r2) eq_refl).
Qed.
(** The lexemes of a file leave the NUL at its end alone, but for the last. *)
Lemma keeps_end t k u rest : bytes t -> lexemes lexer_rules (t ++ [0%Z]) [(k, u)] rest -> k <> 105 -> exists t', rest = t' ++ [0%Z].
Proof.
  intros B H Nk. apply lexemes_cons_inv in H. destruct H as (m & E & L & NR & H). inversion H; subst. destruct rest as [|x rest'] using rev_ind; [|rewrite app_assoc in E; apply app_inj_tail in E; destruct E as [_ <-]; eauto].
  exfalso. rewrite app_nil_r in E. subst u. clear IHrest' || idtac. destruct L as ((L1 & L2) & (r & Hr & M) & L3). rewrite firstn_all in M.
  destruct t as [|c t].
  - cbn in *. pose proof (starts_with _ _ _ _ Hr M) as I. change (starters 0) with [105; 127] in I. destruct I as [<-|[<-|[]]]; [congruence|].
    destruct (L3 105 (one 0) 1 eq_refl ltac:(lia) ltac:(apply one_iff; reflexivity)) as [X|[_ X]]; lia.
  - assert (I : In k [92; 93; 94; 98]) by (eapply zero_rules; [exact Hr|exact M|apply in_or_app; right; left; reflexivity|rewrite app_length; cbn; lia]).
    assert (LAST : forall v a, (c :: t) ++ [0%Z] = v ++ [a] -> a = 0%Z) by (intros v a Ea; apply app_inj_tail in Ea; destruct Ea; auto).
    destruct I as [<-|[<-|[<-|[<-|[]]]]].
    + rewrite rule_92 in Hr. injection Hr as <-. apply closed_comment_iff in M. destruct M as (v & Ev & _). specialize (LAST ([45; 45]%Z ++ v ++ [45%Z]) 45%Z). rewrite Ev in LAST. rewrite <- !app_assoc in LAST. cbn in LAST. specialize (LAST eq_refl). discriminate.
    + rewrite rule_93 in Hr. injection Hr as <-. apply plain_comment_iff in M. destruct M as (v & [Ev|Ev] & Hv).
      * apply NR. exists 93, plain_comment, [1%Z]. split; [apply rule_93|]. split; [discriminate|]. split; [constructor; [unfold wf_byte; lia|constructor]|]. rewrite Ev. apply plain_comment_iff.
        exists (v ++ [1%Z]). split; [left; rewrite <- app_assoc; reflexivity|]. apply star_concat in Hv. destruct Hv as (ps & -> & F). apply star_concat. exists (ps ++ [[1%Z]]). split; [rewrite concat_app; reflexivity|].
        apply Forall_app. split; [exact F|constructor; [|constructor]]. apply comment_item_intro; [unfold wf_byte; lia|lia|lia|lia].
      * specialize (LAST ([45; 45]%Z ++ v) 45%Z). rewrite Ev in LAST. rewrite <- !app_assoc in LAST. specialize (LAST eq_refl). discriminate.
    + rewrite rule_94 in Hr. injection Hr as <-. apply block_comment_iff in M. destruct M as (v & n & _ & Ev & _). specialize (LAST ([47; 42]%Z ++ v ++ repeat 42%Z n) 47%Z). rewrite Ev in LAST. rewrite <- !app_assoc in LAST. specialize (LAST eq_refl). discriminate.
    + rewrite rule_98 in Hr. injection Hr as <-. apply quoted_iff in M. destruct M as (q & v & q' & Ev & _ & Hq & _). specialize (LAST (q :: v) q'). rewrite Ev in LAST. specialize (LAST eq_refl). lia.
Qed.
Lemma suffixes_end ls : forall t mid, bytes t -> lexemes lexer_rules (t ++ [0%Z]) ls mid -> Forall (fun p => fst p <> 105) ls -> exists t', mid = t' ++ [0%Z] /\ t = texts ls ++ t'.
Proof.
  induction ls as [|[k u] ls IH]; intros t mid B H F; [inversion H; subst; exists t; auto|]. inversion F as [|? ? Nk F']; subst. cbn in Nk.
  change ((k, u) :: ls) with ([(k, u)] ++ ls) in H. apply lexemes_split in H. destruct H as (m & H1 & H2). destruct (keeps_end t k u m B H1 Nk) as (t1 & ->).
  pose proof (lexemes_texts _ _ _ _ H1) as E. unfold texts in E. cbn in E. rewrite app_nil_r, app_assoc in E. apply app_inj_tail in E. destruct E as [-> _].
  apply Forall_app in B. destruct B as [_ B]. destruct (IH t1 mid B H2 F') as (t' & -> & ->). exists t'. split; [reflexivity|]. unfold texts. cbn. rewrite app_assoc. reflexivity.
Qed.
