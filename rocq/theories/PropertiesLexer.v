(** C99 - C105: the lexer of the compiler (/repo/src/compiler/asn_compiler.yacc 1817-1977 and its generated code,
    /repo/src/compiler/autogen_copy/asn_compiler.hpp 11586-24035). *)
From Coq Require Import String Ascii List ZArith PArith FSets.FMapPositive Lia.
From Verif Require Import Base CompilerNames Lexer LexerTable LexerSpec LexerProofs LexerFacts LexerFile LexerColumns LexerLexemes.
Local Open Scope string_scope.
Local Open Scope list_scope.

(** The tokens of a file, without their locations. *)
Notation file_tokens := LexerFile.file_tokens.

(** ** C99: the longest match, by the rule that comes first *)
(** The 775 labels of generated code do what the 128 rules say, on every memory content: the code executes rule [k] with the cursor
    [n] octets further on exactly when the longest text that any rule matches has length [n] and [k] is the first rule that matches
    it; and no rule matches a text that goes on behind the memory. *)
Theorem C99_longest_match : forall mem k n, bytes mem ->
  (scan yy_map mem = Ok (k, n) <-> longest_match lexer_rules mem k n /\ ~ runs_out lexer_rules mem).
Proof. intros mem k n B. apply scan_ok_iff, B. Qed.
(** There always is such a rule: any octet is matched by one. *)
Theorem C99_always_a_rule : forall mem, bytes mem -> runs_out lexer_rules mem \/ exists k n, longest_match lexer_rules mem k n.
Proof. intros mem B. pose proof (scan_spec mem B) as S. destruct (scan yy_map mem) as [[k n]| |]; [right; exists k, n; tauto|auto|destruct S]. Qed.
Theorem C99_unique : forall mem k n k' n', longest_match lexer_rules mem k n -> longest_match lexer_rules mem k' n' -> k = k' /\ n = n'.
Proof. intros mem k n k' n'. apply longest_unique. Qed.
(** A number with a full stop behind it that is not a fraction: the code has read too far, and goes back. *)
Example C99_example : scan yy_map (codes "10..20)") = Ok (96%nat, 2%nat) /\ scan yy_map (codes "10.25)") = Ok (95%nat, 5%nat) /\
  scan yy_map (codes "END;") = Ok (26%nat, 3%nat) /\ scan yy_map (codes "ENDS;") = Ok (101%nat, 4%nat).
Proof. vm_compute. repeat split. Qed.

(** ** C100: reading stays inside the text *)
(** Text that is left when the file ends inside a comment or a string is read past its end.  The witness is a file whose last line
    is a comment without a new line. *)
Theorem C100_in_bounds_refuted : exists text, bytes text /\ ~ In 0%Z text /\ file_tokens text = UB.
Proof. exists (codes "A ::= NULL -- the end"). split; [repeat (constructor; [unfold wf_byte; cbn; lia|]); constructor|]. split; [cbn; lia|]. vm_compute. reflexivity. Qed.
(** Exactly when: some lexemes are cut off the text, and what is left of it starts a comment (two hyphens, no new line and no two
    hyphens behind them), a block comment or a string that is not closed. *)
Theorem C100_over_read_exactly : forall text, bytes text ->
  (file_tokens text = UB <-> exists ls t, lexemes lexer_rules (text ++ [0%Z]) ls (t ++ [0%Z]) /\ text = texts ls ++ t /\
     Forall good ls /\ Forall (fun p => fst p <> 105%nat) ls /\ (open_line_comment t \/ open_block_comment t \/ open_string t)).
Proof.
  intros text B. pose proof (file_reads text B) as R. split.
  - intros E. rewrite E in R. inversion R as [| |ls mid H1 H2 H3 H4]; subst. destruct (suffixes_end ls text mid B H1 H3) as (t & -> & Et). exists ls, t.
    split; [exact H1|]. split; [exact Et|]. split; [exact H2|]. split; [exact H3|]. apply over_read_iff; [|exact H4]. rewrite Et in B. apply Forall_app in B. tauto.
  - intros (ls & t & H1 & Et & H2 & H3 & H4). symmetry. apply (reads_as_unique (text ++ [0%Z])); [|exact R]. apply (ra_open _ ls (t ++ [0%Z]) H1 H2 H3). apply over_read_iff; [|exact H4].
    rewrite Et in B. apply Forall_app in B. tauto.
Qed.
Theorem C100_next_read_exactly : forall t, bytes t ->
  (scan yy_map (t ++ [0%Z]) = UB <-> open_line_comment t \/ open_block_comment t \/ open_string t).
Proof. intros t B. rewrite scan_ub_iff by (apply file_bytes, B). apply over_read_iff, B. Qed.
Lemma snoc (w : list Z) : w = [] \/ exists w' c, w = w' ++ [c].
Proof. destruct w as [|c w]; [auto|right]. destruct (@exists_last _ (c :: w) ltac:(discriminate)) as (w' & d & ->). eauto. Qed.
Lemma ends_in (a t b : list Z) c d : t ++ [d] = a ++ b ++ [c] -> d = c /\ t = a ++ b.
Proof. intros E. rewrite app_assoc in E. apply app_inj_tail in E. tauto. Qed.
(** A file without quotes and without a slash and star in it that ends with a new line is read in bounds.  Missing: files with
    quotes or such comments, or whose last line is not ended. *)
Theorem C100_in_bounds_partial : forall text, bytes text -> ~ In 34%Z text -> ~ In 39%Z text -> ~ occurs [47; 42]%Z text ->
  file_tokens (text ++ [10%Z]) <> UB.
Proof.
  intros text B N1 N2 N3 E. apply C100_over_read_exactly in E; [|apply Forall_app; split; [exact B|constructor; [unfold wf_byte; lia|constructor]]].
  destruct E as (ls & t & _ & Et & _ & _ & [(w & -> & P & _)|[(w & -> & _)|(q & items & -> & Hq & _)]]).
  - destruct (snoc w) as [->|(w' & c & ->)]; [destruct (ends_in _ _ [45%Z] _ _ Et); discriminate|].
    destruct (ends_in _ _ ([45; 45]%Z ++ w') c _ Et) as [<- _]. apply P, in_or_app. right. left. reflexivity.
  - destruct (snoc w) as [->|(w' & c & ->)]; [destruct (ends_in _ _ [47%Z] _ _ Et); discriminate|].
    destruct (ends_in _ _ ([47; 42]%Z ++ w') c _ Et) as [_ ->]. apply N3. exists (texts ls), w'. reflexivity.
  - destruct (snoc (concat items)) as [E|(w' & c & E)]; rewrite E in Et; [destruct (ends_in _ _ [] _ _ Et); lia|].
    destruct (ends_in _ _ (q :: w') c _ Et) as [_ ->]. destruct Hq as [-> | ->]; [apply N1|apply N2]; apply in_or_app; right; left; reflexivity.
Qed.

(** ** C101: the tokens of a file *)
(** The tokens are those of the lexemes that the text falls into, up to the first lexeme that is a NUL; an integer that does not fit
    is an exception; an open comment or string is read past the end; nothing else happens, and reading comes to an end. *)
Theorem C101_file_exact : forall text o, bytes text -> (file_tokens text = o <-> reads_as (text ++ [0%Z]) o).
Proof.
  intros text o B. pose proof (file_reads text B) as R. split; [intros <-; exact R|]. intros H. exact (reads_as_unique _ _ _ R H).
Qed.
Theorem C101_reading_ends : forall text, bytes text -> lex_file yy_map yy_actions text <> NoFuel.
Proof. intros text B E. pose proof (lex_file_spec text B) as S. rewrite E in S. exact S. Qed.
(** If the text has no NUL in it, the lexemes are the whole of it, in order, with nothing between them.  Missing: files with a NUL. *)
Theorem C101_whole_text_partial : forall text ts, bytes text -> ~ In 0%Z text -> file_tokens text = Ok (Some ts) ->
  exists ls, texts ls = text /\ lexemes lexer_rules (text ++ [0%Z]) (ls ++ [(105%nat, [0%Z])]) [] /\ ts = tokens_of ls ++ [eof_token].
Proof.
  intros text ts B N E. apply C101_file_exact in E; [|exact B]. inversion E as [ls mid rest H1 H2 H3 H4| |]; subst. exists ls.
  pose proof (lexemes_app _ _ _ _ _ _ H1 H4) as H. destruct (whole_text text ls rest N H) as [Et ->]. auto.
Qed.
(** A NUL ends the file: what comes behind it is dropped without a message. *)
Theorem C101_whole_text_refuted : exists a b, bytes (a ++ b) /\ file_tokens a <> UB /\ file_tokens (a ++ [0%Z] ++ b) = file_tokens a /\ file_tokens (a ++ b) <> file_tokens a.
Proof.
  exists (codes "A ::= NULL "), (codes "B ::= A"). split; [repeat (constructor; [unfold wf_byte; cbn; lia|]); constructor|]. split; [|split; [vm_compute; reflexivity|]].
  - intros H. vm_compute in H. discriminate.
  - intros H. vm_compute in H. discriminate.
Qed.
(** Octets that start no lexeme of ASN.1 do not stop the compiler either. *)
Theorem C101_unknown_octets_refuted : exists a b c, bytes (a ++ [c] ++ b) /\ ~ white c /\ file_tokens (a ++ [c] ++ b) = file_tokens (a ++ b) /\ file_tokens (a ++ b) <> UB.
Proof.
  exists (codes "A ::= #NU"), (codes " "), 63%Z. split; [repeat (constructor; [unfold wf_byte; cbn; lia|]); constructor|]. split; [unfold white; lia|]. split; [vm_compute; reflexivity|]. intros H. vm_compute in H. discriminate.
Qed.
Example C101_example : file_tokens (codes "T ::= INTEGER (-1..5) -- x -- DEFAULT a-b") =
  Ok (Some [Token "GENERIC_IDENTIFIER_UPPERCASE" (PName "T"); Token "DEFINED_AS" PNone; Token "INTEGER" PNone; Token "OPEN_PARENTHESIS" PNone; Token "negativenumber" (PInteger (-1));
            Token "RANGE" PNone; Token "number" (PInteger 5); Token "CLOSE_PARENTHESIS" PNone; Token "DEFAULT" PNone; Token "GENERIC_IDENTIFIER_LOWERCASE" (PName "a_b"); Token "END_OF_FILE" PNone]).
Proof. vm_compute. reflexivity. Qed.

(** ** C102: words *)
Fixpoint no_pairb (w : list Z) : bool := match w with c :: t => negb ((c =? 45)%Z && match t with d :: _ => (d =? 45)%Z | [] => false end) && no_pairb t | [] => true end.
Lemma no_pairb_spec w : no_pairb w = true -> ~ occurs [45; 45]%Z w.
Proof.
  induction w as [|c w IH]; intros H; [apply occurs_nil|]. cbn [no_pairb] in H. apply andb_prop in H. destruct H as [H1 H2]. rewrite occurs_pair_cons. intros [[-> (t & ->)]|H]; [discriminate|exact (IH H2 H)].
Qed.
(** A word that nothing continues is one token: the keyword that it spells, or else a reference (first letter a capital) or an
    identifier with its name. *)
Theorem C102_words : forall w rest fuel loc, bytes (w ++ rest) -> word w -> word_ends rest ->
  exists t loc', yylex yy_map yy_actions (S fuel) (w ++ rest) loc = Ok (Some (t, loc', rest)) /\
    ((exists s, In s keywords /\ w = codes s /\ t = Token (keyword_token s) PNone) \/
     (~ In w (map codes keywords) /\ exists c v, w = c :: v /\
        (is_upper c /\ t = Token "GENERIC_IDENTIFIER_UPPERCASE" (PName (santize_name (string_of w))) \/
         is_lower c /\ t = Token "GENERIC_IDENTIFIER_LOWERCASE" (PName (santize_name (string_of w)))))).
Proof.
  intros w rest fuel loc B W We. destruct (in_dec (list_eq_dec Z.eq_dec) w (map codes keywords)) as [I|N].
  - apply in_map_iff in I. destruct I as (s & <- & Hs). destruct (In_nth_error _ _ Hs) as (i & Hi). pose proof (keyword_lexeme (codes s) rest i s W We Hi eq_refl) as L.
    pose proof (yylex_lexeme _ _ _ _ fuel loc B L) as Y. unfold rule_meaning in Y. rewrite Hi in Y. eexists. eexists. split; [exact Y|]. left. eauto.
  - destruct (name_lexeme w rest W We N) as (c & v & -> & H). destruct H as [[Hc L]|[Hc L]]; pose proof (yylex_lexeme _ _ _ _ fuel loc B L) as Y; cbn [rule_meaning] in Y;
      (eexists; eexists; split; [exact Y|]; right; split; [exact N|]; exists c, v; split; [reflexivity|]); [left|right]; (split; [exact Hc|reflexivity]).
Qed.
(** The reserved words of X.680 but three are read as such, wherever they stand.  Missing: the three. *)
Theorem C102_reserved_words_partial : forall s rest fuel loc, In s reserved_words -> ~ In s ["PLUS-INFINITY"; "OID-IRI"; "ENCODING-CONTROL"] -> bytes rest -> word_ends rest ->
  exists loc', yylex yy_map yy_actions (S fuel) (codes s ++ rest) loc = Ok (Some (Token (keyword_token s) PNone, loc', rest)).
Proof.
  intros s rest fuel loc Hs N B We.
  assert (K : In s keywords).
  { assert (A : forallb (fun s => existsb (String.eqb s) keywords || existsb (String.eqb s) ["PLUS-INFINITY"; "OID-IRI"; "ENCODING-CONTROL"]) reserved_words = true) by (vm_compute; reflexivity).
    rewrite forallb_forall in A. specialize (A s Hs). apply orb_prop in A. destruct A as [A|A]; rewrite existsb_exists in A; destruct A as (x & Hx & E); apply String.eqb_eq in E; subst x; [exact Hx|contradiction]. }
  assert (W : word (codes s)).
  { assert (A : forallb (fun s => match codes s with c :: t => ((65 <=? c) && (c <=? 90))%Z && forallb (fun d => in_ranges d [(65, 90); (97, 122); (95, 95); (48, 57); (45, 45)]%Z) t | [] => false end
        && negb (last (codes s) 0 =? 45)%Z && no_pairb (codes s)) keywords = true) by (vm_compute; reflexivity).
    rewrite forallb_forall in A. specialize (A s K). apply andb_prop in A. destruct A as [A A3]. apply andb_prop in A. destruct A as [A1 A2]. split; [|split].
    - destruct (codes s) as [|c t]; [discriminate|]. exists c, t. split; [reflexivity|]. apply andb_prop in A1. destruct A1 as [A1 A4]. split; [left; unfold is_upper; lia|]. rewrite forallb_forall in A4. apply Forall_forall. intros d Hd. specialize (A4 d Hd).
      apply in_ranges_iff in A4. sets. unfold word_octet, is_upper, is_lower, is_digit. lia.
    - intros E. rewrite E in A2. discriminate.
    - apply no_pairb_spec, A3. }
  assert (Bs : bytes (codes s)) by (clear; induction s as [|c s IH]; [constructor|]; cbn; constructor; [unfold wf_byte, code_of; pose proof (N_ascii_bounded c); lia|exact IH]).
  destruct (C102_words (codes s) rest fuel loc) as (t & loc' & Y & H); [apply Forall_app; auto|exact W|exact We|]. exists loc'. rewrite Y.
  destruct H as [(s' & _ & E & ->)|[N' _]]; [apply codes_inj in E; subst; reflexivity|]. exfalso. apply N', in_map, K.
Qed.
(** PLUS-INFINITY, OID-IRI and ENCODING-CONTROL are read as type references (the rules spell them with an underscore), and ANY,
    which is not reserved, is not. *)
Theorem C102_reserved_words_refuted :
  (forall s, In s ["PLUS-INFINITY"; "OID-IRI"; "ENCODING-CONTROL"] -> In s reserved_words /\
     file_tokens (codes s) = Ok (Some [Token "GENERIC_IDENTIFIER_UPPERCASE" (PName (underscores s)); eof_token])) /\
  (~ In "ANY" reserved_words /\ file_tokens (codes "ANY") = Ok (Some [Token "ANY" PNone; eof_token])).
Proof.
  split.
  - intros s [<-|[<-|[<-|[]]]]; (split; [vm_compute; tauto|vm_compute; reflexivity]).
  - split; [|vm_compute; reflexivity]. intros H. assert (A : existsb (String.eqb "ANY") reserved_words = true) by (apply existsb_exists; exists "ANY"; split; [exact H|reflexivity]). vm_compute in A. discriminate.
Qed.
Example C102_example : word (codes "value-Set2") /\ word_ends (codes "-- c") /\ word_ends [10%Z].
Proof.
  split; [split; [eexists; eexists; split; [reflexivity|]; split; [right; vm_compute; split; discriminate|]|split; [discriminate|apply no_pairb_spec; vm_compute; reflexivity]]|].
  - repeat (constructor; [unfold word_octet, is_upper, is_lower, is_digit; cbn; lia|]). constructor.
  - cbn. unfold word_octet, is_upper, is_lower, is_digit. repeat split; lia.
Qed.

(** ** C103: comments and white space *)
(** White space between tokens does not matter: one more octet of it (tab, new line, vertical tab, form feed, carriage return, space)
    before any text changes nothing. *)
Theorem C103_white_space : forall c mem o, bytes mem -> mem <> [] -> white c -> (reads_as (c :: mem) o <-> reads_as mem o).
Proof. intros c mem o. apply white_reads. Qed.
Theorem C103_white_space_file : forall w text, bytes text -> Forall white w -> file_tokens (w ++ text) = file_tokens text.
Proof.
  intros w text B F. assert (Bw : bytes w) by (eapply Forall_impl; [|exact F]; unfold white, wf_byte; cbn; intros; lia).
  apply C101_file_exact; [apply Forall_app; auto|]. induction F as [|c w Hc F IH]; [apply file_reads, B|]. cbn. inversion Bw; subst. apply white_reads; [apply file_bytes, Forall_app; auto|destruct (w ++ text); discriminate|exact Hc|auto].
Qed.
(** A comment is skipped up to its end: two hyphens, text without a line end and without two hyphens, two hyphens. *)
Theorem C103_closed_comment : forall w mem o, bytes (w ++ mem) -> ~ In 10%Z w -> ~ In 13%Z w -> ~ occurs [45; 45]%Z w -> last w 0%Z <> 45%Z ->
  (reads_as ([45; 45]%Z ++ w ++ [45; 45]%Z ++ mem) o <-> reads_as mem o).
Proof.
  intros w mem o B N1 N2 N3 L. apply Forall_app in B. destruct B as [B1 B2]. pose proof (closed_comment_lexeme w mem B1 (conj N1 (conj N2 N3)) L) as H. cbv zeta in H.
  pose proof (skip_iff 92 _ mem o B2 H eq_refl) as S. rewrite <- !app_assoc in S. exact S.
Qed.
(** The other end of a comment: the end of the line, LF or CR.  Missing: VT and FF, which end lines as well. *)
Theorem C103_line_comment_partial : forall w c mem o, bytes (w ++ c :: mem) -> ~ In 10%Z w -> ~ In 13%Z w -> ~ occurs [45; 45]%Z w -> c = 10%Z \/ c = 13%Z ->
  (reads_as ([45; 45]%Z ++ w ++ c :: mem) o <-> reads_as (c :: mem) o).
Proof.
  intros w c mem o B N1 N2 N3 Hc. apply Forall_app in B. destruct B as [B1 B2]. pose proof (line_comment_lexeme w c mem B1 (conj N1 (conj N2 N3)) Hc) as H. cbv zeta in H.
  pose proof (skip_iff 93 _ (c :: mem) o B2 H eq_refl) as S. rewrite <- !app_assoc in S. exact S.
Qed.
(** Vertical tab and form feed end a line (X.680 12.1.6), but not a comment. *)
Theorem C103_line_comment_refuted : forall c, c = 11%Z \/ c = 12%Z -> line_end c /\
  file_tokens (codes "A -- c" ++ [c] ++ codes "B" ++ [10%Z]) = Ok (Some [Token "GENERIC_IDENTIFIER_UPPERCASE" (PName "A"); eof_token]).
Proof. intros c [-> | ->]; (split; [unfold line_end; lia|vm_compute; reflexivity]). Qed.
(** Slash and star: skipped up to the first star and slash.  Missing: such comments inside it. *)
Theorem C103_block_comment_partial : forall w mem o, bytes (w ++ mem) -> ~ occurs [42; 47]%Z w ->
  (reads_as ([47; 42]%Z ++ w ++ [42; 47]%Z ++ mem) o <-> reads_as mem o).
Proof.
  intros w mem o B N. apply Forall_app in B. destruct B as [B1 B2]. pose proof (block_lexeme w mem B1 N) as H. cbv zeta in H.
  pose proof (skip_iff 94 _ mem o B2 H eq_refl) as S. rewrite <- !app_assoc in S. exact S.
Qed.
(** X.680 12.6.4: these comments nest, so all of this file is one comment; here it ends at the first end mark. *)
Theorem C103_block_comment_refuted : file_tokens (codes "/* outer /* inner */ INTEGER */") = Ok (Some [Token "INTEGER" PNone; eof_token]).
Proof. vm_compute. reflexivity. Qed.
Example C103_example : file_tokens (codes "/* a * b **/ A -- x - y -- B") = file_tokens (codes "A B") /\ ~ occurs [42; 47]%Z (codes " a * b *").
Proof. split; [vm_compute; reflexivity|]. intros H. assert (A : close false (codes " a * b *") <> None) by (apply close_occurs; auto). apply A. vm_compute. reflexivity. Qed.

(** ** C104: numbers and strings *)
Lemma middle a b (ds : list Z) : firstn (length (39%Z :: ds ++ [a; b]) - 3) (tl (39%Z :: ds ++ [a; b])) = ds.
Proof. cbn [tl length]. rewrite app_length. cbn [length]. replace (S (length ds + 2) - 3)%nat with (length ds) by lia. rewrite firstn_app, firstn_all, Nat.sub_diag, firstn_O. apply app_nil_r. Qed.
(** Digits are one number with their decimal value, if it is below 2^63, and else an exception. *)
Theorem C104_numbers : forall ds rest fuel loc, bytes rest -> ds <> [] -> Forall is_digit ds -> number_ends rest ->
  (decimal ds < 2^63 -> exists loc', yylex yy_map yy_actions (S fuel) (ds ++ rest) loc = Ok (Some (Token "number" (PInteger (decimal ds)), loc', rest)))%Z /\
  (2^63 <= decimal ds -> yylex yy_map yy_actions (S fuel) (ds ++ rest) loc = Ok None)%Z.
Proof.
  intros ds rest fuel loc B N F R. assert (Bd : bytes ds) by (eapply Forall_impl; [|exact F]; unfold is_digit, wf_byte; cbn; intros; lia).
  pose proof (yylex_lexeme _ _ _ _ fuel loc ltac:(apply Forall_app; split; [exact Bd|exact B]) (number_lexeme ds rest N F R)) as Y. change (rule_meaning 96 ds) with (integer "number" ds) in Y.
  assert (V : number_value ds = decimal ds) by (destruct F as [|c ds Hc F]; [congruence|]; unfold number_value; destruct (c =? 45)%Z eqn:E; [unfold is_digit in Hc; lia|reflexivity]).
  assert (P : (0 <= decimal ds)%Z) by (clear - F; induction F as [|c ds Hc F IH]; cbn [decimal]; [lia|]; unfold is_digit in Hc; assert (0 <= 10 ^ zlen ds)%Z by (apply Z.pow_nonneg; lia); nia).
  unfold integer in Y. rewrite V in Y. split; intros H.
  - destruct (_ && _)%bool eqn:E in Y; [eexists; exact Y|lia].
  - destruct (_ && _)%bool eqn:E in Y; [lia|exact Y].
Qed.
Theorem C104_negative_numbers : forall ds rest fuel loc, bytes rest -> ds <> [] -> Forall is_digit ds -> match rest with [] => False | c :: _ => ~ is_digit c end ->
  (decimal ds <= 2^63 -> exists loc', yylex yy_map yy_actions (S fuel) (45 :: ds ++ rest) loc = Ok (Some (Token "negativenumber" (PInteger (- decimal ds)), loc', rest)))%Z /\
  (2^63 < decimal ds -> yylex yy_map yy_actions (S fuel) (45 :: ds ++ rest) loc = Ok None)%Z.
Proof.
  intros ds rest fuel loc B N F R. assert (Bd : bytes (45%Z :: ds)) by (constructor; [unfold wf_byte; lia|]; eapply Forall_impl; [|exact F]; unfold is_digit, wf_byte; cbn; intros; lia).
  pose proof (yylex_lexeme _ _ _ _ fuel loc ltac:(apply Forall_app; split; [exact Bd|exact B]) (negative_lexeme ds rest N F R)) as Y. change (rule_meaning 97 (45%Z :: ds)) with (integer "negativenumber" (45%Z :: ds)) in Y.
  change (number_value (45%Z :: ds)) with (- decimal ds)%Z in *.
  assert (P : (0 <= decimal ds)%Z) by (clear - F; induction F as [|c ds Hc F IH]; cbn [decimal]; [lia|]; unfold is_digit in Hc; assert (0 <= 10 ^ zlen ds)%Z by (apply Z.pow_nonneg; lia); nia).
  unfold integer in Y. change (number_value (45%Z :: ds)) with (- decimal ds)%Z in Y. split; intros H.
  - destruct (_ && _)%bool eqn:E in Y; [eexists; exact Y|lia].
  - destruct (_ && _)%bool eqn:E in Y; [lia|exact Y].
Qed.
(** X.680 12.9: a real number may have an exponent, or no digits behind the point; here these are other tokens. *)
Theorem C104_real_numbers_refuted :
  file_tokens (codes "1.5E3 ") = Ok (Some [Token "realnumber" (PText (codes "1.5")); Token "GENERIC_IDENTIFIER_UPPERCASE" (PName "E3"); eof_token]) /\
  file_tokens (codes "1. ") = Ok (Some [Token "number" (PInteger 1); Token "FULL_STOP" PNone; eof_token]).
Proof. split; vm_compute; reflexivity. Qed.
(** A character string of octets other than quotes and backslash, and of doubled quotes, is one token with its text (the quotes
    around it and doubled quotes are kept).  Missing: strings with an apostrophe or a backslash in them. *)
Theorem C104_strings_partial : forall items rest fuel loc, bytes rest -> Forall tame_item items -> match rest with [] => False | c :: _ => c <> 34%Z end ->
  exists loc', yylex yy_map yy_actions (S fuel) ((34%Z :: concat items ++ [34%Z]) ++ rest) loc = Ok (Some (Token "cstring" (PText (34%Z :: concat items ++ [34%Z])), loc', rest)).
Proof.
  intros items rest fuel loc B F R.
  assert (Bi : bytes (34%Z :: concat items ++ [34%Z])).
  { constructor; [unfold wf_byte; lia|]. apply Forall_app. split; [|constructor; [unfold wf_byte; lia|constructor]]. clear - F. induction F as [|i items Hi F IH]; [constructor|]. cbn. apply Forall_app. split; [|exact IH].
    destruct Hi as [->|(c & -> & Bc & _)]; repeat (constructor; [first [exact Bc|unfold wf_byte; lia]|]); constructor. }
  pose proof (yylex_lexeme _ _ _ _ fuel loc ltac:(apply Forall_app; split; [exact Bi|exact B]) (string_lexeme items rest F R)) as Y. cbn [rule_meaning nth_error keywords] in Y. eexists. exact Y.
Qed.
(** An apostrophe ends a string, and a backslash hides the quote behind it. *)
Theorem C104_strings_refuted :
  file_tokens (codes """it's"" OF """) = Ok (Some [Token "cstring" (PText (codes """it'")); Token "GENERIC_IDENTIFIER_LOWERCASE" (PName "s"); Token "cstring" (PText (codes """ OF """)); eof_token]) /\
  file_tokens (codes """C:\"", OF """) = Ok (Some [Token "cstring" (PText (codes """C:\"", OF """)); eof_token]).
Proof. split; vm_compute; reflexivity. Qed.
(** Binary and hexadecimal strings: the digits between the apostrophes.  Missing: white space between the digits. *)
Theorem C104_binary_strings_partial : forall ds rest fuel loc, bytes rest -> Forall (fun c => c = 48 \/ c = 49)%Z ds ->
  exists loc', yylex yy_map yy_actions (S fuel) ((39%Z :: ds ++ [39; 66]%Z) ++ rest) loc = Ok (Some (Token "bstring" (PText ds), loc', rest)).
Proof.
  intros ds rest fuel loc B F. assert (Bd : bytes (39%Z :: ds ++ [39; 66]%Z)) by (constructor; [unfold wf_byte; lia|]; apply Forall_app; split; [eapply Forall_impl; [|exact F]; unfold wf_byte; cbn; intros; lia|repeat (constructor; [unfold wf_byte; lia|]); constructor]).
  pose proof (yylex_lexeme _ _ _ _ fuel loc ltac:(apply Forall_app; split; [exact Bd|exact B]) (quoted_digits_lexeme 99 _ 66 ds rest ltac:(left; auto) (proj2 (bit_star ds) F))) as Y.
  cbn [rule_meaning nth_error keywords] in Y. rewrite middle in Y. eexists. exact Y.
Qed.
Theorem C104_hexadecimal_strings_partial : forall ds rest fuel loc, bytes rest -> Forall (fun c => is_digit c \/ 65 <= c <= 70 \/ 97 <= c <= 102)%Z ds ->
  exists loc', yylex yy_map yy_actions (S fuel) ((39%Z :: ds ++ [39; 72]%Z) ++ rest) loc = Ok (Some (Token "hstring" (PText ds), loc', rest)).
Proof.
  intros ds rest fuel loc B F. assert (Bd : bytes (39%Z :: ds ++ [39; 72]%Z)) by (constructor; [unfold wf_byte; lia|]; apply Forall_app; split; [eapply Forall_impl; [|exact F]; unfold is_digit, wf_byte; cbn; intros; lia|repeat (constructor; [unfold wf_byte; lia|]); constructor]).
  pose proof (yylex_lexeme _ _ _ _ fuel loc ltac:(apply Forall_app; split; [exact Bd|exact B]) (quoted_digits_lexeme 100 _ 72 ds rest ltac:(right; auto) (proj2 (hex_star ds) F))) as Y.
  cbn [rule_meaning nth_error keywords] in Y. rewrite middle in Y. eexists. exact Y.
Qed.
(** X.680 12.10: white space between the digits has no significance; here it makes a character string of them. *)
Theorem C104_binary_strings_refuted : file_tokens (codes "'01 10'B ") = Ok (Some [Token "cstring" (PText (codes "'01 10'")); Token "GENERIC_IDENTIFIER_UPPERCASE" (PName "B"); eof_token]).
Proof. vm_compute. reflexivity. Qed.
Example C104_example : file_tokens (codes "9223372036854775807 -9223372036854775808 ""say """"hi"""""" '0110'B '0aF'H ") =
  Ok (Some [Token "number" (PInteger 9223372036854775807); Token "negativenumber" (PInteger (-9223372036854775808)); Token "cstring" (PText (codes """say """"hi""""""")); Token "bstring" (PText (codes "0110")); Token "hstring" (PText (codes "0aF")); eof_token])
  /\ file_tokens (codes "9223372036854775808") = Ok None.
Proof. split; vm_compute; reflexivity. Qed.

(** ** C105: the lines of messages *)
(** Each token is located on the line that it starts on: one more than the new lines in the text before it.  Missing: files with a
    new line inside a string. *)
Theorem C105_lines_partial : forall text tls, bytes text -> lex_file yy_map yy_actions text = Ok (Some tls) ->
  exists ls rest, lexemes lexer_rules (text ++ [0%Z]) (ls ++ [(105%nat, [0%Z])]) rest /\ map fst tls = tokens_of (ls ++ [(105%nat, [0%Z])]) /\
    ((forall u, In (98%nat, u) ls -> ~ In 10%Z u) -> map (fun p => p_line (loc_begin (snd p))) tls = token_lines 1 (ls ++ [(105%nat, [0%Z])])).
Proof.
  intros text tls B E. pose proof (lex_file_spec text B) as S. rewrite E in S. destruct S as (ls & rest & H1 & _ & _ & H4 & H5). exists ls, rest. split; [exact H1|]. split; [exact H4|]. intros N. rewrite H5.
  assert (A : forall ls n, (forall u, In (98%nat, u) ls -> ~ In 10%Z u) -> counted_lines n ls = token_lines n ls).
  { clear. induction ls as [|[k u] ls IH]; intros n N; [reflexivity|]. cbn [counted_lines token_lines]. f_equal. rewrite IH by (intros v Hv; apply N; right; exact Hv). destruct (Nat.eqb k 98) eqn:Ek; [|reflexivity].
    apply Nat.eqb_eq in Ek. subst k. rewrite new_lines_none by (apply N; left; reflexivity). reflexivity. }
  apply A. intros u H. apply in_app_or in H. destruct H as [H|[H|[]]]; [apply N, H|discriminate].
Qed.
(** Behind a string of two lines, all lines are one too low. *)
Theorem C105_lines_refuted : match lex_file yy_map yy_actions (codes """two" ++ [10%Z] ++ codes "lines"" A") with
  | Ok (Some tls) => map (fun p => (tk_name (fst p), p_line (loc_begin (snd p)))) tls = [("cstring", 1%Z); ("GENERIC_IDENTIFIER_UPPERCASE", 1%Z); ("END_OF_FILE", 1%Z)]
  | _ => False end.
Proof. vm_compute. reflexivity. Qed.
(** Columns: a space counts for two, so that the column is right only behind tokens and comments.  The second word is on column 3. *)
Theorem C105_columns_refuted : match lex_file yy_map yy_actions (codes "A B") with
  | Ok (Some tls) => map (fun p => (tk_name (fst p), p_column (loc_begin (snd p)))) tls = [("GENERIC_IDENTIFIER_UPPERCASE", 1%Z); ("GENERIC_IDENTIFIER_UPPERCASE", 4%Z); ("END_OF_FILE", 5%Z)]
  | _ => False end.
Proof. vm_compute. reflexivity. Qed.
(** Exactly: the position (line and column) of each token is the sum of what the text before it counts for ([after]). *)
Theorem C105_positions_exact : forall text tls, bytes text -> lex_file yy_map yy_actions text = Ok (Some tls) ->
  exists ls rest, lexemes lexer_rules (text ++ [0%Z]) (ls ++ [(105%nat, [0%Z])]) rest /\ map fst tls = tokens_of (ls ++ [(105%nat, [0%Z])]) /\
    map (fun p => loc_begin (snd p)) tls = token_positions (Position 1 1) (ls ++ [(105%nat, [0%Z])]).
Proof. exact lex_file_positions. Qed.
Example C105_example : match lex_file yy_map yy_actions (codes "A" ++ [10%Z] ++ codes "/*" ++ [10%Z; 10%Z] ++ codes "*/ B" ++ [13; 10]%Z ++ codes "C") with
  | Ok (Some tls) => map (fun p => p_line (loc_begin (snd p))) tls = [1; 4; 5; 5]%Z
  | _ => False end.
Proof. vm_compute. reflexivity. Qed.
