(** C106 - C112: the parser of the compiler (/repo/src/compiler/asn_compiler.yacc 185-1810 and its generated code,
    /repo/src/compiler/autogen_copy/asn_compiler.hpp 7515-11380; /repo/src/compiler_main/CompilerMain.cpp 217-240). *)
From Coq Require Import List String ZArith Bool Lia.
From Verif Require Import Base CompilerNames Lexer LexerTable LexerSpec LexerFile LexerFacts LexerColumns LexerLexemes Parser LRSpec ParserTable ParserGrammar ParserTree ParserActions ParserFile ParserValid ParserFileProofs
  ParserNames ParserFirst ParserFrame ParserText ParserTextProofs ParserSourceProofs ParserInject ParserAnon PassNest ParserSource.
Import ListNotations.
Local Open Scope string_scope.
Local Open Scope list_scope.

Lemma bytes_of (l : list Z) : forallb (fun c => (0 <=? c)%Z && (c <? 256)%Z) l = true -> bytes l.
Proof. intros H. rewrite forallb_forall in H. apply Forall_forall. intros c Hc. specialize (H c Hc). rewrite andb_true_iff, Z.leb_le, Z.ltb_lt in H. exact H. Qed.
Ltac octets := apply bytes_of; vm_compute; reflexivity.
(** A module M with the assignments of the text [s]. *)
Definition module_text (s : string) : list Z := codes ("M DEFINITIONS ::= BEGIN " ++ s ++ " END")%string.
Definition is_accepted (text : list Z) : bool := match parse_file initial_state text with Ok (Accepted, _) => true | _ => false end.
Definition is_rejected (text : list Z) : bool := match parse_file initial_state text with Ok (Rejected, _) => true | _ => false end.
(** The assignments of the only module of a file. *)
Definition assigned (text : list Z) : option (list assignment) :=
  match parse_file initial_state text with Ok (Accepted, State [m] _) => Some (m_assigns m) | _ => None end.

(** ** C106: only sentences of the grammar are accepted *)
Theorem C106_accepted_is_sentence : forall s text s', bytes text -> parse_file s text = Ok (Accepted, s') ->
  exists ts, file_tokens text = Ok (Some (ts ++ [eof_token])) /\ derives "ModuleDefinitionList" (map tk_name ts).
Proof.
  intros s text s' B E. pose proof (parse_file_ok s text B) as P. rewrite E in P. destruct P as (ts & v & T & S). exists ts. split; [exact T|]. eapply sentence_derives, S.
Qed.
(** The tree is the one that the actions of the grammar's rules build on a derivation of the tokens: executed bottom-up and from left
    to right, each on the values of the symbols on the right of its rule. *)
Theorem C106_tree_of_derivation : forall s text s', bytes text -> parse_file s text = Ok (Accepted, s') ->
  exists ts v, file_tokens text = Ok (Some (ts ++ [eof_token])) /\
    LRSpec.phrase semantic ParserTree.state (ntokens yy_tables) rules perform START (map tok ts) s v s'.
Proof. intros s text s' B E. pose proof (parse_file_ok s text B) as P. rewrite E in P. exact P. Qed.
(** Rule and action, symbol and number, belong together. *)
Theorem C106_rules_are_the_grammar : forall k X rhs, rules k = Some (X, rhs) -> In (name X, map name rhs) grammar.
Proof. exact rule_named. Qed.
Example C106_example : is_accepted (module_text "A ::= SEQUENCE { a INTEGER, b B OPTIONAL } B ::= BOOLEAN") = true /\ is_accepted (module_text "A ::= SEQUENCE { a INTEGER b B }") = false.
Proof. vm_compute. auto. Qed.

(** ** C107: parsing comes to an end and does no harm *)
(** On every text, and whatever has been read before, the parser ends after at most 12 steps for each octet (and 48 more), with one
    of its verdicts; it reads no table out of bounds, pops no empty stack and takes no value for one of another type.  An exception
    and reading past the end of the text can only come from the lexer. *)
Theorem C107_ends : forall s text, bytes text -> match parse_file s text with
  | Ok (Accepted, _) | Ok (Rejected, _) => True
  | Ok (Thrown, _) => file_tokens text = Ok None
  | UB => file_tokens text = UB
  | NoFuel => False
  end.
Proof. intros s text B. pose proof (parse_file_ok s text B) as P. destruct (parse_file s text) as [[[| |] s']| |]; auto. Qed.
(** Which is decided by the text alone (C100, C101). *)
Theorem C107_harm_only_at_an_open_end : forall s text, bytes text -> parse_file s text = UB ->
  exists ls t, lexemes lexer_rules (text ++ [0%Z]) ls (t ++ [0%Z]) /\ text = texts ls ++ t /\ (open_line_comment t \/ open_block_comment t \/ open_string t).
Proof.
  intros s text B E. pose proof (C107_ends s text B) as P. rewrite E in P. pose proof (file_reads text B) as R. rewrite P in R.
  inversion R as [| |ls mid H1 H2 H3 H4]; subst. destruct (suffixes_end ls text mid B H1 H3) as (t & -> & Et). exists ls, t. split; [exact H1|]. split; [exact Et|].
  apply over_read_iff; [|exact H4]. rewrite Et in B. apply Forall_app in B. tauto.
Qed.
(** It does happen: a syntax error in front of it, and the text is not read so far. *)
Example C107_example : parse_file initial_state (codes "A DEFINITIONS ::= BEGIN END -- the end") = UB /\
  parse_file initial_state (codes "A DEFINITIONS ::= BEGIN a INTEGER ::= 9223372036854775808 END") = Ok (Thrown, State [] 0) /\
  parse_file initial_state (codes "A DEFINITIONS ::= 5 -- the end") = Ok (Rejected, State [] 0).
Proof. vm_compute. auto. Qed.

(** ** C108: the first syntax error is final *)
(** A file that is rejected is rejected because of its first tokens: every file that starts with the same tokens is rejected, whatever
    follows them, even text that the lexer cannot read. *)
Theorem C108_first_error_is_final : forall s text s', bytes text -> parse_file s text = Ok (Rejected, s') ->
  exists ts, gives text ts /\ forall text', bytes text' -> gives text' ts -> parse_file s text' = Ok (Rejected, s').
Proof. intros s text s' B E. apply parse_file_first; [exact B|discriminate|exact E]. Qed.
(** So that no file that begins with these tokens is accepted. *)
Theorem C108_no_recovery : forall s text s', bytes text -> parse_file s text = Ok (Rejected, s') ->
  exists ts, gives text ts /\ forall text' s'', bytes text' -> gives text' ts -> parse_file s text' <> Ok (Accepted, s'').
Proof.
  intros s text s' B E. destruct (C108_first_error_is_final s text s' B E) as (ts & G & H). exists ts. split; [exact G|]. intros text' s'' B' G'. rewrite (H text' B' G'). discriminate.
Qed.
Example C108_example : is_rejected (module_text "A ::= INTEGER B ::= ::= C ::= NULL") = true /\ is_rejected (codes "A DEFINITIONS ::= BEGIN B ::= ::= 'never closed") = true.
Proof. vm_compute. auto. Qed.

(** ** C109: the notation is accepted *)
(** Not every sentence of the compiler's own grammar is accepted: the tables prefer other rules. *)
Definition derivation_1 : derivation := Node 2 [Node 4 [Node 144 [Node 500 [Leaf "GENERIC_IDENTIFIER_UPPERCASE"]; Node 147 []]; Leaf "DEFINITIONS"; Node 158 []; Node 162 []; Node 164 [];
  Leaf "DEFINED_AS"; Leaf "BEGIN"; Node 165 [Node 169 []; Node 173 []; Node 187 [Node 194 [Node 95 [Node 99 [Node 497 [Leaf "GENERIC_IDENTIFIER_UPPERCASE"];
  Node 103 [Leaf "OPEN_BRACE"; Node 104 [Node 107 [Node 186 [Node 499 [Leaf "GENERIC_IDENTIFIER_LOWERCASE"]]]]; Leaf "CLOSE_BRACE"]; Leaf "DEFINED_AS";
  Node 212 [Node 230 [Node 287 [Leaf "INTEGER"]]]]]]]]; Node 143 []; Leaf "END"]]%nat.
Definition derivation_2 : derivation := Node 2 [Node 4 [Node 144 [Node 500 [Leaf "GENERIC_IDENTIFIER_UPPERCASE"]; Node 147 []]; Leaf "DEFINITIONS"; Node 158 []; Node 162 []; Node 164 [];
  Leaf "DEFINED_AS"; Leaf "BEGIN"; Node 165 [Node 169 []; Node 173 []; Node 187 [Node 189 [Node 209 [Node 497 [Leaf "GENERIC_IDENTIFIER_UPPERCASE"]; Leaf "DEFINED_AS";
  Node 213 [Node 405 [Node 212 [Node 230 [Node 287 [Leaf "INTEGER"]]]; Node 415 [Leaf "OPEN_PARENTHESIS"; Node 416 [Node 418 [Node 419 [Node 422 [Node 424 [Node 427 [Node 430
  [Node 438 [Node 442 [Node 461 [Node 463 [Node 466 [Node 456 [Node 198 [Node 499 [Leaf "GENERIC_IDENTIFIER_LOWERCASE"]]]]; Leaf "LESS_THAN"]; Leaf "RANGE";
  Node 464 [Node 468 [Node 457 [Node 293 [Leaf "number"]]]]]]]]]]]]]]; Node 493 []; Leaf "CLOSE_PARENTHESIS"]]]]]]]; Node 143 []; Leaf "END"]]%nat.
Theorem C109_grammar_refuted : exists text1 text2 ts1 ts2, bytes text1 /\ bytes text2 /\
  text1 = module_text "A{x} ::= INTEGER" /\ file_tokens text1 = Ok (Some (ts1 ++ [eof_token])) /\ derives "ModuleDefinitionList" (map tk_name ts1) /\ is_rejected text1 = true /\
  text2 = module_text "A ::= INTEGER (a<..5)" /\ file_tokens text2 = Ok (Some (ts2 ++ [eof_token])) /\ derives "ModuleDefinitionList" (map tk_name ts2) /\ is_rejected text2 = true.
Proof.
  exists (module_text "A{x} ::= INTEGER"), (module_text "A ::= INTEGER (a<..5)").
  exists (match file_tokens (module_text "A{x} ::= INTEGER") with Ok (Some l) => removelast l | _ => [] end), (match file_tokens (module_text "A ::= INTEGER (a<..5)") with Ok (Some l) => removelast l | _ => [] end).
  split; [octets|]. split; [octets|]. split; [reflexivity|]. split; [vm_compute; reflexivity|].
  split; [apply (valid_derives derivation_1); vm_compute; reflexivity|]. split; [vm_compute; reflexivity|]. split; [reflexivity|]. split; [vm_compute; reflexivity|].
  split; [apply (valid_derives derivation_2); vm_compute; reflexivity|]. vm_compute; reflexivity.
Qed.
(** And not everything of X.680: imports into a module without assignments, version brackets, an empty list of additions, defaults in
    braces, numbers with an exponent, negative reals, values of other modules, sets of objects. *)
Theorem C109_notation_refuted : forallb (fun s => is_rejected (module_text s))
  ["IMPORTS A FROM B;"; "A ::= SEQUENCE { a NULL, ..., [[ b NULL ]] }"; "A ::= SEQUENCE { a NULL, ..., ... }"; "A ::= SEQUENCE { a SEQUENCE OF INTEGER DEFAULT {1, 2} }";
   "a REAL ::= 1.0e5"; "a REAL ::= -1.5"; "a INTEGER ::= M.b"; "A B ::= { a | b }"]%list = true.
Proof. vm_compute. reflexivity. Qed.
(** The common part of ASN.1 (ParserSource.v), spelled in whatever way X.680 allows (ParserText.v), is accepted: modules with object
    identifiers, default tagging, EXPORTS and IMPORTS; type, value and class assignments, with parameters; all types, tags, defaults,
    ranges, sizes, unions and intersections.  Missing: the notation that ParserSource.v does not have. *)
Theorem C109_notation_partial : forall l text s, bytes text -> l <> [] -> forallb wf_source l = true -> written text (flat_map source_tokens l) ->
  exists s', parse_file s text = Ok (Accepted, s').
Proof. intros l text [ms n] B N W R. eexists. apply (parse_sources l text ms n B N W), written_tokens; assumption. Qed.
(** Every module of the notation has a text, if its names, numbers and strings have one. *)
Definition spellable (t : Lexer.token) : Prop := exists u, bytes u /\ forall rest, spelled u t (32%Z :: rest).
Theorem C109_every_module_has_a_text : forall ts, Forall spellable ts -> exists text, bytes text /\ written text ts.
Proof.
  induction 1 as [|t ts (u & Bu & Su) H (text & B & W)]; [exists []; split; constructor|]. exists (u ++ 32%Z :: text). split.
  - apply Forall_app. split; [exact Bu|]. constructor; [unfold wf_byte; lia|exact B].
  - apply wr_token; [apply (Su (text ++ [0%Z]))|]. apply wr_white; [right; reflexivity|exact W].
Qed.
Example C109_example : exists text, bytes text /\ written text (flat_map source_tokens
    [Source "M" [] (Some Implicit) false None None [DType "A" [] (YRecord false [CNamed "a" (YWith (YInteger []) (Constr [[ERange (Some (SInt 0)) None]] None)) Optional; CAnonymous (YRef None "B") Required] None)]]) /\
  parse_file initial_state text = Ok (Accepted, State [Module "M" Implicit []
    [Assign "A" (AType (TRecord false [Comp "a" (TInteger []) true None None; Comp "anonymous_member_0" (TRef (Defined None "B" [])) false None None] false)) []]] 1).
Proof.
  set (l := [Source "M" [] (Some Implicit) false None None [DType "A" [] (YRecord false [CNamed "a" (YWith (YInteger []) (Constr [[ERange (Some (SInt 0)) None]] None)) Optional; CAnonymous (YRef None "B") Required] None)]]).
  assert (K : forall s, In s keywords -> bytes (codes s) -> spellable (Lexer.Token (keyword_token s) PNone)).
  { intros s Hs Bs. exists (codes s). split; [exact Bs|]. intros rest. apply sp_keyword; [exact Hs|]. split; [unfold word_octet, is_upper, is_lower, is_digit; lia|lia]. }
  assert (Y : forall s x, In (s, x) symbol_spellings -> bytes (codes s) -> spellable (Lexer.Token x PNone)).
  { intros s x Hs Bs. exists (codes s). split; [exact Bs|]. intros rest. apply sp_symbol; [exact Hs|intros _; cbn; lia|intros _; cbn; lia]. }
  assert (Wd : forall c, is_upper c \/ is_lower c -> word [c]).
  { intros c Hc. split; [exists c, []; split; [reflexivity|]; split; [exact Hc|constructor]|]. split; [cbn; unfold is_upper, is_lower in Hc; lia|]. intros (a & b & E). destruct a as [|? [|]]; discriminate. }
  assert (E32 : forall rest, word_ends (32%Z :: rest)) by (intros rest; split; [unfold word_octet, is_upper, is_lower, is_digit; lia|lia]).
  assert (U : forall c, is_upper c -> ~ In [c] (map codes keywords) -> spellable (upper (santize_name (string_of [c])))).
  { intros c Hc Nk. exists [c]. split; [constructor; [unfold is_upper in Hc; unfold wf_byte; lia|constructor]|]. intros rest. apply sp_upper; auto. }
  assert (W : forall c, is_lower c -> spellable (lower (santize_name (string_of [c])))).
  { intros c Hc. exists [c]. split; [constructor; [unfold is_lower in Hc; unfold wf_byte; lia|constructor]|]. intros rest. apply sp_lower; auto. }
  assert (F : Forall spellable (flat_map source_tokens l)).
  { cbn -[spellable codes keywords symbol_spellings].
    repeat (apply Forall_cons; [first
      [ eapply Y; [vm_compute; tauto|octets]
      | match goal with |- spellable (Lexer.Token _ PNone) => idtac | |- spellable (kw _) => idtac end;
        first [apply (K "DEFINITIONS")|apply (K "IMPLICIT")|apply (K "TAGS")|apply (K "BEGIN")|apply (K "SEQUENCE")|apply (K "INTEGER")|apply (K "OPTIONAL")|apply (K "END")|apply (K "MAX")]; [vm_compute; tauto|octets]
      | apply (U 77%Z); [unfold is_upper; lia|vm_compute; intuition discriminate]
      | apply (U 65%Z); [unfold is_upper; lia|vm_compute; intuition discriminate]
      | apply (U 66%Z); [unfold is_upper; lia|vm_compute; intuition discriminate]
      | apply (W 97%Z); unfold is_lower; lia
      | exists [48%Z]; split; [octets|]; intros rest; apply sp_number; [discriminate|constructor; [unfold is_digit; lia|constructor]|vm_compute; reflexivity|cbn; unfold is_digit; lia|intros t X; discriminate] ]|]).
    apply Forall_nil. }
  destruct (C109_every_module_has_a_text _ F) as (text & B & R). exists text. split; [exact B|]. split; [exact R|].
  apply (parse_sources l text [] 0 B); [discriminate|reflexivity|apply written_tokens; assumption].
Qed.

(** ** C110: the tree says what was written *)
(** Values of value assignments are lost; defaults of bits and of hexadecimal digits are the same; numbers of tags wrap; numbers that are
    references become 0; parameters are reversed or lost; two types become ANY. *)
Theorem C110_faithful_refuted : Forall (fun p => assigned (module_text (fst p)) <> None /\ assigned (module_text (fst p)) = assigned (module_text (snd p)))
  [("a BOOLEAN ::= TRUE", "a BOOLEAN ::= FALSE");
   ("a A ::= {1, 2}", "a A ::= {3, 4}");
   ("a A ::= {x 1, y 2}", "a A ::= {x 3, z 2}");
   ("A ::= SEQUENCE { a B DEFAULT '10'B }", "A ::= SEQUENCE { a B DEFAULT '10'H }");
   ("A ::= [0] INTEGER", "A ::= [4294967296] INTEGER");
   ("A ::= [0] INTEGER", "A ::= [a] INTEGER");
   ("A ::= ENUMERATED { a(b) }", "A ::= ENUMERATED { a(0) }");
   ("A ::= B{INTEGER, C}", "A ::= B{D, INTEGER}");
   ("A ::= a < B", "A ::= b < C");
   ("A ::= CHOICE { a NULL, ... }", "A ::= CHOICE { a NULL }");
   ("A ::= BIT STRING { a(0) }", "A ::= BIT STRING { b(1) }");
   ("A ::= INTEGER (0..5)", "A ::= INTEGER (7)")].
Proof. repeat (apply Forall_cons; [split; [vm_compute; discriminate|vm_compute; reflexivity]|]). apply Forall_nil. Qed.
Theorem C110_parameters_refuted : assigned (module_text "A ::= P{BOOLEAN, B}") = Some [Assign "A" (AType (TRef (Defined None "P" [TRef (Defined None "B" []); TSimple Boolean]))) []] /\
  assigned (module_text "A ::= P{INTEGER, B}") = Some [Assign "A" (AType (TRef (Defined None "P" [any_type]))) []] /\
  assigned (module_text "A ::= [2147483648] NULL") = Some [Assign "A" (AType (TTagged (context_specific, -2147483648)%Z Automatic (TSimple Null))) []].
Proof. vm_compute. auto. Qed.
(** What the tree is, for the notation of ParserSource.v in whatever spelling: see [read_source] there.  Missing: the notation that
    ParserSource.v does not have. *)
Theorem C110_tree_partial : forall l text ms n, bytes text -> l <> [] -> forallb wf_source l = true -> written text (flat_map source_tokens l) ->
  parse_file (State ms n) text = Ok (Accepted, State (ms ++ fst (thread read_source l n)) (snd (thread read_source l n))).
Proof. intros l text ms n B N W R. apply parse_sources; auto using written_tokens. Qed.
(** Two texts that give the same tree write the same modules.  Missing: notation of which the tree keeps less ([exact_source]). *)
Theorem C110_faithful_partial : forall l l' text text' s r r', bytes text -> bytes text' -> l <> [] -> l' <> [] -> forallb wf_source l = true -> forallb wf_source l' = true ->
  forallb exact_source l = true -> forallb exact_source l' = true -> written text (flat_map source_tokens l) -> written text' (flat_map source_tokens l') ->
  parse_file s text = Ok (Accepted, r) -> parse_file s text' = Ok (Accepted, r') -> st_modules r = st_modules r' -> l = l'.
Proof.
  intros l l' text text' [ms n] r r' B B' N N' W W' X X' R R' E E' S. rewrite (C110_tree_partial l text ms n B N W R) in E. rewrite (C110_tree_partial l' text' ms n B' N' W' R') in E'.
  injection E as <-. injection E' as <-. cbn [st_modules] in S. apply app_inv_head in S. eapply sources_injective; eassumption.
Qed.
Example C110_example : exact_source (Source "M" [] (Some Implicit) false None None [DType "A" [] (YRecord false [CNamed "a" (YTagged application 5 Explicit (YInteger [("x", 1)])) Optional; COf (YRef None "B")] (Some ([], None)));
    DType "B" [] (YChoice [("c", YListOf true None (Some "d") (YSimple Boolean))] None)])%Z = true /\
  wf_source (Source "M" [] (Some Implicit) false None None [DType "A" [] (YRecord false [CNamed "a" (YTagged application 5 Explicit (YInteger [("x", 1)])) Optional; COf (YRef None "B")] (Some ([], None)));
    DType "B" [] (YChoice [("c", YListOf true None (Some "d") (YSimple Boolean))] None)])%Z = true /\
  assigned (module_text "A ::= SEQUENCE { a [APPLICATION 5] EXPLICIT INTEGER { x(1) } OPTIONAL, COMPONENTS OF B, ... } B ::= CHOICE { c SET OF d BOOLEAN }") =
    Some [Assign "B" (AType (TChoice [("c", TListOf true (Some "d") (TSimple Boolean))])) [];
          Assign "A" (AType (TRecord false [Comp "a" (TTagged (application, 5) Explicit (TInteger [("x", 1)])) true None None; Comp "" any_type false None (Some (TRef (Defined None "B" [])))] true)) []]%Z.
Proof. vm_compute. auto. Qed.

(** ** C111: several files *)
(** What has been read before a file makes no difference to its verdict, nor to its modules except for the numbers of components
    without a name; and it stays as it is, in front of what the file adds. *)
Theorem C111_files_do_not_interfere : forall ms ms0 n text, match parse_file (State (ms ++ ms0) n) text, parse_file (State ms0 n) text with
  | Ok (r, s), Ok (r', s') => r = r' /\ st_modules s = ms ++ st_modules s' /\ st_anon s = st_anon s'
  | UB, UB => True
  | _, _ => False
  end \/ (parse_file (State (ms ++ ms0) n) text = NoFuel /\ parse_file (State ms0 n) text = NoFuel).
Proof.
  intros ms ms0 n text. pose proof (parse_file_framed ms (State ms0 n) text) as F. unfold behind in F. cbn [st_modules st_anon] in F. rewrite F. destruct (parse_file (State ms0 n) text) as [[r s]| |]; cbn; auto.
Qed.
Theorem C111_files_only_add : forall ms n text r s, parse_file (State ms n) text = Ok (r, s) -> exists added, st_modules s = ms ++ added.
Proof.
  intros ms n text r s E. pose proof (parse_file_framed ms (State [] n) text) as F. unfold behind in F. cbn [st_modules st_anon] in F. rewrite app_nil_r in F. rewrite E in F.
  destruct (parse_file (State [] n) text) as [[r' s']| |]; try discriminate. cbn in F. injection F as _ ->. eexists. reflexivity.
Qed.
(** Files are taken in order; the first that is not accepted ends the compiler. *)
Theorem C111_files_in_order : forall t1 t2 s, parse_files s (t1 ++ t2) = (let* o := parse_files s t1 in match o with Some s' => parse_files s' t2 | None => Ok None end).
Proof.
  induction t1 as [|t t1 IH]; intros t2 s; [reflexivity|]. cbn [app parse_files]. destruct (parse_file s t) as [[[| |] s']| |]; cbn [bind]; [apply IH|reflexivity..].
Qed.
(** Files in the notation of ParserSource.v are read as if they were one. *)
Theorem C111_files_partial : forall ls texts s, Forall2 (fun l text => bytes text /\ l <> [] /\ forallb wf_source l = true /\ written text (flat_map source_tokens l)) ls texts ->
  parse_files s texts = Ok (Some (State (st_modules s ++ fst (thread read_source (concat ls) (st_anon s))) (snd (thread read_source (concat ls) (st_anon s))))).
Proof.
  assert (T : forall l1 l2 n, thread read_source (l1 ++ l2) n = (fst (thread read_source l1 n) ++ fst (thread read_source l2 (snd (thread read_source l1 n))), snd (thread read_source l2 (snd (thread read_source l1 n))))).
  { induction l1 as [|x l1 IH]; intros l2 n; cbn [app]; [cbn [thread fst snd app]; apply surjective_pairing|]. cbn [thread]. destruct (read_source x n) as [y m]. rewrite IH. destruct (thread read_source l1 m) as [ys k]. reflexivity. }
  intros ls texts s H. revert s. induction H as [|l text ls texts (B & N & W & R) H IH]; intros [ms n]; cbn [st_modules st_anon parse_files concat].
  - cbn. rewrite app_nil_r. reflexivity.
  - rewrite (C110_tree_partial l text ms n B N W R). cbn [bind]. rewrite IH. cbn [st_modules st_anon]. rewrite T. cbn [fst snd]. rewrite app_assoc. reflexivity.
Qed.
Example C111_example : parse_files initial_state [module_text "A ::= SEQUENCE { NULL }"; codes "N DEFINITIONS ::= BEGIN B ::= SEQUENCE { NULL } END"] =
  Ok (Some (State [Module "M" Explicit [] [Assign "A" (AType (TRecord false [Comp "anonymous_member_0" (TSimple Null) false None None] false)) []];
                   Module "N" Explicit [] [Assign "B" (AType (TRecord false [Comp "anonymous_member_1" (TSimple Null) false None None] false)) []]] 2)) /\
  parse_files initial_state [module_text "A ::= NULL"; module_text "A ::= ::="; module_text "B ::= NULL"] = Ok None.
Proof. vm_compute. auto. Qed.

(** ** C112: the names of components without a name *)
(** A name that the compiler makes up may be one that the text has, in the same SEQUENCE. *)
Theorem C112_fresh_refuted : exists text, bytes text /\ match assigned text with
  | Some [Assign _ (AType (TRecord _ [Comp x _ _ _ None; Comp y _ _ _ None] _)) _] => x = y
  | _ => False
  end.
Proof. exists (module_text "A ::= SEQUENCE { NULL, anonymous-member-0 BOOLEAN }"). split; [octets|vm_compute; reflexivity]. Qed.
(** In files in the notation of ParserSource.v: a name occurs in the tree as often as the text gives it to a component, and once more if
    it is one of the names made up; these are anonymous_member_ and one number after another, for as many as the counter has gone on.
    So names made up differ from each other, across all files.  Missing: the notation that ParserSource.v does not have. *)
Theorem C112_made_up_names_partial : forall ls texts s, Forall2 (fun l text => bytes text /\ l <> [] /\ forallb wf_source l = true /\ written text (flat_map source_tokens l)) ls texts ->
  exists s' added, parse_files s texts = Ok (Some s') /\ st_modules s' = st_modules s ++ added /\ (st_anon s <= st_anon s')%Z /\
    forall x, count_occ string_dec (flat_map module_names added) x =
      (count_occ string_dec (flat_map given_source (concat ls)) x + count_occ string_dec (map (fun i => anon_name (st_anon s + Z.of_nat i)) (seq 0 (Z.to_nat (st_anon s' - st_anon s)))) x)%nat.
Proof.
  intros ls texts s H. rewrite (C111_files_partial ls texts s H). destruct (sources_counted (concat ls) (st_anon s)) as [L C]. eexists. eexists. split; [reflexivity|]. cbn [st_modules st_anon]. split; [reflexivity|]. split; [exact L|exact C].
Qed.
Theorem C112_made_up_names_differ : forall a b, in_i64 a -> in_i64 b -> anon_name a = anon_name b -> a = b.
Proof. intros a b A B E. unfold anon_name in E. cbn in E. repeat (injection E as E). apply to_string_inj; assumption. Qed.
Example C112_example : match parse_file initial_state (module_text "A ::= SEQUENCE { a NULL, SEQUENCE { NULL, NULL } OPTIONAL }") with
  | Ok (Accepted, s) => (flat_map module_names (st_modules s), st_anon s) = (["a"; "anonymous_member_2"; "anonymous_member_0"; "anonymous_member_1"], 3%Z)
  | _ => False
  end.
Proof. vm_compute. reflexivity. Qed.
