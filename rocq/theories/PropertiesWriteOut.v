(** C125: parameterized types, from the text to the generated code.  WriteOutSpec.v says what they stand for. *)
From Coq Require Import List String ZArith Bool Lia Permutation.
From Verif Require Import Base Ident Spec HeaderProofs View ViewProofs Prims PrimProofs Schema SchemaSpec SchemaProofs SchemaDecode
  SchemaRound PropertiesSchema Compiler CompilerSpec CompilerProofs PropertiesCompiler.
From Verif Require Import PassesSpec Frontend FrontOrder FrontNest FrontPasses FrontAccept.
From Verif Require Import CompilerNames CompilerTree Lexer LexerSpec ParserTree ParserFile ParserText ParserTextProofs PropertiesParser ParserWrite ParserSource Elab ElabSpec ElabProofs AcceptSpec FrontText PropertiesText PropertiesFront.
From Verif Require Import HeaderSpec CppSpec Header HeaderSound HeaderRun HeaderCheck ExpressSpec ExpressRun ExpressCheck PropertiesCpp WriteOutSpec WriteOut.
Import ListNotations.
Local Open Scope string_scope.
Local Open Scope list_scope.

Lemma written_out_compiled_as texts ls : files texts ls -> well_named (concat ls) -> forallb well_parameterized (concat ls) = true -> compiled_as texts (map written_out_source (concat ls)).
Proof.
  intros F W P. destruct (files_compiled_as texts ls F) as (s & E1 & E2). exists s. split; [exact E1|]. intros fuel. rewrite E2. apply passes_written_out; assumption.
Qed.

(** ** C125 *)
(** Files with templates X { T } ::= ..., and files in which every X { A } is written out with A for T and the templates are gone: the
    compiler accepts both or neither, writes the same code for every type, and the same headers.
    Missing: templates with more than one parameter in use, or with governed ones; arguments and bodies that are themselves parameterized, imported templates
    (C91_nested_actual_refuted, C91_template_in_template_refuted, C91_imported_template_refuted, C125_two_parameters_refuted). *)
Theorem C125_same_code_partial : forall texts texts' ls ls', files texts ls -> files texts' ls' -> concat ls' = map written_out_source (concat ls) ->
  well_named (concat ls) -> forallb well_parameterized (concat ls) = true ->
  (accepted texts <-> accepted texts') /\
  (forall M X code, writes texts M X code <-> writes texts' M X code) /\
  (forall tr p, writes_header texts tr p <-> writes_header texts' tr p).
Proof.
  intros texts texts' ls ls' F F' E W P. destruct (written_out_compiled_as texts ls F W P) as (s & S1 & S2). destruct (files_compiled_as texts' ls' F') as (s' & S1' & S2'). rewrite E in S2'.
  assert (Q : forall fuel, passes fuel (st_modules s) = passes fuel (st_modules s')) by (intros fuel; rewrite S2, S2'; reflexivity). clear S2 S2' F F' E. split; [|split].
  - unfold accepted. rewrite S1, S1'. split; intros (f & s0 & tr & [= <-] & A); exists f; eexists _, tr; (split; [reflexivity|]); [rewrite <- Q|rewrite Q]; exact A.
  - intros M X code. unfold writes, compile_texts. rewrite S1, S1'. split; intros (f & d & A); exists f, d; [rewrite <- Q|rewrite Q]; exact A.
  - intros tr p. unfold writes_header. rewrite S1, S1'. split; intros (f & d & s0 & [= <-] & A & B); exists f, d; eexists; (split; [reflexivity|]); (split; [|exact B]); [rewrite <- Q|rewrite Q]; exact A.
Qed.
(** So types that use templates work: with [l] the modules written out, a type of [l] that means something and is valid has code, and its values make
    the round trip. *)
Theorem C125_works_partial : forall texts ls, files texts ls -> well_named (concat ls) -> forallb well_parameterized (concat ls) = true ->
  let l := map written_out_source (concat ls) in covered l -> no_class_definitions l -> no_made_up_names l ->
  well_defined l -> imports_exist l -> no_import_cycle l -> zlen (flat_map source_tokens l) < 2^31 ->
  forall s x t a, In s l -> In (DType x [] t) (s_decls s) -> means l s t a -> regular (default_tags s) a ->
  exists code, writes texts (s_name s) x code /\ (forall code', writes texts (s_name s) x code' -> code' = code) /\ round_trips code.
Proof.
  intros texts ls F W P l C Hc Hu Hw I1 I2 Z s x t a Hs Hd Hm R. pose proof (written_out_compiled_as texts ls F W P) as A. fold l in A.
  assert (Z2 : Z.of_nat (sum (map size (fst (thread read_source l 0)))) < 2^31).
  { enough ((sum (map size (fst (thread read_source l 0))) <= List.length (flat_map source_tokens l))%nat) by (unfold zlen in Z; lia). rewrite flat_map_length.
    apply Forall2_sum. eapply Forall2_impl2; [|apply thread_Forall2]. intros s0 m (j & ->). apply source_size. }
  destruct (round_trip_as texts l s x t a A C Hc Hu Hs Hd Hm R) as (H1 & H2). destruct (H1 (accepted_as texts l A C Hc Hu Hw I1 I2 Z2)) as (code & H). exists code. split; [exact H|]. split; [|apply H2, H].
  intros code' H'. destruct (written_means_as texts l s x t a A C Hc Hu Hs Hd Hm (proj1 R)) as (E & _). pose proof (E _ H). pose proof (E _ H'). congruence.
Qed.
(** And so does what a C++ compiler makes of the header. *)
Theorem C125_header_partial : forall texts ls, files texts ls -> well_named (concat ls) -> forallb well_parameterized (concat ls) = true ->
  let l := map written_out_source (concat ls) in covered l -> no_class_definitions l -> no_made_up_names l ->
  forall s x t a tr p, In s l -> In (DType x [] t) (s_decls s) -> means l s t a -> regular (default_tags s) a ->
  writes_header texts tr p -> separate (bare tr) -> expressible (bare tr) -> imports_expressible tr ->
  cpp_ok p /\ exists code, declares p (s_name s) x code /\ round_trips code.
Proof. intros texts ls F W P l C Hc Hu s x t a tr p. apply header_round_trip_as; [apply written_out_compiled_as; assumption|assumption..]. Qed.

(** An example: a template with a tag, one structure in a list and one in another module, used three times. *)
Definition ex_generic : string := "Alpha DEFINITIONS IMPLICIT TAGS ::= BEGIN IMPORTS Name FROM Beta;
  Pair {T} ::= SEQUENCE { a [0] T, b [1] T OPTIONAL, n SEQUENCE OF INTEGER }
  Flags ::= Pair {BOOLEAN}
  People ::= SEQUENCE OF Pair {Name}
  Either ::= CHOICE { one [0] Pair {OCTET STRING}, two [1] Flags } END".
Definition ex_pair : ParserSource.ty := YRecord false [CNamed "a" (YTagged context_specific 0 Automatic (YRef None "T")) Required; CNamed "b" (YTagged context_specific 1 Automatic (YRef None "T")) Optional; CNamed "n" (YListOf false None None (YInteger [])) Required] None.
Definition ex_generic_source : source := Source "Alpha" [] (Some Implicit) false None (Some [([(true, "Name")], "Beta", [])])
  [DType "Pair" [PPlain "T"] ex_pair; DType "Flags" [] (YApply "Pair" (YSimple Boolean)); DType "People" [] (YListOf false None None (YApply "Pair" (YRef None "Name")));
   DType "Either" [] (YChoice [("one", YTagged context_specific 0 Automatic (YApply "Pair" (YSimple OctetString))); ("two", YTagged context_specific 1 Automatic (YRef None "Flags"))] None)].
Definition ex_pair_meaning (a : aty) : aty :=
  ASeq (ACons Mand (ATagged automatic Ident.context_specific 0 a) (ACons Opt (ATagged automatic Ident.context_specific 1 a) (ACons Mand (ASeqOf false (APrim (KSmall 8 [0]) 2)) ANil))).
Definition ex_name_meaning : aty := ADef implicit_ (ADef explicit_ (ATagged implicit_ Ident.application 5 (APrim (KFixed []) 12))).
Definition ex_either_meaning : aty :=
  AChoice (ACons Mand (ATagged automatic Ident.context_specific 0 (ex_pair_meaning (APrim (KFixed []) 4)))
          (ACons Mand (ATagged automatic Ident.context_specific 1 (ADef implicit_ (ex_pair_meaning (APrim Schema.KBool 1)))) ANil)).
Definition ex_either : ParserSource.ty :=
  YChoice [("one", YTagged context_specific 0 Automatic (replaced "T" (YSimple OctetString) ex_pair)); ("two", YTagged context_specific 1 Automatic (YRef None "Flags"))] None.
Example C125_example : let texts := [codes ex_generic; codes ex_text_4] in let ls := [[ex_generic_source]; [ex_beta]] in let l := map written_out_source (concat ls) in let s := written_out_source ex_generic_source in let m := default_tags s in
  files texts ls /\ well_named (concat ls) /\ forallb well_parameterized (concat ls) = true /\ covered l /\ no_class_definitions l /\ no_made_up_names l /\
  well_defined l /\ imports_exist l /\ no_import_cycle l /\ zlen (flat_map source_tokens l) < 2^31 /\
  In s l /\ In (DType "Either" [] ex_either) (s_decls s) /\ means l s ex_either ex_either_meaning /\ regular m ex_either_meaning.
Proof.
  cbv zeta. split.
  { apply Forall2_cons; [|apply Forall2_cons; [|apply Forall2_nil]]; (split; [octets|split; [discriminate|split; [reflexivity|apply writes_ok; vm_compute; reflexivity]]]). }
  split. { split; [repeat constructor; cbn; intuition discriminate|]. intros s [<-|[<-|[]]]; repeat constructor; cbn; intuition discriminate. }
  split; [reflexivity|].
  set (s1 := written_out_source ex_generic_source). set (s2 := ex_beta). change (map written_out_source (concat [[ex_generic_source]; [ex_beta]])) with [s1; s2].
  split. { split; [split|split].
    - repeat constructor; cbn; intuition discriminate.
    - intros s [<-|[<-|[]]]; repeat constructor; cbn; intuition discriminate.
    - right. intros s x t [<-|[<-|[]]] H; cbn in H; repeat destruct H as [E|H]; try destruct H; try discriminate E; injection E as <- <-; reflexivity.
    - intros s [<-|[<-|[]]]; reflexivity. }
  split. { intros s x fs [<-|[<-|[]]] H; cbn in H; repeat destruct H as [E|H]; try destruct H; discriminate. }
  split. { intros s x [<-|[<-|[]]] H (p & n & Hp & E); cbn in H; repeat destruct H as [<-|H]; try destruct H; cbn in Hp; repeat destruct Hp as [<-|Hp]; try destruct Hp; discriminate E. }
  assert (B : means [s1; s2] s2 (YTagged ParserTree.application 5 Implicit (YSimple (CharString utf8_string))) (ATagged implicit_ Ident.application 5 (APrim (KFixed []) 12))).
  { apply (mn_tagged _ _ ParserTree.application 5 Implicit). apply mn_simple; reflexivity. }
  assert (B2 : means [s1; s2] s1 (YRef (Some "Beta") "Name") (ADef explicit_ (ATagged implicit_ Ident.application 5 (APrim (KFixed []) 12)))).
  { apply mn_ref with (s' := s2) (t := YTagged ParserTree.application 5 Implicit (YSimple (CharString utf8_string))); [right; left; reflexivity|reflexivity|left; left; reflexivity|exact B]. }
  assert (N : means [s1; s2] s1 (YRef None "Name") ex_name_meaning).
  { apply mn_ref with (s' := s1) (t := YRef (Some "Beta") "Name"); [left; reflexivity|reflexivity|right; do 4 eexists; split; [reflexivity|split; [left; reflexivity|split; [left; reflexivity|reflexivity]]]|exact B2]. }
  assert (P : forall t a, means [s1; s2] s1 t a -> means [s1; s2] s1 (replaced "T" t ex_pair) (ex_pair_meaning a)).
  { intros t a H. apply mn_sequence. apply mn_named with (p := Required); [apply (mn_tagged _ _ context_specific 0 Automatic), H|]. apply mn_named with (p := Optional); [apply (mn_tagged _ _ context_specific 1 Automatic), H|].
    apply mn_named with (p := Required); [apply mn_list, mn_integer|apply mn_no_component]. }
  assert (F : means [s1; s2] s1 (YRef None "Flags") (ADef implicit_ (ex_pair_meaning (APrim Schema.KBool 1)))).
  { apply mn_ref with (s' := s1) (t := replaced "T" (YSimple Boolean) ex_pair); [left; reflexivity|reflexivity|left; left; reflexivity|]. apply P, mn_simple; reflexivity. }
  assert (E : means [s1; s2] s1 ex_either ex_either_meaning).
  { apply mn_choice. apply mn_alternative; [apply (mn_tagged _ _ context_specific 0 Automatic), P, mn_simple; reflexivity|]. apply mn_alternative; [apply (mn_tagged _ _ context_specific 1 Automatic), F|apply mn_no_alternative]. }
  split.
  { constructor.
    - intros s x t [<-|[<-|[]]] [H|(i & names & M & oid & Ei & Hi & Hx & ->)]; first [cbn in H|discriminate Ei|injection Ei as <-].
      + destruct H as [[= <- <-]|[[= <- <-]|[[= <- <-]|[]]]]; (split; [reflexivity|]).
        * eexists. split; [apply (P (YSimple Boolean) (APrim Schema.KBool 1)), mn_simple; reflexivity|unfold small_tags, ex_pair_meaning; ast_check].
        * exists (ASeqOf false (ex_pair_meaning ex_name_meaning)). split; [apply mn_list, (P (YRef None "Name")), N|unfold small_tags, ex_pair_meaning, ex_name_meaning; ast_check].
        * eexists. split; [exact E|unfold small_tags, ex_either_meaning, ex_pair_meaning; ast_check].
      + destruct Hi as [[= <- <- <-]|[]]. destruct Hx as [[= <-]|[]]. split; [reflexivity|]. eexists. split; [exact B2|unfold small_tags; ast_check].
      + destruct H as [[= <- <-]|[]]. split; [reflexivity|]. eexists. split; [exact B|unfold small_tags; ast_check].
    - intros s x t v [<-|[<-|[]]] H; cbn in H; repeat destruct H as [H|H]; try discriminate H; destruct H. }
  split; [intros s M [<-|[<-|[]]] H; [destruct H as [<-|[]]; right; left; reflexivity|destruct H]|].
  split; [exists (fun x => if String.eqb x "Alpha" then 1%nat else 0%nat); intros s M [<-|[<-|[]]] H; [destruct H as [<-|[]]; cbn; lia|destruct H]|]. split; [vm_compute; reflexivity|].
  split; [left; reflexivity|]. split; [right; right; left; reflexivity|]. split; [exact E|].
  unfold regular, ex_either_meaning, ex_pair_meaning. split; [unfold small_tags; ast_check|]. split; [unfold CompilerSpec.plain; ast_check|]. split; [unfold valid_seqs; ast_check|]. split; [unfold distinct_members; ast_check|unfold choice_numbers; ast_check].
Qed.
(** Its header meets the conditions of C125_header_partial, too. *)
Example C125_header_example : exists tr p, writes_header [codes ex_generic; codes ex_text_4] tr p /\ separate (bare tr) /\ expressible (bare tr) /\ imports_expressible tr.
Proof. apply (compiles_conditions [ex_generic; ex_text_4]). vm_compute. reflexivity. Qed.
(** And a file with the modules written out gets the same header. *)
Example C125_written_out_example : let ls' := [[written_out_source ex_generic_source]; [ex_beta]] in
  exists texts', files texts' ls' /\ concat ls' = map written_out_source (concat [[ex_generic_source]; [ex_beta]]).
Proof.
  exists [codes "Alpha DEFINITIONS IMPLICIT TAGS ::= BEGIN IMPORTS Name FROM Beta;
  Flags ::= SEQUENCE { a [0] BOOLEAN, b [1] BOOLEAN OPTIONAL, n SEQUENCE OF INTEGER }
  People ::= SEQUENCE OF SEQUENCE { a [0] Name, b [1] Name OPTIONAL, n SEQUENCE OF INTEGER }
  Either ::= CHOICE { one [0] SEQUENCE { a [0] OCTET STRING, b [1] OCTET STRING OPTIONAL, n SEQUENCE OF INTEGER }, two [1] Flags } END"; codes ex_text_4].
  split; [|reflexivity]. apply Forall2_cons; [|apply Forall2_cons; [|apply Forall2_nil]]; (split; [octets|split; [discriminate|split; [reflexivity|apply writes_ok; vm_compute; reflexivity]]]).
Qed.
(** Arguments are taken in reverse: Pair {BOOLEAN, INTEGER} is compiled as Pair {INTEGER, BOOLEAN} should be (and that one is a syntax error,
    C110_parameters_refuted). *)
Theorem C125_two_parameters_refuted :
  writes [codes "M DEFINITIONS ::= BEGIN Pair {A, B} ::= SEQUENCE { a A, b B } X ::= Pair {BOOLEAN, INTEGER} END"] "M" "X"
    (TSeq (Id Ident.universal 16) (CCons Mand [(Ident.universal, 2)] ex_integer (CCons Mand [(Ident.universal, 1)] ex_boolean CNil))) /\
  writes [codes "M DEFINITIONS ::= BEGIN X ::= SEQUENCE { a BOOLEAN, b INTEGER } END"] "M" "X"
    (TSeq (Id Ident.universal 16) (CCons Mand [(Ident.universal, 1)] ex_boolean (CCons Mand [(Ident.universal, 2)] ex_integer CNil))).
Proof. split; exists 50%nat, 30%nat; vm_compute; reflexivity. Qed.
(** Templates of other modules cannot be used: the file is refused, although all that is used is defined and imported. *)
Theorem C125_imported_template_refuted : exists s, parse_files initial_state [codes "M DEFINITIONS ::= BEGIN IMPORTS Box FROM N; X ::= Box {BOOLEAN} END"; codes "N DEFINITIONS ::= BEGIN Box {T} ::= SEQUENCE { a T } END"] = Ok (Some s) /\
  forall fuel, passes fuel (st_modules s) = CompilerTree.Throw.
Proof. eexists. split; [vm_compute; reflexivity|]. intros fuel. reflexivity. Qed.
(** X ::= Box {Box {BOOLEAN}} is refused. *)
Theorem C125_nested_argument_refuted : let texts := [codes "M DEFINITIONS ::= BEGIN Box {T} ::= SEQUENCE { a T } X ::= Box {Box {BOOLEAN}} END"] in
  ~ accepted texts.
Proof.
  cbv zeta. intros (fuel & s & tr & E & P). vm_compute in E. injection E as <-. destruct fuel as [|fuel]; [vm_compute in P; discriminate P|]. destruct fuel as [|fuel]; [vm_compute in P; discriminate P|].
  destruct fuel as [|fuel]; [vm_compute in P; discriminate P|]. destruct fuel as [|fuel]; [vm_compute in P; discriminate P|]. vm_compute in P. discriminate P.
Qed.

(** ** Wrong numbers of arguments *)
Lemma omap_bad {A B} (f : A -> out B) l x : In x l -> (forall y, f x <> CompilerTree.Done y) -> forall r, omap f l <> CompilerTree.Done r.
Proof.
  intros I H r E. apply omap_forall2 in E. revert I. induction E as [|a b l r Ha _ IH]; [intros []|]. intros [->|I]; [exact (H _ Ha)|exact (IH I)].
Qed.
Lemma thread_in {A B} (f : A -> Z -> B * Z) l x n : In x l -> exists k, In (fst (f x k)) (fst (thread f l n)).
Proof.
  intros I. pose proof (thread_Forall2 f l n) as F. induction F as [|a b l r (k & ->) _ IH]; [destruct I|]. destruct I as [->|I]; [exists k; left; reflexivity|].
  destruct (IH I) as (j & H). exists j. right. exact H.
Qed.
Lemma applied_bad tr md X t : applies X t -> (forall a u, to_concrete tr md (TRef (Defined None X [a])) <> CompilerTree.Done u) ->
  forall n u, to_concrete tr md (fst (read_ty t n)) <> CompilerTree.Done u.
Proof.
  intros H B. induction H as [a|x t root more I H IH|c x t p set root more Hc I H IH|set size name t H IH|c k mode t H IH|t c H IH]; intros n u.
  - cbn [read_ty]. destruct (read_ty a n) as [b k]. apply B.
  - cbn [read_ty]. set (named := fun (e : string * ParserSource.ty) n => let (u, n) := read_ty (snd e) n in ((fst e, u), n)).
    destruct (thread named root n) as [r k] eqn:E1. destruct (match more with Some l => thread named l k | None => ([], k) end) as [m j] eqn:E2. cbn [fst to_concrete].
    assert (Q : exists i, In (fst (named (x, t) i)) (m ++ r)).
    { apply in_app_or in I as [I|I].
      - destruct (thread_in named root _ n I) as (i & Q). exists i. rewrite E1 in Q. apply in_or_app. right. exact Q.
      - destruct more as [l|]; [|destruct I]. destruct (thread_in named l _ k I) as (i & Q). exists i. rewrite E2 in Q. apply in_or_app. left. exact Q. }
    destruct Q as (i & Q). intros D. destruct (omap _ (m ++ r)) as [alts| | |] eqn:O in D; try discriminate D. revert O. apply (omap_bad _ _ _ Q).
    intros y. unfold named. cbn [snd]. specialize (IH i). destruct (read_ty t i) as [v w]. cbn [fst snd] in IH |- *. destruct (to_concrete tr md v) as [v'| | |]; try discriminate. destruct (IH v' eq_refl).
  - cbn [read_ty]. destruct (thread read_comp root n) as [r k] eqn:E1. destruct (match more with Some (l, _) => thread read_comp l k | None => ([], k) end) as [a j] eqn:E2.
    destruct (match more with Some (_, Some l) => thread read_comp l j | _ => ([], j) end) as [b h] eqn:E3. cbn [fst to_concrete].
    assert (Q : exists i, In (fst (read_comp c i)) (r ++ a ++ b)).
    { apply in_app_or in I as [I|I]; [destruct (thread_in read_comp root _ n I) as (i & Q); exists i; rewrite E1 in Q; apply in_or_app; left; exact Q|].
      destruct more as [[l1 o]|]; [|destruct I]. apply in_app_or in I as [I|I].
      - destruct (thread_in read_comp l1 _ k I) as (i & Q). exists i. rewrite E2 in Q. apply in_or_app. right. apply in_or_app. left. exact Q.
      - destruct o as [l2|]; [|destruct I]. destruct (thread_in read_comp l2 _ j I) as (i & Q). exists i. rewrite E3 in Q. apply in_or_app. right. apply in_or_app. right. exact Q. }
    destruct Q as (i & Q). intros D. destruct (omap _ (r ++ a ++ b)) as [cs| | |] eqn:O in D; try discriminate D. revert O. apply (omap_bad _ _ _ Q).
    intros y. specialize (IH i). destruct Hc as [-> | ->]; cbn [read_comp]; destruct (read_ty t i) as [v w]; cbn [fst snd] in IH |- *; (destruct (to_concrete tr md v) as [v'| | |]; try discriminate); destruct (IH v' eq_refl).
  - cbn [read_ty]. specialize (IH n). destruct (read_ty t n) as [v w]. cbn [fst to_concrete] in IH |- *. destruct (to_concrete tr md v) as [v'| | |]; try discriminate. destruct (IH v' eq_refl).
  - cbn [read_ty]. specialize (IH n). destruct (read_ty t n) as [v w]. cbn [fst to_concrete] in IH |- *. destruct (to_concrete tr md v) as [v'| | |]; try discriminate. destruct (IH v' eq_refl).
  - exact (IH n u).
Qed.
(** A type that is used with an argument, but is in its module no template with one parameter (it has more, or none, is imported, or
    is not defined at all): the files are refused. *)
Theorem C125_arguments : forall texts ls, files texts ls -> well_named (concat ls) ->
  forall s x t X, In s (concat ls) -> In (DType x [] t) (s_decls s) -> applies X t ->
  (forall p body, ~ In (DType X [p] body) (s_decls s)) -> ~ accepted texts.
Proof.
  intros texts ls F W s x t X Hs Hd Ha Hx (fuel & st & tr & E & P). destruct (files_compiled_as texts ls F) as (st' & E' & Q). rewrite E in E'. injection E' as <-.
  rewrite Q in P. clear Q E F. unfold passes in P. destruct (tree_found (concat ls) 0 W s Hs) as (m & M1 & (k & ->) & M3).
  set (tree := fst (thread read_source (concat ls) 0)) in *. enough (B : forall r, resolve_parameters tree <> CompilerTree.Done r) by (destruct (resolve_parameters tree) as [r| | |]; try discriminate P; exact (B r eq_refl)).
  clear P. intros r. unfold resolve_parameters. destruct (omap _ tree) as [tr'| | |] eqn:O; try discriminate. intros _. revert O. apply (omap_bad _ _ _ M1). intros y.
  destruct (omap (concrete _ _) _) as [l| | |] eqn:O; try discriminate. intros _. revert O. rewrite module_of_eq in M3 |- *. cbn [m_name m_assigns] in M3 |- *.
  destruct (thread_in read_decl (s_decls s) _ k Hd) as (j & I). apply (omap_bad _ _ (fst (read_decl (DType x [] t) j))); [apply -> in_rev; exact I|].
  intros z. cbn [read_decl thread]. pose proof (fun B => applied_bad tree (s_name s) X t Ha B j) as A. destruct (read_ty t j) as [v w]. cbn [fst] in A |- *. unfold concrete. cbn [a_specific is_template a_parameters a_name].
  intros D. destruct (to_concrete tree (s_name s) v) as [v'| | |] eqn:T; try discriminate D. clear D. apply (fun B => A B v' eq_refl). clear A T v w v' I z y.
  intros a u. cbn [to_concrete]. unfold resolve. cbn [ref_module]. rewrite M3. cbn [olift obind m_assigns].
  destruct (assign_named _ X) as [b|] eqn:N; [|discriminate]. cbn [olift]. apply find_some in N as [N1 N2]. apply String.eqb_eq in N2. apply in_rev in N1.
  pose proof (thread_Forall2 read_decl (s_decls s) k) as G. assert (B : exists d q, In d (s_decls s) /\ b = fst (read_decl d q)).
  { clear -G N1. induction G as [|d b' ds bs (q & ->) _ IH]; [destruct N1|]. destruct N1 as [<-|N1]; [exists d, q; split; [left; reflexivity|reflexivity]|]. destruct (IH N1) as (d' & q' & H1 & H2). exists d', q'. split; [right; exact H1|exact H2]. }
  destruct B as (d & q & D1 & ->). destruct d as [y ps body|y ty0 v0|y fs]; cbn [read_decl] in N2 |- *.
  - pose proof (thread_Forall2 read_param ps q) as L. assert (L' : length ps = length (fst (thread read_param ps q))) by (clear -L; induction L as [|? ? ? ? _ _ IH]; [reflexivity|cbn [length]; rewrite IH; reflexivity]). clear L. rename L' into L. destruct (thread read_param ps q) as [l0 q1]. destruct (read_ty body q1) as [b0 q2]. cbn [fst a_name a_parameters] in *. subst y.
    cbn [obind a_parameters]. destruct (Nat.eqb (length l0) (length [a])) eqn:E; [|discriminate]. apply Nat.eqb_eq in E. cbn [length] in E. rewrite <- L in E. destruct ps as [|p [|]]; try discriminate E. destruct (Hx p body D1).
  - destruct (read_ty ty0 q). cbn. discriminate.
  - destruct (thread read_field fs q). cbn. discriminate.
Qed.
Example C125_arguments_example : let s := Source "M" [] None false None None [DType "Pair" [PPlain "A"; PPlain "B"] (YRecord false [CNamed "a" (YRef None "A") Required] None); DType "X" [] (YListOf false None None (YApply "Pair" (YSimple Boolean)))] in
  files [codes "M DEFINITIONS ::= BEGIN Pair {A, B} ::= SEQUENCE { a A } X ::= SEQUENCE OF Pair {BOOLEAN} END"] [[s]] /\ well_named [s] /\
  applies "Pair" (YListOf false None None (YApply "Pair" (YSimple Boolean))) /\ forall p body, ~ In (DType "Pair" [p] body) (s_decls s).
Proof.
  split; [apply Forall2_cons; [|apply Forall2_nil]; (split; [octets|split; [discriminate|split; [reflexivity|apply writes_ok; vm_compute; reflexivity]]])|].
  split; [split; [constructor; [intros []|constructor]|]; intros s [<-|[]]; cbn; repeat constructor; cbn; intuition discriminate|].
  split; [constructor; constructor|]. intros p body. cbn. intuition discriminate.
Qed.
