(** C126: COMPONENTS OF, from the text to the generated code.  IncludeSpec.v says what it stands for. *)
From Coq Require Import List String ZArith Bool Lia Permutation.
From Verif Require Import Base Ident Spec HeaderProofs View ViewProofs Prims PrimProofs Schema SchemaSpec SchemaProofs SchemaDecode
  SchemaRound PropertiesSchema Compiler CompilerSpec CompilerProofs PropertiesCompiler.
From Verif Require Import PassesSpec Frontend FrontOrder FrontNest FrontPasses FrontAccept.
From Verif Require Import CompilerNames CompilerTree Lexer LexerSpec ParserTree ParserFile ParserText ParserTextProofs PropertiesParser ParserWrite ParserSource Elab ElabSpec ElabProofs AcceptSpec FrontText PropertiesText PropertiesFront.
From Verif Require Import HeaderSpec CppSpec Header HeaderSound HeaderRun HeaderCheck ExpressSpec ExpressRun ExpressCheck PropertiesCpp WriteOutSpec WriteOut PropertiesWriteOut IncludeSpec Include.
Import ListNotations.
Local Open Scope string_scope.
Local Open Scope list_scope.

Definition spelled_out (s : source) : source := filled_source (written_out_source s).
Lemma spelled_out_map l : map spelled_out l = map filled_source (map written_out_source l). Proof. unfold spelled_out. rewrite map_map. reflexivity. Qed.
Lemma spelled_out_names l : no_made_up_names (map spelled_out l) <-> (forall s x, In s l -> In x (names_of (written_out_source s)) -> ~ PassesSpec.made_up x).
Proof.
  unfold no_made_up_names. split; intros H s x Hs Hx.
  - apply (H (spelled_out s) x); [apply in_map, Hs|]. unfold spelled_out. rewrite filled_names. exact Hx.
  - apply in_map_iff in Hs as (s0 & <- & Hs). unfold spelled_out in Hx. rewrite filled_names in Hx. apply (H s0 x Hs Hx).
Qed.
(** Files whose templates are as C125 asks, and in which COMPONENTS OF is as IncludeSpec.v asks once templates are written out. *)
Definition includes_well (l : list source) : Prop := well_named l /\ forallb well_parameterized l = true /\ forallb well_filled_source (map written_out_source l) = true.
Lemma spelled_out_compiled_as texts ls : files texts ls -> includes_well (concat ls) -> no_made_up_names (map spelled_out (concat ls)) -> compiled_as texts (map spelled_out (concat ls)).
Proof.
  intros F (W & P & I) M. destruct (files_compiled_as texts ls F) as (s & E1 & E2). exists s. split; [exact E1|]. intros fuel. rewrite E2, spelled_out_map. apply passes_written_out_filled; try assumption. apply spelled_out_names, M.
Qed.

(** ** C126 *)
(** Files with COMPONENTS OF (and templates), and files in which the components stand in its place: the compiler accepts both or neither, writes the
    same code for every type, and the same headers.
    Missing: COMPONENTS OF types that are imported, references, with COMPONENTS OF or an extension marker themselves
    (C126_order_refuted, C126_imported_refuted, C126_reference_refuted, C126_extension_refuted), in SETs and in SEQUENCEs right in another structure
    (C126_set_refuted, C126_nested_refuted), or whose components have made-up names. *)
Theorem C126_same_code_partial : forall texts texts' ls ls', files texts ls -> files texts' ls' -> concat ls' = map spelled_out (concat ls) ->
  includes_well (concat ls) -> no_made_up_names (concat ls') ->
  (accepted texts <-> accepted texts') /\
  (forall M X code, writes texts M X code <-> writes texts' M X code) /\
  (forall tr p, writes_header texts tr p <-> writes_header texts' tr p).
Proof.
  intros texts texts' ls ls' F F' E W M. rewrite E in M. destruct (spelled_out_compiled_as texts ls F W M) as (s & S1 & S2). destruct (files_compiled_as texts' ls' F') as (s' & S1' & S2'). rewrite E in S2'.
  assert (Q : forall fuel, passes fuel (st_modules s) = passes fuel (st_modules s')) by (intros fuel; rewrite S2, S2'; reflexivity). clear S2 S2' F F' E. split; [|split].
  - unfold accepted. rewrite S1, S1'. split; intros (f & s0 & tr & [= <-] & A); exists f; eexists _, tr; (split; [reflexivity|]); [rewrite <- Q|rewrite Q]; exact A.
  - intros N X code. unfold writes, compile_texts. rewrite S1, S1'. split; intros (f & d & A); exists f, d; [rewrite <- Q|rewrite Q]; exact A.
  - intros tr p. unfold writes_header. rewrite S1, S1'. split; intros (f & d & s0 & [= <-] & A & B); exists f, d; eexists; (split; [reflexivity|]); (split; [|exact B]); [rewrite <- Q|rewrite Q]; exact A.
Qed.
(** So types with COMPONENTS OF work: with [l] the modules written out, a type of [l] that means something and is valid has code, and its values make
    the round trip. *)
Theorem C126_works_partial : forall texts ls, files texts ls -> includes_well (concat ls) ->
  let l := map spelled_out (concat ls) in covered l -> no_class_definitions l -> no_made_up_names l ->
  well_defined l -> imports_exist l -> no_import_cycle l -> zlen (flat_map source_tokens l) < 2^31 ->
  forall s x t a, In s l -> In (DType x [] t) (s_decls s) -> means l s t a -> regular (default_tags s) a ->
  exists code, writes texts (s_name s) x code /\ (forall code', writes texts (s_name s) x code' -> code' = code) /\ round_trips code.
Proof.
  intros texts ls F W l C Hc Hu Hw I1 I2 Z s x t a Hs Hd Hm R. pose proof (spelled_out_compiled_as texts ls F W Hu) as A. fold l in A.
  assert (Z2 : Z.of_nat (sum (map size (fst (thread read_source l 0)))) < 2^31).
  { enough ((sum (map size (fst (thread read_source l 0))) <= List.length (flat_map source_tokens l))%nat) by (unfold zlen in Z; lia). rewrite flat_map_length.
    apply Forall2_sum. eapply Forall2_impl2; [|apply thread_Forall2]. intros s0 m (j & ->). apply source_size. }
  destruct (round_trip_as texts l s x t a A C Hc Hu Hs Hd Hm R) as (H1 & H2). destruct (H1 (accepted_as texts l A C Hc Hu Hw I1 I2 Z2)) as (code & H). exists code. split; [exact H|]. split; [|apply H2, H].
  intros code' H'. destruct (written_means_as texts l s x t a A C Hc Hu Hs Hd Hm (proj1 R)) as (E & _). pose proof (E _ H). pose proof (E _ H'). congruence.
Qed.
(** And so does what a C++ compiler makes of the header. *)
Theorem C126_header_partial : forall texts ls, files texts ls -> includes_well (concat ls) ->
  let l := map spelled_out (concat ls) in covered l -> no_class_definitions l -> no_made_up_names l ->
  forall s x t a tr p, In s l -> In (DType x [] t) (s_decls s) -> means l s t a -> regular (default_tags s) a ->
  writes_header texts tr p -> separate (bare tr) -> expressible (bare tr) -> imports_expressible tr ->
  cpp_ok p /\ exists code, declares p (s_name s) x code /\ round_trips code.
Proof. intros texts ls F W l C Hc Hu s x t a tr p. apply header_round_trip_as; [apply spelled_out_compiled_as; assumption|assumption..]. Qed.

(** An example: a SEQUENCE made from a template, included in another one and in one under SEQUENCE OF. *)
Definition ex_include : string := "Alpha DEFINITIONS IMPLICIT TAGS ::= BEGIN
  Pair {T} ::= SEQUENCE { a [0] T, b [1] T OPTIONAL }
  Base ::= Pair {INTEGER}
  Wide ::= SEQUENCE { n NULL, COMPONENTS OF Base, c OCTET STRING }
  Rows ::= SEQUENCE OF SEQUENCE { COMPONENTS OF Base, w Wide } END".
Definition ex_base (t : ParserSource.ty) : list ParserSource.comp := [CNamed "a" (YTagged context_specific 0 Automatic t) Required; CNamed "b" (YTagged context_specific 1 Automatic t) Optional].
Definition ex_include_source : source := Source "Alpha" [] (Some Implicit) false None None
  [DType "Pair" [PPlain "T"] (YRecord false (ex_base (YRef None "T")) None); DType "Base" [] (YApply "Pair" (YInteger []));
   DType "Wide" [] (YRecord false [CNamed "n" (YSimple Null) Required; COf (YRef None "Base"); CNamed "c" (YSimple OctetString) Required] None);
   DType "Rows" [] (YListOf false None None (YRecord false [COf (YRef None "Base"); CNamed "w" (YRef None "Wide") Required] None))].
Definition ex_base_meaning (l : acomps) : acomps := ACons Mand (ATagged automatic Ident.context_specific 0 (APrim (KSmall 8 [0]) 2)) (ACons Opt (ATagged automatic Ident.context_specific 1 (APrim (KSmall 8 [0]) 2)) l).
Definition ex_wide_meaning : aty := ASeq (ACons Mand (APrim KNull 5) (ex_base_meaning (ACons Mand (APrim (KFixed []) 4) ANil))).
Definition ex_rows_meaning : aty := ASeqOf false (ASeq (ex_base_meaning (ACons Mand (ADef implicit_ ex_wide_meaning) ANil))).
Definition ex_wide : ParserSource.ty := YRecord false (CNamed "n" (YSimple Null) Required :: ex_base (YInteger []) ++ [CNamed "c" (YSimple OctetString) Required]) None.
Definition ex_rows : ParserSource.ty := YListOf false None None (YRecord false (ex_base (YInteger []) ++ [CNamed "w" (YRef None "Wide") Required]) None).
Example C126_example : let texts := [codes ex_include] in let ls := [[ex_include_source]] in let l := map spelled_out (concat ls) in let s := spelled_out ex_include_source in let m := default_tags s in
  files texts ls /\ includes_well (concat ls) /\ covered l /\ no_class_definitions l /\ no_made_up_names l /\
  well_defined l /\ imports_exist l /\ no_import_cycle l /\ zlen (flat_map source_tokens l) < 2^31 /\
  In s l /\ In (DType "Rows" [] ex_rows) (s_decls s) /\ means l s ex_rows ex_rows_meaning /\ regular m ex_rows_meaning.
Proof.
  cbv zeta. split.
  { apply Forall2_cons; [|apply Forall2_nil]; (split; [octets|split; [discriminate|split; [reflexivity|apply writes_ok; vm_compute; reflexivity]]]). }
  split. { split; [|split; reflexivity]. split; [repeat constructor; cbn; intuition discriminate|]. intros s [<-|[]]; repeat constructor; cbn; intuition discriminate. }
  set (s1 := spelled_out ex_include_source). change (map spelled_out (concat [[ex_include_source]])) with [s1].
  split. { split; [split|split].
    - repeat constructor; cbn; intuition discriminate.
    - intros s [<-|[]]; repeat constructor; cbn; intuition discriminate.
    - left. reflexivity.
    - intros s [<-|[]]; reflexivity. }
  split. { intros s x fs [<-|[]] H; cbn in H; repeat destruct H as [E|H]; try destruct H; discriminate. }
  split. { intros s x [<-|[]] H (p & n & Hp & E); cbn in H; repeat destruct H as [<-|H]; try destruct H; cbn in Hp; repeat destruct Hp as [<-|Hp]; try destruct Hp; discriminate E. }
  assert (P : forall cs l, means_components [s1] s1 cs l -> means_components [s1] s1 (ex_base (YInteger []) ++ cs) (ex_base_meaning l)).
  { intros cs l H. apply mn_named with (p := Required); [apply (mn_tagged _ _ context_specific 0 Automatic), mn_integer|]. apply mn_named with (p := Optional); [apply (mn_tagged _ _ context_specific 1 Automatic), mn_integer|]. exact H. }
  assert (B : means [s1] s1 (YRecord false (ex_base (YInteger [])) None) (ASeq (ex_base_meaning ANil))).
  { apply mn_sequence. change (ex_base (YInteger [])) with (ex_base (YInteger []) ++ []). apply P, mn_no_component. }
  assert (W : means [s1] s1 ex_wide ex_wide_meaning).
  { apply mn_sequence. apply mn_named with (p := Required); [apply mn_simple; reflexivity|]. apply P. apply mn_named with (p := Required); [apply mn_simple; reflexivity|apply mn_no_component]. }
  assert (R : means [s1] s1 ex_rows ex_rows_meaning).
  { apply mn_list, mn_sequence. apply P. apply mn_named with (p := Required); [|apply mn_no_component]. apply mn_ref with (s' := s1) (t := ex_wide); [left; reflexivity|reflexivity|left; right; left; reflexivity|exact W]. }
  split.
  { constructor.
    - intros s x t [<-|[]] [H|(i & names & M & oid & Ei & _)]; [|discriminate Ei]. cbn in H.
      destruct H as [[= <- <-]|[[= <- <-]|[[= <- <-]|[]]]]; (split; [reflexivity|]).
      + eexists. split; [exact B|unfold small_tags, ex_base_meaning; ast_check].
      + eexists. split; [exact W|unfold small_tags, ex_wide_meaning, ex_base_meaning; ast_check].
      + eexists. split; [exact R|unfold small_tags, ex_rows_meaning, ex_wide_meaning, ex_base_meaning; ast_check].
    - intros s x t v [<-|[]] H; cbn in H; repeat destruct H as [H|H]; try discriminate H; destruct H. }
  split; [intros s M [<-|[]] H; destruct H|]. split; [exists (fun x => 0%nat); intros s M [<-|[]] H; destruct H|]. split; [vm_compute; reflexivity|].
  split; [left; reflexivity|]. split; [right; right; left; reflexivity|]. split; [exact R|].
  unfold regular, ex_rows_meaning, ex_wide_meaning, ex_base_meaning. split; [unfold small_tags; ast_check|]. split; [unfold CompilerSpec.plain; ast_check|]. split; [unfold valid_seqs; ast_check|]. split; [unfold distinct_members; ast_check|unfold choice_numbers; ast_check].
Qed.
(** Its header meets the conditions of C126_header_partial, too. *)
Example C126_header_example : exists tr p, writes_header [codes ex_include] tr p /\ separate (bare tr) /\ expressible (bare tr) /\ imports_expressible tr.
Proof. apply (compiles_conditions [ex_include]). vm_compute. reflexivity. Qed.
(** And a file with the components written out gets the same header. *)
Example C126_spelled_out_example : exists texts', files texts' [[spelled_out ex_include_source]].
Proof.
  exists [codes "Alpha DEFINITIONS IMPLICIT TAGS ::= BEGIN
  Base ::= SEQUENCE { a [0] INTEGER, b [1] INTEGER OPTIONAL }
  Wide ::= SEQUENCE { n NULL, a [0] INTEGER, b [1] INTEGER OPTIONAL, c OCTET STRING }
  Rows ::= SEQUENCE OF SEQUENCE { a [0] INTEGER, b [1] INTEGER OPTIONAL, w Wide } END"].
  apply Forall2_cons; [|apply Forall2_nil]; (split; [octets|split; [discriminate|split; [reflexivity|apply writes_ok; vm_compute; reflexivity]]]).
Qed.
Definition ex_null : Schema.ty := TLeaf KNull (Id Ident.universal 5).
(** COMPONENTS OF a SEQUENCE that itself has COMPONENTS OF: components are lost, without an error, if the included SEQUENCE stands first; with the
    definitions in reverse order, they are there. *)
Theorem C126_order_refuted :
  writes [codes "M DEFINITIONS ::= BEGIN C ::= SEQUENCE { a BOOLEAN } B ::= SEQUENCE { COMPONENTS OF C, b INTEGER } A ::= SEQUENCE { COMPONENTS OF B, c NULL } END"] "M" "A"
    (TSeq (Id Ident.universal 16) (CCons Mand [(Ident.universal, 2)] ex_integer (CCons Mand [(Ident.universal, 5)] ex_null CNil))) /\
  writes [codes "M DEFINITIONS ::= BEGIN A ::= SEQUENCE { COMPONENTS OF B, c NULL } B ::= SEQUENCE { COMPONENTS OF C, b INTEGER } C ::= SEQUENCE { a BOOLEAN } END"] "M" "A"
    (TSeq (Id Ident.universal 16) (CCons Mand [(Ident.universal, 1)] ex_boolean (CCons Mand [(Ident.universal, 2)] ex_integer (CCons Mand [(Ident.universal, 5)] ex_null CNil)))).
Proof. split; exists 50%nat, 30%nat; vm_compute; reflexivity. Qed.
(** Components of imported types are left out, without an error. *)
Theorem C126_imported_refuted :
  writes [codes "M DEFINITIONS ::= BEGIN IMPORTS B FROM N; A ::= SEQUENCE { COMPONENTS OF B, c NULL } END"; codes "N DEFINITIONS ::= BEGIN B ::= SEQUENCE { a BOOLEAN } END"] "M" "A"
    (TSeq (Id Ident.universal 16) (CCons Mand [(Ident.universal, 5)] ex_null CNil)).
Proof. exists 50%nat, 30%nat. vm_compute. reflexivity. Qed.
(** And those of types that are references to SEQUENCEs. *)
Theorem C126_reference_refuted :
  writes [codes "M DEFINITIONS ::= BEGIN D ::= SEQUENCE { a BOOLEAN } B ::= D A ::= SEQUENCE { COMPONENTS OF B, c NULL } END"] "M" "A"
    (TSeq (Id Ident.universal 16) (CCons Mand [(Ident.universal, 5)] ex_null CNil)).
Proof. exists 50%nat, 30%nat. vm_compute. reflexivity. Qed.
(** Extension additions are included (X.680 25.4 leaves them out). *)
Theorem C126_extension_refuted :
  writes [codes "M DEFINITIONS ::= BEGIN B ::= SEQUENCE { a BOOLEAN, ..., b INTEGER } A ::= SEQUENCE { COMPONENTS OF B, c NULL } END"] "M" "A"
    (TSeq (Id Ident.universal 16) (CCons Mand [(Ident.universal, 1)] ex_boolean (CCons Mand [(Ident.universal, 2)] ex_integer (CCons Mand [(Ident.universal, 5)] ex_null CNil)))).
Proof. exists 50%nat, 30%nat. vm_compute. reflexivity. Qed.
(** In a SET, and in a SEQUENCE right in another one, COMPONENTS OF stays: the file is accepted, with a member that has no name and type ANY. *)
Definition passed (text : string) (fuel : nat) : option (out (list module)) := match parse_files initial_state [codes text] with Ok (Some s) => Some (passes fuel (st_modules s)) | _ => None end.
Theorem C126_set_refuted : exists m, passed "M DEFINITIONS ::= BEGIN B ::= SET { a BOOLEAN } A ::= SET { COMPONENTS OF B, c NULL } END" 50 = Some (Done [m]) /\
  In (Assign "A" (AType (TRecord true [Comp "" any_type false None (Some (TRef (Defined None "B" []))); Comp "c" (TSimple Null) false None None] false)) []) (m_assigns m).
Proof. eexists. split; [vm_compute; reflexivity|]. left. reflexivity. Qed.
Theorem C126_nested_refuted : exists m, passed "M DEFINITIONS ::= BEGIN B ::= SEQUENCE { a BOOLEAN } A ::= SEQUENCE { x SEQUENCE { COMPONENTS OF B }, c NULL } END" 50 = Some (Done [m]) /\
  In (Assign "A" (AType (TRecord false [Comp "x" (TRecord false [Comp "" any_type false None (Some (TRef (Defined None "B" [])))] false) false None None; Comp "c" (TSimple Null) false None None] false)) []) (m_assigns m).
Proof. eexists. split; [vm_compute; reflexivity|]. left. reflexivity. Qed.
