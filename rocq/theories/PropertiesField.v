(** C127: fields of object classes, from the text to the generated code.  ClassSpec.v says what they stand for. *)
From Coq Require Import List String ZArith Bool Lia Permutation.
From Verif Require Import Base Ident Spec HeaderProofs View ViewProofs Prims PrimProofs Schema SchemaSpec SchemaProofs SchemaDecode
  SchemaRound PropertiesSchema Compiler CompilerSpec CompilerProofs PropertiesCompiler.
From Verif Require Import PassesSpec Frontend FrontOrder FrontNest FrontPasses FrontAccept.
From Verif Require Import CompilerNames CompilerTree Lexer LexerSpec ParserTree ParserFile ParserText ParserTextProofs PropertiesParser ParserWrite ParserSource Elab ElabSpec ElabProofs AcceptSpec FrontText PropertiesText PropertiesFront.
From Verif Require Import HeaderSpec CppSpec Header HeaderSound HeaderRun HeaderCheck ExpressSpec ExpressRun ExpressCheck PropertiesCpp WriteOutSpec WriteOut PropertiesWriteOut IncludeSpec Include PropertiesInclude ClassSpec Declass.
Import ListNotations.
Local Open Scope string_scope.
Local Open Scope list_scope.

(** Templates, then COMPONENTS OF, then fields of classes are written out; what is left has none of these. *)
Definition all_out (s : source) : source := classless_source (spelled_out s).
Lemma all_out_map l : map all_out l = map classless_source (map filled_source (map written_out_source l)). Proof. unfold all_out, spelled_out. rewrite !map_map. reflexivity. Qed.
(** Files whose templates are as C125 asks, in which COMPONENTS OF is as C126 asks once templates are written out, and in which classes are as
    ClassSpec.v asks once both are.  Classes have no made-up names, either. *)
Definition classes_well (l : list source) : Prop := includes_well l /\ forallb well_classed (map spelled_out l) = true /\ no_class_references (map spelled_out l) = true /\ no_made_up_names (map spelled_out l).
Lemma all_out_compiled_as texts ls : files texts ls -> classes_well (concat ls) -> compiled_as texts (map all_out (concat ls)).
Proof.
  intros F ((W & P & I) & C & R & M). destruct (files_compiled_as texts ls F) as (s & E1 & E2). exists s. split; [exact E1|]. intros fuel. rewrite E2, all_out_map. rewrite spelled_out_map in C, R. apply passes_all_out; try assumption.
  intros s0 x Hs. apply in_map_iff in Hs as (s1 & <- & Hs). apply (proj1 (spelled_out_names (concat ls)) M), Hs.
Qed.

(** ** C127 *)
(** Files with classes (and COMPONENTS OF, and templates), and files without, with the types of the fields in their place: the compiler accepts both or
    neither, writes the same code for every type, and the same headers.
    Missing: fields without a fixed type, classes that are imported or other names of classes, fields that are structures or made from other classes
    (C127_open_refuted, C127_alias_refuted, C127_imported_refuted, C127_structure_refuted, C127_chain_refuted), objects, and X ::= CLASS.&field where
    the type of the field is a reference. *)
Theorem C127_same_code_partial : forall texts texts' ls ls', files texts ls -> files texts' ls' -> concat ls' = map all_out (concat ls) -> classes_well (concat ls) ->
  (accepted texts <-> accepted texts') /\
  (forall M X code, writes texts M X code <-> writes texts' M X code) /\
  (forall tr p, writes_header texts tr p <-> writes_header texts' tr p).
Proof.
  intros texts texts' ls ls' F F' E W. destruct (all_out_compiled_as texts ls F W) as (s & S1 & S2). destruct (files_compiled_as texts' ls' F') as (s' & S1' & S2'). rewrite E in S2'.
  assert (Q : forall fuel, passes fuel (st_modules s) = passes fuel (st_modules s')) by (intros fuel; rewrite S2, S2'; reflexivity). clear S2 S2' F F' E. split; [|split].
  - unfold accepted. rewrite S1, S1'. split; intros (f & s0 & tr & [= <-] & A); exists f; eexists _, tr; (split; [reflexivity|]); [rewrite <- Q|rewrite Q]; exact A.
  - intros N X code. unfold writes, compile_texts. rewrite S1, S1'. split; intros (f & d & A); exists f, d; [rewrite <- Q|rewrite Q]; exact A.
  - intros tr p. unfold writes_header. rewrite S1, S1'. split; intros (f & d & s0 & [= <-] & A & B); exists f, d; eexists; (split; [reflexivity|]); (split; [|exact B]); [rewrite <- Q|rewrite Q]; exact A.
Qed.
(** So types with fields of classes work: with [l] the modules written out, a type of [l] that means something and is valid has code, and its values
    make the round trip. *)
Theorem C127_works_partial : forall texts ls, files texts ls -> classes_well (concat ls) ->
  let l := map all_out (concat ls) in covered l -> no_class_definitions l -> no_made_up_names l ->
  well_defined l -> imports_exist l -> no_import_cycle l -> zlen (flat_map source_tokens l) < 2^31 ->
  forall s x t a, In s l -> In (DType x [] t) (s_decls s) -> means l s t a -> regular (default_tags s) a ->
  exists code, writes texts (s_name s) x code /\ (forall code', writes texts (s_name s) x code' -> code' = code) /\ round_trips code.
Proof.
  intros texts ls F W l C Hc Hu Hw I1 I2 Z s x t a Hs Hd Hm R. pose proof (all_out_compiled_as texts ls F W) as A. fold l in A.
  assert (Z2 : Z.of_nat (sum (map size (fst (thread read_source l 0)))) < 2^31).
  { enough ((sum (map size (fst (thread read_source l 0))) <= List.length (flat_map source_tokens l))%nat) by (unfold zlen in Z; lia). rewrite flat_map_length.
    apply Forall2_sum. eapply Forall2_impl2; [|apply thread_Forall2]. intros s0 m (j & ->). apply source_size. }
  destruct (round_trip_as texts l s x t a A C Hc Hu Hs Hd Hm R) as (H1 & H2). destruct (H1 (accepted_as texts l A C Hc Hu Hw I1 I2 Z2)) as (code & H). exists code. split; [exact H|]. split; [|apply H2, H].
  intros code' H'. destruct (written_means_as texts l s x t a A C Hc Hu Hs Hd Hm (proj1 R)) as (E & _). pose proof (E _ H). pose proof (E _ H'). congruence.
Qed.
(** And so does what a C++ compiler makes of the header. *)
Theorem C127_header_partial : forall texts ls, files texts ls -> classes_well (concat ls) ->
  let l := map all_out (concat ls) in covered l -> no_class_definitions l -> no_made_up_names l ->
  forall s x t a tr p, In s l -> In (DType x [] t) (s_decls s) -> means l s t a -> regular (default_tags s) a ->
  writes_header texts tr p -> separate (bare tr) -> expressible (bare tr) -> imports_expressible tr ->
  cpp_ok p /\ exists code, declares p (s_name s) x code /\ round_trips code.
Proof. intros texts ls F W l C Hc Hu s x t a tr p. apply header_round_trip_as; [apply all_out_compiled_as; assumption|assumption..]. Qed.

(** An example: fields of a class in a SEQUENCE that is made from a template, in one that includes it, and under a tag. *)
Definition ex_field : string := "Alpha DEFINITIONS IMPLICIT TAGS ::= BEGIN
  MESSAGE ::= CLASS { &id INTEGER UNIQUE, &code Code OPTIONAL, &Type OPTIONAL }
  Code ::= OCTET STRING
  Pair {T} ::= SEQUENCE { a T, b [1] MESSAGE.&code OPTIONAL }
  Base ::= Pair {MESSAGE.&id}
  Wide ::= SEQUENCE { n NULL, COMPONENTS OF Base, c [2] MESSAGE.&id }
  Ids ::= [3] SEQUENCE OF MESSAGE.&code END".
Definition ex_id : ParserSource.ty := YField "MESSAGE" [(false, "&id")].
Definition ex_code : ParserSource.ty := YField "MESSAGE" [(false, "&code")].
Definition ex_field_source : source := Source "Alpha" [] (Some Implicit) false None None
  [DClass "MESSAGE" [FValue "&id" (YInteger []) true Required; FValue "&code" (YRef None "Code") false Optional; FType "&Type" true];
   DType "Code" [] (YSimple OctetString);
   DType "Pair" [PPlain "T"] (YRecord false [CNamed "a" (YRef None "T") Required; CNamed "b" (YTagged context_specific 1 Automatic ex_code) Optional] None);
   DType "Base" [] (YApply "Pair" ex_id);
   DType "Wide" [] (YRecord false [CNamed "n" (YSimple Null) Required; COf (YRef None "Base"); CNamed "c" (YTagged context_specific 2 Automatic ex_id) Required] None);
   DType "Ids" [] (YTagged context_specific 3 Automatic (YListOf false None None ex_code))].
Definition ex_code_ty : ParserSource.ty := YRef None "Code".
Definition ex_base_comps : list ParserSource.comp := [CNamed "a" (YInteger []) Required; CNamed "b" (YTagged context_specific 1 Automatic ex_code_ty) Optional].
Definition ex_field_wide : ParserSource.ty := YRecord false (CNamed "n" (YSimple Null) Required :: ex_base_comps ++ [CNamed "c" (YTagged context_specific 2 Automatic (YInteger [])) Required]) None.
Definition ex_ids : ParserSource.ty := YTagged context_specific 3 Automatic (YListOf false None None ex_code_ty).
Definition ex_code_meaning : aty := ADef implicit_ (APrim (KFixed []) 4).
Definition ex_base_meaning (l : acomps) : acomps := ACons Mand (APrim (KSmall 8 [0]) 2) (ACons Opt (ATagged automatic Ident.context_specific 1 ex_code_meaning) l).
Definition ex_wide_meaning : aty := ASeq (ACons Mand (APrim KNull 5) (ex_base_meaning (ACons Mand (ATagged automatic Ident.context_specific 2 (APrim (KSmall 8 [0]) 2)) ANil))).
Definition ex_ids_meaning : aty := ATagged automatic Ident.context_specific 3 (ASeqOf false ex_code_meaning).
Example C127_example : let texts := [codes ex_field] in let ls := [[ex_field_source]] in let l := map all_out (concat ls) in let s := all_out ex_field_source in let m := default_tags s in
  files texts ls /\ classes_well (concat ls) /\ covered l /\ no_class_definitions l /\ no_made_up_names l /\
  well_defined l /\ imports_exist l /\ no_import_cycle l /\ zlen (flat_map source_tokens l) < 2^31 /\
  In s l /\ In (DType "Wide" [] ex_field_wide) (s_decls s) /\ means l s ex_field_wide ex_wide_meaning /\ regular m ex_wide_meaning.
Proof.
  cbv zeta. split.
  { apply Forall2_cons; [|apply Forall2_nil]; (split; [octets|split; [discriminate|split; [reflexivity|apply writes_ok; vm_compute; reflexivity]]]). }
  split.
  { split; [split; [|split; reflexivity]|split; [reflexivity|split; [reflexivity|]]].
    - split; [repeat constructor; cbn; intuition discriminate|]. intros s [<-|[]]; repeat constructor; cbn; intuition discriminate.
    - intros s x [<-|[]] H (p & n & Hp & E); cbn in H; repeat destruct H as [<-|H]; try destruct H; cbn in Hp; repeat destruct Hp as [<-|Hp]; try destruct Hp; discriminate E. }
  set (s1 := all_out ex_field_source). change (map all_out (concat [[ex_field_source]])) with [s1].
  split. { split; [split|split].
    - repeat constructor; cbn; intuition discriminate.
    - intros s [<-|[]]; repeat constructor; cbn; intuition discriminate.
    - left. reflexivity.
    - intros s [<-|[]]; reflexivity. }
  split. { intros s x fs [<-|[]] H; cbn in H; repeat destruct H as [E|H]; try destruct H; discriminate. }
  split. { intros s x [<-|[]] H (p & n & Hp & E); cbn in H; repeat destruct H as [<-|H]; try destruct H; cbn in Hp; repeat destruct Hp as [<-|Hp]; try destruct Hp; discriminate E. }
  assert (O : means [s1] s1 (YSimple OctetString) (APrim (KFixed []) 4)) by (apply mn_simple; reflexivity).
  assert (K : means [s1] s1 ex_code_ty ex_code_meaning) by (apply mn_ref with (s' := s1) (t := YSimple OctetString); [left; reflexivity|reflexivity|left; left; reflexivity|exact O]).
  assert (P : forall cs l, means_components [s1] s1 cs l -> means_components [s1] s1 (ex_base_comps ++ cs) (ex_base_meaning l)).
  { intros cs l H. apply mn_named with (p := Required); [apply mn_integer|]. apply mn_named with (p := Optional); [apply (mn_tagged _ _ context_specific 1 Automatic), K|]. exact H. }
  assert (B : means [s1] s1 (YRecord false ex_base_comps None) (ASeq (ex_base_meaning ANil))).
  { apply mn_sequence. change ex_base_comps with (ex_base_comps ++ []). apply P, mn_no_component. }
  assert (W : means [s1] s1 ex_field_wide ex_wide_meaning).
  { apply mn_sequence. apply mn_named with (p := Required); [apply mn_simple; reflexivity|]. apply P. apply mn_named with (p := Required); [apply (mn_tagged _ _ context_specific 2 Automatic), mn_integer|apply mn_no_component]. }
  assert (R : means [s1] s1 ex_ids ex_ids_meaning) by (apply (mn_tagged _ _ context_specific 3 Automatic), mn_list, K).
  split.
  { constructor.
    - intros s x t [<-|[]] [H|(i & names & M & oid & Ei & _)]; [|discriminate Ei]. cbn in H.
      destruct H as [[= <- <-]|[[= <- <-]|[[= <- <-]|[[= <- <-]|[]]]]]; (split; [reflexivity|]).
      + eexists. split; [exact O|unfold small_tags; ast_check].
      + eexists. split; [exact B|unfold small_tags, ex_base_meaning, ex_code_meaning; ast_check].
      + eexists. split; [exact W|unfold small_tags, ex_wide_meaning, ex_base_meaning, ex_code_meaning; ast_check].
      + eexists. split; [exact R|unfold small_tags, ex_ids_meaning, ex_code_meaning; ast_check].
    - intros s x t v [<-|[]] H; cbn in H; repeat destruct H as [H|H]; try discriminate H; destruct H. }
  split; [intros s M [<-|[]] H; destruct H|]. split; [exists (fun x => 0%nat); intros s M [<-|[]] H; destruct H|]. split; [vm_compute; reflexivity|].
  split; [left; reflexivity|]. split; [right; right; left; reflexivity|]. split; [exact W|].
  unfold regular, ex_wide_meaning, ex_base_meaning, ex_code_meaning. split; [unfold small_tags; ast_check|]. split; [unfold CompilerSpec.plain; ast_check|]. split; [unfold valid_seqs; ast_check|]. split; [unfold distinct_members; ast_check|unfold choice_numbers; ast_check].
Qed.
(** Its header meets the conditions of C127_header_partial, too. *)
Example C127_header_example : exists tr p, writes_header [codes ex_field] tr p /\ separate (bare tr) /\ expressible (bare tr) /\ imports_expressible tr.
Proof. apply (compiles_conditions [ex_field]). vm_compute. reflexivity. Qed.
(** And there is a file with everything written out. *)
Example C127_all_out_example : exists texts', files texts' [[all_out ex_field_source]].
Proof.
  exists [codes "Alpha DEFINITIONS IMPLICIT TAGS ::= BEGIN
  Code ::= OCTET STRING
  Base ::= SEQUENCE { a INTEGER, b [1] Code OPTIONAL }
  Wide ::= SEQUENCE { n NULL, a INTEGER, b [1] Code OPTIONAL, c [2] INTEGER }
  Ids ::= [3] SEQUENCE OF Code END"].
  apply Forall2_cons; [|apply Forall2_nil]; (split; [octets|split; [discriminate|split; [reflexivity|apply writes_ok; vm_compute; reflexivity]]]).
Qed.
(** Valid files that are refused: open types; *)
Theorem C127_open_refuted : passed "M DEFINITIONS ::= BEGIN C ::= CLASS { &id INTEGER, &Type } T ::= SEQUENCE { id C.&id, x C.&Type } END" 50 = Some Throw.
Proof. vm_compute. reflexivity. Qed.
(** another name for a class; *)
Theorem C127_alias_refuted : passed "M DEFINITIONS ::= BEGIN C ::= CLASS { &id INTEGER } D ::= C T ::= SEQUENCE { id D.&id } END" 50 = Some Throw.
Proof. vm_compute. reflexivity. Qed.
(** and imported classes. *)
Definition all_passed (texts : list string) (fuel : nat) : option (out (list module)) := match parse_files initial_state (map codes texts) with Ok (Some s) => Some (passes fuel (st_modules s)) | _ => None end.
Theorem C127_imported_refuted : all_passed ["M DEFINITIONS ::= BEGIN IMPORTS C FROM N; T ::= SEQUENCE { id C.&id } END"; "N DEFINITIONS ::= BEGIN C ::= CLASS { &id INTEGER } END"] 50 = Some Throw.
Proof. vm_compute. reflexivity. Qed.
(** A field whose type is a field of another class keeps it, and its class is removed. *)
Theorem C127_chain_refuted : exists m, passed "M DEFINITIONS ::= BEGIN C ::= CLASS { &id INTEGER } D ::= CLASS { &x C.&id } T ::= SEQUENCE { y D.&x } END" 50 = Some (Done [m]) /\
  m_assigns m = [Assign "T" (AType (TRecord false [Comp "y" (TField (Defined None "C" []) ["&id"]) false None None] false)) []].
Proof. eexists. split; [vm_compute; reflexivity|]. reflexivity. Qed.
(** SEQUENCE OF CLASS.&field, where the type of the field is a SEQUENCE: the header has errors.  Without the class, it has none. *)
Definition header_of (text : string) : option program := match passed text 50 with Some (Done tr) => header 30 tr | _ => None end.
Theorem C127_structure_refuted :
  match header_of "M DEFINITIONS ::= BEGIN C ::= CLASS { &s SEQUENCE { a BOOLEAN } } T ::= SEQUENCE OF C.&s END" with Some p => ~ cpp_ok p | None => False end /\
  match header_of "M DEFINITIONS ::= BEGIN T ::= SEQUENCE OF SEQUENCE { a BOOLEAN } END" with Some p => cpp_ok p | None => False end.
Proof. split; vm_compute; [intros H; apply H; reflexivity|discriminate]. Qed.
