(** C121: from the text of ASN.1 modules, through all passes of the compiler, to what the generated code writes and reads. *)
From Coq Require Import List String ZArith Bool Lia Permutation.
From Verif Require Import Base Ident Spec HeaderProofs View ViewProofs Prims PrimProofs Schema SchemaSpec SchemaProofs SchemaDecode
  SchemaRound PropertiesSchema Compiler CompilerSpec CompilerProofs PropertiesCompiler.
From Verif Require Import PassesSpec Frontend FrontOrder FrontNest FrontPasses FrontAccept.
From Verif Require Import CompilerNames CompilerTree Lexer LexerSpec ParserTree ParserFile ParserText ParserTextProofs PropertiesParser ParserWrite ParserSource Elab ElabSpec ElabProofs AcceptSpec FrontText PropertiesText.
Import ListNotations.
Local Open Scope string_scope.
Local Open Scope list_scope.

(** The compiler, given these files, writes this code for the type X of module M.  (If it stops with an error it writes nothing.) *)
Definition writes (texts : list (list Z)) (M X : string) (code : Schema.ty) : Prop := exists fuel depth, compile_texts fuel depth texts M X = Some code.
(** The compiler gets through its passes. *)
Definition accepted (texts : list (list Z)) : Prop := exists fuel s tr, parse_files initial_state texts = Ok (Some s) /\ passes fuel (st_modules s) = CompilerTree.Done tr.
(** No object classes are defined, and nothing has a name that the compiler makes up ("UnnamedSequence0"). *)
Definition no_class_definitions (l : list source) : Prop := forall s x fs, In s l -> ~ In (DClass x fs) (s_decls s).
Definition no_made_up_names (l : list source) : Prop := forall s x, In s l -> In x (names_of s) -> ~ made_up x.

Lemma sources_clean l n : well_named l -> no_class_definitions l -> no_made_up_names l -> clean (fst (thread read_source l n)).
Proof.
  intros (W1 & W2) C M. split; [rewrite tree_names; exact W1|].
  assert (S : forall m, In m (fst (thread read_source l n)) -> exists s, In s l /\ module_of s m).
  { intros m Hm. destruct (Forall2_in_r _ _ _ _ (thread_Forall2 read_source l n) Hm) as (s & Hs & k & ->). exists s. split; [exact Hs|]. exists k. reflexivity. }
  split.
  - intros m Hm. destruct (S m Hm) as (s & Hs & H). pose proof (with_imports_names s m H) as P. split.
    + eapply Permutation_NoDup; [apply Permutation_sym, P|auto].
    + intros x Hx. apply (M s x Hs). eapply Permutation_in; eassumption.
  - intros m a Hm Ha. destruct (S m Hm) as (s & Hs & k & ->). rewrite module_of_eq in Ha. cbn [m_assigns] in Ha. apply in_rev in Ha.
    destruct (Forall2_in_r _ _ _ _ (thread_Forall2 read_decl (s_decls s) k) Ha) as (d & Hd & j & ->). destruct d as [x ps t|x t v|x fs]; cbn [read_decl].
    + destruct (thread read_param ps j) as [? j1]. destruct (read_ty t j1). reflexivity.
    + destruct (read_ty t j). reflexivity.
    + destruct (C s x fs Hs Hd).
Qed.
(** The files are parsed, and the passes take the tree to what they take the tree of the modules [l] to. *)
Definition compiled_as (texts : list (list Z)) (l : list source) : Prop :=
  exists s, parse_files initial_state texts = Ok (Some s) /\ forall fuel, passes fuel (st_modules s) = passes fuel (fst (thread read_source l 0)).
Lemma files_compiled_as texts ls : files texts ls -> compiled_as texts (concat ls).
Proof. intros F. unfold compiled_as, initial_state. rewrite (C111_files_partial ls texts (State [] 0) F). eexists. split; [reflexivity|]. reflexivity. Qed.
Lemma written_means_as texts l s x t a : compiled_as texts l -> covered l -> no_class_definitions l -> no_made_up_names l ->
  In s l -> In (DType x [] t) (s_decls s) -> means l s t a -> everywhere small_tags (default_tags s) a ->
  (forall code, writes texts (s_name s) x code -> compile (default_tags s) a = Some code) /\
  (accepted texts -> forall code, compile (default_tags s) a = Some code -> writes texts (s_name s) x code).
Proof.
  intros (s0 & F & Eq) (C1 & C2 & C3) Hc Hu Hs Hd Hm Ht. destruct (proj1 (elab_means l 0 C1 C2 C3) s t a Hm Hs (ex_intro (fun md => everywhere small_tags md a) _ Ht)) as (fuel & H).
  destruct (tree_found l 0 C1 s Hs) as (m & H1 & H2 & H3). destruct (stands_for_named s m x t H2 (proj2 C1 s Hs) (or_introl Hd)) as (k & E).
  pose proof (sources_clean l 0 C1 Hc Hu) as Cl. specialize (H m m k H1 H1 H2).
  unfold writes, accepted, compile_texts. rewrite F. split.
  - intros code (f & depth & G). rewrite Eq in G. destruct (passes f _) as [tr| | |] eqn:P; try discriminate G. destruct (passes_code f _ tr Cl P _ _ _ _ _ _ H3 E H) as (W & _). rewrite <- (module_of_mode s m H2). eapply W, G.
  - intros (f & s1 & tr & [= <-] & P) code G. rewrite Eq in P. destruct (passes_code f _ tr Cl P _ _ _ _ _ _ H3 E H) as (_ & W). exists f, (2 * fuel)%nat. rewrite Eq, P. rewrite <- (module_of_mode s m H2) in G. apply W; [lia|exact G].
Qed.
Lemma written_means texts ls s x t a : files texts ls -> covered (concat ls) -> no_class_definitions (concat ls) -> no_made_up_names (concat ls) ->
  In s (concat ls) -> In (DType x [] t) (s_decls s) -> means (concat ls) s t a -> everywhere small_tags (default_tags s) a ->
  (forall code, writes texts (s_name s) x code -> compile (default_tags s) a = Some code) /\
  (accepted texts -> forall code, compile (default_tags s) a = Some code -> writes texts (s_name s) x code).
Proof. intros F. apply written_means_as, files_compiled_as, F. Qed.
(** Values make the round trip through the code. *)
Definition round_trips (code : Schema.ty) : Prop := forall o v, rep code o v -> weight o < 2^62 ->
  exists p, (forall buffer, zlen buffer < 2^63 -> zlen p <= zlen buffer ->
               encode code o buffer = Ok (EncResult (p ++ zdrop (zlen p) buffer) true (zlen p))) /\
    forall o0 rest, obj code o0 -> zlen (p ++ rest) < 2^63 ->
      exists view o', v_make (p ++ rest) = Ok view /\ decode code o0 view = Ok (true, o') /\ rep code o' v.
(** The conditions on the meaning of a type: those of C54_compiled_round_trip_partial. *)
Definition regular (m : Compiler.mode) (a : aty) : Prop :=
  everywhere small_tags m a /\ everywhere CompilerSpec.plain m a /\ everywhere valid_seqs m a /\ everywhere distinct_members m a /\ everywhere choice_numbers m a.
Lemma round_trip_as texts l s x t a : compiled_as texts l -> covered l -> no_class_definitions l -> no_made_up_names l ->
  In s l -> In (DType x [] t) (s_decls s) -> means l s t a -> regular (default_tags s) a ->
  (accepted texts -> exists code, writes texts (s_name s) x code) /\ forall code, writes texts (s_name s) x code -> round_trips code.
Proof.
  intros F C Hc Hu Hs Hd Hm (Ht & Hp & Hv & Hn & Hch). destruct (written_means_as texts l s x t a F C Hc Hu Hs Hd Hm Ht) as (W1 & W2). set (m := default_tags s) in *. split.
  - intros Ha. pose proof (C54_valid_accepted_partial m a Hp Hv Hn) as A. destruct (compile m a) as [code|] eqn:Ec; [|congruence]. exists code. apply W2; [exact Ha|reflexivity].
  - intros code W o v. apply (C54_compiled_round_trip_partial m a code o v Hp Hv Hch (W1 code W)).
Qed.
Lemma accepted_as texts l : compiled_as texts l -> covered l -> no_class_definitions l -> no_made_up_names l ->
  well_defined l -> imports_exist l -> no_import_cycle l -> Z.of_nat (sum (map size (fst (thread read_source l 0)))) < 2^31 -> accepted texts.
Proof.
  intros (s0 & F & Eq) (C1 & C2 & C3) Hc Hu W I1 I2 Z. destruct (sources_accept l C1 C2 C3 (sources_clean _ _ C1 Hc Hu) Hc W I1 I2 Z) as (low & H). destruct (H low (le_n _)) as (tr & E).
  exists low, s0, tr. split; [exact F|]. rewrite Eq. exact E.
Qed.

(** ** C121 *)
(** Between parsing and writing the tree is changed by six passes: parameterized types, order of the modules, imports and nested
    structures, COMPONENTS OF, object classes, order of the assignments.  Whatever they do, what is written for a type is what C113
    says of it.  Missing: what [means] and [covered] leave out, modules with classes, or with names like those the compiler makes up. *)
Theorem C121_same_code_partial : forall texts ls s x t a, files texts ls -> covered (concat ls) -> no_class_definitions (concat ls) -> no_made_up_names (concat ls) ->
  In s (concat ls) -> In (DType x [] t) (s_decls s) -> means (concat ls) s t a -> everywhere small_tags (default_tags s) a -> accepted texts ->
  forall code, writes texts (s_name s) x code <-> generates texts (s_name s) x code.
Proof.
  intros texts ls s x t a F C Hc Hu Hs Hd Hm Ht Ha code. destruct (written_means texts ls s x t a F C Hc Hu Hs Hd Hm Ht) as (W1 & W2). destruct (code_means texts ls s x t a F C Hs Hd Hm Ht) as ((n & G1) & G2). split.
  - intros W. exists n. rewrite G1. apply W1, W.
  - intros G. apply W2; [exact Ha|]. apply G2, G.
Qed.
(** For every text in the covered part and every valid type in it: if the compiler gets through, it writes code for the type, and every value
    is written, into every buffer that is large enough, as octets that are read back as the same value, whatever stands behind them and whatever the object held before. *)
Theorem C121_round_trip_partial : forall texts ls s x t a, files texts ls -> covered (concat ls) -> no_class_definitions (concat ls) -> no_made_up_names (concat ls) ->
  In s (concat ls) -> In (DType x [] t) (s_decls s) -> means (concat ls) s t a -> let m := default_tags s in
  everywhere small_tags m a -> everywhere CompilerSpec.plain m a -> everywhere valid_seqs m a -> everywhere distinct_members m a -> everywhere choice_numbers m a ->
  (accepted texts -> exists code, writes texts (s_name s) x code) /\
  forall code, writes texts (s_name s) x code ->
    forall o v, rep code o v -> weight o < 2^62 ->
    exists p, (forall buffer, zlen buffer < 2^63 -> zlen p <= zlen buffer ->
                 encode code o buffer = Ok (EncResult (p ++ zdrop (zlen p) buffer) true (zlen p))) /\
      forall o0 rest, obj code o0 -> zlen (p ++ rest) < 2^63 ->
        exists view o', v_make (p ++ rest) = Ok view /\ decode code o0 view = Ok (true, o') /\ rep code o' v.
Proof.
  intros texts ls s x t a F C Hc Hu Hs Hd Hm m Ht Hp Hv Hn Hch. apply (round_trip_as texts (concat ls) s x t a (files_compiled_as _ _ F) C Hc Hu Hs Hd Hm). repeat split; assumption.
Qed.
(** And the octets start with the tags that X.680 gives the type as it is written, outermost first. *)
Theorem C121_tags_partial : forall texts ls s x t a, files texts ls -> covered (concat ls) -> no_class_definitions (concat ls) -> no_made_up_names (concat ls) ->
  In s (concat ls) -> In (DType x [] t) (s_decls s) -> means (concat ls) s t a -> let m := default_tags s in
  everywhere small_tags m a -> everywhere CompilerSpec.plain m a -> one_explicit m a -> x680_tags m a <> [] -> (structured a -> untagged a) ->
  forall code o v, writes texts (s_name s) x code -> rep code o v -> weight o < 2^62 ->
  exists p con content, (forall buffer, zlen buffer < 2^63 -> zlen p <= zlen buffer ->
                 encode code o buffer = Ok (EncResult (p ++ zdrop (zlen p) buffer) true (zlen p))) /\
    tagged_octets (x680_tags m a) con p content.
Proof.
  intros texts ls s x t a F C Hc Hu Hs Hd Hm m Ht Hp Ho Hne Hg code o v W. destruct (written_means texts ls s x t a F C Hc Hu Hs Hd Hm Ht) as (E & _).
  apply (C56_type_tags_partial m a code o v Hp Ho Hne Hg (E code W)).
Qed.

(** An example: two files, an import, structures in lists and behind tags, a template that nothing uses. *)
Definition ex_text_3 : string := "Alpha DEFINITIONS IMPLICIT TAGS ::= BEGIN
  IMPORTS Name FROM Beta;
  People ::= SEQUENCE OF SEQUENCE { name Name, kinds [3] SET OF ENUMERATED { old, young }, how CHOICE { a [1] NULL, b [2] BOOLEAN } OPTIONAL }
  Pair {T} ::= SEQUENCE { a T, b T }
END".
Definition ex_text_4 : string := "Beta DEFINITIONS ::= BEGIN Name ::= [APPLICATION 5] IMPLICIT UTF8String END".
Definition ex_people : ParserSource.ty :=
  YListOf false None None (YRecord false
    [CNamed "name" (YRef None "Name") Required;
     CNamed "kinds" (YTagged context_specific 3 Automatic (YListOf true None None (YEnumerated [("old", None); ("young", None)] None))) Required;
     CNamed "how" (YChoice [("a", YTagged context_specific 1 Automatic (YSimple Null)); ("b", YTagged context_specific 2 Automatic (YSimple Boolean))] None) Optional] None).
Definition ex_alpha : source := Source "Alpha" [] (Some Implicit) false None (Some [([(true, "Name")], "Beta", [])])
  [DType "People" [] ex_people; DType "Pair" [PPlain "T"] (YRecord false [CNamed "a" (YRef None "T") Required; CNamed "b" (YRef None "T") Required] None)].
Definition ex_beta : source := Source "Beta" [] None false None None [DType "Name" [] (YTagged ParserTree.application 5 Implicit (YSimple (CharString utf8_string)))].
Definition ex_people_meaning : aty :=
  ASeqOf false (ASeq
       (ACons Mand (ADef implicit_ (ADef explicit_ (ATagged implicit_ Ident.application 5 (APrim (KFixed []) 12))))
       (ACons Mand (ATagged automatic Ident.context_specific 3 (ASeqOf true (APrim (KSmall 8 [0]) 10)))
       (ACons Opt (AChoice (ACons Mand (ATagged automatic Ident.context_specific 1 (APrim KNull 5)) (ACons Mand (ATagged automatic Ident.context_specific 2 (APrim Schema.KBool 1)) ANil))) ANil)))).
Example C121_example : let texts := [codes ex_text_3; codes ex_text_4] in let ls := [[ex_alpha]; [ex_beta]] in let a := ex_people_meaning in let m := default_tags ex_alpha in
  files texts ls /\ covered (concat ls) /\ no_class_definitions (concat ls) /\ no_made_up_names (concat ls) /\
  In ex_alpha (concat ls) /\ In (DType "People" [] ex_people) (s_decls ex_alpha) /\ means (concat ls) ex_alpha ex_people a /\
  everywhere small_tags m a /\ everywhere CompilerSpec.plain m a /\ everywhere valid_seqs m a /\ everywhere distinct_members m a /\ everywhere choice_numbers m a /\
  one_explicit m a /\ x680_tags m a <> [] /\ (structured a -> untagged a) /\ accepted texts /\
  exists code, writes texts "Alpha" "People" code.
Proof.
  cbv zeta. split.
  { apply Forall2_cons; [|apply Forall2_cons; [|apply Forall2_nil]]; (split; [octets|split; [discriminate|split; [reflexivity|apply writes_ok; vm_compute; reflexivity]]]). }
  split. { split; [split|split].
    - repeat constructor; cbn; intuition discriminate.
    - intros s [<-|[<-|[]]]; repeat constructor; cbn; intuition discriminate.
    - right. intros s x t [<-|[<-|[]]] H; cbn in H; repeat destruct H as [E|H]; try destruct H; try discriminate E; injection E as <- <-; reflexivity.
    - intros s [<-|[<-|[]]]; reflexivity. }
  split. { intros s x fs [<-|[<-|[]]] H; cbn in H; repeat destruct H as [E|H]; try destruct H; discriminate. }
  split. { intros s x [<-|[<-|[]]] H (p & n & Hp & E); cbn in H; repeat destruct H as [<-|H]; try destruct H; cbn in Hp; repeat destruct Hp as [<-|Hp]; try destruct Hp; discriminate E. }
  split; [left; reflexivity|]. split; [left; reflexivity|]. split.
  { apply mn_list, mn_sequence. apply mn_named with (p := Required).
    { apply mn_ref with (s' := ex_alpha) (t := YRef (Some "Beta") "Name"); [left; reflexivity|reflexivity|right; do 4 eexists; split; [reflexivity|split; [left; reflexivity|split; [left; reflexivity|reflexivity]]]|].
      apply mn_ref with (s' := ex_beta) (t := YTagged ParserTree.application 5 Implicit (YSimple (CharString utf8_string))); [right; left; reflexivity|reflexivity|left; left; reflexivity|].
      apply (mn_tagged _ _ ParserTree.application 5 Implicit). apply mn_simple; reflexivity. }
    apply mn_named with (p := Required); [apply mn_tagged with (kw := Automatic) (c := context_specific), mn_list, mn_enumerated|].
    apply mn_named with (p := Optional); [|apply mn_no_component]. apply mn_choice. apply mn_alternative; [|apply mn_alternative; [|apply mn_no_alternative]].
    - apply (mn_tagged _ _ context_specific 1 Automatic). apply mn_simple; reflexivity.
    - apply (mn_tagged _ _ context_specific 2 Automatic). apply mn_simple; reflexivity. }
  split; [unfold ex_people_meaning, small_tags; ast_check|]. split; [unfold ex_people_meaning, CompilerSpec.plain; ast_check|]. split; [unfold ex_people_meaning, valid_seqs; ast_check|].
  split; [unfold ex_people_meaning, distinct_members; ast_check|]. split; [unfold ex_people_meaning, choice_numbers; ast_check|].
  split; [repeat split; discriminate|]. split; [discriminate|]. split; [intros _; exact I|].
  split; [exists 20%nat; eexists _, _; split; [vm_compute; reflexivity|]; vm_compute; reflexivity|].
  eexists. exists 20%nat, 20%nat. vm_compute. reflexivity.
Qed.

(** ** What is accepted *)
(** Every set of files is accepted in which everything is defined (AcceptSpec.v): with the conditions above, if every type that is defined
    or imported means something, modules do not import in circles, and the files have less than 2^31 octets, then the compiler gets through its passes,
    given time.  Missing: as above; types of other modules in SEQUENCE and SET that are not imported, names as defaults and as values. *)
Theorem C121_accepted_partial : forall texts ls, files texts ls -> covered (concat ls) -> no_class_definitions (concat ls) -> no_made_up_names (concat ls) ->
  well_defined (concat ls) -> imports_exist (concat ls) -> no_import_cycle (concat ls) -> zlen (concat texts) < 2^31 -> accepted texts.
Proof.
  intros texts ls F C Hc Hu W I1 I2 Z. pose proof (files_size texts ls F) as Hz. unfold zlen in Z. apply (accepted_as texts (concat ls) (files_compiled_as _ _ F) C Hc Hu W I1 I2). lia.
Qed.
(** So, without asking whether it is accepted: a valid type in such files has code, and values make the round trip. *)
Theorem C121_works_partial : forall texts ls s x t a, files texts ls -> covered (concat ls) -> no_class_definitions (concat ls) -> no_made_up_names (concat ls) ->
  well_defined (concat ls) -> imports_exist (concat ls) -> no_import_cycle (concat ls) -> zlen (concat texts) < 2^31 ->
  In s (concat ls) -> In (DType x [] t) (s_decls s) -> means (concat ls) s t a -> let m := default_tags s in
  everywhere small_tags m a -> everywhere CompilerSpec.plain m a -> everywhere valid_seqs m a -> everywhere distinct_members m a -> everywhere choice_numbers m a ->
  exists code, writes texts (s_name s) x code /\ (forall code', writes texts (s_name s) x code' -> code' = code) /\
    forall o v, rep code o v -> weight o < 2^62 ->
    exists p, (forall buffer, zlen buffer < 2^63 -> zlen p <= zlen buffer ->
                 encode code o buffer = Ok (EncResult (p ++ zdrop (zlen p) buffer) true (zlen p))) /\
      forall o0 rest, obj code o0 -> zlen (p ++ rest) < 2^63 ->
        exists view o', v_make (p ++ rest) = Ok view /\ decode code o0 view = Ok (true, o') /\ rep code o' v.
Proof.
  intros texts ls s x t a F C Hc Hu W I1 I2 Z Hs Hd Hm m Ht Hp Hv Hn Hch. destruct (C121_round_trip_partial texts ls s x t a F C Hc Hu Hs Hd Hm Ht Hp Hv Hn Hch) as (H1 & H2).
  destruct (H1 (C121_accepted_partial texts ls F C Hc Hu W I1 I2 Z)) as (code & Hcode). exists code. split; [exact Hcode|]. split; [|exact (H2 code Hcode)].
  intros code' Hcode'. destruct (written_means texts ls s x t a F C Hc Hu Hs Hd Hm Ht) as (E & _). pose proof (E _ Hcode). pose proof (E _ Hcode'). congruence.
Qed.
Example C121_accepted_example : let texts := [codes ex_text_3; codes ex_text_4] in let l := [ex_alpha; ex_beta] in well_defined l /\ imports_exist l /\ no_import_cycle l /\ zlen (concat texts) < 2^31.
Proof.
  cbv zeta. pose proof C121_example as H. cbv zeta in H. destruct H as (_ & _ & _ & _ & _ & _ & H1 & H2 & _). change (concat [[ex_alpha]; [ex_beta]]) with [ex_alpha; ex_beta] in H1.
  assert (N : means [ex_alpha; ex_beta] ex_beta (YTagged ParserTree.application 5 Implicit (YSimple (CharString utf8_string))) (ATagged implicit_ Ident.application 5 (APrim (KFixed []) 12))) by (apply (mn_tagged _ _ ParserTree.application 5 Implicit); apply mn_simple; reflexivity).
  split.
  { constructor.
    - intros s x t [<-|[<-|[]]] [H|(i & names & M & oid & E & Hi & Hx & ->)]; first [cbn in H|discriminate E|injection E as <-].
      + destruct H as [[= <- <-]|[H|[]]]; [|discriminate H]. split; [reflexivity|]. eexists. split; [exact H1|exact H2].
      + destruct Hi as [[= <- <- <-]|[]]. destruct Hx as [[= <-]|[]]. split; [reflexivity|]. exists (ADef explicit_ (ATagged implicit_ Ident.application 5 (APrim (KFixed []) 12))). split; [|unfold small_tags; ast_check].
        apply mn_ref with (s' := ex_beta) (t := YTagged ParserTree.application 5 Implicit (YSimple (CharString utf8_string))); [right; left; reflexivity|reflexivity|left; left; reflexivity|exact N].
      + destruct H as [[= <- <-]|[]]. split; [reflexivity|]. exists (ATagged implicit_ Ident.application 5 (APrim (KFixed []) 12)). split; [exact N|]. unfold small_tags; ast_check.
    - intros s x t v [<-|[<-|[]]] H; cbn in H; repeat destruct H as [H|H]; try discriminate H; destruct H. }
  split; [intros s M [<-|[<-|[]]] H; [destruct H as [<-|[]]; right; left; reflexivity|destruct H]|].
  split; [exists (fun x => if String.eqb x "Alpha" then 1%nat else 0%nat); intros s M [<-|[<-|[]]] H; [destruct H as [<-|[]]; cbn; lia|destruct H]|]. vm_compute. reflexivity.
Qed.

(** ** What is refused *)
(** What is left of the names of a module when the parameterized types are gone. *)
Definition is_parameterized (d : decl) : bool := match d with DType _ (_ :: _) _ => true | _ => false end.
Definition plain_names (s : source) : list string := map decl_name (filter (fun d => negb (is_parameterized d)) (s_decls s)) ++ imported_names s.

Lemma passes_start fuel tr tr' : NoDup (map m_name tr) -> passes fuel tr = CompilerTree.Done tr' -> exists tr1 o tr2 tr3, Frontend.resolve_parameters tr = CompilerTree.Done tr1 /\ Forall2 concreted tr tr1 /\ NoDup (map m_name tr1) /\ Permutation tr1 tr2 /\
  CompilerTree.reorder_modules fuel (map outline_module tr1) = CompilerTree.Done o /\ split_modules tr2 0 = CompilerTree.Done tr3.
Proof.
  intros N E. unfold passes in E. apply obind_ok in E as (tr1 & E1 & E). apply obind_ok in E as (tr2 & E2 & E). apply obind_ok in E as (tr3 & E3 & E). pose proof (parameters_facts _ _ E1) as E0.
  assert (N1 : NoDup (map m_name tr1)) by (replace (map m_name tr1) with (map m_name tr); [exact N|]; clear -E0; induction E0 as [|m m' l l' (H & _) F IH]; [reflexivity|]; cbn; congruence).
  pose proof (reorder_modules_perm _ _ _ N1 E2) as P. unfold reorder_modules in E2. apply obind_ok in E2 as (o & E2 & _). exists tr1, o, tr2, tr3. repeat split; assumption.
Qed.
Lemma parameters_names tr tr1 : Frontend.resolve_parameters tr = CompilerTree.Done tr1 ->
  Forall2 (fun m m1 => m_imports m1 = m_imports m /\ map a_name (m_assigns m1) = map a_name (filter (fun a => negb (is_template a)) (m_assigns m))) tr tr1.
Proof.
  intros E. unfold Frontend.resolve_parameters in E. apply obind_ok in E as (tr0 & E1 & E). injection E as <-. apply omap_forall2 in E1. apply Forall2_map_r. eapply Forall2_impl2; [|exact E1]. intros m m1 E. apply obind_ok in E as (l & E & [= <-]).
  apply omap_forall2 in E. split; [reflexivity|]. cbn [with_assigns m_assigns]. induction E as [|a a' l0 l E F IH]; [reflexivity|]. cbn [filter].
  assert (K : a_name a' = a_name a /\ is_template a' = is_template a).
  { unfold concrete in E. destruct a as [x [t| | |] ps]; cbn [a_specific] in E; try (injection E as <-; auto). unfold is_template in *. cbn [a_parameters a_name] in *. destruct ps; [|injection E as <-; auto]. apply obind_ok in E as (t' & _ & [= <-]). auto. }
  destruct K as (K1 & ->). destruct (negb _); cbn [map]; congruence.
Qed.
Lemma filter_perm {A} (p : A -> bool) l l' : Permutation l l' -> Permutation (filter p l) (filter p l').
Proof. induction 1 as [|x l l' H IH|x y l|l l1 l2 H1 I1 H2 I2]; cbn [filter]; [constructor| | |eapply Permutation_trans; eassumption]; [destruct (p x); auto|]. destruct (p x), (p y); try apply perm_swap; apply Permutation_refl. Qed.
Lemma read_decl_template d j : is_template (fst (read_decl d j)) = is_parameterized d.
Proof.
  destruct d as [x ps t|x t v|x fs]; cbn [read_decl is_parameterized].
  - pose proof (thread_Forall2 read_param ps j) as F. destruct (thread read_param ps j) as [l j1]. destruct (read_ty t j1). unfold is_template. cbn [fst a_parameters] in *. inversion F; reflexivity.
  - destruct (read_ty t j). reflexivity.
  - destruct (thread read_field fs j). reflexivity.
Qed.
Lemma accepted_passes texts ls : files texts ls -> accepted texts -> exists fuel tr, passes fuel (fst (thread read_source (concat ls) 0)) = CompilerTree.Done tr.
Proof. intros F (fuel & s & tr & P & E). unfold initial_state in P. rewrite (C111_files_partial ls texts (State [] 0) F) in P. injection P as <-. exists fuel, tr. exact E. Qed.
(** Modules (of different names) are only compiled together if every module that is imported from is among them, and none imports from itself through others. *)
Theorem C121_imports : forall texts ls, files texts ls -> NoDup (map s_name (concat ls)) -> accepted texts -> imports_exist (concat ls) /\ no_import_cycle (concat ls).
Proof.
  intros texts ls F N A. destruct (accepted_passes _ _ F A) as (fuel & tr & E). set (l := concat ls) in *. set (tr0 := fst (thread read_source l 0)) in *.
  assert (N0 : map m_name tr0 = map s_name l) by apply tree_names. destruct (passes_start fuel tr0 tr) as (tr1 & o & tr2 & tr3 & RP & C & N1 & _ & R & _); [rewrite N0; exact N|exact E|].
  assert (N2 : NoDup (TreeSpec.module_names (map outline_module tr1))) by (unfold TreeSpec.module_names; rewrite map_map; exact N1).
  assert (I : forall s M, In s l -> In M (imported_modules s) -> exists m, In m (map outline_module tr1) /\ CompilerTree.m_name m = s_name s /\ In M (CompilerTree.m_imports m)).
  { intros s M Hs HM. destruct (Forall2_in_l _ _ _ _ (thread_Forall2 read_source l 0) Hs) as (m & Hm & k & Em). destruct (Forall2_in_l _ _ _ _ C Hm) as (m1 & Hm1 & C1 & _ & C3 & _).
    exists (outline_module m1). split; [apply in_map, Hm1|]. rewrite module_of_eq in Em. subst m. cbn [m_name m_imports] in *. split; [exact C1|]. cbn [outline_module CompilerTree.m_imports]. rewrite C3. unfold imported_modules in HM. destruct (s_imports s) as [i|]; [|destruct HM].
    cbn [additions] in HM. rewrite map_map. replace (map (fun x => i_module (read_import x)) i) with (map (fun i => snd (fst i)) i); [exact HM|]. apply map_ext. intros [[? ?] ?]. reflexivity. }
  destruct (PropertiesTree.C58_reorder_modules (map outline_module tr1) (S (length (map outline_module tr1) + fuel)) N2 ltac:(lia)) as [(D & (number & Ac) & _)|(Z & _)].
  - split.
    + intros s M Hs HM. destruct (I s M Hs HM) as (m & Hm & _ & Hi). specialize (D m M Hm Hi). unfold TreeSpec.module_names in D. rewrite map_map in D. change (map (fun x => CompilerTree.m_name (outline_module x)) tr1) with (map m_name tr1) in D.
      rewrite <- N0. replace (map m_name tr0) with (map m_name tr1); [exact D|]. clear -C. induction C as [|m1 m1' l1 l1' (H & _) F1 IH]; [reflexivity|]. cbn. congruence.
    + exists number. intros s M Hs HM. destruct (I s M Hs HM) as (m & Hm & <- & Hi). exact (Ac m M Hm Hi).
  - exfalso. apply Z. destruct (PropertiesTree.modules_result _ _ _ N2 R) as (Hp & Hf). split.
    + intros m x Hm Hx. apply (Permutation_in m (Permutation_sym Hp)) in Hm. apply in_split in Hm as (b & a & Eo). apply (Hf b m a Eo) in Hx. apply (Permutation_in x (Permutation_map CompilerTree.m_name Hp)). rewrite Eo. unfold TreeSpec.module_names in *. rewrite map_app. apply in_or_app. left. exact Hx.
    + assert (Hno : NoDup (TreeSpec.module_names o)) by (apply (Permutation_NoDup (Permutation_map CompilerTree.m_name (Permutation_sym Hp))), N2).
      exists (fun x => PropertiesTree.index x (TreeSpec.module_names o)). intros m x Hm Hx. apply (Permutation_in m (Permutation_sym Hp)) in Hm. apply in_split in Hm as (b & a & Eo). apply (Hf b m a Eo) in Hx.
      rewrite Eo in Hno |- *. unfold TreeSpec.module_names in *. rewrite map_app in *. cbn [map] in *. rewrite PropertiesTree.index_at by exact Hno. apply PropertiesTree.index_before, Hx.
Qed.
(** And only if, in each module, all assignments without parameters and all imported types have different names. *)
Theorem C121_names : forall texts ls, files texts ls -> NoDup (map s_name (concat ls)) -> accepted texts -> forall s, In s (concat ls) -> NoDup (plain_names s).
Proof.
  intros texts ls F N A s Hs. destruct (accepted_passes _ _ F A) as (fuel & tr & E). set (l := concat ls) in *. set (tr0 := fst (thread read_source l 0)) in *.
  assert (N0 : map m_name tr0 = map s_name l) by apply tree_names. destruct (passes_start fuel tr0 tr) as (tr1 & o & tr2 & tr3 & RP & C & N1 & P & _ & S3); [rewrite N0; exact N|exact E|].
  destruct (Forall2_in_l _ _ _ _ (thread_Forall2 read_source l 0) Hs) as (m & Hm & k & Em). destruct (Forall2_in_l _ _ _ _ (parameters_names _ _ RP) Hm) as (m1 & Hm1 & C3 & C5).
  apply (Permutation_in _ P) in Hm1.
  assert (D : NoDup (map a_name (with_imports m1))).
  { clear -S3 Hm1. revert S3. generalize 0%Z at 1. intros n. revert n tr3. induction tr2 as [|m2 tr2 IH]; intros n tr3 S3; [destruct Hm1|]. cbn [split_modules] in S3. apply obind_ok in S3 as (u & S1 & S3).
    destruct Hm1 as [->|Hm1].
    - rewrite PropertiesTree.C57_duplicates in S1. destruct (ListDec.NoDup_dec _ _) as [Z|]; [|discriminate]. rewrite map_map in Z. exact Z.
    - destruct (Frontend.split_nested (m_name m2) (with_imports m2) n) as [l' n']. destruct (2^31 <=? n')%Z; [discriminate|]. apply obind_ok in S3 as (tr4 & S4 & _). eapply IH; eassumption. }
  unfold with_imports in D. rewrite C3, map_app, C5 in D. rewrite module_of_eq in Em. subst m. cbn [m_assigns m_imports] in *. unfold plain_names. eapply Permutation_NoDup; [|exact D]. apply Permutation_app.
  - apply Permutation_sym. eapply Permutation_trans; [|apply Permutation_map, filter_perm, Permutation_rev]. pose proof (thread_Forall2 read_decl (s_decls s) k) as G. clear -G.
    induction G as [|d a l l' (j & ->) F IH]; [constructor|]. cbn [filter]. rewrite read_decl_template. destruct (negb _); [|exact IH]. cbn [map]. rewrite read_decl_name. constructor. exact IH.
  - unfold imported_names. destruct (s_imports s) as [i|]; [|constructor]. cbn [additions]. clear. induction i as [|[[names M] oid] i IH]; [constructor|]. cbn [map flat_map fst read_import i_types i_module]. rewrite map_app, map_map. cbn [a_name]. rewrite map_id. apply Permutation_app_head, IH.
Qed.

Example C121_refused_example : let text := "M DEFINITIONS ::= BEGIN IMPORTS A FROM N; B ::= A END" in let s := Source "M" [] None false None (Some [([(true, "A")], "N", [])]) [DType "B" [] (YRef None "A")] in
  files [codes text] [[s]] /\ NoDup (map s_name (concat [[s]])) /\ In "N" (imported_modules s) /\ ~ accepted [codes text] /\
  let text := "M DEFINITIONS ::= BEGIN A ::= NULL A ::= BOOLEAN END" in let s := Source "M" [] None false None None [DType "A" [] (YSimple Null); DType "A" [] (YSimple Boolean)] in
  files [codes text] [[s]] /\ NoDup (map s_name (concat [[s]])) /\ ~ NoDup (plain_names s) /\ ~ accepted [codes text].
Proof.
  cbv zeta. assert (F1 : files [codes "M DEFINITIONS ::= BEGIN IMPORTS A FROM N; B ::= A END"] [[Source "M" [] None false None (Some [([(true, "A")], "N", [])]) [DType "B" [] (YRef None "A")]]]).
  { apply Forall2_cons; [|apply Forall2_nil]. split; [octets|split; [discriminate|split; [reflexivity|apply writes_ok; vm_compute; reflexivity]]]. }
  assert (F2 : files [codes "M DEFINITIONS ::= BEGIN A ::= NULL A ::= BOOLEAN END"] [[Source "M" [] None false None None [DType "A" [] (YSimple Null); DType "A" [] (YSimple Boolean)]]]).
  { apply Forall2_cons; [|apply Forall2_nil]. split; [octets|split; [discriminate|split; [reflexivity|apply writes_ok; vm_compute; reflexivity]]]. }
  split; [exact F1|]. split; [repeat constructor; intros []|]. split; [left; reflexivity|]. split.
  { intros A. destruct (C121_imports _ _ F1 ltac:(repeat constructor; intros []) A) as (D & _). specialize (D _ "N" (or_introl eq_refl) (or_introl eq_refl)). destruct D as [E|[]]. discriminate E. }
  split; [exact F2|]. split; [repeat constructor; intros []|]. assert (Z : ~ NoDup (plain_names (Source "M" [] None false None None [DType "A" [] (YSimple Null); DType "A" [] (YSimple Boolean)]))) by (intros N; inversion N as [|? ? H _]; apply H; left; reflexivity).
  split; [exact Z|]. intros A. apply Z. apply (C121_names _ _ F2 ltac:(repeat constructor; intros []) A). left. reflexivity.
Qed.

(** ** Where the passes disagree with the text *)
(** A valid module with a type of its own named UnnamedSequence0 is refused. *)
Theorem C121_made_up_refuted : let text := codes "M DEFINITIONS ::= BEGIN A ::= SEQUENCE OF SEQUENCE { a INTEGER } UnnamedSequence0 ::= BOOLEAN END" in
  (exists code, generates [text] "M" "A" code) /\ ~ accepted [text].
Proof.
  cbv zeta. split; [eexists; exists 20%nat; vm_compute; reflexivity|]. intros (fuel & s & tr & P & E). vm_compute in P. injection P as <-. cbn [st_modules] in E.
  do 5 (destruct fuel as [|fuel]; [vm_compute in E; discriminate E|]). vm_compute in E. discriminate E.
Qed.
(** The code for a type disappears: U ::= T, T ::= Two.FOO, where Two.FOO is BOOLEAN, and the module has a class that is named FOO as well. *)
Theorem C121_class_alias_refuted :
  let texts := [codes "One DEFINITIONS ::= BEGIN T ::= Two.FOO U ::= T FOO ::= CLASS { &id INTEGER } END"; codes "Two DEFINITIONS ::= BEGIN FOO ::= BOOLEAN END"] in
  (exists code, generates texts "One" "U" code) /\ accepted texts /\ (exists code, writes texts "One" "T" code) /\ forall code, ~ writes texts "One" "U" code.
Proof.
  cbv zeta. split; [eexists; exists 20%nat; vm_compute; reflexivity|]. split; [exists 20%nat; eexists _, _; split; [vm_compute; reflexivity|]; vm_compute; reflexivity|].
  split; [eexists; exists 20%nat, 20%nat; vm_compute; reflexivity|]. intros code (fuel & depth & E). unfold compile_texts in E.
  match type of E with context [parse_files ?a ?b] => let r := eval vm_compute in (parse_files a b) in change (parse_files a b) with r in E end. cbn [st_modules] in E.
  destruct (passes fuel _) as [tr| | |] eqn:P; try discriminate E. 
  do 5 (destruct fuel as [|fuel]; [vm_compute in P; first [discriminate P|injection P as <-; vm_compute in E; discriminate E]|]). vm_compute in P. injection P as <-. vm_compute in E. discriminate E.
Qed.
