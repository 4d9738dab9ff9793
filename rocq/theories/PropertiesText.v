(** C113 - C115: from the text of ASN.1 modules to what the generated code writes and reads. *)
From Coq Require Import List String ZArith Bool Lia.
From Verif Require Import Base Ident Spec HeaderProofs View ViewProofs Prims PrimProofs Schema SchemaSpec SchemaProofs SchemaDecode
  SchemaRound PropertiesSchema Compiler CompilerSpec CompilerProofs PropertiesCompiler.
From Verif Require Import CompilerNames Lexer LexerSpec ParserTree ParserFile ParserText ParserTextProofs PropertiesParser ParserWrite ParserSource Elab ElabSpec ElabProofs.
Import ListNotations.
Local Open Scope string_scope.
Local Open Scope list_scope.

(** The files [texts] write the modules [ls] (per file), in whatever spelling. *)
Definition files (texts : list (list Z)) (ls : list (list source)) : Prop :=
  Forall2 (fun l text => bytes text /\ l <> [] /\ forallb wf_source l = true /\ written text (flat_map source_tokens l)) ls texts.
(** The code written for the type X of module M. *)
Definition generates (texts : list (list Z)) (M X : string) (code : Schema.ty) : Prop := exists fuel, code_of fuel texts M X = Some code.
(** The condition of C113: what is not covered, see ElabSpec.v and CompilerSpec.v. *)
Definition covered (l : list source) : Prop := well_named l /\ no_tagged_references l /\ none_implied l.

Lemma code_unique fuel fuel' texts M X c c' : code_of fuel texts M X = Some c -> code_of fuel' texts M X = Some c' -> c = c'.
Proof.
  unfold code_of. destruct (parse_files _ texts) as [[s|]| |]; try discriminate. destruct (module_named _ M) as [m|]; try discriminate. destruct (type_named m X) as [t|]; try discriminate.
  destruct (elab fuel _ m m t) eqn:E; [|discriminate]. destruct (elab fuel' _ m m t) eqn:E'; [|discriminate]. rewrite (elab_unique _ _ _ _ _ _ _ _ E E'). congruence.
Qed.
(** What the compiler makes of the text of a type is the code for the type it means. *)
Lemma code_means texts ls s x t a : files texts ls -> covered (concat ls) -> In s (concat ls) -> In (DType x [] t) (s_decls s) ->
  means (concat ls) s t a -> everywhere small_tags (default_tags s) a ->
  (exists fuel, code_of fuel texts (s_name s) x = compile (default_tags s) a) /\
  (forall code, generates texts (s_name s) x code -> compile (default_tags s) a = Some code).
Proof.
  intros F (C1 & C2 & C3) Hs Hd Hm Ht. destruct (proj1 (elab_means (concat ls) 0 C1 C2 C3) s t a Hm Hs (ex_intro (fun md => everywhere small_tags md a) _ Ht)) as (fuel & H).
  destruct (tree_found (concat ls) 0 C1 s Hs) as (m & H1 & H2 & H3). destruct (stands_for_named s m x t H2 (proj2 C1 s Hs) (or_introl Hd)) as (k & E).
  unfold generates, code_of, initial_state. rewrite (C111_files_partial ls texts (State [] 0) F). cbn [st_modules st_anon app]. rewrite H3, E, (module_of_mode s m H2). split.
  - exists fuel. rewrite (H m m k H1 H1 H2). reflexivity.
  - intros code (fuel' & G). destruct (elab fuel' _ m m _) as [a'|] eqn:X; [|discriminate]. rewrite (elab_unique _ _ _ _ _ _ _ _ (H m m k H1 H1 H2) X). exact G.
Qed.

(** ** C113: text to wire *)
Theorem C113_one_code : forall texts M X c c', generates texts M X c -> generates texts M X c' -> c = c'.
Proof. intros texts M X c c' (n & E) (n' & E'). eapply code_unique; eassumption. Qed.
(** There is no code for what is not a type: values, classes, and types with parameters (templates). *)
Theorem C113_types_only : forall texts ls s d, files texts ls -> well_named (concat ls) -> In s (concat ls) -> In d (s_decls s) ->
  (forall x t, d <> DType x [] t) -> forall code, ~ generates texts (s_name s) (decl_name d) code.
Proof.
  intros texts ls s d F C1 Hs Hd Hn code (fuel & G). destruct (tree_found (concat ls) 0 C1 s Hs) as (m & H1 & H2 & H3). destruct (decl_found s m d H2 (proj2 C1 s Hs) Hd) as (j & E).
  unfold code_of, initial_state in G. rewrite (C111_files_partial ls texts (State [] 0) F) in G. cbn [st_modules st_anon app] in G. rewrite H3 in G. unfold type_named in G. rewrite E in G.
  destruct d as [x [|p ps] t|x t v|x fs]; cbn [read_decl] in G.
  - destruct (Hn x t eq_refl).
  - cbn [thread] in G. destruct (read_param p j) as [a j1]. destruct (thread read_param ps j1) as [l j2]. destruct (read_ty t j2). discriminate.
  - destruct (read_ty t j). discriminate.
  - destruct (thread read_field fs j). discriminate.
Qed.
(** For every text of modules in the notation of ParserSource.v and every type in it that is valid ASN.1 and in the covered part: there
    is code for it, and every value it can hold is written, into every buffer that is large enough, as octets that are read back as the
    same value, whatever stands behind them and whatever the object held before.  Missing: what [means], [covered] and [plain] leave
    out, AUTOMATIC TAGS (next but one), and CHOICEs whose alternatives differ only in the class of their tags (C52). *)
Theorem C113_round_trip_partial : forall texts ls s x t a, files texts ls -> covered (concat ls) -> In s (concat ls) -> In (DType x [] t) (s_decls s) ->
  means (concat ls) s t a -> let m := default_tags s in
  everywhere small_tags m a -> everywhere CompilerSpec.plain m a -> everywhere valid_seqs m a -> everywhere distinct_members m a -> everywhere choice_numbers m a ->
  exists code, generates texts (s_name s) x code /\
    forall o v, rep code o v -> weight o < 2^62 ->
    exists p, (forall buffer, zlen buffer < 2^63 -> zlen p <= zlen buffer ->
                 encode code o buffer = Ok (EncResult (p ++ zdrop (zlen p) buffer) true (zlen p))) /\
      forall o0 rest, obj code o0 -> zlen (p ++ rest) < 2^63 ->
        exists view o', v_make (p ++ rest) = Ok view /\ decode code o0 view = Ok (true, o') /\ rep code o' v.
Proof.
  intros texts ls s x t a F C Hs Hd Hm m Ht Hp Hv Hu Hc. destruct (code_means texts ls s x t a F C Hs Hd Hm Ht) as ((fuel & E) & _).
  pose proof (C54_valid_accepted_partial m a Hp Hv Hu) as A. fold m in E. destruct (compile m a) as [code|] eqn:Ec; [|congruence].
  exists code. split; [exists fuel; exact E|]. intros o v. apply (C54_compiled_round_trip_partial m a code o v Hp Hv Hc Ec).
Qed.
(** And the octets start with the tags that X.680 gives the type as it is written, outermost first. *)
Theorem C113_tags_partial : forall texts ls s x t a, files texts ls -> covered (concat ls) -> In s (concat ls) -> In (DType x [] t) (s_decls s) ->
  means (concat ls) s t a -> let m := default_tags s in
  everywhere small_tags m a -> everywhere CompilerSpec.plain m a -> one_explicit m a -> x680_tags m a <> [] -> (structured a -> untagged a) ->
  forall code o v, generates texts (s_name s) x code -> rep code o v -> weight o < 2^62 ->
  exists p con content, (forall buffer, zlen buffer < 2^63 -> zlen p <= zlen buffer ->
                 encode code o buffer = Ok (EncResult (p ++ zdrop (zlen p) buffer) true (zlen p))) /\
    tagged_octets (x680_tags m a) con p content.
Proof.
  intros texts ls s x t a F C Hs Hd Hm m Ht Hp Ho Hne Hg code o v G. destruct (code_means texts ls s x t a F C Hs Hd Hm Ht) as (_ & E).
  apply (C56_type_tags_partial m a code o v Hp Ho Hne Hg (E code G)).
Qed.
(** With AUTOMATIC TAGS: types with only mandatory components in SEQUENCEs, and in SETs and CHOICEs no tagged components or alternatives, and
    no references to structured types. *)
Theorem C113_automatic_partial : forall texts ls s x t a, files texts ls -> covered (concat ls) -> In s (concat ls) -> In (DType x [] t) (s_decls s) ->
  means (concat ls) s t a -> default_tags s = automatic -> everywhere small_tags automatic a -> everywhere auto_simple automatic a ->
  forall code o v, generates texts (s_name s) x code -> rep code o v -> weight o < 2^62 ->
  exists p, (forall buffer, zlen buffer < 2^63 -> zlen p <= zlen buffer ->
               encode code o buffer = Ok (EncResult (p ++ zdrop (zlen p) buffer) true (zlen p))) /\
    forall o0 rest, obj code o0 -> zlen (p ++ rest) < 2^63 ->
      exists view o', v_make (p ++ rest) = Ok view /\ decode code o0 view = Ok (true, o') /\ rep code o' v.
Proof.
  intros texts ls s x t a F C Hs Hd Hm Em Ht Ha code o v G. rewrite <- Em in Ht. destruct (code_means texts ls s x t a F C Hs Hd Hm Ht) as (_ & E). rewrite Em in E.
  apply (C53_round_trip_partial a code o v Ha (E code G)).
Qed.
(** Types that X.680 forbids are refused, as far as C54 and C55 go. *)
Theorem C113_refused_partial : forall texts ls s x t cs, files texts ls -> covered (concat ls) -> In s (concat ls) -> In (DType x [] t) (s_decls s) ->
  let m := default_tags s in everywhere_comps small_tags m cs -> everywhere_comps CompilerSpec.plain m cs -> m <> automatic ->
  (means (concat ls) s t (ASeq cs) -> neighbours_clash cs -> forall code, ~ generates texts (s_name s) x code) /\
  (forall ext, means (concat ls) s t (ASet ext cs) -> accepts_comps m cs = true -> ~ NoDup (all_first cs) -> forall code, ~ generates texts (s_name s) x code) /\
  (means (concat ls) s t (AChoice cs) -> cs <> ANil -> accepts_comps m cs = true -> ~ NoDup (all_first cs) -> forall code, ~ generates texts (s_name s) x code).
Proof.
  intros texts ls s x t cs F C Hs Hd m Ht Hp Ha. split; [|split].
  - intros Hm Hc code G. destruct (code_means texts ls s x t (ASeq cs) F C Hs Hd Hm ltac:(split; [exact I|exact Ht])) as (_ & E). apply E in G.
    fold m in G. rewrite (C54_neighbours_rejected_partial m cs) in G; [discriminate| |exact Hc]. split; [split; [exact Ha|exact I]|exact Hp].
  - intros ext Hm Hx Hc code G. destruct (code_means texts ls s x t (ASet ext cs) F C Hs Hd Hm ltac:(split; [exact I|exact Ht])) as (_ & E). apply E in G.
    fold m in G. rewrite (proj2 (C55_set_duplicates_partial m ext cs ltac:(split; [split; [exact Ha|exact I]|exact Hp]) Hx)) in G; [discriminate|exact Hc].
  - intros Hm Hn Hx Hc code G. destruct (code_means texts ls s x t (AChoice cs) F C Hs Hd Hm ltac:(split; [exact I|exact Ht])) as (_ & E). apply E in G.
    fold m in G. rewrite (proj2 (C55_choice_duplicates_partial m cs ltac:(split; [split; [exact Ha|exact Hn]|exact Hp]) Hx)) in G; [discriminate|exact Hc].
Qed.

(** An example: two files, two modules, an import, tags, an extensible CHOICE and SEQUENCE, a constraint. *)
Definition ex_text_1 : string := "One DEFINITIONS IMPLICIT TAGS ::= BEGIN
  IMPORTS Name FROM Two;
  Person ::= SEQUENCE { id [0] INTEGER (0..MAX), name Name OPTIONAL, how CHOICE { a [1] NULL, ..., b [2] BOOLEAN }, ... }
END".
Definition ex_text_2 : string := "Two DEFINITIONS ::= BEGIN Name ::= [APPLICATION 5] IMPLICIT UTF8String END".
Definition ex_person : ParserSource.ty :=
  YRecord false
    [CNamed "id" (YTagged context_specific 0 Automatic (YWith (YInteger []) (Constr [[ERange (Some (SInt 0)) None]] None))) Required;
     CNamed "name" (YRef None "Name") Optional;
     CNamed "how" (YChoice [("a", YTagged context_specific 1 Automatic (YSimple Null))] (Some [("b", YTagged context_specific 2 Automatic (YSimple Boolean))])) Required]
    (Some ([], None)).
Definition ex_one : source := Source "One" [] (Some Implicit) false None (Some [([(true, "Name")], "Two", [])]) [DType "Person" [] ex_person].
Definition ex_two : source := Source "Two" [] None false None None [DType "Name" [] (YTagged ParserTree.application 5 Implicit (YSimple (CharString utf8_string)))].
Definition ex_meaning : aty :=
  ASeq (ACons Mand (ATagged automatic Ident.context_specific 0 (APrim (KSmall 8 [0]) 2))
       (ACons Opt (ADef implicit_ (ADef explicit_ (ATagged implicit_ Ident.application 5 (APrim (KFixed []) 12))))
       (ACons Mand (AChoice (ACons Mand (ATagged automatic Ident.context_specific 2 (APrim Schema.KBool 1)) (ACons Mand (ATagged automatic Ident.context_specific 1 (APrim KNull 5)) ANil))) ANil))).
Example C113_example : let texts := [codes ex_text_1; codes ex_text_2] in let ls := [[ex_one]; [ex_two]] in let a := ex_meaning in let m := default_tags ex_one in
  files texts ls /\ covered (concat ls) /\ In ex_one (concat ls) /\ In (DType "Person" [] ex_person) (s_decls ex_one) /\ means (concat ls) ex_one ex_person a /\
  everywhere small_tags m a /\ everywhere CompilerSpec.plain m a /\ everywhere valid_seqs m a /\ everywhere distinct_members m a /\ everywhere choice_numbers m a /\
  one_explicit m a /\ x680_tags m a <> [] /\ (structured a -> untagged a) /\
  exists code, generates texts "One" "Person" code /\
    encode code (SRec [Some (ex_int_state (Id Ident.context_specific 0) 5); None; Some (SAlt 1 (SLeaf LNull))]) (zrep 7 0) = Ok (EncResult [0x30; 5; 0x80; 1; 5; 0x81; 0] true 7).
Proof.
  cbv zeta. split.
  { apply Forall2_cons; [|apply Forall2_cons; [|apply Forall2_nil]]; (split; [octets|split; [discriminate|split; [reflexivity|apply writes_ok; vm_compute; reflexivity]]]). }
  split. { split; [split|split].
    - repeat constructor; cbn; intuition discriminate.
    - intros s [<-|[<-|[]]]; repeat constructor; cbn; intuition discriminate.
    - right. intros s x t [<-|[<-|[]]] [E|[]]; injection E as <- <-; reflexivity.
    - intros s [<-|[<-|[]]]; reflexivity. }
  split; [left; reflexivity|]. split; [left; reflexivity|]. split.
  { apply mn_sequence. apply mn_named; [apply mn_tagged with (kw := Automatic) (c := context_specific), mn_constrained, mn_integer|].
    apply mn_named with (p := Optional).
    { apply mn_ref with (s' := ex_one) (t := YRef (Some "Two") "Name"); [left; reflexivity|reflexivity|right; do 4 eexists; split; [reflexivity|split; [left; reflexivity|split; [left; reflexivity|reflexivity]]]|].
      apply mn_ref with (s' := ex_two) (t := YTagged ParserTree.application 5 Implicit (YSimple (CharString utf8_string))); [right; left; reflexivity|reflexivity|left; left; reflexivity|].
      apply (mn_tagged _ _ ParserTree.application 5 Implicit). apply mn_simple; reflexivity. }
    apply mn_named with (p := Required); [|apply mn_no_component]. apply mn_choice. apply mn_alternative; [|apply mn_alternative; [|apply mn_no_alternative]].
    - apply (mn_tagged _ _ context_specific 2 Automatic). apply mn_simple; reflexivity.
    - apply (mn_tagged _ _ context_specific 1 Automatic). apply mn_simple; reflexivity. }
  split; [unfold ex_meaning, small_tags; ast_check|]. split; [unfold ex_meaning, CompilerSpec.plain; ast_check|]. split; [unfold ex_meaning, valid_seqs; ast_check|].
  split; [unfold ex_meaning, distinct_members; ast_check|]. split; [unfold ex_meaning, choice_numbers; ast_check|].
  split; [repeat split; discriminate|]. split; [discriminate|]. split; [intros _; exact I|].
  eexists. split; [exists 20%nat; vm_compute; reflexivity|]. vm_compute. reflexivity.
Qed.
(** ** Where the text and the wire disagree *)
Definition code_at (text M X : string) : option Schema.ty := code_of 20 [codes text] M X.
(** X.680 24.7, 25.8, 29.5: AUTOMATIC TAGS number the root components first and then the additions, in textual order.  For
    CHOICE { a INTEGER, ..., b INTEGER } a has to get [0]; it is written with [1].  For SEQUENCE { a INTEGER, ..., b INTEGER, ..., c INTEGER }
    c has to get [1] and b [2]; it is the other way round. *)
Theorem C113_automatic_additions_refuted : let text := "M DEFINITIONS AUTOMATIC TAGS ::= BEGIN A ::= CHOICE { a INTEGER, ..., b INTEGER } B ::= SEQUENCE { a INTEGER, ..., b INTEGER, ..., c INTEGER } END" in
  assigned (codes text) = Some [Assign "B" (AType (TRecord false [Comp "a" (TInteger []) false None None; Comp "b" (TInteger []) false None None; Comp "c" (TInteger []) false None None] true)) [];
                                Assign "A" (AType (TChoice [("b", TInteger []); ("a", TInteger [])])) []] /\
  exists choice sequence, generates [codes text] "M" "A" choice /\ generates [codes text] "M" "B" sequence /\
    encode choice (SAlt 1 (ex_int_state (Id Ident.context_specific 1) 5)) (zrep 3 0) = Ok (EncResult [0x81; 1; 5] true 3) /\
    encode sequence (SRec [Some (ex_int_state (Id Ident.context_specific 0) 10); Some (ex_int_state (Id Ident.context_specific 1) 11); Some (ex_int_state (Id Ident.context_specific 2) 12)]) (zrep 11 0) =
      Ok (EncResult [0x30; 9; 0x80; 1; 10; 0x81; 1; 11; 0x82; 1; 12] true 11).
Proof.
  cbv zeta. split; [vm_compute; reflexivity|]. eexists _, _. split; [exists 20%nat; vm_compute; reflexivity|]. split; [exists 20%nat; vm_compute; reflexivity|].
  split; vm_compute; reflexivity.
Qed.
(** The parser keeps 32 bits of the numbers of tags: [4294967297] is written as [1], and so are two alternatives that differ: the type is
    rejected. *)
Theorem C113_tag_numbers_refuted : exists code, generates [codes "M DEFINITIONS IMPLICIT TAGS ::= BEGIN A ::= [4294967297] INTEGER END"] "M" "A" code /\
  encode code (ex_int_state (Id Ident.context_specific 1) 5) (zrep 3 0) = Ok (EncResult [0x81; 1; 5] true 3) /\
  forall c, ~ generates [codes "M DEFINITIONS IMPLICIT TAGS ::= BEGIN A ::= SET { a [4294967297] INTEGER, b [1] INTEGER } END"] "M" "A" c.
Proof.
  eexists. split; [exists 20%nat; vm_compute; reflexivity|]. split; [vm_compute; reflexivity|].
  intros c (n & H). unfold code_of in H. match type of H with match ?r with _ => _ end = _ => let v := eval vm_compute in r in change r with v in H end. cbv beta iota in H.
  cbn [st_modules module_named find m_name String.eqb Ascii.eqb Bool.eqb type_named assign_named with_imports m_assigns m_imports flat_map app a_name] in H.
  match type of H with match ?e with Some _ => _ | None => _ end = _ => destruct e as [a|] eqn:E end; [|discriminate].
  destruct n as [|[|[|n]]]; try discriminate E. injection E as <-. vm_compute in H. discriminate.
Qed.
(** EXTENSIBILITY IMPLIED makes no difference: a SET of such a module refuses a member that it does not know; with dots it skips it. *)
Theorem C113_implied_refuted : exists implied dots o view, generates [codes "M DEFINITIONS EXTENSIBILITY IMPLIED ::= BEGIN A ::= SET { a INTEGER } END"] "M" "A" implied /\
  generates [codes "M DEFINITIONS ::= BEGIN A ::= SET { a INTEGER, ... } END"] "M" "A" dots /\
  v_make [0x31; 6; 2; 1; 5; 0x81; 1; 7] = Ok view /\ decode implied (init implied) view = Ok (false, o) /\ exists o', decode dots (init dots) view = Ok (true, o').
Proof.
  eexists _, _, _, _. split; [exists 20%nat; vm_compute; reflexivity|]. split; [exists 20%nat; vm_compute; reflexivity|]. split; [vm_compute; reflexivity|]. split; [vm_compute; reflexivity|].
  eexists. vm_compute. reflexivity.
Qed.

(** ** C114: the tags of the types without members *)
(** The number of the tag of a type that is written without tags and references (X.680 Table 1, 20, 22). *)
Fixpoint universal_number (t : ParserSource.ty) : option Z :=
  match t with
  | YSimple k => x680_universal k
  | YInteger _ => Some 2
  | YBits _ => Some 3
  | YEnumerated _ _ => Some 10
  | YWith t _ => universal_number t
  | _ => None
  end%Z.
Definition leaves : list (lkind * Z) :=
  [(Schema.KBool, 1); (KSmall 8 [0], 2); (KFixed [], 3); (KFixed [], 4); (KNull, 5); (KFixed [], 6); (KSmall 100 [], 9); (KSmall 8 [0], 10); (KFixed [], 12);
   (KFixed [], 18); (KFixed [], 19); (KFixed [], 20); (KFixed [], 21); (KFixed [], 22); (Schema.KTime, 23); (Schema.KTime, 24); (KFixed [], 25); (KFixed [], 26);
   (KFixed [], 27); (KFixed [], 28); (KFixed [], 29); (KFixed [], 30)]%Z.
Lemma leaf_table l s t a u : means l s t a -> universal_number t = Some u -> exists c, a = APrim c u /\ In (c, u) leaves.
Proof.
  intros Hm Hu. induction t; try discriminate; inversion Hm; subst; cbn in Hu.
  - match goal with H : holds ?k ?c, E : x680_universal _ = Some ?u' |- _ => exists c; replace u' with u by congruence; clear E Hm; rename H into Hh;
      split; [reflexivity|]; destruct k; try match goal with c : char_string |- _ => destruct c end; cbn in Hh, Hu; try contradiction; try discriminate; subst; injection Hu as <-;
      cbn; tauto end.
  - injection Hu as <-. eexists. split; [reflexivity|cbn; tauto].
  - injection Hu as <-. eexists. split; [reflexivity|cbn; tauto].
  - injection Hu as <-. eexists. split; [reflexivity|cbn; tauto].
  - apply IHt; assumption.
Qed.
(** The types that the library has no class for, or that it does as GeneralizedTime, are not covered ([means]). *)
Theorem C114_universal_tags_partial : forall texts ls s x t a u, files texts ls -> covered (concat ls) -> In s (concat ls) -> In (DType x [] t) (s_decls s) ->
  means (concat ls) s t a -> universal_number t = Some u ->
  exists code, generates texts (s_name s) x code /\
  forall o v, rep code o v -> weight o < 2^62 ->
  exists p content, (forall buffer, zlen buffer < 2^63 -> zlen p <= zlen buffer -> encode code o buffer = Ok (EncResult (p ++ zdrop (zlen p) buffer) true (zlen p))) /\
    ber_packet p Ident.universal primitive u content.
Proof.
  intros texts ls s x t a u F C Hs Hd Hm Hu.
  destruct (leaf_table (concat ls) s t a u Hm Hu) as (c & -> & Hin).
  assert (Hk : kind_ok c /\ 0 <= u < 2^63).
  { clear - Hin. unfold leaves in Hin. cbn [In] in Hin. repeat destruct Hin as [Hin|Hin]; try contradiction; injection Hin as <- <-;
      (split; [|lia]); cbn; try exact I; (split; [lia|]); repeat constructor; unfold wf_byte; lia. }
  destruct Hk as [Hk Hr].
destruct (code_means texts ls s x t (APrim c u) F C Hs Hd Hm ltac:(split; exact I)) as ((fuel & E) & _).
  exists (TLeaf c (Id Ident.universal u)). split; [exists fuel; exact E|]. intros o v R W.
  destruct (C41_encode_is_ber (TLeaf c (Id Ident.universal u)) o v) as (p & Hb & He); [| exact R|exact W|].
  - apply (proj1 cpp_wf (APrim c u) explicit_ None); [split; [split; [discriminate|split; [exact Hk|exact Hr]]|exact I]|discriminate].
  - destruct v as [w| | |]; try contradiction. destruct Hb as [_ [Hb _]]. exists p, w. split; [exact He|exact Hb].
Qed.
Example C114_example : let s := Source "M" [] (Some Automatic) false None None [DType "A" [] (YWith (YInteger []) (Constr [[ERange (Some (SInt 0)) None]] None))] in
  files [codes "M DEFINITIONS AUTOMATIC TAGS ::= BEGIN A ::= INTEGER (0..MAX) END"] [[s]] /\ covered [s] /\
  means [s] s (YWith (YInteger []) (Constr [[ERange (Some (SInt 0)) None]] None)) (APrim (KSmall 8 [0]) 2) /\
  exists code, generates [codes "M DEFINITIONS AUTOMATIC TAGS ::= BEGIN A ::= INTEGER (0..MAX) END"] "M" "A" code /\ encode code (ex_int_state (Id Ident.universal 2) 5) (zrep 3 0) = Ok (EncResult [2; 1; 5] true 3).
Proof.
  cbv zeta. split.
  { apply Forall2_cons; [|apply Forall2_nil]. split; [octets|split; [discriminate|split; [reflexivity|apply writes_ok; vm_compute; reflexivity]]]. }
  split. { split; [split|split].
    - repeat constructor; cbn; intuition discriminate.
    - intros s [<-|[]]; repeat constructor; cbn; intuition discriminate.
    - left. reflexivity.
    - intros s [<-|[]]; reflexivity. }
  split; [apply mn_constrained, mn_integer|]. eexists. split; [exists 20%nat; vm_compute; reflexivity|]. vm_compute. reflexivity.
Qed.
(** The other time types (X.680 38: TIME 14, DATE 31, TIME-OF-DAY 32, DATE-TIME 33, DURATION 34) are all written with the identifier octet 00,
    which is that of the end-of-contents octets (X.690 8.1.5), and with a GeneralizedTime as contents. *)
Theorem C114_time_types_refuted : Forall (fun k => exists code, generates [codes ("M DEFINITIONS ::= BEGIN A ::= " ++ k ++ " END")%string] "M" "A" code /\
    encode code (init code) (zrep 17 0) = Ok (EncResult ([0; 15] ++ codes "19700101000000Z") true 17))
  ["TIME"; "DATE"; "TIME-OF-DAY"; "DATE-TIME"; "DURATION"].
Proof. repeat apply Forall_cons; try apply Forall_nil; (eexists; split; [exists 20%nat; vm_compute; reflexivity|vm_compute; reflexivity]). Qed.

(** ** C115: objects that nothing has been assigned to *)
(** Contents octets that X.690 allows for a type with the given universal tag number (8.2 - 8.4, 8.6 - 8.8, 8.19, 8.23, and X.680 46, 47; no
    check for character sets, object descriptors and reals). *)
Definition digits_from (x : list Z) (n : Z) : Prop := n <= zlen x /\ Forall is_digit (ztake n x).
Definition valid_contents (u : Z) (x : list Z) : Prop :=
  match u with
  | 1 => zlen x = 1
  | 2 | 10 => match x with [] => False | [_] => True | a :: b :: _ => ~ (a = 0 /\ b < 128) /\ ~ (a = 255 /\ 128 <= b) end
  | 3 => match x with [] => False | [a] => a = 0 | a :: _ => 0 <= a <= 7 end
  | 5 => x = []
  | 6 => x <> [] /\ last x 255 < 128
  | 23 => digits_from x 10 /\ (last x 0 = 90 -> zlen x = 11 \/ zlen x = 13)
  | 24 => digits_from x 10
  | 28 => zlen x mod 4 = 0
  | 30 => zlen x mod 2 = 0
  | _ => True
  end%Z.
(** BIT STRING, OBJECT IDENTIFIER: no contents.  UTCTime: a year of four digits.  ENUMERATED { a(5) }: 0, which is not one of its values. *)
Theorem C115_default_refuted : Forall (fun e => let '(k, u, x) := e in ~ valid_contents u x /\ exists code, generates [codes ("M DEFINITIONS ::= BEGIN A ::= " ++ k ++ " END")%string] "M" "A" code /\
    encode code (init code) (zrep 17 0) = Ok (EncResult ([u; zlen x] ++ x ++ zrep (15 - zlen x) 0) true (2 + zlen x)))
  [("BIT STRING", 3, []); ("OBJECT IDENTIFIER", 6, []); ("UTCTime", 23, codes "19700101000000Z")]%Z /\
  exists code, generates [codes "M DEFINITIONS ::= BEGIN A ::= ENUMERATED { a(5) } END"] "M" "A" code /\ encode code (init code) (zrep 3 0) = Ok (EncResult [10; 1; 0] true 3).
Proof.
  split; [|eexists; split; [exists 20%nat; vm_compute; reflexivity|vm_compute; reflexivity]].
  repeat apply Forall_cons; try apply Forall_nil; (split; [|eexists; split; [exists 20%nat; vm_compute; reflexivity|vm_compute; reflexivity]]).
  - intros [].
  - intros [H _]. apply H. reflexivity.
  - intros [_ H]. destruct (H eq_refl) as [E|E]; vm_compute in E; discriminate.
Qed.
(** All others of the types without members that have a class. *)
Theorem C115_default_partial : forall texts ls s x t a u, files texts ls -> covered (concat ls) -> In s (concat ls) -> In (DType x [] t) (s_decls s) ->
  means (concat ls) s t a -> universal_number t = Some u -> u <> 3 -> u <> 6 -> u <> 23 ->
  exists code content p, generates texts (s_name s) x code /\ valid_contents u content /\ ber_packet p Ident.universal primitive u content /\
    forall buffer, zlen buffer < 2^63 -> zlen p <= zlen buffer -> encode code (init code) buffer = Ok (EncResult (p ++ zdrop (zlen p) buffer) true (zlen p)).
Proof.
  intros texts ls s x t a u F C Hs Hd Hm Hu N3 N6 N23. destruct (leaf_table (concat ls) s t a u Hm Hu) as (c & -> & Hin).
  destruct (code_means texts ls s x t (APrim c u) F C Hs Hd Hm ltac:(split; exact I)) as ((fuel & E) & _).
  set (code := TLeaf c (Id Ident.universal u)).
  assert (K : kind_ok c /\ 0 <= u < 2^63 /\ weight (init code) < 2^62 /\ valid_contents u (match c with Schema.KBool => [0] | KNull => [] | KSmall _ x0 | KFixed x0 => x0 | Schema.KTime => epoch_text end)%Z).
  { clear - Hin N3 N6 N23. unfold leaves in Hin. cbn [In] in Hin. subst code. repeat destruct Hin as [Hin|Hin]; try contradiction; injection Hin as <- <-; try congruence;
      (split; [cbn; try exact I; (split; [lia|]); repeat constructor; unfold wf_byte; lia|]); (split; [lia|]); (split; [vm_compute; reflexivity|]); cbn; try exact I; try reflexivity.
    split; [cbn; lia|]. repeat constructor; unfold is_digit; lia. }
  destruct K as (Hk & Hr & Hw & Hv).
  assert (W : SchemaSpec.wf_ty code) by (apply (proj1 cpp_wf (APrim c u) explicit_ None); [split; [split; [discriminate|split; [exact Hk|exact Hr]]|exact I]|discriminate]).
  pose proof (leaf_init_rep c (Id Ident.universal u) W) as R.
  destruct (C41_encode_is_ber code (init code) (VPrim _) W R Hw) as (p & [_ [Hb _]] & He).
  exists code. eexists. exists p. split; [exists fuel; exact E|]. split; [exact Hv|]. split; [exact Hb|exact He].
Qed.
