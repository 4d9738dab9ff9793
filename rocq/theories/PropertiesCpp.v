(** C122, C123: the C++ that the compiler writes.  CppSpec.v gives the meaning of the part of C++ that occurs in it. *)
From Coq Require Import List String ZArith Bool Lia Permutation.
From Verif Require Import Base Ident Spec HeaderProofs View ViewProofs Prims PrimProofs Schema SchemaSpec SchemaProofs SchemaDecode
  SchemaRound PropertiesSchema Compiler CompilerSpec CompilerProofs PropertiesCompiler.
From Verif Require Import PassesSpec Frontend FrontOrder FrontNest FrontPasses FrontAccept.
From Verif Require Import CompilerNames CompilerTree Lexer LexerSpec ParserTree ParserFile ParserText ParserTextProofs PropertiesParser ParserWrite ParserSource Elab ElabSpec ElabProofs AcceptSpec FrontText PropertiesText PropertiesFront.
From Verif Require Import HeaderSpec CppSpec Header HeaderSound HeaderRun HeaderCheck ExpressSpec ExpressRun ExpressCheck.
Import ListNotations.
Local Open Scope string_scope.
Local Open Scope list_scope.

(** Given these files, the compiler gets through its passes with this tree, and writes this header. *)
Definition writes_header (texts : list (list Z)) (tr : list module) (p : program) : Prop :=
  exists fuel depth s, parse_files initial_state texts = Ok (Some s) /\ passes fuel (st_modules s) = CompilerTree.Done tr /\ header depth tr = Some p.
(** The header has no errors. *)
Definition cpp_ok (p : program) : Prop := compiles p <> None.

Lemma declares_unique p M X c c' : declares p M X c -> declares p M X c' -> c = c'.
Proof. intros (S & s & H1 & H2 & H3) (S' & s' & H1' & H2' & H3'). congruence. Qed.
Lemma header_means_as texts l s x t a tr p : compiled_as texts l -> covered l -> no_class_definitions l -> no_made_up_names l ->
  In s l -> In (DType x [] t) (s_decls s) -> means l s t a -> everywhere small_tags (default_tags s) a ->
  writes_header texts tr p -> separate (bare tr) -> cpp_ok p ->
  forall code, compile (default_tags s) a = Some code -> declares p (s_name s) x code.
Proof.
  intros (s1 & F & Eq) (C1 & C2 & C3) Hc Hu Hs Hd Hm Ht (f & depth & s0 & Hp & P & Hh) Sep Ok code G. destruct (proj1 (elab_means l 0 C1 C2 C3) s t a Hm Hs (ex_intro (fun md => everywhere small_tags md a) _ Ht)) as (fuel & H).
  destruct (tree_found l 0 C1 s Hs) as (m & H1 & H2 & H3). destruct (stands_for_named s m x t H2 (proj2 C1 s Hs) (or_introl Hd)) as (k & E).
  pose proof (sources_clean l 0 C1 Hc Hu) as Cl. specialize (H m m k H1 H1 H2).
  rewrite F in Hp. injection Hp as <-. rewrite Eq in P.
  destruct (passes_code f _ tr Cl P _ _ _ _ _ _ H3 E H) as (_ & W). rewrite <- (module_of_mode s m H2) in G. specialize (W (2 * fuel)%nat code (le_n _) G).
  unfold written_code in W. change (final tr) with (bare tr) in W. destruct (module_named (bare tr) (s_name s)) as [mm|] eqn:Em; [|discriminate]. destruct (type_named mm x) as [tt|] eqn:Et; [|discriminate].
  destruct (elab (2 * fuel) (bare tr) mm mm tt) as [aa|] eqn:Ea; [|discriminate]. destruct (accepts _ aa); [|discriminate]. injection W as <-.
  unfold cpp_ok in Ok. destruct (compiles p) as [S|] eqn:Ec; [|congruence]. destruct (header_sound depth tr p S (s_name s) x mm tt Sep Hh Ec Em Et) as (sc & c & A1 & A2 & A3).
  exists S, sc. split; [exact Ec|]. split; [exact A1|]. rewrite A2. f_equal. f_equal. apply (A3 _ _ None Ea eq_refl).
Qed.
Lemma header_means texts ls s x t a tr p : files texts ls -> covered (concat ls) -> no_class_definitions (concat ls) -> no_made_up_names (concat ls) ->
  In s (concat ls) -> In (DType x [] t) (s_decls s) -> means (concat ls) s t a -> everywhere small_tags (default_tags s) a ->
  writes_header texts tr p -> separate (bare tr) -> cpp_ok p ->
  forall code, compile (default_tags s) a = Some code -> declares p (s_name s) x code.
Proof. intros F. apply header_means_as, files_compiled_as, F. Qed.

(** ** C122 *)
(** What the C++ compiler makes of the header is what C113 and C121 say is generated: for every set of files whose header has no errors and
    whose names keep apart (HeaderSpec.v), a type that means something has, under its own name in the namespace of its module, the code
    for that meaning.  Missing: what C121 leaves out, and the conditions of [separate] (C122_capture_refuted shows that they are needed). *)
Theorem C122_code_partial : forall texts ls s x t a tr p, files texts ls -> covered (concat ls) -> no_class_definitions (concat ls) -> no_made_up_names (concat ls) ->
  In s (concat ls) -> In (DType x [] t) (s_decls s) -> means (concat ls) s t a -> everywhere small_tags (default_tags s) a ->
  writes_header texts tr p -> separate (bare tr) -> cpp_ok p ->
  forall code, writes texts (s_name s) x code -> declares p (s_name s) x code.
Proof.
  intros texts ls s x t a tr p F C Hc Hu Hs Hd Hm Ht Hw Sep Ok code W. destruct (written_means texts ls s x t a F C Hc Hu Hs Hd Hm Ht) as (W1 & _).
  apply (header_means texts ls s x t a tr p F C Hc Hu Hs Hd Hm Ht Hw Sep Ok code (W1 code W)).
Qed.
(** And so its values make the round trip. *)
Theorem C122_round_trip_partial : forall texts ls s x t a tr p, files texts ls -> covered (concat ls) -> no_class_definitions (concat ls) -> no_made_up_names (concat ls) ->
  In s (concat ls) -> In (DType x [] t) (s_decls s) -> means (concat ls) s t a -> let m := default_tags s in
  everywhere small_tags m a -> everywhere CompilerSpec.plain m a -> everywhere valid_seqs m a -> everywhere distinct_members m a -> everywhere choice_numbers m a ->
  writes_header texts tr p -> separate (bare tr) -> cpp_ok p ->
  exists code, declares p (s_name s) x code /\ (forall code', declares p (s_name s) x code' -> code' = code) /\
    forall o v, rep code o v -> weight o < 2^62 ->
    exists q, (forall buffer, zlen buffer < 2^63 -> zlen q <= zlen buffer ->
                 encode code o buffer = Ok (EncResult (q ++ zdrop (zlen q) buffer) true (zlen q))) /\
      forall o0 rest, obj code o0 -> zlen (q ++ rest) < 2^63 ->
        exists view o', v_make (q ++ rest) = Ok view /\ decode code o0 view = Ok (true, o') /\ rep code o' v.
Proof.
  intros texts ls s x t a tr p F C Hc Hu Hs Hd Hm m Ht Hp Hv Hn Hch Hw Sep Ok.
  pose proof (C54_valid_accepted_partial m a Hp Hv Hn) as A. destruct (compile m a) as [code|] eqn:Ec; [|congruence]. exists code.
  pose proof (header_means texts ls s x t a tr p F C Hc Hu Hs Hd Hm Ht Hw Sep Ok code Ec) as D. split; [exact D|]. split; [intros code' D'; apply (declares_unique _ _ _ _ _ D' D)|].
  intros o v. apply (C54_compiled_round_trip_partial m a code o v Hp Hv Hch Ec).
Qed.
(** And its octets start with the tags that X.680 gives the type. *)
Theorem C122_tags_partial : forall texts ls s x t a tr p, files texts ls -> covered (concat ls) -> no_class_definitions (concat ls) -> no_made_up_names (concat ls) ->
  In s (concat ls) -> In (DType x [] t) (s_decls s) -> means (concat ls) s t a -> let m := default_tags s in
  everywhere small_tags m a -> everywhere CompilerSpec.plain m a -> everywhere valid_seqs m a -> everywhere distinct_members m a ->
  one_explicit m a -> x680_tags m a <> [] -> (structured a -> untagged a) ->
  writes_header texts tr p -> separate (bare tr) -> cpp_ok p ->
  exists code, declares p (s_name s) x code /\
    forall o v, rep code o v -> weight o < 2^62 ->
    exists q con content, (forall buffer, zlen buffer < 2^63 -> zlen q <= zlen buffer ->
                 encode code o buffer = Ok (EncResult (q ++ zdrop (zlen q) buffer) true (zlen q))) /\
      tagged_octets (x680_tags m a) con q content.
Proof.
  intros texts ls s x t a tr p F C Hc Hu Hs Hd Hm m Ht Hp Hv Hn Ho Hne Hg Hw Sep Ok.
  pose proof (C54_valid_accepted_partial m a Hp Hv Hn) as A. destruct (compile m a) as [code|] eqn:Ec; [|congruence]. exists code.
  split; [apply (header_means texts ls s x t a tr p F C Hc Hu Hs Hd Hm Ht Hw Sep Ok code Ec)|]. intros o v. apply (C56_type_tags_partial m a code o v Hp Ho Hne Hg Ec).
Qed.
(** To compute examples. *)
Definition built (texts : list string) : option (list module * program) :=
  match parse_files initial_state (map codes texts) with
  | Ok (Some s) => match passes 100 (st_modules s) with CompilerTree.Done tr => match header 30 tr with Some p => Some (tr, p) | None => None end | _ => None end
  | _ => None
  end.
Lemma built_writes texts tr p : built texts = Some (tr, p) -> writes_header (map codes texts) tr p.
Proof.
  unfold built. destruct (parse_files _ _) as [[s|]| |] eqn:E; try discriminate. destruct (passes 100 _) as [tr'| | |] eqn:P; try discriminate. destruct (header 30 tr') as [p'|] eqn:H; [|discriminate]. intros [= <- <-].
  exists 100%nat, 30%nat, s. auto.
Qed.
Definition found (texts : list string) (M X : string) : option (bool * Schema.ty) :=
  match built texts with
  | Some (tr, p) => match compiles p with
                    | Some ns => match assoc ns M with Some s => match assoc s X with Some (Type_ c) => Some (separate_b (bare tr), c) | _ => None end | None => None end
                    | None => None
                    end
  | None => None
  end.
Lemma found_declares texts M X b c : found texts M X = Some (b, c) -> exists tr p, writes_header (map codes texts) tr p /\ (b = true -> separate (bare tr)) /\ cpp_ok p /\ declares p M X c.
Proof.
  unfold found. destruct (built texts) as [[tr p]|] eqn:B; [|discriminate]. destruct (compiles p) as [S|] eqn:C; [|discriminate]. destruct (assoc S M) as [s|] eqn:A; [|discriminate]. destruct (assoc s X) as [[c'| |]|] eqn:A'; try discriminate. intros [= <- <-].
  exists tr, p. split; [apply built_writes, B|]. split; [apply separate_check|]. split; [unfold cpp_ok; congruence|]. exists S, s. auto.
Qed.
(** The files of C121_example meet the conditions (the others are shown there). *)
Example C122_example : exists tr p code, writes_header [codes ex_text_3; codes ex_text_4] tr p /\ separate (bare tr) /\ cpp_ok p /\ declares p "Alpha" "People" code.
Proof.
  destruct (found [ex_text_3; ex_text_4] "Alpha" "People") as [[b c]|] eqn:F; [|vm_compute in F; discriminate].
  assert (B : b = true) by (apply (f_equal (option_map fst)) in F; vm_compute in F; congruence).
  destruct (found_declares _ _ _ _ _ F) as (tr & p & H1 & H2 & H3 & H4). exists tr, p, c. auto.
Qed.

(** Names that do not keep apart: the component foo has its own class FooContained, which is taken for the one of the type Foo.  The C++
    compiler sees no error, and the component x is a SEQUENCE OF BOOLEAN. *)
Definition ex_capture : list string := ["M DEFINITIONS ::= BEGIN Foo ::= SEQUENCE OF INTEGER B ::= SEQUENCE { foo SEQUENCE OF BOOLEAN, x Foo } END"].
Definition ex_boolean : Schema.ty := TLeaf Schema.KBool (Id Ident.universal 1).
Definition ex_integer : Schema.ty := TLeaf (KSmall 8 [0]) (Id Ident.universal 2).
Definition ex_lists (a b : Schema.ty) : Schema.ty := TSeq (Id Ident.universal 16) (CCons Mand [(Ident.universal, 16)] (TSeqOf (Id Ident.universal 16) a) (CCons Mand [(Ident.universal, 16)] (TSeqOf (Id Ident.universal 16) b) CNil)).
Theorem C122_capture_refuted : exists texts tr p, writes_header texts tr p /\ cpp_ok p /\ writes texts "M" "B" (ex_lists ex_boolean ex_integer) /\ declares p "M" "B" (ex_lists ex_boolean ex_boolean).
Proof.
  assert (F : found ex_capture "M" "B" = Some (false, ex_lists ex_boolean ex_boolean)) by (vm_compute; reflexivity).
  destruct (found_declares _ _ _ _ _ F) as (tr & p & H1 & H2 & H3 & H4). exists (map codes ex_capture), tr, p. split; [exact H1|]. split; [exact H3|]. split; [|exact H4]. exists 100%nat, 30%nat. vm_compute. reflexivity.
Qed.
(** The compiler has no tag numbers for DATE, TIME and so on: they are written with the tag UNIVERSAL 0, and an OPTIONAL one is never read.
    The value given here is lost; what follows it in the octets is lost with it. *)
Definition ex_date : list string := ["M DEFINITIONS ::= BEGIN A ::= SEQUENCE { d DATE OPTIONAL, b BOOLEAN OPTIONAL } END"].
Definition ex_date_code : Schema.ty := TSeq (Id Ident.universal 16) (CCons Opt [] (TLeaf Schema.KTime (Id Ident.universal 0)) (CCons Opt [(Ident.universal, 1)] ex_boolean CNil)).
Definition ex_date_object : st := SRec [Some (init (TLeaf Schema.KTime (Id Ident.universal 0))); Some (init ex_boolean)].
Definition ex_date_octets : list Z := [48; 20; 0; 15; 49; 57; 55; 48; 48; 49; 48; 49; 48; 48; 48; 48; 48; 48; 90; 1; 1; 0].
Theorem C122_optional_date_refuted : exists texts tr p code view, writes_header texts tr p /\ cpp_ok p /\ declares p "M" "A" code /\
  encode code ex_date_object (repeat 0 22) = Ok (EncResult ex_date_octets true 22) /\ v_make ex_date_octets = Ok view /\ decode code (init code) view = Ok (true, SRec [None; None]).
Proof.
  assert (F : found ex_date "M" "A" = Some (false, ex_date_code)) by (vm_compute; reflexivity).
  destruct (found_declares _ _ _ _ _ F) as (tr & p & H1 & H2 & H3 & H4). destruct (v_make ex_date_octets) as [view| |] eqn:V; [|vm_compute in V; discriminate..]. exists (map codes ex_date), tr, p, ex_date_code, view.
  split; [exact H1|]. split; [exact H3|]. split; [exact H4|]. split; [vm_compute; reflexivity|]. split; [reflexivity|].
  assert (D : match v_make ex_date_octets with Ok v => decode ex_date_code (init ex_date_code) v | _ => UB end = Ok (true, SRec [None; None])) by (vm_compute; reflexivity). rewrite V in D. exact D.
Qed.

(** ** C123 *)
(** Headers compile: if the modules, after the compiler's passes, keep to the conditions of ExpressSpec.v and names keep apart (HeaderSpec.v),
    and the compiler writes a header for them, the header has no errors.  Missing: the conditions; the theorems below give modules for
    which the compiler writes headers with errors. *)
Theorem C123_compiles_partial : forall texts tr p, writes_header texts tr p -> separate (bare tr) -> expressible (bare tr) -> imports_expressible tr -> cpp_ok p.
Proof. intros texts tr p (fuel & depth & s & _ & _ & H) S X I. apply (header_compiles depth tr p S X I H). Qed.
(** Then C122 needs no C++ compiler: types of such modules have the code for what they mean, and their values make the round trip. *)
Theorem C123_round_trip_partial : forall texts ls s x t a tr p, files texts ls -> covered (concat ls) -> no_class_definitions (concat ls) -> no_made_up_names (concat ls) ->
  In s (concat ls) -> In (DType x [] t) (s_decls s) -> means (concat ls) s t a -> let m := default_tags s in
  everywhere small_tags m a -> everywhere CompilerSpec.plain m a -> everywhere valid_seqs m a -> everywhere distinct_members m a -> everywhere choice_numbers m a ->
  writes_header texts tr p -> separate (bare tr) -> expressible (bare tr) -> imports_expressible tr ->
  cpp_ok p /\ exists code, declares p (s_name s) x code /\
    forall o v, rep code o v -> weight o < 2^62 ->
    exists q, (forall buffer, zlen buffer < 2^63 -> zlen q <= zlen buffer ->
                 encode code o buffer = Ok (EncResult (q ++ zdrop (zlen q) buffer) true (zlen q))) /\
      forall o0 rest, obj code o0 -> zlen (q ++ rest) < 2^63 ->
        exists view o', v_make (q ++ rest) = Ok view /\ decode code o0 view = Ok (true, o') /\ rep code o' v.
Proof.
  intros texts ls s x t a tr p F C Hc Hu Hs Hd Hm m Ht Hp Hv Hn Hch Hw Sep X I. pose proof (C123_compiles_partial texts tr p Hw Sep X I) as Ok. split; [exact Ok|].
  destruct (C122_round_trip_partial texts ls s x t a tr p F C Hc Hu Hs Hd Hm Ht Hp Hv Hn Hch Hw Sep Ok) as (code & H1 & _ & H3). exists code. auto.
Qed.
Lemma header_round_trip_as texts l s x t a tr p : compiled_as texts l -> covered l -> no_class_definitions l -> no_made_up_names l ->
  In s l -> In (DType x [] t) (s_decls s) -> means l s t a -> regular (default_tags s) a ->
  writes_header texts tr p -> separate (bare tr) -> expressible (bare tr) -> imports_expressible tr ->
  cpp_ok p /\ exists code, declares p (s_name s) x code /\ round_trips code.
Proof.
  intros F C Hc Hu Hs Hd Hm (Ht & Hp & Hv & Hn & Hch) Hw Sep X I. pose proof (C123_compiles_partial texts tr p Hw Sep X I) as Ok. split; [exact Ok|]. set (m := default_tags s) in *.
  pose proof (C54_valid_accepted_partial m a Hp Hv Hn) as A. destruct (compile m a) as [code|] eqn:Ec; [|congruence]. exists code.
  split; [apply (header_means_as texts l s x t a tr p F C Hc Hu Hs Hd Hm Ht Hw Sep Ok code Ec)|]. intros o v. apply (C54_compiled_round_trip_partial m a code o v Hp Hv Hch Ec).
Qed.
Lemma compiles_conditions texts : match built texts with Some (tr, p) => separate_b (bare tr) && expressible_b 30 (bare tr) && imports_b tr | None => false end = true ->
  exists tr p, writes_header (map codes texts) tr p /\ separate (bare tr) /\ expressible (bare tr) /\ imports_expressible tr.
Proof.
  destruct (built texts) as [[tr p]|] eqn:B; [|discriminate]. rewrite !andb_true_iff. intros ((A1 & A2) & A3). exists tr, p. split; [apply built_writes, B|]. split; [apply separate_check, A1|]. split; [apply (expressible_check 30), A2|apply imports_check, A3].
Qed.
(** The files of C121_example meet the conditions, and so do these. *)
Definition ex_full : list string := ["M DEFINITIONS AUTOMATIC TAGS ::= BEGIN IMPORTS Point, zero FROM N; top INTEGER ::= 7 Color ::= ENUMERATED {red(1), green}
  Numbers ::= SEQUENCE OF INTEGER Shape ::= CHOICE { dot Point, line SEQUENCE { from Point, to Point OPTIONAL }, plain NULL }
  Picture ::= [APPLICATION 3] SEQUENCE { shapes SEQUENCE OF Shape, color Color DEFAULT green, sizes Numbers OPTIONAL, title UTF8String DEFAULT ""none"", ... } END";
  "N DEFINITIONS ::= BEGIN Point ::= SEQUENCE { x INTEGER, y INTEGER DEFAULT 0 } zero INTEGER ::= 0 END"].
Example C123_example : exists tr p, writes_header (map codes ex_full) tr p /\ separate (bare tr) /\ expressible (bare tr) /\ imports_expressible tr.
Proof. apply compiles_conditions. vm_compute. reflexivity. Qed.
Example C123_example_2 : exists tr p, writes_header [codes ex_text_3; codes ex_text_4] tr p /\ separate (bare tr) /\ expressible (bare tr) /\ imports_expressible tr.
Proof. apply (compiles_conditions [ex_text_3; ex_text_4]). vm_compute. reflexivity. Qed.
(** Valid modules for which a header is written that no C++ compiler accepts. *)
Definition broken_header (texts : list string) : Prop := exists tr p, writes_header (map codes texts) tr p /\ compiles p = None.
Lemma broken_check texts : match built texts with Some (_, p) => match compiles p with None => true | Some _ => false end | None => false end = true -> broken_header texts.
Proof. destruct (built texts) as [[tr p]|] eqn:B; [|discriminate]. destruct (compiles p) eqn:C; [discriminate|]. intros _. exists tr, p. split; [apply built_writes, B|exact C]. Qed.
(** A SEQUENCE OF behind a tag that is used by its name: its element has another name than the one that is used. *)
Theorem C123_tagged_list_refuted : broken_header ["M DEFINITIONS ::= BEGIN Foo ::= [1] SEQUENCE OF INTEGER B ::= SEQUENCE { x Foo } END"].
Proof. apply broken_check. vm_compute. reflexivity. Qed.
(** A SEQUENCE OF of another module: its element is looked for in this module. *)
Theorem C123_imported_list_refuted : broken_header ["M DEFINITIONS ::= BEGIN IMPORTS A FROM N; B ::= SEQUENCE { x A } END"; "N DEFINITIONS ::= BEGIN A ::= SEQUENCE OF INTEGER END"].
Proof. apply broken_check. vm_compute. reflexivity. Qed.
(** Two components of the same ENUMERATED type of another module: the same using declaration twice in one class. *)
Theorem C123_imported_enumerated_refuted : broken_header ["M DEFINITIONS ::= BEGIN IMPORTS A FROM N; B ::= SEQUENCE { x A, y A } END"; "N DEFINITIONS ::= BEGIN A ::= ENUMERATED {a, b} END"].
Proof. apply broken_check. vm_compute. reflexivity. Qed.
(** A component whose name, with a capital letter, is the name of its type: the class would have a member class of its own name, or its
    functions are written for a class that does not exist. *)
Theorem C123_name_of_owner_refuted : broken_header ["M DEFINITIONS ::= BEGIN Foo ::= CHOICE { foo INTEGER } END"] /\ broken_header ["M DEFINITIONS ::= BEGIN Foo ::= SEQUENCE { foo SEQUENCE {a INTEGER} } END"].
Proof. split; apply broken_check; vm_compute; reflexivity. Qed.
(** A default value of an ENUMERATED that is written in the component: it comes before its class. *)
Theorem C123_enumerated_default_refuted : broken_header ["M DEFINITIONS ::= BEGIN Foo ::= SEQUENCE { c ENUMERATED {red, green} DEFAULT red } END"].
Proof. apply broken_check. vm_compute. reflexivity. Qed.
(** A component of a type that is a second name of an ENUMERATED: DValues is not declared. *)
Theorem C123_enumerated_alias_refuted : broken_header ["M DEFINITIONS ::= BEGIN C ::= ENUMERATED {red, green} D ::= C E ::= SEQUENCE { d D } END"].
Proof. apply broken_check. vm_compute. reflexivity. Qed.
