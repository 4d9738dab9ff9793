(** C128: constants and default values, from the text to the C++ header. *)
From Coq Require Import List String ZArith Bool Lia.
From Verif Require Import Base Schema CompilerTree Lexer LexerSpec PropertiesParser ParserText ParserTextProofs ParserTree ParserFile ParserWrite ParserSource Elab ElabSpec ElabProofs Frontend FrontPasses FrontText FrontStays PropertiesText PropertiesFront PropertiesInclude.
From Verif Require DecimalSpec RealDecimal RealDecimalProofs.
From Verif Require Import PropertiesRealEq.
From Verif Require Import CppSpec CppValues Header HeaderCheck ExpressCheck PropertiesCpp ConstSpec ConstProofs.
From Verif Require Import ParserTree ParserSource Elab Frontend ConstSpec.
Import ListNotations.
Local Open Scope string_scope.
Local Open Scope list_scope.
Local Open Scope Z_scope.

Lemma header_module texts l s tr p : compiled_as texts l -> well_named l -> no_class_definitions l -> no_made_up_names l -> quiet_sets l -> In s l -> writes_header texts tr p ->
  exists m m' depth imports ds, module_of s m /\ settled m m' /\ NoDup (map m_name tr) /\ In m' tr /\ create_body depth (bare tr) (bare_module m') = Some ds /\ In (s_name s, imports ++ ds) (p_modules p).
Proof.
  intros (s1 & F & Eq) W Hc Hu Hq Hs (f & depth & s0 & Hp & P & Hh). rewrite F in Hp. injection Hp as <-. rewrite Eq in P. destruct (tree_found l 0 W s Hs) as (m & H1 & H2 & H3).
  destruct (passes_settled f _ tr (sources_clean l 0 W Hc Hu) (quiet_tree l Hq) P) as (N & S). destruct (S m H1) as (m' & I' & St). unfold header, Header.bind in Hh. destruct (concat_map _ 0%nat tr) as [ms|] eqn:Em in Hh; [|discriminate]. destruct (concat_map _ 0%nat tr) as [fs|] in Hh; [|discriminate]. injection Hh as <-.
  destruct (concat_map_in _ _ _ _ _ Em I') as (j & a & Ea & Inc). cbn beta in Ea. destruct (create_body depth (bare tr) (bare_module m')) as [ds|] eqn:Eb; [|discriminate]. injection Ea as <-.
  exists m, m', depth, (create_imports (m_imports m')), ds. split; [exact H2|]. split; [exact St|]. split; [exact N|]. split; [exact I'|]. split; [exact Eb|].
  cbn [p_modules]. assert (En : m_name m' = s_name s) by (destruct St as ((En & _) & _); rewrite En; apply module_of_name; exact H2). rewrite <- En. apply Inc. left. reflexivity.
Qed.

(** ** C128 *)
(** A constant of the text is a constant of the header, in the namespace of its module, and has the value that is written there, be it
    through other constants, wherever these stand in the module; a REAL is the double nearest to the number that is written.  Missing: other
    types of values than numbers (REAL: with up to six places, C128_places_refuted), character strings and object identifiers; references to types and values beyond the module (see the refuted cases below). *)
Theorem C128_constant_partial : forall texts ls s x t v k c tr p, files texts ls ->
  well_named (concat ls) -> no_class_definitions (concat ls) -> no_made_up_names (concat ls) -> quiet_sets (concat ls) ->
  In s (concat ls) -> In (DValue x t v) (s_decls s) -> governs s t k -> stands s v k c ->
  writes_header texts tr p -> exists ds T, In (s_name s, ds) (p_modules p) /\ constant ds x T c.
Proof.
  intros texts ls s x t v k c tr p F W Hc Hu Hq Hs Hd G H Hw. destruct (header_module _ _ s tr p (files_compiled_as _ _ F) W Hc Hu Hq Hs Hw) as (m & m' & depth & imports & ds & M & St & N & I' & Eb & Ip).
  exists (imports ++ ds), (plain_type k). split; [exact Ip|]. destruct (decl_there s m _ M Hd) as (j & J). cbn [read_decl] in J. destruct (read_ty t j) as [u j'] eqn:R. cbn [fst] in J. apply (value_kept m m' St) in J. apply in_split in J as (b1 & b2 & Ea).
  unfold create_body in Eb. cbn [bare_module m_assigns] in Eb. rewrite Ea in Eb. replace (b1 ++ Assign x (AValue u (read_val v)) [] :: b2) with ((b1 ++ [Assign x (AValue u (read_val v)) []]) ++ b2) in Eb by (rewrite <- app_assoc; reflexivity).
  apply concat_map_app in Eb as (q1 & q2 & -> & F1 & _). rewrite app_assoc. apply constant_more. assert (Eu : u = fst (read_ty t j)) by (rewrite R; reflexivity). rewrite Eu in *. eapply (const_in s m m' tr depth M St N I'); [exact H|exact G|exact Ea|exact F1].
Qed.
(** A constant that is written with any number of places is a whole number of millionths: that nearest to the double that is nearest to the number
    (of this the nearest double). *)
Theorem C128_places : forall texts ls s x t ip fp tr p, files texts ls ->
  well_named (concat ls) -> no_class_definitions (concat ls) -> no_made_up_names (concat ls) -> quiet_sets (concat ls) ->
  In s (concat ls) -> In (DValue x t (WReal (ip ++ 46 :: fp))) (s_decls s) -> DecimalSpec.digits ip -> DecimalSpec.digits fp -> ip <> [] -> governs s t Floating ->
  writes_header texts tr p -> exists ds d q d', In (s_name s, ds) (p_modules p) /\
    DecimalSpec.nearest_double false (DecimalSpec.number_of (ip ++ fp)) (- zlen fp) d /\ 2 * Z.abs (q * 2^1074 - in_units d * 10^6) <= 2^1074 /\
    DecimalSpec.nearest_double false q (-6) d' /\ constant ds x "double" (CReal d').
Proof.
  intros texts ls s x t ip fp tr p F W Hc Hu Hq Hs Hd A B C G Hw. destruct (header_module _ _ s tr p (files_compiled_as _ _ F) W Hc Hu Hq Hs Hw) as (m & m' & depth & imports & ds & M & St & N & I' & Eb & Ip).
  destruct (decl_there s m _ M Hd) as (j & J). cbn [read_decl read_val] in J. destruct (read_ty t j) as [u j'] eqn:R. cbn [fst] in J. apply (value_kept m m' St) in J. apply in_split in J as (b1 & b2 & Ea).
  unfold create_body in Eb. cbn [bare_module m_assigns] in Eb. pose proof Ea as Ea'. rewrite Ea in Eb. replace (b1 ++ Assign x (AValue u (VReal (string_of (ip ++ 46 :: fp)))) [] :: b2) with ((b1 ++ [Assign x (AValue u (VReal (string_of (ip ++ 46 :: fp)))) []]) ++ b2) in Eb by (rewrite <- app_assoc; reflexivity).
  apply concat_map_app in Eb as (q1 & q2 & -> & F1 & _). assert (Eu : u = fst (read_ty t j)) by (rewrite R; reflexivity). rewrite Eu in *.
  destruct (real_const_in s m m' tr depth M St N I' x t j _ _ _ imports _ _ G Ea' F1) as (e & V & K). destruct (places_literal ip fp e A B C V) as (c & (d & q & d' & N1 & N2 & N3 & ->) & L).
  exists (imports ++ q1 ++ q2), d, q, d'. split; [exact Ip|]. split; [exact N1|]. split; [exact N2|]. split; [exact N3|]. rewrite app_assoc. apply constant_more, K, L.
Qed.
(** The member of a generated struct that is written with DEFAULT has the value that is written as its default value, if no name of the
    struct hides a name that this needs. *)
Theorem C128_default_partial : forall texts ls s x set root more f t v k c tr p, files texts ls ->
  well_named (concat ls) -> no_class_definitions (concat ls) -> no_made_up_names (concat ls) -> quiet_sets (concat ls) ->
  In s (concat ls) -> In (DType x [] (YRecord set root more)) (s_decls s) -> In (CNamed f t (Default v)) (root ++ inserted more) ->
  governs s t k -> default_stands s v k c -> writes_header texts tr p ->
  (forall z ds, name_needed v k = Some z -> In (s_name s, ds) (p_modules p) -> unhidden ds x f z) ->
  exists ds, In (s_name s, ds) (p_modules p) /\ member_default ds x f c.
Proof.
  intros texts ls s x set root more f t v k c tr p F W Hc Hu Hq Hs Hd Hi G H Hw Hh. destruct (header_module _ _ s tr p (files_compiled_as _ _ F) W Hc Hu Hq Hs Hw) as (m & m' & depth & imports & ds & M & St & N & I' & Eb & Ip).
  exists (imports ++ ds). split; [exact Ip|]. eapply (default_in s m m' tr depth M St N I'); [exact Hd|exact Hi|exact G|exact H| |exact Eb]. intros z Hz. apply (Hh z _ Hz Ip).
Qed.

(** For example. *)
Definition ex_const : string := "M DEFINITIONS ::= BEGIN second Size ::= first Size ::= INTEGER (0..9) A ::= SEQUENCE { size Size DEFAULT second, colour Colour DEFAULT green, ok BOOLEAN DEFAULT TRUE, t IA5String DEFAULT ""xy"" } name IA5String ::= ""ab"" here OBJECT IDENTIFIER ::= { iso(1) 3 } Colour ::= ENUMERATED { red, green } first INTEGER ::= -5 END".
Definition ex_components : list ParserSource.comp :=
  [CNamed "size" (YRef None "Size") (Default (SRef "second")); CNamed "colour" (YRef None "Colour") (Default (SRef "green")); CNamed "ok" (YSimple Boolean) (Default (SBoolean true));
   CNamed "t" (YSimple (CharString ia5_string)) (Default (SText [34; 120; 121; 34]))].
Definition ex_const_source : source := Source "M" [] None false None None
  [DValue "second" (YRef None "Size") (WRef "first");
   DType "Size" [] (YWith (YInteger []) (Constr [[ERange (Some (SInt 0)) (Some (SInt 9))]] None));
   DType "A" [] (YRecord false ex_components None);
   DValue "name" (YSimple (CharString ia5_string)) (WText [34; 97; 98; 34]);
   DValue "here" (YSimple ObjectIdentifier) (WList [WNamed "iso" 1; WInt 3]);
   DType "Colour" [] (YEnumerated [("red", None); ("green", None)] None);
   DValue "first" (YInteger []) (WInt (-5))].
Example C128_example : let s := ex_const_source in
  files [codes ex_const] [[s]] /\ well_named [s] /\ no_class_definitions [s] /\ no_made_up_names [s] /\ quiet_sets [s] /\
  (In (DValue "second" (YRef None "Size") (WRef "first")) (s_decls s) /\ governs s (YRef None "Size") Number /\ stands s (WRef "first") Number (CInt (-5))) /\
  stands s (WText [34; 97; 98; 34]) Characters (CText [97; 98]) /\ stands s (WList [WNamed "iso" 1; WInt 3]) Oid (COid [1; 3]) /\
  (In (DType "A" [] (YRecord false ex_components None)) (s_decls s) /\
   default_stands s (SRef "second") Number (CInt (-5)) /\ default_stands s (SBoolean true) Truth (CBool true) /\ default_stands s (SText [34; 120; 121; 34]) Characters (CText [120; 121]) /\
   governs s (YRef None "Colour") (Item "Colour" ["red"; "green"]) /\ default_stands s (SRef "green") (Item "Colour" ["red"; "green"]) (CItem "ColourValues" "green")) /\
  exists tr p, writes_header [codes ex_const] tr p /\ cpp_ok p /\
    forall z f ds, In z ["second"; "ColourValues"] -> In f ["size"; "colour"] -> In ("M", ds) (p_modules p) -> unhidden ds "A" f z.
Proof.
  cbv zeta. split. { apply Forall2_cons; [|apply Forall2_nil]; (split; [octets|split; [discriminate|split; [reflexivity|apply writes_ok; vm_compute; reflexivity]]]). }
  split. { split; [repeat constructor; cbn; intuition discriminate|]. intros s [<-|[]]; repeat constructor; cbn; intuition discriminate. }
  split. { intros s x fs [<-|[]] H; cbn in H; repeat destruct H as [E|H]; try destruct H; discriminate. }
  split. { intros s x [<-|[]] H (p & n & Hp & E); cbn in H; repeat destruct H as [<-|H]; try destruct H; cbn in Hp; repeat destruct Hp as [<-|Hp]; try destruct Hp; discriminate E. }
  split. { intros s d [<-|[]] H; cbn in H; repeat destruct H as [<-|H]; try destruct H; reflexivity. }
  assert (G : governs ex_const_source (YRef None "Size") Number) by (eapply g_reference; [right; left; reflexivity|repeat constructor]).
  assert (F : stands ex_const_source (WInt (-5)) Number (CInt (-5))) by (constructor; lia).
  assert (R : stands ex_const_source (WRef "first") Number (CInt (-5))) by (eapply s_reference; [left; reflexivity|do 6 right; left; reflexivity|repeat constructor|exact F]).
  split. { split; [left; reflexivity|]. split; [exact G|exact R]. }
  assert (T : forall a b, 0 < a < 256 /\ a <> 34 /\ a <> 92 /\ a <> 10 -> 0 < b < 256 /\ b <> 34 /\ b <> 92 /\ b <> 10 -> written_text [34; a; b; 34] [a; b]) by (intros a b Ha Hb; split; [reflexivity|repeat constructor; apply Ha || apply Hb]).
  split; [apply s_text, T; lia|]. split. { apply s_oid. constructor; [split; [lia|right; eauto]|]. constructor; [split; [lia|left; reflexivity]|constructor]. }
  split. { split; [right; right; left; reflexivity|]. split; [eapply d_reference; [left; reflexivity|left; reflexivity|exact G|exact R]|]. split; [constructor|]. split; [apply d_text, T; lia|].
    split; [apply g_item with (root := [("red", None); ("green", None)]) (more := None); do 5 right; left; reflexivity|]. apply (d_item _ "Colour" ["red"; "green"] "green"). right. left. reflexivity. }
  destruct (built [ex_const]) as [[tr p]|] eqn:B; [|vm_compute in B; discriminate]. exists tr, p. split; [apply (built_writes [ex_const]), B|]. vm_compute in B. injection B as <- <-.
  split; [intros H; vm_compute in H; discriminate|]. intros z f ds Hz Hf [E|[]] body ms i T0 D I J. injection E as <-. do 7 (destruct I as [I|I]; [discriminate I|]). destruct I as [I|[]]. injection I as <- <- <-.
  assert (D = "DefaultValueSize" \/ D = "DefaultValueColour" \/ D = "DefaultValueOk" \/ D = "DefaultValueT") as HD by (cbn [In] in J; destruct J as [J|[J|[J|[J|[]]]]]; injection J; intros; subst; auto).
  destruct Hz as [<-|[<-|[]]]; destruct HD as [->|[->|[->| ->]]]; vm_compute; intuition discriminate.
Qed.

(** The same for REAL. *)
Definition ex_real : string := "M DEFINITIONS ::= BEGIN big REAL ::= other other REAL ::= 123456789012345678901234567890.125 three REAL ::= 3 Size ::= REAL A ::= SEQUENCE { x REAL DEFAULT 0.1, i BOOLEAN, y Size DEFAULT three, j BOOLEAN, z REAL DEFAULT 7 } END".
Definition ex_real_components : list ParserSource.comp :=
  [CNamed "x" (YSimple Real) (Default (SReal (codes "0.1"))); CNamed "i" (YSimple Boolean) Required; CNamed "y" (YRef None "Size") (Default (SRef "three")); CNamed "j" (YSimple Boolean) Required; CNamed "z" (YSimple Real) (Default (SInt 7))].
Definition ex_real_source : source := Source "M" [] None false None None
  [DValue "big" (YSimple Real) (WRef "other"); DValue "other" (YSimple Real) (WReal (codes "123456789012345678901234567890.125")); DValue "three" (YSimple Real) (WInt 3);
   DType "Size" [] (YSimple Real); DType "A" [] (YRecord false ex_real_components None)].
(** The doubles nearest to 123456789012345678901234567890.125, to 0.1, 3 and 7. *)
Definition ex_big : list Z := [69; 248; 238; 144; 255; 108; 55; 62].
Definition ex_tenth : list Z := [63; 185; 153; 153; 153; 153; 153; 154].
Definition ex_three : list Z := [64; 8; 0; 0; 0; 0; 0; 0].
Definition ex_seven : list Z := [64; 28; 0; 0; 0; 0; 0; 0].
Lemma is_written u ip fp d : u = ip ++ 46 :: fp -> DecimalSpec.digits ip -> DecimalSpec.digits fp -> ip <> [] -> zlen fp <= 6 ->
  d = RealDecimal.octets_of 8 (RealDecimal.pattern (RealDecimal.round_decimal false (DecimalSpec.number_of (ip ++ fp)) (- zlen fp))) -> 0 <= DecimalSpec.number_of (ip ++ fp) -> written_real u d.
Proof. intros -> A B C L -> N. exists ip, fp. repeat (split; [assumption || reflexivity|]). apply RealDecimalProofs.round_decimal_nearest, N. Qed.
Lemma is_nearest n d : 0 <= n -> d = RealDecimal.octets_of 8 (RealDecimal.pattern (RealDecimal.round_decimal false n 0)) -> DecimalSpec.nearest_double (n <? 0) (Z.abs n) 0 d.
Proof. intros H ->. replace (n <? 0) with false by lia. rewrite Z.abs_eq by lia. apply RealDecimalProofs.round_decimal_nearest, H. Qed.
Example C128_real_example : let s := ex_real_source in
  files [codes ex_real] [[s]] /\ well_named [s] /\ no_class_definitions [s] /\ no_made_up_names [s] /\ quiet_sets [s] /\
  governs s (YSimple Real) Floating /\ governs s (YRef None "Size") Floating /\
  stands s (WRef "other") Floating (CReal ex_big) /\ stands s (WInt 3) Floating (CReal ex_three) /\
  default_stands s (SReal (codes "0.1")) Floating (CReal ex_tenth) /\ default_stands s (SRef "three") Floating (CReal ex_three) /\ default_stands s (SInt 7) Floating (CReal ex_seven) /\
  exists tr p, writes_header [codes ex_real] tr p /\ cpp_ok p /\ forall ds, In ("M", ds) (p_modules p) -> unhidden ds "A" "y" "three".
Proof.
  cbv zeta. split. { apply Forall2_cons; [|apply Forall2_nil]; (split; [octets|split; [discriminate|split; [reflexivity|apply writes_ok; vm_compute; reflexivity]]]). }
  split. { split; [repeat constructor; cbn; intuition discriminate|]. intros s [<-|[]]; repeat constructor; cbn; intuition discriminate. }
  split. { intros s x fs [<-|[]] H; cbn in H; repeat destruct H as [E|H]; try destruct H; discriminate. }
  split. { intros s x [<-|[]] H (p & n & Hp & E); cbn in H; repeat destruct H as [<-|H]; try destruct H; cbn in Hp; repeat destruct Hp as [<-|Hp]; try destruct Hp; discriminate E. }
  split. { intros s d [<-|[]] H; cbn in H; repeat destruct H as [<-|H]; try destruct H; reflexivity. }
  assert (G : governs ex_real_source (YSimple Real) Floating) by (apply g_directly; constructor).
  assert (B : stands ex_real_source (WReal (codes "123456789012345678901234567890.125")) Floating (CReal ex_big)).
  { apply s_real. apply (is_written _ (codes "123456789012345678901234567890") (codes "125")); [reflexivity|vm_compute; repeat constructor; discriminate|vm_compute; repeat constructor; discriminate|discriminate|vm_compute; discriminate|vm_compute; reflexivity|vm_compute; discriminate]. }
  assert (T : stands ex_real_source (WInt 3) Floating (CReal ex_three)) by (apply s_whole; [lia|apply is_nearest; [lia|vm_compute; reflexivity]]).
  split; [exact G|]. split; [apply (g_reference _ "Size" (YSimple Real)); [cbn; auto 10|constructor]|]. split; [eapply s_reference; [auto|right; left; reflexivity|exact G|exact B]|]. split; [exact T|].
  split. { apply d_real. apply (is_written _ (codes "0") (codes "1")); [reflexivity|vm_compute; repeat constructor; discriminate|vm_compute; repeat constructor; discriminate|discriminate|vm_compute; discriminate|vm_compute; reflexivity|vm_compute; discriminate]. }
  split; [eapply d_reference; [auto|right; right; left; reflexivity|exact G|exact T]|]. split; [apply d_whole; [lia|apply is_nearest; [lia|vm_compute; reflexivity]]|].
  destruct (built [ex_real]) as [[tr p]|] eqn:Bt; [|vm_compute in Bt; discriminate]. exists tr, p. split; [apply (built_writes [ex_real]), Bt|]. vm_compute in Bt. injection Bt as <- <-.
  split; [intros H; vm_compute in H; discriminate|]. intros ds [E|[]] body ms i T0 D I J. injection E as <-.
  repeat (destruct I as [I|I]; [first [discriminate I|injection I as <- <- <-; cbn [In] in J; repeat (destruct J as [J|J]; [first [discriminate J|injection J as <- <-; clear; vm_compute; intuition discriminate]|]); destruct J]|]). destruct I.
Qed.

(** *** What is left out, or wrong *)
Definition zero_double : list Z := [0; 0; 0; 0; 0; 0; 0; 0].
(** So one with more than six places loses them: this is zero. *)
Theorem C128_places_refuted : exists tr p d, writes_header [codes "M DEFINITIONS ::= BEGIN tiny REAL ::= 0.0000004 END"] tr p /\ in_units d = 0 /\
  forall ds, In ("M", ds) (p_modules p) -> constant ds "tiny" "double" (CReal d).
Proof.
  eexists _, _, zero_double. split; [apply (built_writes [_]); vm_compute; reflexivity|]. split; [reflexivity|]. intros ds [E0|[]]. injection E0 as <-.
  apply (k_literal [] "tiny" "double" "0.000000"). apply (l_floating _ (codes "0") (codes "000000")); [reflexivity|vm_compute; repeat constructor; discriminate|vm_compute; repeat constructor; discriminate|discriminate| |vm_compute; reflexivity].
  assert (E : zero_double = RealDecimal.octets_of 8 (RealDecimal.pattern (RealDecimal.round_decimal false (DecimalSpec.number_of (codes "0" ++ codes "000000")) (- zlen (codes "000000"))))) by (vm_compute; reflexivity).
  rewrite E. apply RealDecimalProofs.round_decimal_nearest. discriminate.
Qed.
Definition fronts (texts : list string) : option (out (list module)) := match parse_files initial_state (map codes texts) with Ok (Some s) => Some (passes 100 (st_modules s)) | _ => None end.
Definition front (text : string) : option (out (list module)) := fronts [text].
Definition no_headers (texts : list string) : Prop := exists tr, fronts texts = Some (Done tr) /\ forall depth, header depth tr = None.
Definition no_header (text : string) : Prop := no_headers [text].
(** Valid modules that are refused.  A constant that is TRUE: *)
Theorem C128_boolean_refuted : no_header "M DEFINITIONS ::= BEGIN b BOOLEAN ::= TRUE END".
Proof. eexists. split; [vm_compute; reflexivity|]. intros [|depth]; reflexivity. Qed.
(** a constant whose type is a second name of a type: *)
Theorem C128_reference_refuted : no_header "M DEFINITIONS ::= BEGIN A ::= INTEGER B ::= A x B ::= 5 END".
Proof. eexists. split; [vm_compute; reflexivity|]. intros [|[|[|depth]]]; reflexivity. Qed.
(** a constant whose type is imported: *)
Theorem C128_import_refuted : no_headers ["M DEFINITIONS ::= BEGIN IMPORTS A FROM N; x A ::= 5 END"; "N DEFINITIONS ::= BEGIN A ::= INTEGER END"].
Proof. eexists. split; [vm_compute; reflexivity|]. intros [|[|[|[|depth]]]]; reflexivity. Qed.
(** the name of a number, of an item of an enumeration, behind ::= and behind DEFAULT: *)
Theorem C128_names_refuted : Forall (fun t => front t = Some Throw)
  ["M DEFINITIONS ::= BEGIN x INTEGER { one(1) } ::= one END"; "M DEFINITIONS ::= BEGIN Colour ::= ENUMERATED { red, green } best Colour ::= green END";
   "M DEFINITIONS ::= BEGIN A ::= SEQUENCE { x INTEGER { one(1) } DEFAULT one } END"].
Proof. repeat constructor; vm_compute; reflexivity. Qed.
(** the name of a constant that is imported, behind ::= and behind DEFAULT: *)
Theorem C128_imported_refuted : Forall (fun d => fronts ["M DEFINITIONS ::= BEGIN IMPORTS size FROM N; " ++ d ++ " END"; "N DEFINITIONS ::= BEGIN size INTEGER ::= 5 END"]%string = Some Throw)
  ["x INTEGER ::= size"; "A ::= SEQUENCE { x INTEGER DEFAULT size }"; "A ::= SET { x INTEGER DEFAULT size }"].
Proof. repeat constructor; vm_compute; reflexivity. Qed.
(** Object identifiers that are made of others lose them. *)
Theorem C128_oid_refuted : exists tr p, writes_header [codes "M DEFINITIONS ::= BEGIN top OBJECT IDENTIFIER ::= { 1 3 } sub OBJECT IDENTIFIER ::= { top 1 } END"] tr p /\
  forall ds, In ("M", ds) (p_modules p) -> constant ds "sub" "ObjectIdentifier<>" (COid [0; 1]).
Proof.
  eexists _, _. split; [apply (built_writes [_]); vm_compute; reflexivity|]. intros ds [E|[]]. injection E as <-.
  apply (k_literal [] "sub" "ObjectIdentifier<>" "ObjectIdentifier<>{0, 1}"). apply l_oid. exists ["0"; "1"]. split; [reflexivity|].
  constructor; [left; repeat split; try discriminate; intros r [= <-]; reflexivity|]. constructor; [left; repeat split; try discriminate; intros r X; discriminate X|constructor].
Qed.
(** A bit string loses its bits: *)
Theorem C128_bits_refuted : exists tr p, writes_header [codes "M DEFINITIONS ::= BEGIN b BIT STRING ::= '01'B END"] tr p /\
  forall ds, In ("M", ds) (p_modules p) -> constant ds "b" "absl::string_view" (CText []).
Proof.
  eexists _, _. split; [apply (built_writes [_]); vm_compute; reflexivity|]. intros ds [E|[]]. injection E as <-.
  apply (k_literal [] "b" "absl::string_view" (String (Ascii.ascii_of_nat 34) (String (Ascii.ascii_of_nat 34) "")) None [] (CText [])). apply (l_chars _ []). reflexivity.
Qed.
(** Without [unhidden]: here the default value of b is 5, and the generated get_value() returns a, the other member. *)
Theorem C128_hidden_refuted : exists tr p, writes_header [codes "M DEFINITIONS ::= BEGIN a INTEGER ::= 5 A ::= SEQUENCE { a BOOLEAN, b INTEGER DEFAULT a } END"] tr p /\
  forall ds c, In ("M", ds) (p_modules p) -> ~ member_default ds "A" "b" c.
Proof.
  eexists _, _. split; [apply (built_writes [_]); vm_compute; reflexivity|]. intros ds c [E|[]]. injection E as <-.
  intros (before & body & ms & i & after & T & D & t & e & u & E & Im & Id & R). destruct before as [|d before]; [discriminate E|]. injection E as <- E. destruct before as [|d before]; [|injection E as _ E; destruct before; discriminate E]. injection E as <- <- _ _.
  destruct Im as [Im|[Im|[]]]; [discriminate Im|]. injection Im as _ <-. destruct Id as [Id|[Id|[Id|[]]]]; try discriminate Id. injection Id as <- <- _. destruct R as [R|[R _]].
  - inversion R as [e' n [L|(r & L & _)] _ H1 H2 H3| | | | | | |]; [destruct L as (L & _); vm_compute in L; discriminate|discriminate L].
  - apply R. vm_compute. auto 20.
Qed.
