(** C129: no header is written unless all types that are referred to are defined. *)
From Coq Require Import List String ZArith Bool Lia.
From Verif Require Import Base Schema CompilerTree Lexer LexerSpec PropertiesParser ParserText ParserTextProofs ParserTree ParserFile ParserWrite ParserSource Elab ElabSpec ElabProofs Frontend FrontPasses FrontText FrontStays PropertiesText PropertiesFront PropertiesInclude.
From Verif Require Import CppSpec Header HeaderCheck ExpressCheck PropertiesCpp HeaderCreate ConstSpec ConstProofs MentionSpec MentionProofs PropertiesConst.
From Verif Require Import ParserTree ParserSource Elab Frontend Header MentionSpec.
Import ListNotations.
Local Open Scope string_scope.
Local Open Scope list_scope.
Local Open Scope Z_scope.

(** ** From the source to the tree *)
Lemma in_thread {A B} (f : A -> Z -> B * Z) l n x : In x l -> exists j, In (fst (f x j)) (fst (thread f l n)).
Proof. intros I. destruct (Forall2_in_l _ _ _ _ (thread_Forall2 f l n) I) as (y & Iy & j & ->). exists j. exact Iy. Qed.
Lemma mentions_read t M x : mentions t M x -> forall n, In (M, x) (refs (fst (read_ty t n))).
Proof.
  induction 1 as [M x|root more e M x I H IH|set root more c M x I H IH|set size name t M x H IH|c k mode t M x H IH|t c M x H IH]; intros n; cbn [read_ty].
  - left. reflexivity.
  - set (f := fun (e : string * ty) n => let (u, n) := read_ty (snd e) n in ((fst e, u), n)). destruct (thread f root n) as [r n1] eqn:E1. destruct (match more with Some l => thread f l n1 | None => ([], n1) end) as [a n2] eqn:E2. cbn [fst refs]. apply in_flat_map.
    assert (K : exists j, In (fst (f e j)) (a ++ r)).
    { apply in_app_or in I as [I|I].
      - destruct (in_thread f root n e I) as (j & J). exists j. rewrite E1 in J. apply in_or_app. right. exact J.
      - destruct more as [l|]; [|destruct I]. destruct (in_thread f l n1 e I) as (j & J). exists j. rewrite E2 in J. apply in_or_app. left. exact J. }
    destruct K as (j & J). exists (fst (f e j)). split; [exact J|]. specialize (IH j). unfold f. destruct (read_ty (snd e) j). exact IH.
  - destruct (thread read_comp root n) as [r n1] eqn:E1. destruct (match more with Some (l, _) => thread read_comp l n1 | None => ([], n1) end) as [a n2] eqn:E2. destruct (match more with Some (_, Some l) => thread read_comp l n2 | _ => ([], n2) end) as [b n3] eqn:E3. cbn [fst refs]. apply in_flat_map.
    assert (K : exists j, In (fst (read_comp c j)) (r ++ a ++ b)).
    { apply in_app_or in I as [I|I].
      - destruct (in_thread read_comp root n c I) as (j & J). exists j. rewrite E1 in J. apply in_or_app. left. exact J.
      - assert (L : (exists l y, more = Some (l, y) /\ In c l) \/ exists y l, more = Some (y, Some l) /\ In c l) by (destruct more as [[l [l2|]]|]; cbn [inserted] in I; [apply in_app_or in I as [I|I]; eauto| |destruct I]; eauto).
        destruct L as [(l & y & -> & L)|(y & l & -> & L)].
        + destruct (in_thread read_comp l n1 c L) as (j & J). exists j. rewrite E2 in J. apply in_or_app. right. apply in_or_app. left. exact J.
        + destruct (in_thread read_comp l n2 c L) as (j & J). exists j. rewrite E3 in J. apply in_or_app. right. apply in_or_app. right. exact J. }
    destruct K as (j & J). exists (fst (read_comp c j)). split; [exact J|]. specialize (IH j). destruct c as [y t p|t p|t]; cbn [read_comp component_type] in *; destruct (read_ty t j); exact IH.
  - specialize (IH n). destruct (read_ty t n). exact IH.
  - specialize (IH n). destruct (read_ty t n). exact IH.
  - apply IH.
Qed.
Lemma refers_read d M x j : refers d M x -> In (M, x) (all_refs (fst (read_decl d j))) /\ a_parameters (fst (read_decl d j)) = [].
Proof.
  intros [y t M' x' H|y M' x' v|y M' x' c v]; cbn [read_decl]; [|split; [left; reflexivity|reflexivity]..].
  cbn [thread]. pose proof (mentions_read t M' x' H j) as K. destruct (read_ty t j). split; [exact K|reflexivity].
Qed.
(** ** In the header *)
Definition leads_somewhere (tr : list module) (m : module) (mo : option string) (x : string) : Prop := exists n args y, resolve_ref n tr m m (Defined mo x args) = Some y.
Lemma create_leads fuel tr m : forall name t ov intro ds, create_type fuel tr m name t ov intro = Some ds -> forall mo x, In (mo, x) (refs t) -> leads_somewhere tr m mo x.
Proof.
  induction fuel as [|fuel IH]; intros name t ov intro ds E mo x I; [discriminate|]. cbn [create_type] in E. destruct t as [| | | |alts|set cs ext|set nm u|g kw u|[m0 r [|b args]]]; try solve [destruct I]; unfold Header.bind in E.
  - destruct (override fuel tr m _ ov); [|discriminate]. match type of E with match ?c with _ => _ end = _ => destruct c as [types|] eqn:Et end; [|discriminate].
    cbn [refs] in I. apply in_flat_map in I as (a & Ia & I). destruct (HeaderCreate.concat_map_in _ _ _ _ _ Et Ia) as (j & l & El & _). eapply IH; eassumption.
  - destruct (check_valid fuel tr m set cs) as [[|]|]; try discriminate. cbn [negb] in E. destruct (existsb _ cs) eqn:Eo; [discriminate|]. match type of E with match ?c with _ => _ end = _ => destruct c as [defaults|] eqn:Ed end; [|discriminate]. match type of E with match ?c with _ => _ end = _ => destruct c as [types|] eqn:Et end; [|discriminate].
    cbn [refs] in I. apply in_flat_map in I as (c & Ic & I). destruct (HeaderCreate.concat_map_in _ _ _ _ _ Et Ic) as (j & l & El & _). assert (K : (match c with Comp _ _ _ _ (Some _) => true | _ => false end) = false).
    { destruct (match c with Comp _ _ _ _ (Some _) => true | _ => false end) eqn:K; [|reflexivity]. assert (existsb (fun c => match c with Comp _ _ _ _ (Some _) => true | _ => false end) cs = true) by (apply existsb_exists; exists c; auto). congruence. }
    destruct c as [y u o d [v|]]; [discriminate K|]. cbn beta iota in El. eapply IH; eassumption.
  - match type of E with match ?c with _ => _ end = _ => destruct c as [l|] eqn:El end; [|discriminate]. eapply IH; [exact El|exact I].
  - destruct (override fuel tr m _ ov); [|discriminate]. eapply IH; [exact E|exact I].
  - destruct I as [I|[]]. injection I as -> ->. destruct (override fuel tr m _ ov); [|discriminate]. destruct (resolve_ref fuel tr m m (Defined mo x [])) as [y|] eqn:R; [|discriminate]. exists fuel, [], y. exact R.
Qed.
Lemma assignment_leads fuel tr m a ds mo x : create_assignment fuel tr m a = Some ds -> In (mo, x) (all_refs a) -> leads_somewhere tr m mo x.
Proof.
  unfold create_assignment, all_refs. destruct (a_specific a) as [t|t v|fs|]; intros E I; try solve [destruct I]; [eapply create_leads; eassumption|]. destruct t as [| | | | | | | |[m0 r [|b args]]]; try solve [destruct I]; destruct I as [I|[]]. injection I as -> ->. unfold Header.bind in E.
  destruct (option_map fst (follow tr m (Defined mo x []))) as [u|]; [|discriminate]. assert (V : exists ty, value_type fuel tr m (TRef (Defined mo x [])) "" = Some ty) by (destruct u; try discriminate; destruct (value_type fuel tr m _ "") as [ty|]; try discriminate; eauto).
  destruct V as (ty & V). destruct fuel as [|fuel]; [discriminate|]. cbn [value_type] in V. destruct (resolve_ref fuel tr m m (Defined mo x [])) as [y|] eqn:R; [|discriminate]. exists fuel, [], y. exact R.
Qed.
Lemma header_assigns depth tr p m a : header depth tr = Some p -> In m tr -> In a (m_assigns m) -> exists ds, create_assignment depth (bare tr) (bare_module m) a = Some ds.
Proof.
  intros H Im Ia. unfold header, Header.bind in H. destruct (concat_map _ 0%nat tr) as [ms|] eqn:Em in H; [|discriminate]. destruct (HeaderCreate.concat_map_in _ _ _ _ _ Em Im) as (j & l & El & _). cbn beta in El.
  destruct (create_body depth (bare tr) (bare_module m)) as [ds|] eqn:Eb; [|discriminate]. unfold create_body in Eb. cbn [bare_module m_assigns] in Eb. destruct (HeaderCreate.concat_map_in _ _ _ _ _ Eb Ia) as (k & l' & E' & _). exists l'. exact E'.
Qed.
(** ** Together *)
Lemma plain_in_source l M x : plain_in (fst (thread read_source l 0)) M x -> exists s t, In s l /\ s_name s = M /\ In (DType x [] t) (s_decls s).
Proof.
  intros (m & a & Im & <- & Ia & Ea & T & Pa). destruct (Forall2_in_r _ _ _ _ (thread_Forall2 read_source l 0) Im) as (s & Is & k & ->). rewrite module_of_eq in *. cbn [m_assigns m_name] in *. apply in_rev in Ia.
  destruct (Forall2_in_r _ _ _ _ (thread_Forall2 read_decl (s_decls s) k) Ia) as (d & Id & j & ->). destruct d as [y ps t|y t v|y fs]; cbn [read_decl] in *.
  - exists s, t. split; [exact Is|]. split; [reflexivity|]. pose proof (thread_Forall2 read_param ps j) as L. destruct (thread read_param ps j) as [l1 j1]. destruct (read_ty t j1). cbn in Ea, Pa, L. subst x l1. inversion L; subst. exact Id.
  - destruct (read_ty t j). discriminate T.
  - destruct (thread read_field fs j). discriminate T.
Qed.
Lemma import_read s k N x : import_of (fst (read_source s k)) N x <-> imports_type s x N.
Proof.
  rewrite module_of_eq. unfold import_of, imports_type. cbn [m_imports]. destruct (s_imports s) as [i|].
  - split.
    + intros (im & Ii & <- & Ix). apply in_map_iff in Ii as (((names & N) & oid) & <- & Ii). cbn [read_import i_module i_types] in *. apply in_map_iff in Ix as ((b & y) & <- & Ix). apply filter_In in Ix as (Ix & B). cbn in B. subst b. exists i, names, oid. auto.
    + intros (i' & names & oid & [= <-] & I & J). exists (read_import (names, N, oid)). split; [apply in_map; exact I|]. split; [reflexivity|]. cbn [read_import i_types]. apply in_map_iff. exists (true, x). split; [reflexivity|]. apply filter_In. auto.
  - split; [intros (? & [] & _)|intros (? & ? & ? & [=] & _)].
Qed.
Lemma bare_found tr M m : module_named (bare tr) M = Some m -> exists m', In m' tr /\ m = bare_module m' /\ m_name m' = M.
Proof. intros E. apply find_some in E as (I & E). apply String.eqb_eq in E. apply in_map_iff in I as (m' & <- & I). exists m'. auto. Qed.
Lemma NoDup_same {A B} (f : A -> B) l x y : NoDup (map f l) -> In x l -> In y l -> f x = f y -> x = y.
Proof.
  induction l as [|z l IH]; intros N I J E; [destruct I|]. cbn in N. inversion N; subst. destruct I as [->|I], J as [->|J]; auto; [destruct H1; rewrite E; apply in_map; exact J|destruct H1; rewrite <- E; apply in_map; exact I].
Qed.
Section Together.
  Context (l : list source) (tr : list module) (p : program) (fuel depth : nat).
  Context (W : well_named l) (C : no_class_definitions l) (U : no_made_up_names l) (P : passes fuel (fst (thread read_source l 0)) = Done tr) (H : header depth tr = Some p).
  Lemma leads_defined n : forall cur m mo x args y, resolve_ref n (bare tr) cur m (Defined mo x args) = Some y -> ~ PassesSpec.made_up x -> type_defined l (ref_module (m_name m) mo) x.
  Proof using W C U P.
    destruct (passes_uses fuel _ tr (sources_clean l 0 W C U) P) as (N1 & N2 & _ & B & I'). induction n as [|n IH]; intros cur m mo x args y R Hx; [discriminate|]. cbn [resolve_ref] in R. destruct (follow (bare tr) m (Defined mo x args)) as [[t m']|] eqn:F; [|discriminate].
    unfold follow in F. destruct args; [|discriminate]. change (match mo with Some y => y | None => m_name m end) with (ref_module (m_name m) mo) in F. destruct (module_named (bare tr) _) as [m1|] eqn:Em; [|discriminate]. apply bare_found in Em as (m6 & I6 & -> & N6).
    destruct (type_named (bare_module m6) x) as [t1|] eqn:Et; [|discriminate]. cbn [option_map] in F. injection F as -> <-. unfold type_named, with_imports in Et. cbn [bare_module m_assigns m_imports flat_map] in Et. rewrite app_nil_r in Et.
    destruct (assign_named (m_assigns m6) x) as [a|] eqn:Ea; [|discriminate]. apply find_some in Ea as (Ia & Ea). apply String.eqb_eq in Ea. destruct a as [z [t0| | |] ps]; try discriminate. destruct ps; [|discriminate]. injection Et as ->. cbn [a_name] in Ea. subst z.
    destruct (B (ref_module (m_name m) mo) x) as [K|[K|(m0 & N & Im0 & Nm0 & K)]]; [exists m6; eexists; split; [exact I6|]; split; [exact N6|]; split; [exact Ia|]; split; reflexivity|destruct (Hx K)| |].
    - destruct (plain_in_source _ _ _ K) as (s & t' & Is & <- & Id). eapply td_here; eassumption.
    - destruct (I' m0 N x Im0 K) as (m6' & I6' & N6' & Ia'). assert (m6' = m6) by (eapply (NoDup_same m_name); [exact N1|exact I6'|exact I6|congruence]). subst m6'.
      assert (alias N x = Assign x (AType t) []) by (eapply (NoDup_same a_name); [apply (N2 _ I6)|exact Ia'|exact Ia|reflexivity]). injection H0 as <-. cbn [resolve_ref] in R. apply IH in R; [|exact Hx]. cbn [ref_module] in R.
      destruct (Forall2_in_r _ _ _ _ (thread_Forall2 read_source l 0) Im0) as (s & Is & k & ->). apply import_read in K. rewrite <- Nm0. rewrite module_of_eq. cbn [m_name]. eapply td_imported; eassumption.
  Qed.
  Lemma type_in_defined M x : type_in tr M x -> ~ PassesSpec.made_up x -> type_defined l M x.
  Proof using W C U P H.
    intros T Hx. destruct (passes_uses fuel _ tr (sources_clean l 0 W C U) P) as (_ & _ & _ & B & I'). destruct (B M x T) as [K|[K|(m0 & N & Im0 & <- & K)]]; [destruct (Hx K)| |].
    - destruct (plain_in_source _ _ _ K) as (s & t' & Is & <- & Id). eapply td_here; eassumption.
    - destruct (I' m0 N x Im0 K) as (m6 & I6 & N6 & Ia). destruct (header_assigns _ _ _ _ _ H I6 Ia) as (ds & E). destruct (assignment_leads _ _ _ _ _ (Some N) x E (or_introl eq_refl)) as (n & args & y & R). apply leads_defined in R; [|exact Hx].
      destruct (Forall2_in_r _ _ _ _ (thread_Forall2 read_source l 0) Im0) as (s & Is & k & ->). apply import_read in K. rewrite module_of_eq. cbn [m_name]. eapply td_imported; eassumption.
  Qed.
  Lemma refers_defined s d M x : In s l -> In d (s_decls s) -> refers d M x -> ~ PassesSpec.made_up x -> type_defined l (in_module s M) x.
  Proof using W C U P H.
    intros Is Id R Hx. destruct (passes_uses fuel _ tr (sources_clean l 0 W C U) P) as (_ & _ & F & _ & _). destruct (in_thread read_source l 0 s Is) as (k & Im). destruct (decl_there s _ d ltac:(exists k; reflexivity) Id) as (j & Ia). destruct (refers_read d M x j R) as (Ir & Pa).
    assert (Em : m_name (fst (read_source s k)) = s_name s) by (apply module_of_name; exists k; reflexivity).
    destruct (F (in_module s M) x) as [K|(m6 & a6 & mo & I6 & Ia6 & _ & R6 & E6)].
    - exists (fst (read_source s k)), (fst (read_decl d j)), M. rewrite Em. auto.
    - apply type_in_defined; assumption.
    - destruct (header_assigns _ _ _ _ _ H I6 Ia6) as (ds & E). destruct (assignment_leads _ _ _ _ _ mo x E R6) as (n & args & y & R'). apply leads_defined in R'; [|exact Hx]. rewrite E6. exact R'.
  Qed.
  Lemma import_defined s x N : In s l -> imports_type s x N -> ~ PassesSpec.made_up x -> type_defined l N x.
  Proof using W C U P H.
    intros Is I Hx. destruct (passes_uses fuel _ tr (sources_clean l 0 W C U) P) as (_ & _ & _ & _ & I'). destruct (in_thread read_source l 0 s Is) as (k & Im). destruct (I' _ N x Im (proj2 (import_read s k N x) I)) as (m6 & I6 & N6 & Ia).
    destruct (header_assigns _ _ _ _ _ H I6 Ia) as (ds & E). destruct (assignment_leads _ _ _ _ _ (Some N) x E (or_introl eq_refl)) as (n & args & y & R). apply leads_defined in R; [exact R|exact Hx].
  Qed.
End Together.

(** ** C129 *)
(** If a header is written, then all types that are referred to anywhere in the definition of a type, or by that of a constant, are
    defined: in the module, or in the one the reference names, or along imports.  Missing: modules with object classes, the bodies and
    arguments of templates, and everything that is not a type (see below). *)
Theorem C129_types_partial : forall texts ls s d M x tr p, files texts ls -> well_named (concat ls) -> no_class_definitions (concat ls) -> no_made_up_names (concat ls) ->
  In s (concat ls) -> In d (s_decls s) -> refers d M x -> ~ PassesSpec.made_up x -> writes_header texts tr p -> type_defined (concat ls) (in_module s M) x.
Proof.
  intros texts ls s d M x tr p F W C U Hs Hd R Hx (fuel & depth & s0 & Hp & P & Hh). destruct (files_compiled_as _ _ F) as (s1 & E & Eq). rewrite E in Hp. injection Hp as <-. rewrite Eq in P. eapply refers_defined; eassumption.
Qed.
(** Also those that are imported, whether they are used or not. *)
Theorem C129_imports_partial : forall texts ls s x N tr p, files texts ls -> well_named (concat ls) -> no_class_definitions (concat ls) -> no_made_up_names (concat ls) ->
  In s (concat ls) -> imports_type s x N -> writes_header texts tr p -> type_defined (concat ls) N x.
Proof.
  intros texts ls s x N tr p F W C U Hs I (fuel & depth & s0 & Hp & P & Hh). destruct (files_compiled_as _ _ F) as (s1 & E & Eq). rewrite E in Hp. injection Hp as <-. rewrite Eq in P. eapply import_defined; try eassumption.
  apply (U s x Hs). destruct I as (i & names & oid & Ei & Ii & Ix). unfold names_of, imported_names. apply in_or_app. right. rewrite Ei. apply in_flat_map. exists (names, N, oid). split; [exact Ii|]. apply in_map_iff. exists (true, x). split; [reflexivity|]. apply filter_In. auto.
Qed.

(** For example: three files, a type that is imported twice, and a reference to one that nobody defines. *)
Definition ex_mentions (missing : string) : list string :=
  ["A DEFINITIONS ::= BEGIN IMPORTS T FROM B; X ::= SEQUENCE { a T, b CHOICE { c SET OF " ++ missing ++ ", d [1] C.T } } END";
   "B DEFINITIONS ::= BEGIN IMPORTS T FROM C; U ::= BOOLEAN END"; "C DEFINITIONS ::= BEGIN T ::= INTEGER END"]%string.
Definition ex_mention_sources (missing : string) : list source :=
  [Source "A" [] None false None (Some [([(true, "T")], "B", [])])
    [DType "X" [] (YRecord false [CNamed "a" (YRef None "T") Required;
       CNamed "b" (YChoice [("c", YListOf true None None (YRef None missing)); ("d", YTagged ParserTree.context_specific 1 Automatic (YRef (Some "C") "T"))] None) Required] None)];
   Source "B" [] None false None (Some [([(true, "T")], "C", [])]) [DType "U" [] (YSimple Boolean)]; Source "C" [] None false None None [DType "T" [] (YInteger [])]].
Lemma ex_mention_files missing : missing = "T" \/ missing = "Nowhere" -> let l := ex_mention_sources missing in
  files (map codes (ex_mentions missing)) (map (fun s => [s]) l) /\ well_named l /\ no_class_definitions l /\ no_made_up_names l.
Proof.
  intros [-> | ->]; cbv zeta.
  all: split; [cbn [ex_mention_sources ex_mentions map]; repeat (apply Forall2_cons; [split; [octets|split; [discriminate|split; [reflexivity|apply writes_ok; vm_compute; reflexivity]]]|]); apply Forall2_nil|].
  all: split; [split; [repeat constructor; cbn; intuition discriminate|intros s [<-|[<-|[<-|[]]]]; repeat constructor; cbn; intuition discriminate]|].
  all: split; [intros s x fs [<-|[<-|[<-|[]]]] H; cbn in H; intuition discriminate|].
  all: intros s x [<-|[<-|[<-|[]]]] H (p & n & Hp & E); cbn in H; repeat destruct H as [<-|H]; try destruct H; cbn in Hp; repeat destruct Hp as [<-|Hp]; try destruct Hp; discriminate E.
Qed.
Example C129_example : let l := ex_mention_sources "T" in
  (exists d, In d (s_decls (hd (Source "" [] None false None None []) l)) /\ refers d None "T" /\ refers d (Some "C") "T") /\ exists tr p, writes_header (map codes (ex_mentions "T")) tr p /\ type_defined l "A" "T".
Proof.
  cbv zeta. split.
  - eexists. split; [left; reflexivity|]. split; constructor.
    + eapply m_record; [left; reflexivity|]. constructor.
    + eapply m_record; [right; left; reflexivity|]. eapply m_choice; [right; left; reflexivity|]. constructor. constructor.
  - destruct (built (ex_mentions "T")) as [[tr p]|] eqn:B; [|vm_compute in B; discriminate]. exists tr, p. split; [apply built_writes, B|].
    destruct (ex_mention_files "T" (or_introl eq_refl)) as (F & W & C & U). eapply (C129_types_partial _ _ (hd (Source "" [] None false None None []) (ex_mention_sources "T")) _ None "T" tr p F W C U).
    + left. reflexivity.
    + left. reflexivity.
    + constructor. eapply m_record; [left; reflexivity|]. constructor.
    + intros (q & n & Hq & E). cbn in Hq. repeat destruct Hq as [<-|Hq]; try destruct Hq; discriminate E.
    + apply built_writes, B.
Qed.
Example C129_refused : forall tr p, ~ writes_header (map codes (ex_mentions "Nowhere")) tr p.
Proof.
  intros tr p Hw. destruct (ex_mention_files "Nowhere" (or_intror eq_refl)) as (F & W & C & U).
  assert (D : type_defined (ex_mention_sources "Nowhere") "A" "Nowhere").
  { refine (C129_types_partial _ _ (hd (Source "" [] None false None None []) (ex_mention_sources "Nowhere")) _ None "Nowhere" tr p F W C U (or_introl eq_refl) (or_introl eq_refl) _ _ Hw).
    - constructor. eapply m_record; [right; left; reflexivity|]. eapply m_choice; [left; reflexivity|]. constructor. constructor.
    - intros (q & n & Hq & E). cbn in Hq. repeat destruct Hq as [<-|Hq]; try destruct Hq; discriminate E. }
  inversion D as [s x t Hs Hd E1 E2|s x N Hs (i & names & oid & Ei & Ii & Ix) K E1 E2]; subst; cbn in Hs; destruct Hs as [<-|[<-|[<-|[]]]]; cbn in *; intuition (try discriminate).
  injection Ei as <-. destruct Ii as [Ii|[]]. injection Ii as <- _ _. destruct Ix as [Ix|[]]. discriminate Ix.
Qed.

(** *** What is not refused *)
(** Undefined names of values, in constraints and imports, and those of the items of enumerations.  (Other undefined names behind DEFAULT
    are refused, as are those of constants.) *)
Theorem C129_values_refuted : Forall (fun texts => exists tr p, writes_header (map codes texts) tr p)
  [["M DEFINITIONS ::= BEGIN A ::= INTEGER (0..nowhere) END"];
   ["M DEFINITIONS ::= BEGIN IMPORTS nowhere FROM N; A ::= INTEGER END"; "N DEFINITIONS ::= BEGIN A ::= INTEGER END"];
   ["M DEFINITIONS ::= BEGIN A ::= SEQUENCE { a C DEFAULT nowhere } C ::= ENUMERATED { d } END"]].
Proof. rewrite !Forall_cons_iff; split; [|split; [|split; [|constructor]]]; eexists _, _; apply built_writes; vm_compute; reflexivity. Qed.
(** A template that is not used, an argument that its template does not use: *)
Theorem C129_templates_refuted : Forall (fun text => exists tr p, writes_header [codes text] tr p)
  ["M DEFINITIONS ::= BEGIN A {T} ::= SEQUENCE { a Nowhere } END"; "M DEFINITIONS ::= BEGIN A {T} ::= SEQUENCE { a INTEGER } B ::= A {Nowhere} END"].
Proof. apply Forall_cons; [|apply Forall_cons; [|constructor]]; eexists _, _; apply (built_writes [_]); vm_compute; reflexivity. Qed.
(** A name that the compiler makes up for a type without a name: *)
Theorem C129_made_up_refuted : exists tr p, writes_header [codes "M DEFINITIONS ::= BEGIN A ::= SEQUENCE OF SEQUENCE { a INTEGER } B ::= UnnamedSequence0 END"] tr p.
Proof. eexists _, _. apply (built_writes [_]). vm_compute. reflexivity. Qed.
