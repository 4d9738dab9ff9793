(** C131: the generated code is free of undefined behaviour, whatever it is given; and what it accepts.  The schema is a text. *)
From Coq Require Import List String ZArith Bool Lia.
From Verif Require Import Base Ident Spec HeaderProofs View ViewProofs Prims PrimProofs Schema SchemaSpec SchemaProofs SchemaDecode
  SchemaRound PropertiesSchema DecodeSpec DecodeExact PropertiesDecode Compiler CompilerSpec CompilerProofs PropertiesCompiler.
From Verif Require Import PassesSpec Frontend FrontAccept.
From Verif Require Import CompilerNames CompilerTree Lexer LexerSpec ParserTree ParserFile ParserText ParserTextProofs PropertiesParser ParserWrite ParserSource Elab ElabSpec ElabProofs AcceptSpec FrontText PropertiesText PropertiesFront.
From Verif Require Import HeaderSpec CppSpec Header HeaderSound PropertiesCpp.
From Verif Require Import Schema SchemaSpec.
Import ListNotations.
Local Open Scope string_scope.
Local Open Scope list_scope.
Local Open Scope Z_scope.

(** ** Specification *)
(** A CHOICE, perhaps behind references and tags. *)
Definition is_choice (t : aty) : Prop := match base t with AChoice _ => True | _ => False end.
(** Every CHOICE that is a mandatory component of a SEQUENCE has a tag, there or in its definition; AUTOMATIC TAGS give one to a CHOICE
    that is written in the component (one that is referred to gets none: C131_automatic_refuted). *)
Definition tagged_members (m : Compiler.mode) (t : aty) : Prop :=
  match t with
  | ASeq cs => all_comps (fun k t => k = Mand -> is_choice t -> x680_tags m t <> [] \/ (m = automatic /\ exists alts, t = AChoice alts)) cs
  | _ => True
  end.
(** Numbers of components that fit into 32 bits, no CHOICE without alternatives (X.680 29.1), and no reference to a definition "X ::= [a] [b] ..." *)
Definition few_members (m : Compiler.mode) (t : aty) : Prop :=
  match t with
  | ASeq cs | ASet _ cs => Z.of_nat (acomps_length cs) < 2^31
  | AChoice cs => cs <> ANil /\ Z.of_nat (acomps_length cs) < 2^31
  | ADef _ (ATagged _ _ _ (ATagged _ _ _ _)) => False
  | _ => True
  end.
(** One object, into which several inputs are decoded one after the other, whatever comes of them; and the verdicts. *)
Fixpoint decode_each (code : Schema.ty) (o : st) (inputs : list (list Z)) : res (list bool * st) :=
  match inputs with
  | [] => Ok ([], o)
  | input :: inputs =>  let* v := v_make input in let* r := decode code o v in let* rs := decode_each code (snd r) inputs in Ok (fst r :: fst rs, snd rs)
  end.
(** Any octets within the limits of C14 (lengths and tag numbers that fit); a CHOICE needs a complete packet in front. *)
Definition input_for (t : aty) (input : list Z) : Prop := bytes input /\ tame input /\ (starts_with_packet input \/ ~ is_choice t).

(** ** Proofs *)
Lemma own_guarded t i : own_id t = Some i -> guarded t.
Proof. destruct t as [| | | |[|] [|] cs]; cbn; try exact (fun _ => I). discriminate. Qed.
Lemma with_id_safe o t : safe t -> safe (with_id o t).
Proof. destruct o, t; cbn [with_id safe]; auto. Qed.
Lemma member_safe m t c : safe c -> safe (member m t c).
Proof. intros H. unfold member. destruct (_ && _)%bool; [|exact H]. apply with_id_safe, H. Qed.
Lemma with_id_guarded o t : guarded t -> guarded (with_id o t).
Proof. destruct o, t; cbn [with_id guarded]; auto. destruct g; auto. Qed.
Lemma with_some_guarded i t : guarded (with_id (Some i) t).
Proof. destruct t as [| | | |[|] o cs]; exact I. Qed.
Lemma cpp_not_choice t : forall m ov, ~ is_choice t -> guarded (cpp m ov t).
Proof.
  induction t as [| | | |cs|kw c n t IH|m' t IH]; intros m ov H; try exact I.
  - exfalso. apply H. exact I.
  - cbn [cpp]. apply IH, H.
  - cbn [cpp]. destruct (gen_def t); apply IH, H.
Qed.
Definition fine (m : Compiler.mode) (t : aty) : Prop :=
  (match t with APrim k u => kind_ok k /\ 0 <= u < 2^63 | _ => True end) /\ small_tags m t /\ few_members m t.
Lemma gen_def_fine t m m' : fine m (ADef m' t) -> gen_def t = gen_named t.
Proof. intros (_ & _ & H). destruct t; try reflexivity. destruct t; try reflexivity. destruct H. Qed.
Lemma info_fine t : forall m i, everywhere fine m t -> 0 <= c_tag (ti_inner (info m t)) < 2^63 /\ (ti_name (info m t) = Some i -> wf_ident i).
Proof.
  induction t as [| | | |cs|kw c n t IH|m' t IH]; intros m i H.
  - cbn. destruct H as (((_ & Hu) & _) & _). split; [exact Hu|]. intros [= <-]. exact Hu.
  - cbn. destruct set; (split; [lia|]; intros [= <-]; cbn; lia).
  - cbn. split; [lia|]; intros [= <-]; cbn; lia.
  - cbn. split; [lia|]; intros [= <-]; cbn; lia.
  - split; [cbn; lia|]. cbn [info]. unfold ti_name. cbn [ti_outer ti_choice ti_inner].
    destruct (choice_ids m 0 cs); [|discriminate]. intros [= <-]. cbn; lia.
  - cbn [info]. destruct H as ((_ & Hn & _) & Ht). cbn [small_tags] in Hn. specialize (IH m i Ht) as (IH & _).
    match goal with |- context [if ?b then _ else _] => destruct b end; cbn [ti_inner c_tag tag_cid].
    + split; [exact IH|]. intros [= <-]. cbn [wf_ident]. split; [lia|assumption].
    + split; [lia|]. intros [= <-]. cbn [wf_ident]. lia.
  - apply IH. apply H.
Qed.
Lemma tagged_info t : forall m, is_choice t -> x680_tags m t <> [] -> ti_default (info m t) = false.
Proof.
  induction t as [| | | |cs|kw c n t IH|m' t IH]; intros m Hc Hx; try (destruct Hc; fail).
  - destruct Hx. reflexivity.
  - apply info_tagged.
  - apply IH; [exact Hc|exact Hx].
Qed.
Lemma nongen_guarded t : forall m ov, everywhere fine m t -> gen_named t = false -> is_choice t -> guarded (cpp m ov t).
Proof.
  induction t as [| | | |cs|kw c n t IH|m' t IH]; intros m ov H Hg Hc; try exact I.
  - discriminate.
  - cbn [cpp]. apply IH; [apply H|exact Hg|exact Hc].
  - pose proof (gen_def_fine t m m' (everywhere_here _ _ _ H)) as E. cbn [gen_named cpp] in *. rewrite Hg. apply IH; [apply H|congruence|exact Hc].
Qed.
Lemma member_guarded m ov t : everywhere fine m t -> (is_choice t -> x680_tags m t <> [] \/ (ov <> None /\ exists alts, t = AChoice alts)) ->
  guarded (member m t (cpp m ov t)).
Proof.
  intros H Hc. assert (D : is_choice t \/ ~ is_choice t) by (unfold is_choice; destruct (base t); tauto). destruct D as [D|D].
  - destruct (Hc D) as [Hx|(Ho & alts & ->)].
    + unfold member. destruct (gen_named t) eqn:Eg; cbn [andb].
      * rewrite (tagged_info t m D Hx). cbn [negb]. destruct (info_nondefault t m (tagged_info t m D Hx)) as (i & -> & _). apply with_some_guarded.
      * apply nongen_guarded; assumption.
    + destruct ov; [|congruence]. unfold member. destruct (_ && _)%bool; [apply with_id_guarded|]; exact I.
  - unfold member. destruct (_ && _)%bool; [apply with_id_guarded|]; apply cpp_not_choice, D.
Qed.
Lemma cpp_safe :
  (forall t m ov, everywhere fine m t -> everywhere tagged_members m t -> safe (cpp m ov t)) /\
  (forall cs w m i, everywhere_comps fine m cs -> everywhere_comps tagged_members m cs ->
     safe_comps (cpp_comps w m i cs) /\
     (all_comps (fun k t => k = Mand -> is_choice t -> x680_tags m t <> [] \/ (m = automatic /\ exists alts, t = AChoice alts)) cs -> guarded_comps (cpp_comps w m i cs))).
Proof.
  apply aty_mutind.
  - intros. exact I.
  - intros set t IH m ov H G. cbn [cpp safe]. apply IH; [apply H|apply G].
  - intros cs IH m ov (_ & H) (Gh & G). cbn [cpp safe]. destruct (IH InSeq m 0 H G) as (A & B). split; [exact A|apply B, Gh].
  - intros ext cs IH m ov (_ & H) (Gh & G). cbn [cpp safe]. apply IH; assumption.
  - intros cs IH m ov (_ & H) (Gh & G). cbn [cpp safe]. apply IH; assumption.
  - intros kw c n t IH m ov H G. cbn [cpp]. apply IH; [apply H|apply G].
  - intros m' t IH m ov H G. cbn [cpp]. destruct (gen_def t); (apply IH; [apply H|apply G]).
  - intros. split; [exact I|]. intros _. exact I.
  - intros k t IH cs IHcs w m i (Ht & H) (Gt & G). cbn [cpp_comps safe_comps guarded_comps all_comps].
    destruct (IHcs w m (i + 1) H G) as (A & B). split; [split; [apply member_safe, IH; assumption|exact A]|]. intros (K & Ks). split; [|apply B, Ks]. intros Hk. apply member_guarded; [exact Ht|].
    intros Hc. destruct (K Hk Hc) as [Hx|(-> & Ha)]; [left; exact Hx|right; split; [discriminate|exact Ha]].
Qed.
Lemma cpp_fine :
  (forall t m ov, everywhere fine m t -> (forall j, ov = Some j -> wf_ident j) -> wf_ty (cpp m ov t)) /\
  (forall cs w m i, everywhere_comps fine m cs -> 0 <= i -> i + Z.of_nat (acomps_length cs) < 2^32 -> wf_comps (cpp_comps w m i cs)).
Proof.
  apply aty_mutind.
  - intros k u m ov H Ho. destruct H as (((Hk & Hu) & _) & _). pose proof (wf_get_id ov (Id universal u) Hu Ho) as Hi.
    cbn [cpp wf_ty]. split; [exact Hi|].
    destruct k; cbn [kind_ok] in Hk; auto. destruct Hk as (Hz & Hb). pose proof (zlen_nonneg x0).
    split; [|split; [lia|exact Hb]].
    split; [exact Hi|]. split; [lia|]. destruct (get_id ov (Id universal u)) as [|oc ot ic it]; cbn [small_fits wf_ident] in *; [lia|].
    pose proof (ehl1_range it 0 ltac:(lia)). lia.
  - intros set t IH m ov H Ho. cbn [cpp wf_ty]. split; [apply wf_get_id; [destruct set; cbn; lia|exact Ho]|].
    apply IH; [apply H|discriminate].
  - intros cs IH m ov ((_ & _ & L) & H) Ho. cbn [few_members] in L. cbn [cpp wf_ty]. split; [apply wf_get_id; [cbn; lia|exact Ho]|]. apply IH; [exact H|lia|lia].
  - intros ext cs IH m ov ((_ & _ & L) & H) Ho. cbn [few_members] in L. cbn [cpp wf_ty]. split; [apply wf_get_id; [cbn; lia|exact Ho]|]. apply IH; [exact H|lia|lia].
  - intros cs IH m ov ((_ & _ & L) & H) Ho. cbn [few_members] in L. destruct L as (Hne & L). cbn [cpp wf_ty]. split; [destruct ov; auto|].
    split; [destruct cs; [congruence|discriminate]|]. apply IH; [exact H|lia|lia].
  - intros kw c n t IH m ov H Ho. cbn [cpp]. apply IH; auto; [apply H|].
    intros j. destruct ov; cbn [or_id]; [auto|]. apply (info_fine (ATagged kw c n t) m j H).
  - intros m' t IH m ov H Ho. cbn [cpp]. destruct (gen_def t); (apply IH; auto; [apply H|]); [discriminate|].
    intros j. destruct ov; cbn [or_id]; [auto|]. apply (info_fine (ADef m' t) m j H).
  - intros. exact I.
  - intros k t IH cs IHcs w m i (Ht & H) Hi L. cbn [acomps_length] in L. cbn [cpp_comps wf_comps]. split; [|apply IHcs; [assumption|lia|lia]].
    assert (G : wf_ty (cpp m (if is_automatic m then Some (Id context_specific i) else None) t)).
    { apply IH; [exact Ht|]. destruct (is_automatic m); [|discriminate]. intros j [= <-]. cbn [wf_ident]. lia. }
    unfold member. destruct (gen_named t && negb (ti_default (info m t)))%bool; [|exact G].
    destruct (ti_name (info m t)) as [j|] eqn:Ej; [|exact G]. apply with_id_wf; [|exact G].
    apply (info_fine t m j Ht). exact Ej.
Qed.
Lemma acomps_split m cs : acomps_length (split_comps m cs) = acomps_length cs.
Proof. induction cs as [|k t cs IH]; [reflexivity|]. cbn [split_comps acomps_length]. rewrite IH. reflexivity. Qed.
Lemma split_fine m t : everywhere fine m t -> everywhere fine m (Compiler.split m t).
Proof.
  apply split_everywhere; clear.
  - intros m t (H1 & H2 & H3). split; [destruct t; cbn [Compiler.split] in *; auto|]. split; [destruct t; cbn [Compiler.split small_tags] in *; auto|].
    destruct t; cbn [Compiler.split few_members] in *; rewrite ?acomps_split; auto.
    + destruct H3 as (N & L). split; [destruct cs; [congruence|discriminate]|exact L].
    + assert (H' : match t with ATagged _ _ _ (ATagged _ _ _ _) => False | _ => True end) by (destruct t; auto; destruct t; auto).
      pose proof (split_two_tags m0 t H') as S. destruct (Compiler.split m0 t); auto.
  - intros m t H. destruct t; auto; (split; [exact I|split; [exact I|exact I]]).
Qed.
Lemma base_unnamed m t : base (unnamed m t) = base t.
Proof. destruct t; reflexivity. Qed.
Lemma split_is_choice t : forall m, is_choice (Compiler.split m t) <-> is_choice t.
Proof.
  unfold is_choice. induction t as [| | | |cs|kw c n t IH|m' t IH]; intros m; cbn [Compiler.split base]; try tauto; [|apply IH]. rewrite base_unnamed. apply IH.
Qed.
Lemma split_tagged m t : everywhere tagged_members m t -> everywhere tagged_members m (Compiler.split m t).
Proof.
  apply split_everywhere; clear.
  - intros m t H. destruct t; cbn [Compiler.split tagged_members] in *; auto. induction cs as [|k t cs IH]; [exact I|]. destruct H as (H1 & H2).
    cbn [split_comps all_comps]. rewrite split_x680. split; [|auto]. intros Hk Hc. apply split_is_choice in Hc. destruct (H1 Hk Hc) as [?|(-> & alts & ->)]; [left; assumption|right]. split; [reflexivity|]. eexists. reflexivity.
  - intros m t H. destruct t; exact I.
Qed.

(** The code for a type of a schema. *)
Lemma compile_safe m a code : everywhere fine m a -> everywhere tagged_members m a -> compile m a = Some code ->
  wf_ty code /\ safe code /\ (~ is_choice a -> guarded code).
Proof.
  intros Hp Hg. unfold compile. cbv zeta. destruct (accepts m (Compiler.split m a)); [|discriminate]. intros [= <-].
  apply split_fine in Hp. apply split_tagged in Hg. split; [apply (proj1 cpp_fine); [exact Hp|discriminate]|]. split; [apply (proj1 cpp_safe); assumption|].
  intros Hn. apply cpp_not_choice. rewrite split_is_choice. exact Hn.
Qed.
Lemma decode_safe a code o input : wf_ty code -> safe code -> (~ is_choice a -> guarded code) -> obj code o -> input_for a input ->
  exists v ok o', v_make input = Ok v /\ decode code o v = Ok (ok, o') /\ obj code o'.
Proof.
  intros Hwf Hs Hg Ho (Hb & Ht & Hi). destruct (assign_good 0 input Hb Ht) as (v & Ev & Hgv).
  destruct (decode_total code Hwf Hs o v Ho Hgv) as (ok & o' & E & Ho'); [|exists v, ok, o'; auto].
  destruct Hi as [Hi|Hi]; [left; eapply starts_valid; eauto|right; auto].
Qed.
Lemma decode_each_safe a code inputs : wf_ty code -> safe code -> (~ is_choice a -> guarded code) -> Forall (input_for a) inputs -> forall o, obj code o ->
  exists oks o', decode_each code o inputs = Ok (oks, o') /\ obj code o'.
Proof.
  intros Hwf Hs Hg F. induction F as [|input inputs Hi F IH]; intros o Ho; [exists [], o; auto|].
  destruct (decode_safe a code o input Hwf Hs Hg Ho Hi) as (v & ok & o1 & Ev & Ed & Ho1). destruct (IH o1 Ho1) as (oks & o2 & Er & Ho2).
  exists (ok :: oks), o2. split; [|exact Ho2]. cbn [decode_each]. rewrite Ev. cbn [bind]. rewrite Ed. cbn [bind snd fst]. rewrite Er. reflexivity.
Qed.
(** What [code] does, whatever it is given: nothing undefined. *)
Definition defined_on_all (a : aty) (code : Schema.ty) : Prop :=
  forall inputs, Forall (input_for a) inputs ->
  exists oks o, decode_each code (init code) inputs = Ok (oks, o) /\ List.length oks = List.length inputs /\
    (weight o < 2^62 -> exists p, encoded_length_of code o = Ok (zlen p) /\
       forall buffer, zlen buffer < 2^63 ->
         (zlen p <= zlen buffer -> encode code o buffer = Ok (EncResult (p ++ zdrop (zlen p) buffer) true (zlen p))) /\
         (zlen buffer < zlen p -> exists out, encode code o buffer = Ok (EncResult out false 0) /\ zlen out = zlen buffer)).
Lemma decode_each_length code inputs : forall o oks o', decode_each code o inputs = Ok (oks, o') -> List.length oks = List.length inputs.
Proof.
  induction inputs as [|i is IH]; intros o oks o'; cbn [decode_each]; [intros [= <- <-]; reflexivity|].
  destruct (v_make i) as [v| |]; try discriminate. cbn [bind]. destruct (decode code o v) as [[ok o1]| |]; try discriminate. cbn [bind fst snd].
  destruct (decode_each code o1 is) as [[oks' o2]| |] eqn:E; try discriminate. cbn [bind fst snd]. intros [= <- <-]. cbn. f_equal. apply (IH _ _ _ E).
Qed.
Lemma compile_defined m a code : everywhere fine m a -> everywhere tagged_members m a -> compile m a = Some code -> defined_on_all a code.
Proof.
  intros Hp Hg Hc inputs F. destruct (compile_safe m a code Hp Hg Hc) as (Hwf & Hs & Hgd).
  destruct (decode_each_safe a code inputs Hwf Hs Hgd F (init code) (init_obj code Hwf)) as (oks & o & E & Ho). exists oks, o. split; [exact E|]. split; [apply (decode_each_length _ _ _ _ _ E)|].
  intros Hw. apply C41_encode_exact; assumption.
Qed.

(** What stands for a text has tag numbers and objects in range. *)
Definition prims_ok (m : Compiler.mode) (t : aty) : Prop := match t with APrim k u => kind_ok k /\ 0 <= u < 2^63 | _ => True end.
Lemma means_prims l :
  (forall s t a, means l s t a -> forall m, everywhere prims_ok m a) /\
  (forall s ts cs, means_alternatives l s ts cs -> forall m, everywhere_comps prims_ok m cs) /\
  (forall s ts cs, means_components l s ts cs -> forall m, everywhere_comps prims_ok m cs).
Proof.
  apply means_mutind; intros; cbn [everywhere everywhere_comps prims_ok]; auto.
  - split; [|exact I]. destruct k as [| | | | | | | | | | | | | | | | | | | | |[]]; cbn in h, e; try (destruct h; fail); subst c; injection e as <-; cbn [kind_ok]; (split; [|lia]); try exact I; (split; [cbn; lia|constructor]).
  - split; [|exact I]. split; [split; [cbn; lia|constructor]|lia].
  - split; [|exact I]. split; [split; [cbn; lia|repeat constructor; unfold wf_byte; lia]|lia].
  - split; [|exact I]. split; [split; [cbn; lia|repeat constructor; unfold wf_byte; lia]|lia].
Qed.
Lemma everywhere_fine : 
  (forall t m, everywhere prims_ok m t -> everywhere small_tags m t -> everywhere few_members m t -> everywhere fine m t) /\
  (forall cs m, everywhere_comps prims_ok m cs -> everywhere_comps small_tags m cs -> everywhere_comps few_members m cs -> everywhere_comps fine m cs).
Proof.
  apply aty_mutind; intros; cbn [everywhere everywhere_comps] in *; unfold fine, prims_ok in *; intuition auto.
Qed.
Lemma means_fine l s t a m : means l s t a -> everywhere small_tags m a -> everywhere few_members m a -> everywhere fine m a.
Proof. intros H. apply (proj1 everywhere_fine), (proj1 (means_prims l) _ _ _ H). Qed.

(** * C131 *)
(** For every text of the covered part, and every type in it that has no untagged CHOICE as a mandatory component of a SEQUENCE: however
    many inputs are decoded into an object of the generated class one after the other, and whatever octets they are, every access stays within the
    memory that is there, every decode comes to an end with a verdict, and the object that is left over, whether the last decode
    succeeded or failed half way, is encoded within any buffer.  The schema does not have to keep to the rules on distinct tags, and may have
    any tagging default.
    Missing: what [means] and [covered] leave out; the limits of [tame]; the untagged CHOICE (C131_untagged_choice_refuted). *)
Theorem C131_defined_partial : forall texts ls s x t a, files texts ls -> covered (concat ls) -> no_class_definitions (concat ls) -> no_made_up_names (concat ls) ->
  In s (concat ls) -> In (DType x [] t) (s_decls s) -> means (concat ls) s t a -> let m := default_tags s in
  everywhere small_tags m a -> everywhere few_members m a -> everywhere tagged_members m a ->
  forall code, writes texts (s_name s) x code -> defined_on_all a code.
Proof.
  intros texts ls s x t a F C Hc Hu Hs Hd Hm m Ht Hp Hg code W. destruct (written_means texts ls s x t a F C Hc Hu Hs Hd Hm Ht) as (W1 & _).
  apply (compile_defined m a code (means_fine _ _ _ _ m Hm Ht Hp) Hg (W1 code W)).
Qed.
(** The same of the class that a C++ compiler finds in the header. *)
Theorem C131_header_partial : forall texts ls s x t a tr p, files texts ls -> covered (concat ls) -> no_class_definitions (concat ls) -> no_made_up_names (concat ls) ->
  In s (concat ls) -> In (DType x [] t) (s_decls s) -> means (concat ls) s t a -> let m := default_tags s in
  everywhere small_tags m a -> everywhere few_members m a -> everywhere tagged_members m a ->
  writes_header texts tr p -> separate (bare tr) -> cpp_ok p -> (exists code, writes texts (s_name s) x code) ->
  exists code, declares p (s_name s) x code /\ (forall code', declares p (s_name s) x code' -> code' = code) /\ defined_on_all a code.
Proof.
  intros texts ls s x t a tr p F C Hc Hu Hs Hd Hm m Ht Hp Hg Hw Sep Ok (code & W). exists code.
  pose proof (C122_code_partial texts ls s x t a tr p F C Hc Hu Hs Hd Hm Ht Hw Sep Ok code W) as D. split; [exact D|]. split; [intros code' D'; apply (declares_unique _ _ _ _ _ D' D)|].
  apply (C131_defined_partial texts ls s x t a F C Hc Hu Hs Hd Hm Ht Hp Hg code W).
Qed.
(** For a valid type: an input is accepted exactly if it starts with octets that [reads] (DecodeSpec.v) has for some value, and then
    the object shows that value. *)
Theorem C131_accepts_partial : forall texts ls s x t a, files texts ls -> covered (concat ls) -> no_class_definitions (concat ls) -> no_made_up_names (concat ls) ->
  In s (concat ls) -> In (DType x [] t) (s_decls s) -> means (concat ls) s t a -> let m := default_tags s in
  everywhere small_tags m a -> everywhere CompilerSpec.plain m a -> everywhere valid_seqs m a -> everywhere choice_numbers m a -> everywhere few_members m a -> everywhere tagged_members m a ->
  forall code, writes texts (s_name s) x code ->
  forall o input, obj code o -> input_for a input ->
  exists view ok o', v_make input = Ok view /\ decode code o view = Ok (ok, o') /\
    (ok = true <-> exists w p rest, input = p ++ rest /\ reads code w p) /\
    (forall w p rest, input = p ++ rest -> reads code w p -> seen code o' w).
Proof.
  intros texts ls s x t a F C Hc Hu Hs Hd Hm m Ht Hp Hv Hn Hf Hg code W o input Ho (Hb & Hi & Hin). destruct (written_means texts ls s x t a F C Hc Hu Hs Hd Hm Ht) as (W1 & _).
  specialize (W1 code W). destruct (compile_safe _ a code (means_fine _ _ _ _ m Hm Ht Hf) Hg W1) as (Hwf & Hsf & Hgd).
  assert (Hl : labelled code).
  { unfold compile in W1. cbv zeta in W1. destruct (accepts _ _) eqn:Ea in W1; [|discriminate]. injection W1 as <-. apply (proj1 cpp_good); auto using split_plain, split_valid, split_numbers. discriminate. }
  apply C124_accepts_partial; auto. destruct Hin; auto.
Qed.
(** The conditions are met by the files of C121_example and C122_example; and by inputs that are empty, cut off, of another type, or in order. *)
Definition ex_inputs : list (list Z) := [[]; [48]; [48; 3; 2; 1]; [49; 0]; [48; 2; 48; 0]; [48; 0]].
Example C131_example : let texts := [codes ex_text_3; codes ex_text_4] in let a := ex_people_meaning in let m := default_tags ex_alpha in
  everywhere few_members m a /\ everywhere tagged_members m a /\ ~ is_choice a /\ Forall (input_for a) ex_inputs /\
  exists code, writes texts "Alpha" "People" code /\ defined_on_all a code /\
    exists o, decode_each code (init code) ex_inputs = Ok ([false; false; false; false; false; true], o).
Proof.
  cbv zeta. assert (G : everywhere tagged_members (default_tags ex_alpha) ex_people_meaning).
  { vm_compute. repeat split; intros E; try discriminate E; intros []. }
  assert (L : everywhere few_members (default_tags ex_alpha) ex_people_meaning) by (vm_compute; repeat split; discriminate).
  split; [exact L|]. split; [exact G|]. split; [intros []|]. split.
  { assert (N : ~ is_choice ex_people_meaning) by intros [].
    repeat (constructor; [split; [repeat (constructor; [unfold wf_byte; lia|]); constructor|split; [apply tame_check_sound; reflexivity|right; exact N]]|]). constructor. }
  destruct C121_example as (F & C & Hc & Hu & Hs & Hd & Hm & Ht & Hp & _ & _ & _ & _ & _ & _ & _ & code & W). exists code. split; [exact W|]. split.
  - apply (C131_defined_partial _ _ _ _ _ _ F C Hc Hu Hs Hd Hm Ht L G code W).
  - destruct (written_means _ _ _ _ _ _ F C Hc Hu Hs Hd Hm Ht) as (W1 & _). specialize (W1 code W). vm_compute in W1. injection W1 as <-. eexists. vm_compute. reflexivity.
Qed.

(** An untagged CHOICE as a mandatory component: a SEQUENCE that ends before it makes the code read through a null pointer.  So does a CHOICE
    without an input. *)
Definition ex_bare_choice : list string := ["M DEFINITIONS ::= BEGIN A ::= SEQUENCE { x CHOICE { y INTEGER } } B ::= CHOICE { y INTEGER } END"].
Definition undefined_on (texts : list string) (M X : string) (input : list Z) : Prop :=
  exists tr p code, writes_header (map codes texts) tr p /\ separate (bare tr) /\ cpp_ok p /\ declares p M X code /\ decode_each code (init code) [input] = UB.
Lemma undefined_check texts M X input : match found texts M X with Some (true, code) => match decode_each code (init code) [input] with UB => true | _ => false end | _ => false end = true ->
  undefined_on texts M X input.
Proof.
  destruct (found texts M X) as [[[|] c]|] eqn:F; try discriminate. destruct (decode_each _ _ _) eqn:D; try discriminate. intros _. destruct (found_declares _ _ _ _ _ F) as (tr & p & H1 & H2 & H3 & H4). exists tr, p, c. auto.
Qed.
Theorem C131_untagged_choice_refuted : undefined_on ex_bare_choice "M" "A" [48; 0] /\ undefined_on ex_bare_choice "M" "B" [].
Proof. split; apply undefined_check; vm_compute; reflexivity. Qed.
(** AUTOMATIC TAGS do not help a CHOICE that is referred to, although X.680 gives it a tag: the tag number of the component before it is looked up
    among its alternatives. *)
Theorem C131_automatic_refuted : undefined_on ["M DEFINITIONS AUTOMATIC TAGS ::= BEGIN A ::= SEQUENCE { v INTEGER, w INTEGER, x B } B ::= CHOICE { y INTEGER } END"] "M" "A" [48; 6; 128; 1; 1; 129; 1; 1].
Proof. apply undefined_check. vm_compute. reflexivity. Qed.
(** A module with AUTOMATIC TAGS that meets the conditions: the CHOICE is written in the component. *)
Example C131_automatic_example : exists code, writes [codes "M DEFINITIONS AUTOMATIC TAGS ::= BEGIN A ::= SEQUENCE { x CHOICE { y INTEGER } } END"] "M" "A" code /\
  let a := ASeq (ACons Mand (AChoice (ACons Mand (APrim (KSmall 8 [0]) 2) ANil)) ANil) in
  compile automatic a = Some code /\ everywhere few_members automatic a /\ everywhere tagged_members automatic a /\
  exists o, decode_each code (init code) [[48; 0]; [48; 5; 160; 3; 128; 1; 7]] = Ok ([false; true], o).
Proof.
  eexists. split; [exists 100%nat, 30%nat; vm_compute; reflexivity|]. cbv zeta. split; [vm_compute; reflexivity|]. split; [vm_compute; repeat split; discriminate|]. split.
  - cbn [everywhere everywhere_comps tagged_members all_comps]. repeat split. intros _ _. right. split; [reflexivity|]. eexists. reflexivity.
  - eexists. vm_compute. reflexivity.
Qed.
