(** Taking nested structures out (Frontend.split_nested) is what Compiler.split does to the types. *)
From Coq Require Import List String ZArith Bool Permutation Lia.
From Verif Require Import Base CompilerNames CompilerTree CompilerPasses Ident View Prims Schema ParserTree ParserFile Compiler Elab ElabProofs Frontend.
Import ListNotations.
Local Open Scope string_scope.
Local Open Scope list_scope.

(** ** An ENUMERATED behind a name of its own makes no difference *)
Definition taken_out (m : mode) (t : aty) : aty :=
  match t with ASeq _ | ASet _ _ | AChoice _ => ADef m t | APrim _ u => if (u =? 10)%Z then ADef m t else t | _ => t end.
Fixpoint nested (m : mode) (t : aty) : aty :=
  match t with
  | APrim _ _ => t
  | ASeqOf set t => ASeqOf set (taken_out m (nested m t))
  | ASeq cs => ASeq (nested_comps m cs)
  | ASet ext cs => ASet ext (nested_comps m cs)
  | AChoice cs => AChoice (nested_comps m cs)
  | ATagged kw c n t => ATagged kw c n (taken_out m (nested m t))
  | ADef m' t => ADef m' (nested m' t)
  end
with nested_comps (m : mode) (cs : acomps) : acomps :=
  match cs with ANil => ANil | ACons k t cs => ACons k (nested m t) (nested_comps m cs) end.
Inductive loose : aty -> aty -> Prop :=
| lo_prim k u : loose (APrim k u) (APrim k u)
| lo_named m k u : loose (APrim k u) (ADef m (APrim k u))
| lo_list s t t' : loose t t' -> loose (ASeqOf s t) (ASeqOf s t')
| lo_seq cs cs' : loose_comps cs cs' -> loose (ASeq cs) (ASeq cs')
| lo_set e cs cs' : loose_comps cs cs' -> loose (ASet e cs) (ASet e cs')
| lo_choice cs cs' : loose_comps cs cs' -> loose (AChoice cs) (AChoice cs')
| lo_tagged kw c n t t' : loose t t' -> loose (ATagged kw c n t) (ATagged kw c n t')
| lo_def m t t' : loose t t' -> loose (ADef m t) (ADef m t')
with loose_comps : acomps -> acomps -> Prop :=
| lo_nil : loose_comps ANil ANil
| lo_cons k t t' cs cs' : loose t t' -> loose_comps cs cs' -> loose_comps (ACons k t cs) (ACons k t' cs').
Scheme loose_mind := Induction for loose Sort Prop with loose_comps_mind := Induction for loose_comps Sort Prop.
Combined Scheme loose_mutind from loose_mind, loose_comps_mind.
Lemma loose_taken_out m t t' : loose t t' -> loose (unnamed m t) (taken_out m t').
Proof.
  intros H. destruct H; cbn [unnamed taken_out]; try (constructor; assumption); try (constructor; constructor; assumption).
  destruct (u =? 10)%Z; constructor.
Qed.
Lemma nested_loose : (forall t m, loose (split m t) (nested m t)) /\ (forall cs m, loose_comps (split_comps m cs) (nested_comps m cs)).
Proof.
  apply aty_mutind; intros; cbn [split nested split_comps nested_comps]; try (constructor; auto; fail); constructor; apply loose_taken_out; auto.
Qed.
Lemma loose_ids : (forall t t', loose t t' -> forall m, outer_ids m t' = outer_ids m t /\ info m t' = info m t /\ is_prefixed t' = is_prefixed t /\ accepts m t' = accepts m t) /\
  (forall cs cs', loose_comps cs cs' -> forall m, (forall i, outer_ids_choice m i cs' = outer_ids_choice m i cs /\ choice_ids m i cs' = choice_ids m i cs) /\
     set_ids m cs' = set_ids m cs /\ (forall p, check_seq_loop m p cs' = check_seq_loop m p cs) /\ accepts_comps m cs' = accepts_comps m cs).
Proof.
  apply loose_mutind.
  - intros. repeat split.
  - intros. repeat split.
  - intros s t t' _ IH m. destruct (IH m) as (_ & _ & _ & H). repeat split. exact H.
  - intros cs cs' _ IH m. destruct (IH m) as (_ & _ & H1 & H2). repeat split. cbn [accepts]. unfold check_seq. rewrite H1, H2. reflexivity.
  - intros e cs cs' _ IH m. destruct (IH m) as (_ & H1 & _ & H2). repeat split. cbn [accepts]. unfold check_set. rewrite H1, H2. reflexivity.
  - intros cs cs' _ IH m. destruct (IH m) as (H1 & _ & _ & H2). destruct (H1 0%Z) as (H3 & H4). cbn [outer_ids info accepts is_prefixed]. unfold choice_ok. cbn [info]. rewrite H3, H4, H2. repeat split.
  - intros kw c n t t' _ IH m. destruct (IH m) as (H1 & H2 & _ & H3). cbn [outer_ids info accepts is_prefixed]. rewrite H2, H3. repeat split.
  - intros m0 t t' _ IH m. destruct (IH m0) as (H1 & H2 & _ & H3). cbn [outer_ids info accepts is_prefixed]. rewrite H1, H2, H3. repeat split.
  - intros m. repeat split.
  - intros k t t' cs cs' _ IH1 _ IH2 m. destruct (IH1 m) as (H1 & H2 & H3 & H4). destruct (IH2 m) as (K1 & K2 & K3 & K4). repeat split.
    + cbn [outer_ids_choice]. rewrite H1, (proj1 (K1 _)). reflexivity.
    + cbn [choice_ids]. rewrite H1, H3, (proj2 (K1 _)). reflexivity.
    + cbn [set_ids]. rewrite H2, K2. reflexivity.
    + intros p. cbn [check_seq_loop]. rewrite H2, !K3. destruct k; try reflexivity; destruct (existsb _ p); auto.
    + cbn [accepts_comps]. rewrite H4, K4. reflexivity.
Qed.
Lemma loose_info t t' m : loose t t' -> info m t' = info m t. Proof. intros H. apply (proj1 loose_ids t t' H m). Qed.
Lemma loose_generated t t' : loose t t' -> is_generated t' = is_generated t /\ gen_def t' = gen_def t.
Proof.
  induction 1; cbn [is_generated gen_def]; try (split; reflexivity).
  - split; [apply IHloose|]. destruct IHloose as (I1 & I2). destruct H; cbn [gen_def is_generated] in *; try reflexivity; try exact I1; exact I2.
  - split; [reflexivity|]. apply IHloose.
Qed.
Lemma loose_gen_named t t' : loose t t' -> gen_named t' = gen_named t.
Proof. induction 1; cbn [gen_named]; try reflexivity; [exact IHloose|]. apply loose_generated, H. Qed.
Lemma get_or o i : get_id (or_id o (Some i)) i = get_id o i. Proof. destruct o; reflexivity. Qed.
Lemma loose_code : (forall t t', loose t t' -> forall m ov, cpp m ov t' = cpp m ov t) /\ (forall cs cs', loose_comps cs cs' -> forall w m i, cpp_comps w m i cs' = cpp_comps w m i cs).
Proof.
  apply loose_mutind.
  - reflexivity.
  - intros m k u m' ov. cbn [cpp gen_def is_generated info ti_name ti_outer ti_choice ti_inner univ_cid c_class c_tag]. rewrite get_or. reflexivity.
  - intros s t t' _ IH m ov. cbn [cpp]. rewrite IH. reflexivity.
  - intros cs cs' _ IH m ov. cbn [cpp]. rewrite IH. reflexivity.
  - intros e cs cs' _ IH m ov. cbn [cpp]. rewrite IH. reflexivity.
  - intros cs cs' _ IH m ov. cbn [cpp]. rewrite IH. reflexivity.
  - intros kw c n t t' H IH m ov. cbn [cpp]. rewrite IH, (loose_info (ATagged kw c n t) (ATagged kw c n t') m (lo_tagged _ _ _ _ _ H)). reflexivity.
  - intros m0 t t' H IH m ov. cbn [cpp]. rewrite !IH, (proj2 (loose_generated _ _ H)), (loose_info (ADef m0 t) (ADef m0 t') m (lo_def _ _ _ H)). reflexivity.
  - reflexivity.
  - intros k t t' cs cs' H IH1 _ IH2 w m i. cbn [cpp_comps]. unfold member. rewrite IH1, IH2, (loose_gen_named _ _ H), (loose_info _ _ m H).
    unfold labels. rewrite (proj1 (proj1 loose_ids _ _ H m)). reflexivity.
Qed.
Theorem nested_compile m a : (if accepts m (nested m a) then Some (cpp m None (nested m a)) else None) = compile m a.
Proof. unfold compile. pose proof (proj1 nested_loose a m) as L. rewrite (proj1 loose_code _ _ L), (proj2 (proj2 (proj2 (proj1 loose_ids _ _ L m)))). reflexivity. Qed.

(** ** Types by the types in them *)
Section type_induct.
Context (P : type -> Prop).
Context (Hsimple : forall k, P (TSimple k)) (Hinteger : forall l, P (TInteger l)) (Henum : forall l b, P (TEnumerated l b)) (Hfield : forall d l, P (TField d l))
  (Hchoice : forall alts, Forall (fun e => P (snd e)) alts -> P (ParserTree.TChoice alts))
  (Hrecord : forall set cs ext, Forall (fun c => match c with Comp _ u _ _ _ => P u end) cs -> P (TRecord set cs ext))
  (Hlist : forall set n u, P u -> P (TListOf set n u)) (Htagged : forall g kw u, P u -> P (TTagged g kw u)) (Href : forall d, P (TRef d)).
Fixpoint type_induct (t : type) : P t :=
  match t with
  | TSimple k => Hsimple k
  | TInteger l => Hinteger l
  | TEnumerated l b => Henum l b
  | TField d l => Hfield d l
  | ParserTree.TChoice alts => Hchoice alts ((fix go l : Forall (fun e => P (snd e)) l := match l with [] => Forall_nil _ | e :: l => Forall_cons e (type_induct (snd e)) (go l) end) alts)
  | TRecord set cs ext =>
      Hrecord set cs ext ((fix go l : Forall (fun c => match c with Comp _ u _ _ _ => P u end) l :=
        match l with [] => Forall_nil _ | c :: l => @Forall_cons _ (fun c => match c with Comp _ u _ _ _ => P u end) c l (match c with Comp _ u _ _ _ => type_induct u end) (go l) end) cs)
  | TListOf set n u => Hlist set n u (type_induct u)
  | TTagged g kw u => Htagged g kw u (type_induct u)
  | TRef d => Href d
  end.
End type_induct.

Lemma nmap_cons {A} (f : A -> nest_state -> A * nest_state) x l s : nmap f (x :: l) s = let (x', s) := f x s in let (l', s) := nmap f l s in (x' :: l', s).
Proof. reflexivity. Qed.
Lemma nmap_incl {A} (f : A -> nest_state -> A * nest_state) l : Forall (fun x => forall s x' s', f x s = (x', s') -> incl (snd s) (snd s')) l ->
  forall s l' s', nmap f l s = (l', s') -> incl (snd s) (snd s').
Proof.
  induction 1 as [|x l H _ IH]; intros s l' s' E; [injection E as <- <-; apply incl_refl|]. rewrite nmap_cons in E.
  destruct (f x s) as [x1 s1] eqn:E1. destruct (nmap f l s1) as [l1 s2] eqn:E2. injection E as <- <-.
  eapply incl_tran; [eapply H, E1|eapply IH, E2].
Qed.
Lemma hoist_incl md t s t' s' : hoist md t s = (t', s') -> incl (snd s) (snd s').
Proof. unfold hoist. destruct (unnamed_prefix t); intros [= <- <-]; [apply incl_appl|]; apply incl_refl. Qed.
Lemma find_nested_incl md t : forall s t' s', find_nested md t s = (t', s') -> incl (snd s) (snd s').
Proof.
  induction t as [| | | |alts IH|set cs ext IH|set n u IH|g kw u IH|] using type_induct; intros s t' s' E; cbn [find_nested] in E; try (injection E as <- <-; apply incl_refl).
  - match type of E with context [nmap ?f alts s] => destruct (nmap f alts s) as [l1 s1] eqn:E1 end. injection E as <- <-. eapply nmap_incl; [|exact E1].
    eapply Forall_impl; [|exact IH]. intros [x u] H s0 x' s2 K. cbn [fst snd] in *. destruct (find_nested md u s0) eqn:K1. injection K as <- <-. eapply H, K1.
  - match type of E with context [nmap ?f cs s] => destruct (nmap f cs s) as [l1 s1] eqn:E1 end. injection E as <- <-. eapply nmap_incl; [|exact E1].
    eapply Forall_impl; [|exact IH]. intros [x u o d co] H s0 x' s2 K. cbn [fst snd] in *. destruct (find_nested md u s0) eqn:K1. injection K as <- <-. eapply H, K1.
  - destruct (find_nested md u s) as [u1 s1] eqn:E1. destruct (hoist md u1 s1) as [u2 s2] eqn:E2. injection E as <- <-. eapply incl_tran; [eapply IH, E1|eapply hoist_incl, E2].
  - destruct (find_nested md u s) as [u1 s1] eqn:E1. destruct (hoist md u1 s1) as [u2 s2] eqn:E2. injection E as <- <-. eapply incl_tran; [eapply IH, E1|eapply hoist_incl, E2].
Qed.
Lemma find_nested_head md t s t' s' : find_nested md t s = (t', s') -> unnamed_prefix t' = unnamed_prefix t /\ is_ref t' = is_ref t /\ (is_ref t = true -> t' = t).
Proof.
  destruct t; cbn [find_nested]; intros E; try (injection E as <- <-; auto; fail).
  - match type of E with context [nmap ?f ?l s] => destruct (nmap f l s) end. injection E as <- <-. repeat split; discriminate.
  - match type of E with context [nmap ?f ?l s] => destruct (nmap f l s) end. injection E as <- <-. repeat split; discriminate.
  - destruct (find_nested md t s) as [u1 s1]. destruct (hoist md u1 s1). injection E as <- <-. repeat split; discriminate.
  - destruct (find_nested md t s) as [u1 s1]. destruct (hoist md u1 s1). injection E as <- <-. repeat split; discriminate.
Qed.
(** Tagged references stay as they are. *)
Lemma find_nested_tagged md t : forall s t' s', find_nested md t s = (t', s') -> bare_tagged_ref t' = bare_tagged_ref t /\ (is_tagged_ref t = true -> t' = t).
Proof.
  induction t; cbn [find_nested]; intros s t' s' E; try (injection E as <- <-; split; [reflexivity|discriminate]).
  - match type of E with context [nmap ?f ?l s] => destruct (nmap f l s) end. injection E as <- <-. split; [reflexivity|discriminate].
  - match type of E with context [nmap ?f ?l s] => destruct (nmap f l s) end. injection E as <- <-. split; [reflexivity|discriminate].
  - destruct (find_nested md t s) as [u1 s1]. destruct (hoist md u1 s1). injection E as <- <-. split; [reflexivity|discriminate].
  - destruct (find_nested md t s) as [u1 s1] eqn:E1. destruct (hoist md u1 s1) as [u2 s2] eqn:E2. injection E as <- <-. destruct (IHt _ _ _ E1) as (I1 & I2). apply find_nested_head in E1 as (H1 & H2 & H3). unfold hoist in E2. destruct (is_ref t) eqn:R.
    + rewrite (H3 eq_refl) in *. destruct t; try discriminate R. cbn in E2. injection E2 as <- <-. split; reflexivity.
    + cbn [bare_tagged_ref is_tagged_ref]. rewrite R. cbn [orb]. destruct (unnamed_prefix u1) eqn:Up; injection E2 as <- <-.
      * destruct t; try discriminate R; try discriminate H1; split; try reflexivity; discriminate.
      * split; [|intros T; rewrite (I2 T); reflexivity]. rewrite I1. f_equal. destruct t; try discriminate R; destruct u1; try discriminate H2; reflexivity.
Qed.
Lemma universal_not_10 k : (universal_of k =? 10)%Z = false. Proof. destruct k; try reflexivity. destruct c; reflexivity. Qed.
Lemma taken_out_elab n tr site m u a md : elab n tr site m u = Some a ->
  taken_out md (nested md a) = match unnamed_prefix u with Some _ => ADef md (nested md a) | None => nested md a end.
Proof.
  destruct n; [discriminate|]. cbn [elab]. intros E. destruct u.
  - destruct (class_of_simple k); [|discriminate]. cbn in E. injection E as <-. cbn [nested taken_out unnamed_prefix]. rewrite universal_not_10. reflexivity.
  - injection E as <-. reflexivity.
  - injection E as <-. reflexivity.
  - discriminate.
  - destruct (traverse _ choices); [|discriminate]. injection E as <-. reflexivity.
  - destruct (traverse _ components); [|discriminate]. injection E as <-. destruct set; reflexivity.
  - destruct (elab _ _ _ _ _); [|discriminate]. injection E as <-. reflexivity.
  - destruct tag as [c k]. destruct (elab _ _ _ _ _); [|discriminate]. injection E as <-. reflexivity.
  - destruct d as [mo x [|]]; [|discriminate]. destruct (module_named _ _); [|discriminate]. destruct (type_named _ _); [|discriminate]. destruct (_ && _); [discriminate|]. destruct (elab _ _ _ _ _); [|discriminate]. injection E as <-. reflexivity.
Qed.

(** ** Types that most passes leave alone *)
Fixpoint simple_type (t : type) : bool :=
  match t with
  | TSimple _ | TInteger _ | TEnumerated _ _ => true
  | TField _ _ => false
  | ParserTree.TChoice alts => forallb (fun e => simple_type (snd e)) alts
  | TRecord _ cs _ => forallb (fun c => match c with Comp _ u _ _ co => simple_type u && match co with None => true | Some _ => false end end) cs
  | TListOf _ _ u | TTagged _ _ u => simple_type u
  | TRef (Defined _ _ args) => match args with [] => true | _ :: _ => false end
  end.
Lemma elab_simple n : forall tr site m t a, elab n tr site m t = Some a -> simple_type t = true.
Proof.
  induction n as [|n IH]; intros tr site m t a E; [discriminate|]. cbn [elab] in E. destruct t; try reflexivity.
  - discriminate.
  - destruct (traverse _ choices) as [r|] eqn:T; [|discriminate]. clear E. cbn [simple_type]. revert r T. induction choices as [|e l IHl]; intros r T; [reflexivity|]. cbn in *.
    destruct (elab n tr m m (snd e)) eqn:X; [|discriminate]. destruct (traverse _ l); [|discriminate]. rewrite (IH _ _ _ _ _ X). eapply IHl; reflexivity.
  - destruct (traverse _ components) as [r|] eqn:T; [|discriminate]. clear E. cbn [simple_type]. revert r T. induction components as [|[? u ? ? [?|]] l IHl]; intros r T; [reflexivity|discriminate|]. cbn in *.
    destruct (elab n tr m m u) eqn:X; [|discriminate]. destruct (traverse _ l); [|discriminate]. rewrite (IH _ _ _ _ _ X). eapply IHl; reflexivity.
  - destruct (elab n tr m m t) eqn:X; [|discriminate]. exact (IH _ _ _ _ _ X).
  - destruct tag. destruct (elab n tr _ m t) eqn:X; [|discriminate]. exact (IH _ _ _ _ _ X).
  - destruct d as [? ? [|]]; [reflexivity|discriminate].
Qed.

(** ** What is found in the modules afterwards *)
Definition known (m : module) (s : nest_state) : Prop := forall p, In p (snd s) -> type_named m (fst p) = Some (snd p).
Record mirrored (m m' : module) : Prop := {
  mi_name : m_name m' = m_name m; mi_tagging : m_tagging m' = m_tagging m;
  mi_types : forall r t, simple_type t = true -> type_named m r = Some t -> exists s t' s', find_nested (m_name m) t s = (t', s') /\ type_named m' r = Some t' /\ known m' s' }.
Lemma known_incl m s s' : known m s' -> incl (snd s) (snd s') -> known m s. Proof. intros K I p Hp. apply K, I, Hp. Qed.
Section nest.
Context (tr tr' : list module).
Context (Hmirror : forall x m, module_named tr x = Some m -> exists m', module_named tr' x = Some m' /\ mirrored m m').
Theorem nest_elab n : forall site m t a s t' s' site' m', elab n tr site m t = Some a -> module_named tr' (m_name m) = Some m' -> m_name m' = m_name m -> m_tagging m' = m_tagging m ->
  find_nested (m_name m) t s = (t', s') -> known m' s' -> (is_ref t || is_tagged_ref t = true -> m_name site' = m_name site) ->
  elab (2 * n) tr' site' m' t' = Some (nested (mode_of (m_tagging m)) a).
Proof.
  induction n as [|n IH]; intros site m t a s t' s' site' m' E Hm Hn Hg F K Hsite; [discriminate|].
  assert (Hoist : forall site0 site0' u b s u1 s1 u2 s2, elab n tr site0 m u = Some b -> find_nested (m_name m) u s = (u1, s1) -> hoist (m_name m) u1 s1 = (u2, s2) -> known m' s2 ->
    (is_ref u || is_tagged_ref u = true -> m_name site0' = m_name site0) -> elab (S (2 * n)) tr' site0' m' u2 = Some (taken_out (mode_of (m_tagging m)) (nested (mode_of (m_tagging m)) b))).
  { clear - IH Hm Hn Hg. intros site0 site0' u b s u1 s1 u2 s2 E F H K Hs. rewrite (taken_out_elab _ _ _ _ _ _ _ E). pose proof (find_nested_head _ _ _ _ _ F) as (H1 & _). pose proof (hoist_incl _ _ _ _ _ H) as I.
    unfold hoist in H. rewrite H1 in H. destruct (unnamed_prefix u) as [p|] eqn:Eu; injection H as <- <-.
    - pose proof (K ((p ++ to_string (fst s1))%string, u1) ltac:(apply in_or_app; right; left; reflexivity)) as KN. cbn [fst snd] in KN. cbn [elab]. rewrite Hm, KN.
      assert (Z : bare_tagged_ref u1 = false /\ is_ref u1 || is_tagged_ref u1 = false) by (destruct u1; try discriminate H1; auto). destruct Z as (-> & ->). cbn [andb].
      rewrite (IH _ _ _ _ _ _ _ m' m' E Hm Hn Hg F (known_incl _ _ _ K I)); [rewrite Hg; reflexivity|]. destruct u; try discriminate Eu; discriminate.
    - eapply elab_mono; [|eapply IH; eauto]. lia. }
  replace (2 * S n)%nat with (S (S (2 * n))) by lia. cbn [elab] in E. remember (S (2 * n)) as n2 eqn:En2. cbn [elab].
  destruct t.
  - cbn in F. injection F as <- <-. destruct (class_of_simple k); [|discriminate]. injection E as <-. reflexivity.
  - cbn in F. injection F as <- <-. injection E as <-. reflexivity.
  - cbn in F. injection F as <- <-. injection E as <-. reflexivity.
  - discriminate.
  - cbn [find_nested] in F. match type of F with context [nmap ?f choices s] => destruct (nmap f choices s) as [l1 s1] eqn:E1 end. injection F as <- <-.
    destruct (traverse _ choices) as [r|] eqn:Tr; [|discriminate]. injection E as <-.
    enough (G : traverse (fun e => option_map (pair Mand) (elab n2 tr' m' m' (snd e))) l1 = Some (map (fun p => (fst p, nested (mode_of (m_tagging m)) (snd p))) r)).
    { rewrite G. cbn [option_map nested]. do 2 f_equal. clear. induction r as [|[k a] r IH]; [reflexivity|]. cbn. rewrite IH. reflexivity. }
    clear Hsite. revert s r l1 s1 Tr E1 K. induction choices as [|[x u] choices IHc]; intros s r l1 s1 Tr E1 K; cbn in Tr; try rewrite nmap_cons in E1; cbn [fst snd] in E1.
    + injection Tr as <-. injection E1 as <- <-. reflexivity.
    + destruct (elab n tr m m u) as [b|] eqn:Eb; [|discriminate]. cbn in Tr. destruct (traverse _ choices) as [r1|] eqn:Tr1; [|discriminate]. injection Tr as <-.
      destruct (find_nested (m_name m) u s) as [u1 s2] eqn:F1. match type of E1 with context [nmap ?f choices s2] => destruct (nmap f choices s2) as [l2 s3] eqn:E2 end. injection E1 as <- <-.
      assert (I : incl (snd s2) (snd s3)). { eapply nmap_incl; [|exact E2]. apply Forall_forall. intros e _ t0 x' t1 Q. cbn beta in Q. destruct (find_nested (m_name m) (snd e) t0) eqn:Q1. injection Q as <- <-. eapply find_nested_incl, Q1. }
      cbn [traverse snd fst map]. rewrite (elab_mono (2 * n) n2 tr' m' m' u1 _ ltac:(lia) (IH _ _ _ _ _ _ _ m' m' Eb Hm Hn Hg F1 (known_incl _ _ _ K I) ltac:(intros _; exact Hn))).
      cbn [option_map]. rewrite (IHc s2 r1 l2 s3 eq_refl E2 K). reflexivity.
  - cbn [find_nested] in F. match type of F with context [nmap ?f components s] => destruct (nmap f components s) as [l1 s1] eqn:E1 end. injection F as <- <-.
    destruct (traverse _ components) as [r|] eqn:Tr; [|discriminate]. injection E as <-.
    enough (G : traverse (fun c => match c with Comp _ u o d None => option_map (pair (Elab.kind_of o d)) (elab n2 tr' m' m' u) | Comp _ _ _ _ (Some _) => None end) l1 = Some (map (fun p => (fst p, nested (mode_of (m_tagging m)) (snd p))) r)).
    { rewrite G. cbn [option_map]. assert (N : forall r, acomps_of (map (fun p => (fst p, nested (mode_of (m_tagging m)) (snd p))) r) = nested_comps (mode_of (m_tagging m)) (acomps_of r)) by (clear; induction r as [|[k a] r IH]; [reflexivity|]; cbn; rewrite IH; reflexivity).
      rewrite N. destruct set; reflexivity. }
    clear Hsite. revert s r l1 s1 Tr E1 K. induction components as [|[x u o d [co|]] components IHc]; intros s r l1 s1 Tr E1 K; cbn in Tr; try rewrite nmap_cons in E1; cbn [fst snd] in E1.
    + injection Tr as <-. injection E1 as <- <-. reflexivity.
    + discriminate.
    + destruct (elab n tr m m u) as [b|] eqn:Eb; [|discriminate]. cbn in Tr. destruct (traverse _ components) as [r1|] eqn:Tr1; [|discriminate]. injection Tr as <-.
      destruct (find_nested (m_name m) u s) as [u1 s2] eqn:F1. match type of E1 with context [nmap ?f components s2] => destruct (nmap f components s2) as [l2 s3] eqn:E2 end. injection E1 as <- <-.
      assert (I : incl (snd s2) (snd s3)). { eapply nmap_incl; [|exact E2]. apply Forall_forall. intros [? u0 ? ? ?] _ t0 x' t1 Q. cbn beta iota in Q. destruct (find_nested (m_name m) u0 t0) eqn:Q1. injection Q as <- <-. eapply find_nested_incl, Q1. }
      cbn [traverse snd fst map]. rewrite (elab_mono (2 * n) n2 tr' m' m' u1 _ ltac:(lia) (IH _ _ _ _ _ _ _ m' m' Eb Hm Hn Hg F1 (known_incl _ _ _ K I) ltac:(intros _; exact Hn))).
      cbn [option_map]. rewrite (IHc s2 r1 l2 s3 eq_refl E2 K). reflexivity.
  - cbn [find_nested] in F. destruct (find_nested (m_name m) t s) as [u1 s1] eqn:F1. destruct (hoist (m_name m) u1 s1) as [u2 s2] eqn:F2. injection F as <- <-.
    destruct (elab n tr m m t) as [b|] eqn:Eb; [|discriminate]. injection E as <-. subst n2. rewrite (Hoist m m' _ _ _ _ _ _ _ Eb F1 F2 K ltac:(intros _; exact Hn)). reflexivity.
  - cbn [find_nested] in F. destruct (find_nested (m_name m) t s) as [u1 s1] eqn:F1. destruct (hoist (m_name m) u1 s1) as [u2 s2] eqn:F2. injection F as <- <-. destruct tag as [c k].
    destruct (elab n tr (if is_ref t || is_tagged_ref t then site else m) m t) as [b|] eqn:Eb; [|discriminate]. injection E as <-. subst n2.
    rewrite (Hoist _ (if is_ref u2 || is_tagged_ref u2 then site' else m') _ _ _ _ _ _ _ Eb F1 F2 K); [reflexivity|]. intros R. pose proof (find_nested_head _ _ _ _ _ F1) as (H1 & H2 & H3). pose proof (find_nested_tagged _ _ _ _ _ F1) as (_ & H4).
    rewrite R. assert (u1 = t) by (apply orb_true_iff in R as [R|R]; auto). subst u1. assert (u2 = t) by (unfold hoist in F2; destruct t; try discriminate R; cbn in F2; congruence). subst u2. rewrite R. apply Hsite. cbn. exact R.
  - cbn in F. injection F as <- <-. destruct d as [mo x [|]]; [|discriminate]. destruct (module_named tr _) as [m1|] eqn:Em1; [|discriminate]. destruct (type_named m1 x) as [u|] eqn:Eu; [|discriminate].
    destruct (bare_tagged_ref u && negb (m_name m1 =? m_name site)) eqn:G; [discriminate|].
    destruct (elab n tr _ m1 u) as [b|] eqn:Eb; [|discriminate]. injection E as <-.
    destruct (Hmirror _ _ Em1) as (m1' & Em1' & Mi). rewrite Hn, Em1'. destruct (mi_types _ _ Mi _ _ (elab_simple _ _ _ _ _ _ Eb) Eu) as (s0 & u' & s0' & F0 & Eu' & K0). rewrite Eu'.
    rewrite (mi_name _ _ Mi). rewrite (Hsite eq_refl). destruct (find_nested_tagged _ _ _ _ _ F0) as (T1 & T2). destruct (find_nested_head _ _ _ _ _ F0) as (_ & T3 & T4). rewrite T1, G.
    assert (Hm1 : module_named tr' (m_name m1) = Some m1').
    { assert (m_name m1 = match mo with Some y => y | None => m_name m end) by (clear - Em1; unfold module_named in Em1; apply find_some in Em1 as (_ & E); apply String.eqb_eq in E; exact E). congruence. }
    rewrite (elab_mono (2 * n) n2 tr' _ m1' u' _ ltac:(lia) (IH _ _ _ _ _ _ _ (if is_ref u' || is_tagged_ref u' then site' else m1') m1' Eb Hm1 (mi_name _ _ Mi) (mi_tagging _ _ Mi) F0 K0
      ltac:(intros R; destruct (is_ref u) eqn:Ru; [rewrite (T4 eq_refl) in *; rewrite Ru; cbn; apply Hsite; reflexivity|cbn in R; rewrite (T2 R) in *; rewrite Ru, R; cbn; apply Hsite; reflexivity]))).
    rewrite (mi_tagging _ _ Mi). reflexivity.
Qed.
End nest.

(** ** Trees with the same types under the same names *)
Definition keeps (tr tr' : list module) : Prop := forall x m, module_named tr x = Some m -> exists m', module_named tr' x = Some m' /\ m_name m' = m_name m /\ m_tagging m' = m_tagging m /\
  forall r t, simple_type t = true -> type_named m r = Some t -> type_named m' r = Some t.
Lemma keeps_trans a b c : keeps a b -> keeps b c -> keeps a c.
Proof.
  intros H1 H2 x m E. destruct (H1 x m E) as (m1 & E1 & N1 & T1 & K1). destruct (H2 x m1 E1) as (m2 & E2 & N2 & T2 & K2).
  exists m2. split; [exact E2|]. split; [congruence|]. split; [congruence|]. auto.
Qed.
Lemma elab_keeps tr tr' : keeps tr tr' -> forall n site m t a site' m', elab n tr site m t = Some a -> m_name m' = m_name m -> m_name site' = m_name site -> elab n tr' site' m' t = Some a.
Proof.
  intros H. induction n as [|n IH]; intros site m t a site' m' E Hm Hs; [discriminate|]. cbn [elab] in *. destruct t; auto.
  - destruct (traverse _ choices) as [r|] eqn:T in E; [|discriminate]. erewrite traverse_some; [exact E| |exact T]. intros e y Ey. cbn beta in *. destruct (elab n tr m m (snd e)) eqn:X; [|discriminate]. erewrite IH; [exact Ey|exact X|exact Hm|exact Hm].
  - destruct (traverse _ components) as [r|] eqn:T in E; [|discriminate]. erewrite traverse_some; [exact E| |exact T]. intros [? u ? ? [?|]] y Ey; [discriminate|]. cbn beta iota in *. destruct (elab n tr m m u) eqn:X; [|discriminate]. erewrite IH; [exact Ey|exact X|exact Hm|exact Hm].
  - destruct (elab n tr m m t) eqn:X; [|discriminate]. erewrite IH; [exact E|exact X|exact Hm|exact Hm].
  - destruct tag. destruct (elab n tr _ m t) eqn:X; [|discriminate]. erewrite IH; [exact E|exact X|exact Hm|]. destruct (is_ref t || is_tagged_ref t); assumption.
  - destruct d as [mo x [|]]; [|discriminate]. destruct (module_named tr _) as [m1|] eqn:Em; [|discriminate]. destruct (type_named m1 x) as [u|] eqn:Eu; [|discriminate].
    destruct (bare_tagged_ref u && negb (m_name m1 =? m_name site)) eqn:G; [discriminate|]. destruct (elab n tr _ m1 u) as [b|] eqn:Eb; [|discriminate]. injection E as <-.
    destruct (H _ _ Em) as (m2 & Em2 & N2 & T2 & K2). rewrite Hm, Em2, (K2 _ _ (elab_simple _ _ _ _ _ _ Eb) Eu), N2, Hs, G, T2.
    erewrite IH; [reflexivity|exact Eb|exact N2|]. destruct (is_ref u || is_tagged_ref u); assumption.
Qed.
