(** The declarations written for one type have no errors. *)
From Coq Require Import List String Ascii ZArith Bool Lia.
From Verif Require Import Base CompilerNames Ident Prims Schema ParserTree Compiler Elab HeaderSpec CppSpec Header HeaderIds HeaderSound HeaderCreate HeaderCheck ExpressSpec ExpressNames.
Import ListNotations.
Local Open Scope string_scope.
Local Open Scope list_scope.

Definition is_struct (c : ty) : bool := match c with TSeq _ _ | TSet _ _ _ | Schema.TChoice _ _ _ => true | _ => false end.
Lemma core_behind t : core t = behind_tags t. Proof. induction t; auto. Qed.
Lemma generated_structure t : generated t = structure (behind_tags t). Proof. induction t; auto. Qed.
Lemma behind_inside t : inside (behind_tags t) t. Proof. rewrite <- core_behind. apply core_inside. Qed.
Lemma behind_not_tagged t g kw u : behind_tags t <> TTagged g kw u. Proof. induction t; cbn; auto; discriminate. Qed.
Lemma named_same {A B} (f : A -> B) l a b : NoDup (map f l) -> In a l -> In b l -> f a = f b -> a = b.
Proof.
  induction l as [|x l IH]; intros N Ia Ib E; [destruct Ia|]. cbn in N. inversion N as [|? ? N1 N2]; subst. destruct Ia as [->|Ia], Ib as [->|Ib]; [reflexivity| | |apply IH; assumption].
  - destruct N1. rewrite E. apply in_map, Ib.
  - destruct N1. rewrite <- E. apply in_map, Ia.
Qed.

Section Create.
Context (T : list module) (SEP : separate T) (EX : expressible T) (BARE : forall m, In m T -> m_imports m = []).

(** * References *)
Lemma assigned_unique m m' x u u' : assigned T m x u -> assigned T m' x u' -> m_name m = m_name m' -> m = m' /\ u = u'.
Proof.
  intros (H1 & ps & I1) (H2 & ps' & I2) E. pose proof (named_same m_name T m m' (proj1 (ex_modules T EX)) H1 H2 E) as <-. split; [reflexivity|].
  pose proof (named_same a_name (m_assigns m) _ _ (proj1 (sp_assignments T SEP m H1)) I1 I2 eq_refl) as E'. congruence.
Qed.
Lemma leads_unique m t r : leads T m t r -> forall r', leads T m t r' -> r = r'.
Proof.
  induction 1 as [m r R N|m g kw u r L IH|m mo x ps m' u r A E L IH]; intros r' L'.
  - inversion L'; subst; try reflexivity; [destruct (N _ _ _ eq_refl)|discriminate].
  - inversion L' as [? ? ? N'| |]; subst; [destruct (N' _ _ _ eq_refl)|apply IH; assumption].
  - inversion L' as [? ? R'| |]; subst; [discriminate|]. assert (X : m' = m'0 /\ u = u0) by (apply (assigned_unique _ _ x); [assumption|assumption|congruence]). destruct X as (<- & <-). apply IH. assumption.
Qed.
Lemma leads_behind m t : reference (behind_tags t) = false -> leads T m t (behind_tags t).
Proof. induction t; cbn; intros R; try (apply le_end; [exact R|intros ? ? ?; discriminate]). apply le_tag. auto. Qed.
Lemma follow_assigned mw mo y ps w m1 : follow T mw (Defined mo y ps) = Some (w, m1) -> ps = [] /\ assigned T m1 y w /\ m_name m1 = match mo with Some N => N | None => m_name mw end /\ In m1 T.
Proof.
  intros H. destruct (follow_elab T BARE _ _ _ _ _ _ H) as (-> & Em & Ew & Hm1 & A). split; [reflexivity|]. split; [exact A|]. split; [|exact Hm1]. apply (module_named_in T _ _ Em).
Qed.
Lemma follow_leads mw mo y ps w m1 r : follow T mw (Defined mo y ps) = Some (w, m1) -> leads T m1 w r -> leads T mw (TRef (Defined mo y ps)) r.
Proof. intros H L. destruct (follow_assigned _ _ _ _ _ _ H) as (-> & A & E & _). apply (le_ref _ _ _ _ _ m1 w); assumption. Qed.
Lemma follow_unleads mw mo y ps w m1 r : follow T mw (Defined mo y ps) = Some (w, m1) -> leads T mw (TRef (Defined mo y ps)) r -> leads T m1 w r.
Proof.
  intros H L. destruct (follow_assigned _ _ _ _ _ _ H) as (-> & A & E & _). inversion L as [? ? R| |]; subst; [discriminate|].
  assert (X : m1 = m' /\ w = u) by (apply (assigned_unique _ _ y); [assumption|assumption|congruence]). destruct X as (<- & <-). assumption.
Qed.
Lemma tags_end m x w : assigned T m x w -> reference w = false -> (forall g kw d, w <> TTagged g kw (TRef d)) -> reference (behind_tags w) = false.
Proof.
  intros A R N. destruct w as [| | | | | | |g kw v|]; try reflexivity; [|discriminate]. cbn. destruct v as [| | | | | | |g' kw' v|d]; try reflexivity; [|destruct (N _ _ _ eq_refl)]. cbn. apply (ex_tags T EX m x g kw g' kw' v A).
Qed.
Lemma resolve_leads fuel : forall cur mw d x u m2, In cur T -> In mw T -> resolve_ref fuel T cur mw d = Some (x, u, m2) ->
  leads T mw (TRef d) (behind_tags u) /\ reference (behind_tags u) = false /\ occurs T (behind_tags u).
Proof.
  induction fuel as [|fuel IH]; intros cur mw d x u m2 Hc Hw R; [discriminate|]. cbn [resolve_ref] in R. destruct d as [mo y ps].
  destruct (follow T mw (Defined mo y ps)) as [[w m1]|] eqn:Fo; [|discriminate]. destruct (follow_assigned _ _ _ _ _ _ Fo) as (-> & A & E & Hm1).
  assert (Base : reference w = false -> (forall g kw d, w <> TTagged g kw (TRef d)) -> u = w -> leads T mw (TRef (Defined mo y [])) (behind_tags u) /\ reference (behind_tags u) = false /\ occurs T (behind_tags u)).
  { intros R1 R2 ->. pose proof (tags_end _ _ _ A R1 R2) as B. split; [|split; [exact B|]].
    - apply (follow_leads _ _ _ _ _ _ _ Fo). apply leads_behind, B.
    - apply (occurs_inside T _ _ (assigned_occurs T _ _ _ A) (behind_inside w)). }
  destruct w as [k|ns|vs e|d fs|alts|set cs ext|set z v|g kw v|d']; try (injection R as <- <- <-; apply Base; [reflexivity|discriminate|reflexivity]).
  - destruct v as [k|ns|vs e|d fs|alts|set cs ext|set z v|g' kw' v|d']; try (injection R as <- <- <-; apply Base; [reflexivity|discriminate|reflexivity]).
    destruct (resolve_ref fuel T cur cur d') as [[[x' u'] m'']|] eqn:R'; [|discriminate]. injection R as <- <- <-.
    destruct (IH cur cur d' x' u' m'' Hc Hc R') as (L & N & O). cbn [behind_tags]. split; [|split; assumption].
    apply (follow_leads _ _ _ _ _ _ _ Fo). apply le_tag.
    assert (AW : anywhere T d') by (apply (proj2 (assigned_refs T SEP m1 y _ A d' eq_refl) eq_refl)).
    destruct (anywhere_same T d' cur m1 AW Hc Hm1) as (S1 & _ & _). destruct d' as [mo' y' ps'].
    inversion L as [? ? X| |? ? ? ? m3 u3 ? A3 E3 L3]; subst; [discriminate|]. apply (le_ref _ _ _ _ _ m3 u3); [exact A3| |exact L3].
    destruct mo' as [N'|]; [exact E3|]. destruct AW as [L1|X]; [|discriminate]. rewrite E3. f_equal. apply (in_one T cur m1 L1 Hc Hm1).
  - destruct (IH cur m1 d' x u m2 Hc Hm1 R) as (L & N & O). split; [|split; assumption]. apply (follow_leads _ _ _ _ _ _ _ Fo). exact L.
Qed.
Lemma resolve_named_leads fuel : forall m t name x r m2, In m T -> resolve_named fuel T m name t = Some (x, r, m2) -> leads T m t (behind_tags r).
Proof.
  intros m t. induction t as [k|ns|vs e|d0 fl|alts|set cs ext|set y u IH|g kw u IH|d0]; intros name x r m2 Hm R; cbn [resolve_named] in R;
    try (injection R as <- <- <-; apply le_end; [reflexivity|discriminate]).
  - apply le_tag. apply (IH name x r m2 Hm R).
  - apply (resolve_leads _ _ _ _ _ _ _ Hm Hm R).
Qed.

Context (fs : list func) (FS1 : distinct_paths fs = true).
Context (m : module) (Hm : In m T) (Hmod : module_named T (m_name m) = Some m).
(** [u] is written in this module. *)
Definition here (u : type) : Prop := exists n t, assigned T m n t /\ inside u t.
Lemma here_inside u v : here u -> inside v u -> here v.
Proof. intros (n & t & A & I) J. exists n, t. split; [exact A|]. apply (inside_trans _ _ _ J I). Qed.
Lemma here_occurs u : here u -> occurs T u. Proof. intros (n & t & A & I). exists m, n, t. auto. Qed.
Lemma ref_direct fuel mo y ps x r m2 : here (TRef (Defined mo y ps)) -> resolve_ref fuel T m m (Defined mo y ps) = Some (x, r, m2) -> list_or_enumeration (behind_tags r) = true ->
  follow T m (Defined mo y ps) = Some (r, m) /\ x = y /\ m2 = m /\ behind_tags r = r /\ (mo = None \/ mo = Some (m_name m)).
Proof.
  intros (n & t & A & I) R L. destruct (resolve_leads _ _ _ _ _ _ _ Hm Hm R) as (Le & _ & _). destruct (ex_references T EX m n t mo y ps _ A I Le L) as (A' & Ho). destruct fuel as [|fuel]; [discriminate|]. cbn [resolve_ref] in R.
  destruct (follow T m (Defined mo y ps)) as [[w m1]|] eqn:Fo; [|discriminate]. destruct (follow_assigned _ _ _ _ _ _ Fo) as (_ & A1 & E & _).
  assert (X : m1 = m /\ w = behind_tags r) by (apply (assigned_unique _ _ y); [assumption|assumption|rewrite E; destruct Ho as [-> | ->]; reflexivity]). destruct X as (-> & Ew).
  destruct (behind_tags r) eqn:B; try discriminate; subst w; injection R as <- <- <-; auto.
Qed.

(** What the references of a type stand for has been declared. *)
Definition ready (E : env) (t : type) : Prop := forall mo y ps w m1, inside (TRef (Defined mo y ps)) t -> follow T m (Defined mo y ps) = Some (w, m1) ->
  exists c, lookup_in E (match mo with Some N => N | None => m_name m end) y = Some (Type_ c) /\ (forall r, leads T m1 w r -> structure r = true -> is_struct c = true) /\
    (m_name m1 = m_name m -> (is_list w = true -> reference (behind_tags w) = false -> behind_tags w = w -> assoc (e_names E) (y ++ "Contained") <> None) /\ (enumeration w = true -> assoc (e_names E) (y ++ "Values") <> None)).
Lemma ready_after E E' t : after E E' -> ready E t -> ready E' t.
Proof.
  intros A R mo y ps w m1 I F. destruct (R mo y ps w m1 I F) as (c & H1 & H2 & H3). exists c. split; [apply (after_lookup_in _ _ _ _ _ A H1)|]. split; [exact H2|]. intros Em. destruct (H3 Em) as (H4 & H5).
  assert (X : forall n, assoc (e_names E) n <> None -> assoc (e_names E') n <> None). { intros n. destruct (assoc (e_names E) n) as [e|] eqn:An; [|congruence]. intros _. rewrite (after_names _ _ _ _ A An). discriminate. }
  split; [intros; apply X, H4; assumption|intros; apply X, H5; assumption].
Qed.
Lemma ready_inside E t u : inside u t -> ready E t -> ready E u.
Proof. intros I R mo y ps w m1 J. apply R. apply (inside_trans _ _ _ J I). Qed.
Lemma ready_open n E t : ready E t -> ready (open_class n E) t. Proof. intros R. exact R. Qed.

(** * Types written in place *)
Lemma eval_lib E c id : fine E -> sure id -> assoc library_classes c <> None -> exists t, eval_type E (XLib c id) = Some (Type_ t).
Proof.
  intros F (S1 & j & S2) N. cbn [eval_type]. rewrite (library_visible E _ F S1), S2. destruct (assoc library_classes c) as [k|]; [|congruence]. eauto.
Qed.
Lemma class_known k : has_class k = true -> assoc library_classes (class_name k) <> None.
Proof. destruct k as [| | | | | | | | | | | | | | | | | | | | |[]]; cbn [has_class]; intros H; try discriminate H; vm_compute; discriminate. Qed.
Lemma tas_plain fuel : forall r x id e, type_as_string fuel T m r x id = Some e -> structure (behind_tags r) = false -> reference (behind_tags r) = false -> list_or_enumeration (behind_tags r) = false -> occurs T (behind_tags r) ->
  exists c, e = XLib c id /\ assoc library_classes c <> None.
Proof.
  induction fuel as [|fuel IH]; intros r x id e H S R L O; [discriminate|]. cbn [type_as_string] in H. destruct r as [k|ns|vs ex|d fl|alts|set cs ext|set z v|g kw v|d]; try discriminate.
  - injection H as <-. eexists. split; [reflexivity|]. apply class_known. apply (ex_simple T EX k O).
  - injection H as <-. eexists. split; [reflexivity|]. vm_compute. discriminate.
  - destruct (identifier fuel T m _); [|discriminate]. apply (IH v "" id e H S R L O).
Qed.
(** Identifiers that are not of a CHOICE. *)
Definition no_choice (t : type) : Prop := forall fuel i, identifier fuel T m t = Some i -> ti_choice i = [].
Lemma tagged_choice fuel mm g kw u i : identifier fuel T mm (TTagged g kw u) = Some i -> ti_choice i = [].
Proof. destruct fuel as [|fuel]; [discriminate|]. destruct g as [c n]. cbn [identifier]. destruct (identifier fuel T mm u); [|discriminate]. destruct (_ || _); intros [= <-]; reflexivity. Qed.
Lemma plain_choice fuel mm t i : structure t = false -> reference t = false -> identifier fuel T mm t = Some i -> ti_choice i = [].
Proof.
  intros S R. destruct t as [k|ns|vs e|d fl|alts|set cs ext|set z v|g kw v|d]; try discriminate; [| | | | |apply tagged_choice]; (destruct fuel as [|fuel]; [discriminate|]); cbn [identifier]; try discriminate; try (intros [= <-]; reflexivity).
  destruct (has_identifier k); [|discriminate]. intros [= <-]. destruct (no_number k); reflexivity.
Qed.
Lemma resolve_choice fuel : forall f cur mw d x r m2 i, resolve_ref fuel T cur mw d = Some (x, r, m2) -> generated r = false -> identifier f T mw (TRef d) = Some i -> ti_choice i = [].
Proof.
  induction fuel as [|fuel IH]; intros f cur mw d x r m2 i R G H; [discriminate|]. cbn [resolve_ref] in R. destruct f as [|f]; [discriminate|]. cbn [identifier] in H. destruct (follow T mw d) as [[w m1]|] eqn:Fo; [|discriminate].
  destruct w as [k|ns|vs e|d0 fl|alts|set cs ext|set z v|g kw v|d']; try (destruct d; injection R as <- <- <-; first [discriminate G|eapply plain_choice; [| |exact H]; reflexivity]).
  - apply (tagged_choice _ _ _ _ _ _ H).
  - apply (IH _ _ _ _ _ _ _ _ R G H).
Qed.
Lemma record_no_choice set cs ext : no_choice (TRecord set cs ext).
Proof. intros [|fuel] i; [discriminate|]. cbn [identifier]. intros [= <-]. reflexivity. Qed.
Lemma override_sure fuel t ov id : override fuel T m t ov = Some id -> sure_opt ov -> (ov = None -> no_choice t) -> sure id.
Proof.
  intros H S N. destruct ov as [i|]; cbn in H; [injection H as <-; apply S; reflexivity|]. unfold id_text in H. destruct (identifier fuel T m t) as [i|] eqn:I; [|discriminate]. injection H as <-. apply (info_sure _ _ _ _ _ I). apply (N eq_refl fuel i I).
Qed.
Lemma free_assigned x u : assigned T m x u -> free library_names x /\ ~ made_up x.
Proof. intros (H & ps & I). apply (ex_names T EX m _ H I). Qed.
(** A reference. *)
Lemma ref_eval fuel fuel' mo y ps name id ov E e : here (TRef (Defined mo y ps)) -> override fuel' T m (TRef (Defined mo y ps)) ov = Some id -> sure_opt ov -> type_as_string fuel T m (TRef (Defined mo y ps)) name id = Some e ->
  fine E -> ready E (TRef (Defined mo y ps)) ->
  exists c, eval_type E e = Some (Type_ c) /\ forall r, leads T m (TRef (Defined mo y ps)) r -> structure r = true -> is_struct c = true.
Proof.
  intros He Ov So Ta F R. destruct fuel as [|fuel]; [discriminate|]. cbn [type_as_string] in Ta. destruct (resolve_ref fuel T m m (Defined mo y ps)) as [[[x' r] m2]|] eqn:Re; [|discriminate].
  destruct (resolve_leads _ _ _ _ _ _ _ Hm Hm Re) as (Le & Nr & Oc).
  destruct (resolve_name T _ _ _ _ _ _ _ _ _ Re) as (w & m1 & Fo). destruct (R mo y ps w m1 (in_self _) Fo) as (c & D1 & D2 & D3).
  rewrite generated_structure in Ta. destruct (structure (behind_tags r)) eqn:G.
  - injection Ta as <-. exists c. split; [exact D1|]. intros r' L'. apply (D2 r'). apply (follow_unleads _ _ _ _ _ _ _ Fo L').
  - assert (Su : sure id). { apply (override_sure _ _ _ _ Ov So). intros _ f i. apply (resolve_choice _ f _ _ _ _ _ _ _ Re). rewrite generated_structure. exact G. }
    assert (X : exists c, eval_type E e = Some (Type_ c)).
    { destruct (list_or_enumeration (behind_tags r)) eqn:L.
      - destruct (ref_direct _ _ _ _ _ _ _ He Re L) as (Fo' & -> & -> & B & Mo). rewrite B in *. rewrite Fo in Fo'. injection Fo' as -> ->. destruct (D3 eq_refl) as (D4 & D5).
        assert (Fy : free library_names y) by (destruct (follow_assigned _ _ _ _ _ _ Fo) as (_ & A & _ & _); apply (free_assigned _ _ A)).
        destruct Su as (S1 & j & S2). destruct fuel as [|fuel]; [discriminate|]. destruct r as [| |vs ex| | | |set z v| |]; try discriminate; cbn [type_as_string] in Ta; injection Ta as <-; cbn [eval_type].
        + rewrite (library_visible E _ F S1), S2. destruct (lookup_values E y F Fy (D5 eq_refl)) as (p & ->). eauto.
        + rewrite (library_visible E _ F), S2; [|apply incl_cons; [vm_compute; tauto|apply incl_cons; [vm_compute; tauto|exact S1]]]. destruct (lookup_contained_type E y F Fy (D4 eq_refl eq_refl eq_refl)) as (t & ->). eauto.
      - destruct (tas_plain _ _ _ _ _ Ta G Nr L Oc) as (cn & -> & Cn). apply (eval_lib E cn id F Su Cn). }
    destruct X as (c' & X). exists c'. split; [exact X|]. intros r' L' S'. rewrite (leads_unique _ _ _ Le _ L') in G. congruence.
Qed.

(** * Values *)
Lemma value_plain fuel : forall r x vt, value_type fuel T m r x = Some vt -> enumeration (behind_tags r) = false -> reference (behind_tags r) = false -> exists s, vt = VPlain s.
Proof.
  induction fuel as [|fuel IH]; intros r x vt H N R; [discriminate|]. cbn [value_type] in H. destruct r as [k|ns|vs ex|d fl|alts|set cs ext|set z v|g kw v|d]; try discriminate; try (injection H as <-; eauto; fail).
  - destruct k; injection H as <-; eauto.
  - destruct (identifier fuel T m _); [|discriminate]. apply (IH _ _ _ H N R).
Qed.
Lemma enum_ref E fuel mo y ps x r m2 : here (TRef (Defined mo y ps)) -> fine E -> ready E (TRef (Defined mo y ps)) -> resolve_ref fuel T m m (Defined mo y ps) = Some (x, r, m2) -> enumeration (behind_tags r) = true ->
  enum_known E (x ++ "Values") = true /\ r = behind_tags r.
Proof.
  intros He F R Re En. assert (L : list_or_enumeration (behind_tags r) = true) by (destruct (behind_tags r); try discriminate; reflexivity).
  destruct (ref_direct _ _ _ _ _ _ _ He Re L) as (Fo & -> & -> & B & Mo). destruct (R mo y ps r m (in_self _) Fo) as (c & _ & _ & D3). destruct (D3 eq_refl) as (_ & D5). rewrite B in En. split; [|congruence].
  assert (Fy : free library_names y) by (destruct (follow_assigned _ _ _ _ _ _ Fo) as (_ & A & _ & _); apply (free_assigned _ _ A)).
  unfold enum_known. destruct (lookup_values E y F Fy (D5 En)) as (p & ->). reflexivity.
Qed.
Lemma value_known fuel : forall u x vt E, value_type fuel T m u x = Some vt -> here u -> fine E -> ready E u -> enumeration (behind_tags u) = false -> match vt with VEnum v => enum_known E v = true | VPlain _ => True end.
Proof.
  induction fuel as [|fuel IH]; intros u x vt E H He F R N; [discriminate|]. cbn [value_type] in H. destruct u as [k|ns|vs ex|d fl|alts|set cs ext|set z v|g kw v|[mo y ps]]; try discriminate; try (injection H as <-; exact I).
  - destruct k; injection H as <-; exact I.
  - destruct (identifier fuel T m _); [|discriminate]. assert (Iv : inside v (TTagged g kw v)) by (constructor; constructor). apply (IH _ _ _ _ H (here_inside _ _ He Iv) F (ready_inside _ _ _ Iv R) N).
  - destruct (resolve_ref fuel T m m _) as [[[x' r] m2]|] eqn:Re; [|discriminate]. destruct (resolve_leads _ _ _ _ _ _ _ Hm Hm Re) as (_ & Nr & _).
    destruct (enumeration (behind_tags r)) eqn:En.
    + destruct (enum_ref E _ _ _ _ _ _ _ He F R Re En) as (K & B). rewrite <- B in En. destruct r; try discriminate. destruct fuel; [discriminate|]. cbn in H. injection H as <-. exact K.
    + destruct (value_plain _ _ _ _ H En Nr) as (s & ->). exact I.
Qed.
Lemma uses_known fuel u : forall x E y r m2 v, resolve_named fuel T m x u = Some (y, r, m2) -> here u -> fine E -> ready E u -> enumeration (behind_tags u) = false -> enum_used r y = Some v -> enum_known E v = true.
Proof.
  induction u as [k|ns|vs e|d0 fl|alts|set cs ext|set z u IH|g kw u IH|[mo z ps]]; intros x E y r m2 v R He F Rd N U; cbn [resolve_named] in R; try (injection R as <- <- <-; discriminate).
  - assert (Iv : inside u (TTagged g kw u)) by (constructor; constructor). apply (IH x E y r m2 v R (here_inside _ _ He Iv) F (ready_inside _ _ _ Iv Rd) N U).
  - destruct (enumeration (behind_tags r)) eqn:En.
    + destruct (enum_ref E _ _ _ _ _ _ _ He F Rd R En) as (K & B). destruct r; try discriminate. cbn in U. injection U as <-. exact K.
    + destruct r; discriminate.
Qed.

(** * Declarations *)
Definition fresh (E : env) (name : string) : Prop := forall n, extends name n -> innermost E n = None /\ class_is E n = false.
Definition fun_ready (E : env) (name : string) (t : type) : Prop := exists ff fl, functions ff T m (path E ++ [name]) t = Some fl /\ incl fl fs.
Definition flat (t : type) : Prop := forall v, inside v t -> structure v = false.
Definition classed (E : env) (name : string) (t : type) : Prop := (owner T name t /\ ~ made_up name /\ fun_ready E name t) \/ flat t.
Record result (E E' : env) (name : string) (t : type) : Prop := Result {
  rs_after : after E E';
  rs_fine : fine E';
  rs_adds : forall n, innermost E' n <> None -> innermost E n <> None \/ extends name n;
  rs_type : exists c, innermost E' name = Some (Type_ c) /\ forall r, leads T m t r -> structure r = true -> is_struct c = true;
  rs_list : is_list t = true -> innermost E' (name ++ "Contained") <> None;
  rs_enum : enumeration (behind_tags t) = true -> innermost E' (name ++ "Values") <> None
}.
Definition good_name (name : string) : Prop := free library_names name /\ forall p, name <> (p ++ "Values")%string.
Lemma good_contained name : good_name name -> good_name (name ++ "Contained").
Proof.
  intros ((N & D) & V). split; [split|].
  - apply library_not_suffixed. exists name. auto.
  - intros r H. destruct (default_contained name r H) as (r' & E). apply (D r' E).
  - intros p H. apply (contained_values name p H).
Qed.
Lemma entry_type name c : good_name name -> ok_entry name (Type_ c).
Proof. intros ((N & D) & V). constructor; [exact N| |]; intros x _ H; [destruct (V x H)|eauto]. Qed.
Lemma entry_enum name p : free library_names name -> ok_entry (name ++ "Values") (Enum_ p).
Proof. intros _. constructor; [apply library_not_suffixed; exists name; auto| |]; intros x _ H; [eauto|]. destruct (contained_values x name). symmetry. exact H. Qed.
Lemma fresh_name E name : fresh E name -> innermost E name = None /\ class_is E name = false. Proof. intros H. apply H. constructor. Qed.
Lemma fresh_contained E name : fresh E name -> fresh E (name ++ "Contained").
Proof. intros H n X. apply H. apply (extends_trans name (name ++ "Contained") n); [constructor; constructor|exact X]. Qed.
Lemma app_longer (name s : string) : s <> "" -> (name ++ s)%string <> name.
Proof. intros N H. apply (f_equal String.length) in H. rewrite slen_app in H. destruct s; [congruence|]. cbn in H. lia. Qed.
Lemma finish_add (introduce : bool) name e E c : eval_type E e = Some (Type_ c) -> innermost E name = None -> class_is E name = false -> run fs (if introduce then DAlias name e else DUsing name e) E = Some (add name (Type_ c) E).
Proof. intros H1 H2 H3. destruct introduce; cbn [run]; rewrite H1; apply declare_add; assumption. Qed.
(** One declaration of the name itself. *)
Lemma result_add E name t c : fine E -> fresh E name -> good_name name -> is_list t = false -> enumeration (behind_tags t) = false -> (forall r, leads T m t r -> structure r = true -> is_struct c = true) -> result E (add name (Type_ c) E) name t.
Proof.
  intros F Fr G L En St. destruct (fresh_name _ _ Fr) as (F1 & F2). constructor; try congruence.
  - apply after_add, F1.
  - apply fine_add; [exact F|]. apply entry_type, G.
  - intros n. rewrite innermost_add. destruct (String.eqb_spec name n) as [<-|]; [right; constructor|auto].
  - exists c. rewrite innermost_add, String.eqb_refl. auto.
Qed.
Lemma direct_result fuel fuel' t name ov id e E (introduce : bool) : here t -> fine E -> fresh E name -> good_name name -> sure_opt ov -> reference t = false -> structure t = false -> list_or_enumeration t = false -> behind_tags t = t ->
  override fuel' T m t ov = Some id -> type_as_string fuel T m t name id = Some e -> exists E', run_all (run fs) [if introduce then DAlias name e else DUsing name e : decl] E = Some E' /\ result E E' name t.
Proof.
  intros He F Fr G So R S L B Ov Ta. assert (Su : sure id) by (apply (override_sure _ _ _ _ Ov So); intros _ f i; apply (plain_choice f m t i S R)).
  destruct (tas_plain fuel t name id e Ta) as (cn & -> & Cn); rewrite ?B; auto; [apply here_occurs, He|]. destruct (eval_lib E cn id F Su Cn) as (c & Ev). destruct (fresh_name _ _ Fr) as (F1 & F2).
  exists (add name (Type_ c) E). rewrite run_all_cons, (finish_add introduce name _ E c Ev F1 F2). split; [reflexivity|]. apply result_add; auto; rewrite ?B.
  - destruct t; try reflexivity; try discriminate; exfalso; exact (behind_not_tagged _ _ _ _ B).
  - destruct t; try reflexivity; try discriminate; exfalso; exact (behind_not_tagged _ _ _ _ B).
  - intros r Le Sr. assert (X : leads T m t t) by (apply le_end; [exact R|intros g kw u; rewrite <- B; apply behind_not_tagged]). rewrite (leads_unique _ _ _ X _ Le) in S. congruence.
Qed.

Definition progress_at (fuel : nat) : Prop := forall name t ov (introduce : bool) ds E, create_type fuel T m name t ov introduce = Some ds -> here t -> sure_opt ov -> fine E -> ready E t -> fresh E name -> good_name name -> classed E name t ->
  exists E', run_all (run fs) ds E = Some E' /\ result E E' name t.
Lemma fun_ready_after E E' name t : after E E' -> fun_ready E name t -> fun_ready E' name t.
Proof. intros A. unfold fun_ready. rewrite (after_path _ _ A). auto. Qed.
Lemma classed_after E E' name t : after E E' -> classed E name t -> classed E' name t.
Proof. intros A [(H1 & H2 & H3)|H]; [left|right; exact H]. split; [exact H1|]. split; [exact H2|]. apply (fun_ready_after _ _ _ _ A H3). Qed.

(** ** Members *)
Lemma items_progress fuel (IH : progress_at fuel) : forall items i ds E,
  concat_map (fun i (it : string * type) => create_type fuel T m (capitalised (fst it)) (snd it) (member_id m i) false) i items = Some ds -> NoDup (map (fun it => capitalised (fst it)) items) -> fine E ->
  (forall x u, In (x, u) items -> here u /\ ready E u /\ fresh E (capitalised x) /\ good_name (capitalised x) /\ ~ made_up (capitalised x) /\ classed E (capitalised x) u) ->
  exists E', run_all (run fs) ds E = Some E' /\ after E E' /\ fine E' /\ (forall n, innermost E' n <> None -> innermost E n <> None \/ exists x u, In (x, u) items /\ extends (capitalised x) n) /\
    forall x u, In (x, u) items -> exists c, innermost E' (capitalised x) = Some (Type_ c) /\ forall r, leads T m u r -> structure r = true -> is_struct c = true.
Proof.
  induction items as [|[x u] items IHi]; intros i ds E C N F H.
  - injection C as <-. exists E. split; [reflexivity|]. split; [apply after_refl|]. split; [exact F|]. split; [auto|]. intros x u [].
  - apply concat_map_cons in C. destruct C as (d1 & d2 & C1 & C2 & ->). cbn [fst snd] in C1. cbn [map fst] in N. inversion N as [|? ? N1 N2]; subst.
    destruct (H x u (or_introl eq_refl)) as (He & Rd & Fr & G & Mu & Cl). destruct (IH _ _ _ _ _ _ C1 He (member_id_sure m i) F Rd Fr G Cl) as (E1 & R1 & [A1 F1 Ad1 Ty1 _ _]).
    destruct (IHi (S i) d2 E1 C2 N2 F1) as (E2 & R2 & A2 & F2 & Ad2 & Ty2).
    { intros y v Hy. destruct (H y v (or_intror Hy)) as (He' & Rd' & Fr' & G' & Mu' & Cl'). split; [exact He'|]. split; [apply (ready_after _ _ _ A1 Rd')|]. split; [|split; [exact G'|split; [exact Mu'|apply (classed_after _ _ _ _ A1 Cl')]]].
      intros n Hn. destruct (Fr' n Hn) as (X1 & X2). split; [|rewrite (after_class _ _ _ A1); exact X2]. destruct (innermost E1 n) eqn:In1; [|reflexivity]. destruct (Ad1 n) as [Y|Y]; [congruence|congruence|].
      exfalso. apply N1. rewrite (extends_unique _ _ Y _ Mu Mu' Hn). apply (in_map (fun it : string * type => capitalised (fst it)) _ _ Hy). }
    exists E2. rewrite run_all_app, R1. split; [exact R2|]. split; [apply (after_trans _ _ _ A1 A2)|]. split; [exact F2|]. split.
    + intros n Hn. destruct (Ad2 n Hn) as [Y|(y & v & I & Y)]; [|right; exists y, v; split; [right; exact I|exact Y]]. destruct (Ad1 n Y) as [Z|Z]; [left; exact Z|right; exists x, u; split; [left; reflexivity|exact Z]].
    + intros y v [[= <- <-]|I]; [|apply (Ty2 y v I)]. destruct Ty1 as (c & T1 & T2). exists c. split; [apply (af_names _ _ A2), T1|exact T2].
Qed.
Lemma defaults_progress fuel : forall cs i ds E, concat_map (fun _ => default_decl fuel T m) i cs = Some ds -> NoDup (map (fun c => capitalised (comp_name c)) cs) -> fine E ->
  (forall x u o d co, In (Comp x u o d co) cs -> here u /\ ready E u /\ (d <> None -> enumeration (behind_tags u) = false) /\ innermost E (default_name (capitalised x)) = None /\ class_is E (default_name (capitalised x)) = false) ->
  exists E', run_all (run fs) ds E = Some E' /\ after E E' /\ fine E' /\ (forall n, innermost E' n <> None -> innermost E n <> None \/ exists x, n = default_name x) /\
    forall x u o v co, In (Comp x u o (Some v) co) cs -> innermost E' (default_name (capitalised x)) = Some Other_.
Proof.
  induction cs as [|[x u o d co] cs IH]; intros i ds E C N F H.
  - injection C as <-. exists E. split; [reflexivity|]. split; [apply after_refl|]. split; [exact F|]. split; [auto|]. intros x u o v co [].
  - apply concat_map_cons in C. destruct C as (d1 & d2 & C1 & C2 & ->). cbn [map comp_name] in N. inversion N as [|? ? N1 N2]; subst.
    assert (X : exists E1, run_all (run fs) d1 E = Some E1 /\ after E E1 /\ fine E1 /\ (forall n, innermost E1 n <> None -> innermost E n <> None \/ n = default_name (capitalised x)) /\ (d <> None -> innermost E1 (default_name (capitalised x)) = Some Other_)).
    { destruct (H x u o d co (or_introl eq_refl)) as (He & Rd & En & I1 & I2). destruct d as [v|]; cbn [default_decl] in C1; [|injection C1 as <-; exists E; split; [reflexivity|]; split; [apply after_refl|]; split; [exact F|]; split; [auto|congruence]].
      unfold bind in C1. destruct (value_type fuel T m u x) as [vt|] eqn:Vt; [|discriminate]. destruct (resolve_named fuel T m x u) as [[[y r] mr]|] eqn:Rn; [|discriminate]. destruct (value_text r y v); [|discriminate]. injection C1 as <-.
      specialize (En ltac:(discriminate)). rewrite run_all_cons. cbn [run].
      assert (V : vexp_ok E vt (enum_used r y) = true).
      { unfold vexp_ok. apply andb_true_iff. split.
        - pose proof (value_known _ _ _ _ _ Vt He F Rd En) as K. destruct vt; [exact K|reflexivity].
        - destruct (enum_used r y) as [w|] eqn:U; [|reflexivity]. apply (uses_known _ _ _ _ _ _ _ _ Rn He F Rd En U). }
      rewrite V. change ("DefaultValue" ++ capital x)%string with (default_name (capital x)). rewrite capital_same. rewrite (declare_add _ _ _ _ I1 I2). cbn [run_all]. eexists. split; [reflexivity|]. split; [apply after_add, I1|]. split; [apply fine_add; [exact F|apply ok_entry_default]|].
      split; [|intros _; rewrite innermost_add, String.eqb_refl; reflexivity]. intros n. rewrite innermost_add. destruct (String.eqb_spec (default_name (capitalised x)) n) as [<-|]; auto. }
    destruct X as (E1 & R1 & A1 & F1 & Ad1 & D1). destruct (IH (S i) d2 E1 C2 N2 F1) as (E2 & R2 & A2 & F2 & Ad2 & D2).
    { intros y v o' d' co' Hy. destruct (H y v o' d' co' (or_intror Hy)) as (He & Rd & En & I1 & I2). split; [exact He|]. split; [apply (ready_after _ _ _ A1 Rd)|]. split; [exact En|]. split; [|rewrite (after_class _ _ _ A1); exact I2].
      destruct (innermost E1 (default_name (capitalised y))) eqn:In1; [|reflexivity]. destruct (Ad1 (default_name (capitalised y))) as [Y|Y]; [congruence|congruence|]. apply default_inj in Y. destruct N1. rewrite <- Y. apply (in_map (fun c => capitalised (comp_name c)) _ _ Hy). }
    exists E2. rewrite run_all_app, R1. split; [exact R2|]. split; [apply (after_trans _ _ _ A1 A2)|]. split; [exact F2|]. split.
    + intros n Hn. destruct (Ad2 n Hn) as [Y|Y]; [|right; exact Y]. destruct (Ad1 n Y) as [Z|Z]; [left; exact Z|right; eauto].
    + intros y v o' w co' [X|I]; [|apply (D2 y v o' w co' I)]. injection X as X1 X2 X3 X4 X5. subst y d. apply (af_names _ _ A2), D1. discriminate.
Qed.
Lemma declare_all_progress l : forall E, NoDup l -> fine E -> (forall n, In n l -> innermost E n = None /\ class_is E n = false /\ ~ In n library_names /\ ~ suffixed n) -> exists E', declare_all l E = Some E' /\ after E E' /\ fine E'.
Proof.
  induction l as [|x l IH]; intros E N F H; [exists E; split; [reflexivity|]; split; [apply after_refl|exact F]|]. inversion N as [|? ? N1 N2]; subst. destruct (H x (or_introl eq_refl)) as (H1 & H2 & H3 & H4). cbn [declare_all]. rewrite (declare_add _ _ _ _ H1 H2).
  destruct (IH (add x Other_ E) N2) as (E' & D & A & F').
  - apply fine_add; [exact F|apply ok_entry_plain; assumption].
  - intros n Hn. destruct (H n (or_intror Hn)) as (X1 & X2 & X3 & X4). rewrite innermost_add, class_is_add. destruct (String.eqb_spec x n) as [->|]; [contradiction|auto].
  - exists E'. split; [exact D|]. split; [|exact F']. apply (after_trans _ _ _ (after_add _ _ _ H1) A).
Qed.

(** ** Functions *)
Lemma function_found f : In f fs -> function_of fs (f_path f) = Some f.
Proof.
  intros I. unfold function_of. destruct (find _ fs) as [g|] eqn:Fi.
  - apply find_some in Fi. destruct Fi as (Ig & E). destruct (list_eq_dec string_dec (f_path g) (f_path f)) as [E'|]; [|discriminate]. f_equal. apply (distinct_same fs FS1); assumption.
  - apply (find_none _ _ Fi) in I. destruct (list_eq_dec string_dec (f_path f) (f_path f)); [discriminate|congruence].
Qed.
Lemma with_function_ok E ff x u o c : fine E -> component_function ff T m x u = Some o -> (forall r, leads T m u r -> structure r = true -> is_struct c = true) -> exists c', with_function E o c = Some c'.
Proof.
  intros F C S. unfold component_function, bind in C. destruct (resolve_named ff T m x u) as [[[x' r] mr]|] eqn:R; [|discriminate]. pose proof (resolve_named_leads _ _ _ _ _ _ _ Hm R) as L. rewrite generated_structure in C.
  destruct (structure (behind_tags r)) eqn:G; [|injection C as <-; cbn; eauto]. destruct (identifier ff T m u) as [i|] eqn:I; [|discriminate]. specialize (S _ L G). injection C as <-. destruct (ti_default i); cbn [with_function]; [eauto|].
  rewrite (library_visible E _ F (info_names i)). destruct (info_evaluates i (identifier_known _ _ _ _ _ I)) as (d & Hd & _). rewrite Hd. destruct c; try discriminate; eauto.
Qed.
(** The members of a class and the types they are made from. *)
Fixpoint matched (lab : nat -> string -> string) (i : nat) (ks : list (ckind * string * type)) (l : list (ckind * ty * string)) : Prop :=
  match ks, l with
  | [], [] => True
  | (k, x, u) :: ks, (k', c, x') :: l => k' = k /\ x' = lab i x /\ (forall r, leads T m u r -> structure r = true -> is_struct c = true) /\ matched lab (S i) ks l
  | _, _ => False
  end.
Lemma ckind_eqb_refl k : ckind_eqb k k = true. Proof. destruct k; reflexivity. Qed.
Lemma comps_progress E ff fk seq lab (ks : list (ckind * string * type)) : fine E -> forall i l enc dec, matched lab i ks l ->
  concat_map (fun i (it : ckind * string * type) => encode_entry ff T m (lab i (snd (fst it))) (snd (fst it)) (snd it)) i ks = Some enc ->
  concat_map (fun i (it : ckind * string * type) => decode_entry ff T m seq i (fst (fst it)) (lab i (snd (fst it))) (snd (fst it)) (snd it)) i ks = Some dec ->
  exists cs, comps_of E fk l enc dec = Some cs.
Proof.
  intros F. induction ks as [|[[k x] u] ks IH]; intros i l enc dec Re He Hd.
  - destruct l; [|destruct Re]. injection He as <-. injection Hd as <-. eexists. reflexivity.
  - destruct l as [|[[k' c] y] l]; [destruct Re|]. destruct Re as (-> & -> & W & Re).
    apply concat_map_cons in He. destruct He as (e1 & e2 & He1 & He2 & ->). apply concat_map_cons in Hd. destruct Hd as (d1 & d2 & Hd1 & Hd2 & ->). cbn [fst snd] in He1, Hd1.
    unfold encode_entry, bind in He1. destruct (component_function ff T m x u) as [o|] eqn:Cf; [|discriminate]. injection He1 as <-.
    unfold decode_entry, bind in Hd1. rewrite Cf in Hd1. destruct (tested ff T m _ i k u) as [ls|]; [|discriminate]. injection Hd1 as <-.
    cbn [app comps_of]. rewrite String.eqb_refl. destruct (opt_id_eq_dec o o) as [_|X]; [|congruence]. assert (Km : kind_matches fk k k = true) by (destruct fk; cbn; auto using ckind_eqb_refl). rewrite Km. cbn [andb].
    destruct (with_function_ok E ff x u o c F Cf W) as (c' & ->). destruct (IH (S i) l e2 d2 Re He2 Hd2) as (cs & ->). eauto.
Qed.
Definition by_name (i : nat) (x : string) : string := x.
Definition by_number (i : nat) (x : string) : string := to_string (Z.of_nat i).
Lemma members_progress E name cs : fine E -> (forall c, In c cs -> make_type_name (comp_name c) name = capitalised (comp_name c)) ->
  (forall x u o d co, In (Comp x u o d co) cs -> exists c, innermost E (capitalised x) = Some (Type_ c) /\ forall r, leads T m u r -> structure r = true -> is_struct c = true) ->
  (forall x u o v co, In (Comp x u o (Some v) co) cs -> innermost E (default_name (capitalised x)) = Some Other_) ->
  forall i, exists l, members_of E (map (member_decl name) cs) = Some l /\ matched by_name i (map comp_item cs) l.
Proof.
  intros F. induction cs as [|[x u o d co] cs IH]; intros Nm Ty De i; [exists []; split; [reflexivity|exact I]|].
  destruct (IH (fun c H => Nm c (or_intror H)) (fun x' u' o' d' co' H => Ty x' u' o' d' co' (or_intror H)) (fun x' u' o' d' co' H => De x' u' o' d' co' (or_intror H)) (S i)) as (l & Ml & Ma).
  destruct (Ty x u o d co (or_introl eq_refl)) as (c & T1 & T2). exists ((Elab.kind_of o d, c, x) :: l). split; [|cbn; auto].
  cbn [map members_of member_decl]. pose proof (Nm _ (or_introl eq_refl)) as Nx. cbn [comp_name] in Nx. rewrite Nx, (lookup_innermost _ _ _ T1), Ml.
  assert (W : match Elab.kind_of o d with Mand => true | Opt => visible E ["Optional"; "StorageMode"] | Def => visible E ["Default"] && match lookup E ("DefaultValue" ++ capital x) with Some Other_ => true | _ => false end end = true).
  { destruct (Elab.kind_of o d) eqn:K; [reflexivity| |].
    - apply (library_visible E _ F). intros y [<-|[<-|[]]]; vm_compute; tauto.
    - rewrite (library_visible E _ F) by (intros y [<-|[]]; vm_compute; tauto). destruct d as [v|]; [|unfold Elab.kind_of in K; destruct o; discriminate].
      pose proof (De x u o v co (or_introl eq_refl)) as D. unfold default_name in D. rewrite capital_same, (lookup_innermost _ _ _ D). reflexivity. }
  rewrite W. reflexivity.
Qed.
Lemma alternatives_progress E alts : (forall x u, In (x, u) alts -> exists c, innermost E (capitalised x) = Some (Type_ c) /\ forall r, leads T m u r -> structure r = true -> is_struct c = true) ->
  exists ts, alternatives_of E (map (fun a => capitalised (fst a)) alts) = Some ts /\ List.length ts = List.length alts /\
    forall i labels, labels = map (fun j => to_string (Z.of_nat j)) (seq i (List.length alts)) -> matched by_number i (map alt_item alts) (combine (combine (repeat Mand (List.length ts)) ts) labels).
Proof.
  induction alts as [|[x u] alts IH]; intros Ty; [exists []; split; [reflexivity|]; split; [reflexivity|intros; exact I]|]. destruct (IH (fun y v H => Ty y v (or_intror H))) as (ts & H1 & H2 & H3). destruct (Ty x u (or_introl eq_refl)) as (c & T1 & T2).
  exists (c :: ts). cbn [map alternatives_of fst]. rewrite (lookup_innermost _ _ _ T1), H1. split; [reflexivity|]. split; [cbn; congruence|]. intros i labels ->. cbn. split; [reflexivity|]. split; [reflexivity|]. split; [exact T2|]. apply H3. reflexivity.
Qed.

(** ** Classes *)
Lemma extends_not_default p n x : free library_names p -> extends p n -> n <> default_name x.
Proof.
  intros F H. revert x. induction H as [|n H IH|n H IH]; intros x E.
  - destruct F as (_ & D). apply (D x). exact E.
  - destruct (default_contained _ _ E) as (r & ->). apply (IH r). reflexivity.
  - destruct (default_values _ _ E) as [->|(r & ->)]; [|apply (IH r); reflexivity]. destruct F as (N & _). destruct (extends_cases _ _ H) as [<-|S]; [apply N; vm_compute; tauto|]. apply suffixed_check in S. discriminate.
Qed.
Lemma free_less used n : free (library_names ++ used) n -> free library_names n /\ ~ In n used.
Proof. intros (N & D). split; [split; [|exact D]|]; intros H; apply N; apply in_or_app; auto. Qed.
Lemma nodup_disjoint {A} (a b : list A) x : NoDup (a ++ b) -> In x a -> In x b -> False.
Proof. induction a as [|y a IH]; intros N Ia Ib; [destruct Ia|]. cbn in N. inversion N as [|? ? N1 N2]; subst. destruct Ia as [->|Ia]; [apply N1, in_or_app; auto|apply IH; assumption]. Qed.
Lemma nodup_app {A} (a b : list A) : NoDup a -> NoDup b -> (forall x, In x a -> In x b -> False) -> NoDup (a ++ b).
Proof.
  intros Na Nb D. induction Na as [|x a N1 N2 IH]; [exact Nb|]. cbn. constructor.
  - intros H. apply in_app_or in H. destruct H as [H|H]; [contradiction|]. apply (D x); [left; reflexivity|exact H].
  - apply IH. intros y Hy. apply D. right. exact Hy.
Qed.
Lemma nodup_parts {A} (a b : list A) : NoDup (a ++ b) -> NoDup a /\ NoDup b.
Proof. induction a as [|y a IH]; intros N; [split; [constructor|exact N]|]. cbn in N. inversion N as [|? ? N1 N2]; subst. destruct (IH N2) as (X & Y). split; [|exact Y]. constructor; [|exact X]. intros H. apply N1, in_or_app. auto. Qed.
Lemma struct_names_ok : NoDup struct_names /\ forall n, In n struct_names -> ~ In n library_names.
Proof.
  split; [apply nodup_check; vm_compute; reflexivity|]. assert (H : forallb (fun n => negb (in_b n library_names)) struct_names = true) by (vm_compute; reflexivity). rewrite forallb_forall in H.
  intros n I. apply in_check. apply negb_true_iff. apply (H n I).
Qed.
Lemma choice_names_ok : NoDup choice_names /\ forall n, In n choice_names -> ~ In n library_names.
Proof.
  split; [apply nodup_check; vm_compute; reflexivity|]. assert (H : forallb (fun n => negb (in_b n library_names)) choice_names = true) by (vm_compute; reflexivity). rewrite forallb_forall in H.
  intros n I. apply in_check. apply negb_true_iff. apply (H n I).
Qed.
Lemma not_default_in l x : forallb (fun n => negb (starts_with "DefaultValue" n)) l = true -> ~ In (default_name x) l.
Proof. apply starts_with_list. Qed.
Lemma open_class_is name E n : class_is (open_class name E) n = String.eqb name n. Proof. reflexivity. Qed.
Lemma member_good x : free library_names (capitalised x) -> ~ made_up (capitalised x) -> good_name (capitalised x).
Proof. intros F N. split; [exact F|]. intros p H. apply N. rewrite H. apply made_values. Qed.
Lemma plain_name x : ~ made_up (capitalised x) -> make_type_name x "" = capitalised x.
Proof. intros N. unfold make_type_name. rewrite capital_same. destruct (String.eqb_spec (capitalised x) "") as [E|]; [|reflexivity]. destruct N. left. exact E. Qed.
Lemma member_plain_name x name : capitalised x <> name -> make_type_name x name = capitalised x.
Proof. intros N. unfold make_type_name. rewrite capital_same. destruct (String.eqb_spec (capitalised x) name) as [E|]; [contradiction|reflexivity]. Qed.

Lemma record_progress fuel set cs ext name ov introduce ds E (IH : progress_at fuel) : create_type (S fuel) T m name (TRecord set cs ext) ov introduce = Some ds -> here (TRecord set cs ext) -> sure_opt ov -> fine E -> ready E (TRecord set cs ext) ->
  fresh E name -> good_name name -> classed E name (TRecord set cs ext) -> exists E', run_all (run fs) ds E = Some E' /\ result E E' name (TRecord set cs ext).
Proof.
  intros C He So F Rd Fr G Cl. destruct Cl as [(Ow & Mu & ff & fl & Ff & Inc)|Fl]; [|discriminate (Fl _ (in_self _))].
  cbn [create_type] in C. unfold bind in C. destruct (check_valid fuel T m set cs) as [ok|]; [|discriminate]. destruct (negb ok); [discriminate|]. destruct (existsb _ cs); [discriminate|].
  destruct (concat_map _ 0 cs) as [defaults|] eqn:Cd; [|discriminate]. destruct (concat_map _ 0 cs) as [types|] eqn:Ct in C; [|discriminate]. destruct (override fuel T m _ ov) as [id|] eqn:Ov; [|discriminate]. injection C as <-.
  pose proof (ex_records T EX name set cs ext Ow) as X. cbn zeta in X. destruct X as (N0 & Nn & Nm & Nf). destruct (nodup_parts _ _ N0) as (Nnames & Ncaps). rewrite map_map in Ncaps.
  pose proof (here_occurs _ He) as Oc.
  assert (Mem : forall x u o d co, In (Comp x u o d co) cs -> In x (map comp_name cs) /\ In (capitalised x) (map capitalised (map comp_name cs)) /\ member_named T x u /\ inside u (TRecord set cs ext)).
  { intros x u o d co I. assert (Ix : In x (map comp_name cs)) by apply (in_map comp_name _ _ I). split; [exact Ix|]. split; [apply in_map, Ix|]. split; [left; exists set, cs, ext, o, d, co; auto|]. econstructor 2; [exact I|constructor]. }
  assert (Fc : forall x, In x (map capitalised (map comp_name cs)) -> free library_names x /\ ~ In x struct_names) by (intros x I; apply free_less, Nf, in_or_app; auto).
  assert (Fn : forall x, In x (map comp_name cs) -> free library_names x /\ ~ In x struct_names) by (intros x I; apply free_less, Nf, in_or_app; auto).
  assert (F0 : fine (open_class name E)). { apply fine_open; [exact F|apply G|]. intros S. apply Mu, suffixed_made, S. }
  destruct (defaults_progress fuel cs 0%nat defaults (open_class name E) Cd Ncaps F0) as (E1 & R1 & A1 & F1 & Ad1 & D1).
  { intros x u o d co I. destruct (Mem _ _ _ _ _ I) as (M1 & M2 & M3 & M4). split; [apply (here_inside _ _ He M4)|]. split; [apply (ready_inside _ _ _ M4 Rd)|]. split; [|split; [reflexivity|]].
    - destruct d as [v|]; [|congruence]. intros _. apply (ex_defaults T EX set cs ext x u o v co Oc I).
    - rewrite open_class_is. apply eqb_ne. intros H. destruct G as ((_ & D) & _). apply (D _ H). }
  assert (Ct' : concat_map (fun i (it : string * type) => create_type fuel T m (capitalised (fst it)) (snd it) (member_id m i) false) 0 (map comp_pair cs) = Some types).
  { rewrite concat_map_map, <- Ct. apply concat_map_ext. intros i [x u o d co] I. cbn. rewrite member_plain_name; [reflexivity|]. intros H. apply Nn. apply in_or_app. right. apply in_or_app. left. rewrite <- H. apply (Mem _ _ _ _ _ I). }
  destruct (items_progress fuel IH (map comp_pair cs) 0%nat types E1 Ct') as (E2 & R2 & A2 & F2 & Ad2 & Ty2).
  { rewrite map_map. erewrite map_ext; [exact Ncaps|]. intros [x u o d co]. reflexivity. }
  { exact F1. }
  { intros x u I. apply in_map_iff in I. destruct I as ([x' u' o d co] & [= -> ->] & I). destruct (Mem _ _ _ _ _ I) as (M1 & M2 & M3 & M4). destruct (Fc _ M2) as (Fx & Sx). pose proof (sp_members T SEP x u M3) as Mx.
    split; [apply (here_inside _ _ He M4)|]. split; [apply (ready_after _ _ _ A1), (ready_inside _ _ _ M4 Rd)|]. split; [|split; [apply member_good; assumption|split; [exact Mx|]]].
    - intros n Hn. split.
      + destruct (innermost E1 n) eqn:I1; [|reflexivity]. exfalso. destruct (Ad1 n) as [Y|(y & Y)]; [congruence|cbn in Y; congruence|]. apply (extends_not_default _ _ y Fx Hn Y).
      + rewrite (after_class _ _ _ A1), open_class_is. apply eqb_ne. intros H. destruct (extends_cases _ _ Hn) as [Y|Y]; [|apply Mu, suffixed_made; rewrite H; exact Y].
        apply Nn. apply in_or_app. right. apply in_or_app. left. rewrite H, Y. exact M2.
    - left. split; [apply (ow_component T name set cs ext x u o d co Ow I)|]. split; [exact Mx|]. apply (fun_ready_after _ _ _ _ A1). destruct (functions_record T m _ _ _ _ _ _ _ _ _ _ _ Ff I) as (fl' & H1 & H2). exists ff, fl'. rewrite open_path. rewrite (plain_name x Mx) in H1.
      split; [exact H1|apply (incl_tran H2 Inc)]. }
  assert (In2 : forall n, innermost E2 n <> None -> (exists y, n = default_name y) \/ exists x, In x (map comp_name cs) /\ extends (capitalised x) n).
  { intros n Hn. destruct (Ad2 n Hn) as [Y|(x & u & I & Y)]; [destruct (Ad1 n Y) as [Z|Z]; [cbn in Z; congruence|left; exact Z]|]. right. apply in_map_iff in I. destruct I as ([x' u' o d co] & [= -> ->] & I). exists x. split; [apply (Mem _ _ _ _ _ I)|exact Y]. }
  destruct (declare_all_progress (map comp_name cs ++ struct_names) E2) as (E3 & D3 & A3 & F3).
  { apply nodup_app; [exact Nnames|apply struct_names_ok|]. intros x I1 I2. apply (Fn x I1), I2. }
  { exact F2. }
  { intros n I. apply in_app_or in I.
    assert (Sn : ~ suffixed n). { destruct I as [I|I]; [intros S; apply (Nm n I), suffixed_made, S|intros S; apply (struct_not_suffixed n S I)]. }
    split; [|split; [|split; [|exact Sn]]].
    - destruct (innermost E2 n) eqn:I2; [|reflexivity]. exfalso. destruct (In2 n) as [(y & Y)|(x & Ix & Y)]; [congruence| |].
      + destruct I as [I|I]; [apply (proj2 (proj1 (Fn n I)) y Y)|]. subst n. apply (default_struct y I).
      + destruct (extends_cases _ _ Y) as [Z|Z]; [|contradiction]. assert (Ic : In n (map capitalised (map comp_name cs))) by (rewrite Z; apply in_map, Ix).
        destruct I as [I|I]; [apply (nodup_disjoint _ _ n N0 I Ic)|apply (proj2 (Fc n Ic) I)].
    - rewrite (after_class _ _ _ A2), (after_class _ _ _ A1), open_class_is. apply eqb_ne. intros <-. apply Nn. apply in_or_app. destruct I as [I|I]; [left; exact I|right; apply in_or_app; right; exact I].
    - destruct I as [I|I]; [apply (Fn n I)|apply (proj2 struct_names_ok n I)]. }
  assert (Nam : forall c, In c cs -> make_type_name (comp_name c) name = capitalised (comp_name c)).
  { intros [x u o d co] I. cbn [comp_name]. apply member_plain_name. intros H. apply Nn. apply in_or_app. right. apply in_or_app. left. rewrite <- H. apply (Mem _ _ _ _ _ I). }
  destruct (members_progress E3 name cs F3 Nam) with (i := 0%nat) as (l & Ml & Ma).
  { intros x u o d co I. destruct (Ty2 x u) as (c & T1 & T2); [apply in_map_iff; exists (Comp x u o d co); auto|]. exists c. split; [apply (af_names _ _ A3), T1|exact T2]. }
  { intros x u o v co I. apply (af_names _ _ A3), (af_names _ _ A2), (D1 x u o v co I). }
  destruct (functions_own T m _ _ _ _ Ff) as (own & Ho & Io). cbn [own_function] in Ho. unfold bind in Ho. destruct (concat_map _ 0 cs) as [enc|] eqn:Ce in Ho; [|discriminate]. destruct (concat_map _ 0 cs) as [dec|] eqn:Cc in Ho; [|discriminate]. injection Ho as <-.
  assert (Fo : function_of fs (path E ++ [name]) = Some (Func (path E ++ [name]) (if set then FSet ext else FSeq) enc dec)) by exact (function_found _ (Inc _ (Io _ (or_introl eq_refl)))).
  assert (Ce' : concat_map (fun i (it : ckind * string * type) => encode_entry ff T m (by_name i (snd (fst it))) (snd (fst it)) (snd it)) 0 (map comp_item cs) = Some enc) by (rewrite concat_map_map, <- Ce; apply concat_map_ext; intros i [x u o d co] _; reflexivity).
  assert (Cc' : concat_map (fun i (it : ckind * string * type) => decode_entry ff T m (negb set) i (fst (fst it)) (by_name i (snd (fst it))) (snd (fst it)) (snd it)) 0 (map comp_item cs) = Some dec) by (rewrite concat_map_map, <- Cc; apply concat_map_ext; intros i [x u o d co] _; reflexivity).
  destruct (comps_progress E3 ff (if set then FSet ext else FSeq) (negb set) by_name (map comp_item cs) F3 0%nat l enc dec Ma Ce' Cc') as (comps & Hc).
  assert (Su : sure id) by (apply (override_sure _ _ _ _ Ov So); intros _; apply record_no_choice). destruct Su as (S1 & j & S2).
  assert (P3 : path E3 = path E ++ [name]) by (rewrite (after_path _ _ A3), (after_path _ _ A2), (after_path _ _ A1); apply open_path).
  assert (St : exists c, struct_type E3 fs l id = Some c /\ is_struct c = true).
  { unfold struct_type. rewrite P3, Fo. cbn [f_kind f_encode f_decode]. rewrite (library_visible E3 _ F3 S1), Hc, S2. destruct set; eexists; split; reflexivity. }
  destruct St as (c & St & Sc). destruct (fresh_name _ _ Fr) as (I1 & I2). exists (add name (Type_ c) E). split; [|apply result_add; auto].
  rewrite run_all_cons. cbn [run]. rewrite run_all_app, R1, R2. rewrite map_map. assert (Hs : map (fun x => snd (member_decl name x)) cs = map comp_name cs) by (apply map_ext; intros [x u o d co]; reflexivity). rewrite Hs, D3, Ml, St, (declare_add _ _ _ _ I1 I2). reflexivity.
Qed.
Lemma labels_of ff alts : forall i enc, concat_map (fun i (a : string * type) => encode_entry ff T m (to_string (Z.of_nat i)) (fst a) (snd a)) i alts = Some enc -> map fst enc = map (fun j => to_string (Z.of_nat j)) (seq i (List.length alts)).
Proof.
  induction alts as [|a alts IH]; intros i enc H; [injection H as <-; reflexivity|]. apply concat_map_cons in H. destruct H as (e1 & e2 & H1 & H2 & ->). unfold encode_entry, bind in H1. destruct (component_function _ _ _ _ _); [|discriminate]. injection H1 as <-. cbn. f_equal. apply (IH _ _ H2).
Qed.
Lemma choice_progress fuel alts name ov introduce ds E (IH : progress_at fuel) : create_type (S fuel) T m name (ParserTree.TChoice alts) ov introduce = Some ds -> here (ParserTree.TChoice alts) -> sure_opt ov -> fine E -> ready E (ParserTree.TChoice alts) ->
  fresh E name -> good_name name -> classed E name (ParserTree.TChoice alts) -> exists E', run_all (run fs) ds E = Some E' /\ result E E' name (ParserTree.TChoice alts).
Proof.
  intros C He So F Rd Fr G Cl. destruct Cl as [(Ow & Mu & ff & fl & Ff & Inc)|Fl]; [|discriminate (Fl _ (in_self _))].
  cbn [create_type] in C. unfold bind in C. destruct (override fuel T m _ ov) as [id|] eqn:Ov; [|discriminate]. destruct (concat_map _ 0 alts) as [types|] eqn:Ct in C; [|discriminate]. injection C as <-.
  pose proof (ex_choices T EX name alts Ow) as X. cbn zeta in X. destruct X as (Ncaps & Nn & Nf).
  pose proof (here_occurs _ He) as Oc.
  assert (Mem : forall x u, In (x, u) alts -> In (capitalised x) (map (fun a => capitalised (fst a)) alts) /\ member_named T x u /\ inside u (ParserTree.TChoice alts)).
  { intros x u I. split; [apply (in_map (fun a : string * type => capitalised (fst a)) _ _ I)|]. split; [right; exists alts; auto|]. econstructor 3; [exact I|constructor]. }
  assert (Fc : forall x, In x (map (fun a => capitalised (fst a)) alts) -> free library_names x /\ ~ In x choice_names) by (intros x I; apply free_less, Nf, I).
  assert (F0 : fine (open_class name E)). { apply fine_open; [exact F|apply G|]. intros S. apply Mu, suffixed_made, S. }
  assert (Ct' : concat_map (fun i (it : string * type) => create_type fuel T m (capitalised (fst it)) (snd it) (member_id m i) false) 0 alts = Some types).
  { rewrite <- Ct. apply concat_map_ext. intros i [x u] I. cbn. rewrite plain_name; [reflexivity|]. apply (sp_members T SEP x u), (Mem _ _ I). }
  destruct (items_progress fuel IH alts 0%nat types (open_class name E) Ct' Ncaps F0) as (E2 & R2 & A2 & F2 & Ad2 & Ty2).
  { intros x u I. destruct (Mem _ _ I) as (M2 & M3 & M4). destruct (Fc _ M2) as (Fx & Sx). pose proof (sp_members T SEP x u M3) as Mx.
    split; [apply (here_inside _ _ He M4)|]. split; [apply (ready_inside _ _ _ M4 Rd)|]. split; [|split; [apply member_good; assumption|split; [exact Mx|]]].
    - intros n Hn. split; [reflexivity|]. rewrite open_class_is. apply eqb_ne. intros H. destruct (extends_cases _ _ Hn) as [Y|Y]; [|apply Mu, suffixed_made; rewrite H; exact Y].
      apply Nn. apply in_or_app. left. rewrite H, Y. exact M2.
    - left. split; [apply (ow_alternative T name alts x u Ow I)|]. split; [exact Mx|]. destruct (functions_choice T m _ _ _ _ _ _ Ff I) as (fl' & H1 & H2). exists ff, fl'. rewrite open_path. rewrite (plain_name x Mx) in H1.
      split; [exact H1|apply (incl_tran H2 Inc)]. }
  destruct (declare_all_progress choice_names E2) as (E3 & D3 & A3 & F3).
  { apply choice_names_ok. }
  { exact F2. }
  { intros n I. assert (Sn : ~ suffixed n) by (intros S; apply (choice_not_suffixed n S I)). split; [|split; [|split; [|exact Sn]]].
    - destruct (innermost E2 n) eqn:I2; [|reflexivity]. exfalso. destruct (Ad2 n) as [Y|(x & u & Ix & Y)]; [congruence|cbn in Y; congruence|].
      destruct (extends_cases _ _ Y) as [Z|Z]; [|contradiction]. apply (proj2 (Fc n ltac:(rewrite Z; apply (Mem _ _ Ix))) I).
    - rewrite (after_class _ _ _ A2), open_class_is. apply eqb_ne. intros <-. apply Nn. apply in_or_app. right. exact I.
    - apply (proj2 choice_names_ok n I). }
  destruct (alternatives_progress E3 alts) as (ts & Al & Len & Ma).
  { intros x u I. destruct (Ty2 x u I) as (c & T1 & T2). exists c. split; [apply (af_names _ _ A3), T1|exact T2]. }
  destruct (functions_own T m _ _ _ _ Ff) as (own & Ho & Io). cbn [own_function] in Ho. unfold bind in Ho. destruct (concat_map _ 0 alts) as [enc|] eqn:Ce in Ho; [|discriminate]. destruct (concat_map _ 0 alts) as [dec|] eqn:Cc in Ho; [|discriminate]. injection Ho as <-.
  assert (Fo : function_of fs (path E ++ [name]) = Some (Func (path E ++ [name]) FChoice enc dec)) by exact (function_found _ (Inc _ (Io _ (or_introl eq_refl)))).
  assert (Ce' : concat_map (fun i (it : ckind * string * type) => encode_entry ff T m (by_number i (snd (fst it))) (snd (fst it)) (snd it)) 0 (map alt_item alts) = Some enc) by (rewrite concat_map_map, <- Ce; apply concat_map_ext; intros i [x u] _; reflexivity).
  assert (Cc' : concat_map (fun i (it : ckind * string * type) => decode_entry ff T m false i (fst (fst it)) (by_number i (snd (fst it))) (snd (fst it)) (snd it)) 0 (map alt_item alts) = Some dec) by (rewrite concat_map_map, <- Cc; apply concat_map_ext; intros i [x u] _; reflexivity).
  specialize (Ma 0%nat (map fst enc) (labels_of _ _ _ _ Ce)).
  destruct (comps_progress E3 ff FChoice false by_number (map alt_item alts) F3 0%nat _ enc dec Ma Ce' Cc') as (comps & Hc).
  assert (Su : incl (id_names id) library_names /\ exists d, eval_id id = Some d).
  { destruct ov as [i|]; cbn in Ov; [injection Ov as <-; destruct (So i eq_refl) as (S1 & j & S2); eauto|]. unfold id_text in Ov. destruct (identifier fuel T m _) as [i|] eqn:Ii; [|discriminate]. injection Ov as <-. split; [apply info_names|].
    destruct (info_evaluates i (identifier_known _ _ _ _ _ Ii)) as (d & Hd & _). eauto. }
  destruct Su as (S1 & d & S2).
  assert (P3 : path E3 = path E ++ [name]) by (rewrite (after_path _ _ A3), (after_path _ _ A2); apply open_path).
  assert (St : exists c, choice_type E3 fs ts id = Some c /\ is_struct c = true).
  { unfold choice_type. rewrite P3, Fo. cbn [f_kind f_encode f_decode]. rewrite (library_visible E3 _ F3); [|apply incl_cons; [vm_compute; tauto|apply incl_cons; [vm_compute; tauto|exact S1]]]. rewrite Len.
    destruct alts as [|a alts']; [destruct (sp_choices T SEP Oc)|]. rewrite <- Len. cbn [List.length Nat.eqb negb andb]. rewrite Len. cbn [List.length Nat.eqb negb andb]. rewrite Len in Hc. cbn [List.length] in Hc. rewrite Hc, S2. eexists. split; reflexivity. }
  destruct St as (c & St & Sc). destruct (fresh_name _ _ Fr) as (I1 & I2). exists (add name (Type_ c) E). split; [|apply result_add; auto].
  rewrite run_all_cons. cbn [run]. rewrite R2, D3.
  assert (Hn : map (fun a => make_type_name (fst a) "") alts = map (fun a => capitalised (fst a)) alts) by (apply map_ext_in; intros [x u] I; apply plain_name, (sp_members T SEP x u), (Mem _ _ I)). rewrite Hn, Al, St, (declare_add _ _ _ _ I1 I2). reflexivity.
Qed.

Lemma flat_classed E name t : flat t -> classed E name t. Proof. right. assumption. Qed.
Lemma create_progress fuel : progress_at fuel.
Proof.
  induction fuel as [|fuel IH]; intros name t ov introduce ds E C He So F Rd Fr G Cl; [discriminate|].
  destruct t as [k|ns|vs ex|d fl|alts|set cs ext|set z v|g kw v|[mo x ps]].
  - cbn [create_type] in C. unfold bind in C. destruct (override fuel T m _ ov) as [id|] eqn:Ov; [|discriminate]. destruct (type_as_string _ _ _ _ _ _) as [e|] eqn:Ta; [|discriminate]. injection C as <-.
    apply (direct_result fuel fuel _ _ ov id e E introduce He F Fr G So eq_refl eq_refl eq_refl eq_refl Ov Ta).
  - cbn [create_type] in C. unfold bind in C. destruct (override fuel T m _ ov) as [id|] eqn:Ov; [|discriminate]. destruct (type_as_string _ _ _ _ _ _) as [e|] eqn:Ta; [|discriminate]. injection C as <-.
    apply (direct_result fuel fuel _ _ ov id e E introduce He F Fr G So eq_refl eq_refl eq_refl eq_refl Ov Ta).
  - cbn [create_type] in C. unfold bind in C. destruct (override fuel T m _ ov) as [id|] eqn:Ov; [|discriminate]. destruct (type_as_string _ _ _ _ _ _) as [e|] eqn:Ta; [|discriminate]. injection C as <-.
    assert (Su : sure id) by (apply (override_sure _ _ _ _ Ov So); intros _ f i; apply (plain_choice f m); reflexivity). destruct Su as (S1 & j & S2).
    destruct fuel as [|fuel]; [discriminate|]. cbn [type_as_string] in Ta. injection Ta as <-.
    destruct (Fr (name ++ "Values")%string ltac:(constructor; constructor)) as (V1 & V2). destruct (fresh_name _ _ Fr) as (N1 & N2).
    set (E1 := add (name ++ "Values") (Enum_ (path E ++ [(name ++ "Values")%string])) E).
    assert (F1 : fine E1) by (apply fine_add; [exact F|apply entry_enum, G]).
    assert (Ev : eval_type E1 (XEnum (name ++ "Values") id) = Some (Type_ (TLeaf (KSmall 8 [0%Z]) j))).
    { cbn [eval_type]. rewrite (library_visible E1 _ F1 S1), S2. assert (L : innermost E1 (name ++ "Values") = Some (Enum_ (path E ++ [(name ++ "Values")%string]))) by (unfold E1; rewrite innermost_add, String.eqb_refl; reflexivity). rewrite (lookup_innermost _ _ _ L). reflexivity. }
    assert (Ne : (name ++ "Values")%string <> name) by (apply app_longer; discriminate).
    assert (N1' : innermost E1 name = None) by (unfold E1; rewrite innermost_add, (eqb_ne _ _ Ne); exact N1).
    assert (N2' : class_is E1 name = false) by (unfold E1; rewrite class_is_add; exact N2).
    exists (add name (Type_ (TLeaf (KSmall 8 [0%Z]) j)) E1). rewrite run_all_cons. cbn [run]. rewrite (declare_add _ _ _ _ V1 V2). fold E1. rewrite run_all_cons, (finish_add introduce name _ E1 _ Ev N1' N2'). split; [reflexivity|].
    assert (A : after E (add name (Type_ (TLeaf (KSmall 8 [0%Z]) j)) E1)) by (apply (after_trans _ E1); [apply after_add, V1|apply after_add, N1']).
    constructor.
    + exact A.
    + apply fine_add; [exact F1|apply entry_type, G].
    + intros n. rewrite innermost_add. destruct (String.eqb_spec name n) as [<-|]; [right; constructor|]. unfold E1. rewrite innermost_add. destruct (String.eqb_spec (name ++ "Values") n) as [<-|]; [right; constructor; constructor|auto].
    + exists (TLeaf (KSmall 8 [0%Z]) j). rewrite innermost_add, String.eqb_refl. split; [reflexivity|]. intros r L S. inversion L; subst. discriminate.
    + discriminate.
    + intros _. rewrite innermost_add. destruct (String.eqb name _); [discriminate|]. unfold E1. rewrite innermost_add, String.eqb_refl. discriminate.
  - cbn [create_type] in C. unfold bind in C. destruct (override fuel T m _ ov) as [id|]; [|discriminate]. destruct fuel; discriminate.
  - apply (choice_progress fuel alts name ov introduce ds E IH C He So F Rd Fr G Cl).
  - apply (record_progress fuel set cs ext name ov introduce ds E IH C He So F Rd Fr G Cl).
  - cbn [create_type] in C. unfold bind in C. destruct (create_type fuel T m _ v None false) as [d1|] eqn:C1; [|discriminate]. destruct (override fuel T m _ ov) as [id|] eqn:Ov; [|discriminate]. destruct (type_as_string _ _ _ _ _ _) as [e|] eqn:Ta; [|discriminate]. injection C as <-.
    assert (Su : sure id) by (apply (override_sure _ _ _ _ Ov So); intros _ f i; apply (plain_choice f m); reflexivity). destruct Su as (S1 & j & S2).
    assert (Iv : inside v (TListOf set z v)) by (constructor; constructor).
    destruct (IH _ _ _ _ _ E C1 (here_inside _ _ He Iv)) as (E1 & R1 & [A1 F1 Ad1 (c & T1 & T2) _ _]).
    { intros i; discriminate. } { exact F. } { apply (ready_inside _ _ _ Iv Rd). } { apply fresh_contained, Fr. } { apply good_contained, G. }
    { right. intros w Iw. apply (ex_elements T EX set z v w (here_occurs _ He) Iw). }
    destruct fuel as [|fuel]; [discriminate|]. cbn [type_as_string] in Ta. injection Ta as <-. destruct (fresh_name _ _ Fr) as (N1 & N2).
    assert (Ev : eval_type E1 (XList (name ++ "Contained") id) = Some (Type_ (TSeqOf j c))).
    { cbn [eval_type]. rewrite (library_visible E1 _ F1), S2; [|apply incl_cons; [vm_compute; tauto|apply incl_cons; [vm_compute; tauto|exact S1]]]. rewrite (lookup_innermost _ _ _ T1). reflexivity. }
    assert (N1' : innermost E1 name = None). { destruct (innermost E1 name) eqn:I1; [|reflexivity]. exfalso. destruct (Ad1 name) as [Y|Y]; [congruence|congruence|]. apply extends_length in Y. rewrite slen_app in Y. cbn in Y. lia. }
    assert (N2' : class_is E1 name = false) by (rewrite (after_class _ _ _ A1); exact N2).
    exists (add name (Type_ (TSeqOf j c)) E1). rewrite run_all_app, R1, run_all_cons, (finish_add introduce name _ E1 _ Ev N1' N2'). split; [reflexivity|].
    constructor.
    + apply (after_trans _ _ _ A1), after_add, N1'.
    + apply fine_add; [exact F1|apply entry_type, G].
    + intros n. rewrite innermost_add. destruct (String.eqb_spec name n) as [<-|]; [right; constructor|]. intros Hn. destruct (Ad1 n Hn) as [Y|Y]; [auto|right]. apply (extends_trans name (name ++ "Contained") n); [constructor; constructor|exact Y].
    + exists (TSeqOf j c). rewrite innermost_add, String.eqb_refl. split; [reflexivity|]. intros r L S. inversion L; subst. discriminate.
    + intros _. rewrite innermost_add. destruct (String.eqb name _); [discriminate|]. rewrite T1. discriminate.
    + discriminate.
  - cbn [create_type] in C. unfold bind in C. destruct (override fuel T m _ ov) as [id|] eqn:Ov; [|discriminate].
    assert (Su : sure id) by (apply (override_sure _ _ _ _ Ov So); intros _ f i; apply tagged_choice).
    assert (Iv : inside v (TTagged g kw v)) by (constructor; constructor).
    destruct (IH name v (Some id) introduce ds E C (here_inside _ _ He Iv)) as (E1 & R1 & [A1 F1 Ad1 (c & T1 & T2) L1 V1]).
    { intros i [= <-]. exact Su. } { exact F. } { apply (ready_inside _ _ _ Iv Rd). } { exact Fr. } { exact G. }
    { destruct Cl as [(Ow & Mu & ff & fl & Ff & Inc)|Fl]; [left|right; intros w Iw; apply Fl; apply (inside_trans _ _ _ Iw Iv)]. split; [apply (ow_tagged T name g kw v Ow)|]. split; [exact Mu|]. exists ff, fl. split; [apply (functions_tagged T m _ _ _ _ _ _ Ff)|exact Inc]. }
    exists E1. split; [exact R1|]. constructor; try assumption. exists c. split; [exact T1|]. intros r L. apply T2. inversion L as [? ? ? N'| |]; subst; [destruct (N' _ _ _ eq_refl)|assumption].
  - cbn [create_type] in C. unfold bind in C. destruct (override fuel T m _ ov) as [id|] eqn:Ov; [|discriminate]. destruct (resolve_ref fuel T m m (Defined mo x ps)) as [[[x' r] m']|] eqn:Re; [|discriminate]. destruct (type_as_string _ _ _ _ _ _) as [e|] eqn:Ta; [|discriminate].
    assert (X : Some [if introduce then DAlias name e else DUsing name e] = Some ds).
    { rewrite <- C. destruct (enumeration r) eqn:En; [|destruct r; try discriminate; reflexivity]. assert (B : list_or_enumeration (behind_tags r) = true) by (destruct r; try discriminate; reflexivity).
      destruct (ref_direct _ _ _ _ _ _ _ He Re B) as (_ & _ & -> & _ & _). rewrite String.eqb_refl. destruct r; try discriminate. reflexivity. }
    injection X as <-. destruct (ref_eval fuel fuel mo x ps name id ov E e He Ov So Ta F Rd) as (c & Ev & St). destruct (fresh_name _ _ Fr) as (N1 & N2).
    exists (add name (Type_ c) E). rewrite run_all_cons, (finish_add introduce name _ E c Ev N1 N2). split; [reflexivity|]. apply result_add; auto.
Qed.
End Create.
