(** Running the declarations that Header.v writes for a type. *)
From Coq Require Import List String Ascii ZArith Bool Lia.
From Verif Require Import Base CompilerNames Ident Prims Schema ParserTree Compiler Elab ElabProofs HeaderSpec CppSpec Header HeaderIds HeaderSound.
Import ListNotations.
Local Open Scope string_scope.
Local Open Scope list_scope.

Lemma concat_map_map {A B C} (f : nat -> B -> option (list C)) (g : A -> B) l : forall i, concat_map f i (map g l) = concat_map (fun i x => f i (g x)) i l.
Proof. induction l as [|x l IH]; intros i; [reflexivity|]. cbn. destruct (f i (g x)); [|reflexivity]. cbn. rewrite <- IH. reflexivity. Qed.
Lemma concat_map_ext {A C} (f g : nat -> A -> option (list C)) l : (forall i x, In x l -> f i x = g i x) -> forall i, concat_map f i l = concat_map g i l.
Proof.
  intros H. induction l as [|x l IH]; intros i; [reflexivity|]. cbn. rewrite (H i x (or_introl eq_refl)). destruct (g i x); [|reflexivity]. cbn.
  fold (concat_map f) (concat_map g). rewrite IH; [reflexivity|]. intros j y Hy. apply H. right. exact Hy.
Qed.
Lemma concat_map_cons {A C} (f : nat -> A -> option (list C)) x l i r : concat_map f i (x :: l) = Some r -> exists a b, f i x = Some a /\ concat_map f (S i) l = Some b /\ r = a ++ b.
Proof. cbn. destruct (f i x) as [a|]; [|discriminate]. cbn. fold (concat_map f). destruct (concat_map f (S i) l) as [b|]; [|discriminate]. cbn. intros [= <-]. eauto. Qed.
Lemma concat_map_in {A C} (f : nat -> A -> option (list C)) l : forall i r x, concat_map f i l = Some r -> In x l -> exists j a, f j x = Some a /\ incl a r.
Proof.
  induction l as [|y l IH]; intros i r x H I; [destruct I|]. apply concat_map_cons in H. destruct H as (a & b & H1 & H2 & ->). destruct I as [->|I].
  - exists i, a. split; [exact H1|]. apply incl_appl, incl_refl.
  - destruct (IH _ _ _ H2 I) as (j & a' & H3 & H4). exists j, a'. split; [exact H3|]. apply incl_appr, H4.
Qed.
Lemma distinct_same fs : distinct_paths fs = true -> forall f g, In f fs -> In g fs -> f_path f = f_path g -> f = g.
Proof.
  induction fs as [|h fs IH]; intros D f g If Ig P; [destruct If|]. cbn in D. apply andb_true_iff in D. destruct D as (D1 & D2). apply negb_true_iff in D1.
  assert (X : forall k, In k fs -> f_path h = f_path k -> False).
  { intros k Hk Hp. assert (existsb (fun g => if list_eq_dec string_dec (f_path h) (f_path g) then true else false) fs = true); [|congruence].
    apply existsb_exists. exists k. split; [exact Hk|]. destruct (list_eq_dec string_dec (f_path h) (f_path k)); [reflexivity|congruence]. }
  destruct If as [<-|If], Ig as [<-|Ig]; [reflexivity| | |apply IH; assumption].
  - destruct (X g Ig P).
  - destruct (X f If). symmetry. exact P.
Qed.
Lemma function_of_in fs p f : function_of fs p = Some f -> In f fs /\ f_path f = p.
Proof. intros H. apply find_some in H. destruct H as (H & E). split; [exact H|]. destruct (list_eq_dec string_dec (f_path f) p); [assumption|discriminate]. Qed.
Lemma cpp_named a : forall m o j, plain a -> or_id o (ti_name (info m a)) = Some j -> cpp m o a = cpp m (Some j) a.
Proof.
  destruct a as [k u|set t|cs|ext cs|cs|kw c n t|m' t]; intros m o j P H.
  - destruct o; cbn in *; congruence.
  - destruct o; cbn in *; congruence.
  - destruct o; cbn in *; congruence.
  - destruct o; cbn in *; congruence.
  - destruct o; cbn in H; [congruence|]. destruct P as (P1 & P2). unfold ti_name in H. cbn in H. destruct (choice_ids m 0 cs) eqn:C; [|discriminate]. destruct (choice_not_nil cs m 0 P2 P1 C).
  - destruct o; cbn [or_id cpp] in *; [congruence|]. rewrite H. reflexivity.
  - cbn [cpp]. destruct (gen_def t); [reflexivity|]. rewrite H. reflexivity.
Qed.

Section Create.
Context (T : list module) (SEP : separate T) (BARE : forall m, In m T -> m_imports m = []).
Context (fs : list func) (FS1 : distinct_paths fs = true) (FS2 : forall f n, In f fs -> In n (tl (f_path f)) -> ~ made_up n).
Context (m : module) (Hm : In m T) (Hmod : module_named T (m_name m) = Some m).
Notation mode_ m := (mode_of (m_tagging m)).

Fixpoint names_ok (cls : bool) (name : string) (t : type) (ov : option idexp) : Prop :=
  (forall c, wrote T m ov t c -> allowed T cls m name c) /\
  match t with
  | TListOf _ _ v => names_ok cls (name ++ "Contained") v None
  | TTagged _ _ u => forall fuel id, override fuel T m t ov = Some id -> names_ok cls name u (Some id)
  | _ => True
  end.
Lemma names_final cls name t ov c : names_ok cls name t ov -> wrote T m ov t c -> allowed T cls m name c.
Proof. intros H. apply H || (destruct t; apply H). Qed.
Definition fun_ok (E : env) (name : string) (t : type) : Prop :=
  (exists n, In n (name :: map fst (e_classes E)) /\ made_up n) \/ (exists ff fl, functions ff T m (path E ++ [name]) t = Some fl /\ incl fl fs).
Lemma fun_ok_frame E E' name t : frame E E' -> fun_ok E name t -> fun_ok E' name t.
Proof. intros Fr [(n & H)|H]; [left; exists n; rewrite (fr_classes _ _ Fr); exact H|right; rewrite (frame_path _ _ Fr); exact H]. Qed.

Lemma override_eval fuel t ov id F a o : occurs T t -> override fuel T m t ov = Some id -> elab F T m m t = Some a -> ev ov o ->
  eval_id id = Some (or_id o (ti_name (info (mode_ m) a))).
Proof.
  intros O H E V. destruct ov as [i|]; cbn in H.
  - injection H as <-. destruct V as (j & -> & V). cbn. exact V.
  - cbn in V. subst o. cbn. unfold id_text in H. destruct (identifier fuel T m t) as [i|] eqn:I; [|discriminate]. injection H as <-.
    rewrite (identifier_same T SEP BARE fuel m t i F m a Hm Hm O I E). apply eval_info. apply (elab_plain T SEP BARE F m m t a O E).
Qed.
Lemma finish_run (introduce : bool) name e E E' : run fs (if introduce then DAlias name e else DUsing name e) E = Some E' ->
  exists ent, eval_type E e = Some ent /\ innermost E' name = Some ent /\
    (good T m E -> (forall c, ent = Type_ c -> allowed T (in_class E) m name c) -> good T m E').
Proof.
  destruct introduce; cbn [run]; destruct (eval_type E e) as [ent|]; try discriminate.
  - destruct ent as [c| |]; try discriminate. intros D. exists (Type_ c). split; [reflexivity|]. split; [apply (declare_spec _ _ _ _ _ D)|]. intros G. apply (good_declare _ _ _ _ _ _ _ G D).
  - intros D. exists ent. split; [reflexivity|]. split; [apply (declare_spec _ _ _ _ _ D)|]. intros G. apply (good_declare _ _ _ _ _ _ _ G D).
Qed.
Lemma direct_sound fuel fuel' t name id ov e E c : occurs T t -> good T m E -> override fuel' T m t ov = Some id -> type_as_string fuel T m t name id = Some e ->
  eval_type E e = Some (Type_ c) -> generated t = false -> core t = t -> is_ref t = false ->
  (forall set n v k, t = TListOf set n v -> lookup E (name ++ "Contained") = Some (Type_ k) -> wrote T m None v k) -> wrote T m ov t c.
Proof.
  intros O G Ov Ta Ev Gn Co Re Hl F a o Ea Eo. pose proof (override_eval _ _ _ _ _ _ _ O Ov Ea Eo) as Hid.
  assert (P : plain a) by apply (elab_plain T SEP BARE F m m t a O Ea).
  destruct (or_id o (ti_name (info (mode_ m) a))) as [j|] eqn:J.
  - rewrite (cpp_named a _ o j P J). apply (tas_sound T SEP BARE m Hm Hmod fuel t name id e E c m F a j G Hm Ta Ev Ea Hid Gn).
    + intros d Hd. rewrite Co in Hd. subst t. discriminate.
    + intros d ->. discriminate.
    + exact Hl.
  - exfalso. destruct o; [discriminate|]. cbn in J. apply name_or_generated in J. rewrite (elab_gen_def T F m m t a Ea Re) in J; [congruence|]. intros g kw d ->. cbn in Co. discriminate.
Qed.

(** ** Members *)
Fixpoint typed (E : env) (nm : string -> string) (i : nat) (items : list (string * type)) : Prop :=
  match items with
  | [] => True
  | (x, u) :: r => (exists ent, innermost E (nm x) = Some ent /\ forall c, ent = Type_ c -> wrote T m (member_id m i) u c) /\ typed E nm (S i) r
  end.
Lemma typed_frame E E' nm items : frame E E' -> forall i, typed E nm i items -> typed E' nm i items.
Proof. intros Fr. induction items as [|[x u] r IH]; intros i H; [exact I|]. destruct H as ((ent & H1 & H2) & H3). split; [|apply IH, H3]. exists ent. split; [apply (fr_names _ _ Fr), H1|exact H2]. Qed.
Definition sound_at (fuel : nat) : Prop := forall name t ov introduce ds E E', create_type fuel T m name t ov introduce = Some ds -> occurs T t -> good T m E ->
  run_all (run fs) ds E = Some E' -> fun_ok E name t -> names_ok (in_class E) name t ov ->
  good T m E' /\ exists ent, innermost E' name = Some ent /\ forall c, ent = Type_ c -> wrote T m ov t c.
Lemma items_run fuel nm (IH : sound_at fuel) : forall items i ds E E',
  concat_map (fun i (it : string * type) => create_type fuel T m (nm (fst it)) (snd it) (member_id m i) false) i items = Some ds ->
  good T m E -> in_class E = true -> (forall x u, In (x, u) items -> occurs T u /\ fun_ok E (nm x) u /\ forall ov, names_ok true (nm x) u ov) ->
  run_all (run fs) ds E = Some E' -> good T m E' /\ typed E' nm i items.
Proof.
  induction items as [|[x u] items IHi]; intros i ds E E' C G IC H R.
  - injection C as <-. injection R as <-. split; [exact G|exact I].
  - apply concat_map_cons in C. destruct C as (d1 & d2 & C1 & C2 & ->). cbn [fst snd] in C1. rewrite run_all_app in R. destruct (run_all (run fs) d1 E) as [E1|] eqn:R1; [|discriminate].
    destruct (H x u (or_introl eq_refl)) as (O & Fu & Na). pose proof (run_all_frame _ _ _ _ R1) as Fr.
    destruct (IH _ _ _ _ _ _ _ C1 O G R1 Fu ltac:(rewrite IC; apply Na)) as (G1 & Ty).
    destruct (IHi (S i) d2 E1 E' C2 G1) as (G2 & Tys); [rewrite (frame_in_class _ _ Fr); exact IC| |exact R|].
    + intros y v Hy. destruct (H y v (or_intror Hy)) as (O' & Fu' & Na'). split; [exact O'|]. split; [apply (fun_ok_frame _ _ _ _ Fr Fu')|exact Na'].
    + split; [exact G2|]. split; [|exact Tys]. destruct Ty as (ent & T1 & T2). exists ent. split; [|exact T2]. apply (fr_names _ _ (run_all_frame _ _ _ _ R)), T1.
Qed.
Lemma declare_all_good l : forall E E', good T m E -> declare_all l E = Some E' -> good T m E' /\ frame E E'.
Proof.
  induction l as [|x l IH]; intros E E' G H; cbn in H; [injection H as <-; split; [exact G|apply frame_refl]|]. destruct (declare x Other_ false E) as [E1|] eqn:D; [|discriminate].
  destruct (IH E1 E' (good_other _ _ _ _ _ _ _ G D ltac:(discriminate)) H) as (G1 & Fr). split; [exact G1|]. apply (frame_trans _ _ _ (proj1 (declare_spec _ _ _ _ _ D)) Fr).
Qed.
(** Members as the code has them, and the types they were made from. *)
Fixpoint related (i : nat) (ks : list (ckind * string * type)) (l : list (ckind * ty * string)) : Prop :=
  match ks, l with
  | [], [] => True
  | (k, _, u) :: ks, (k', c, _) :: l => k' = k /\ wrote T m (member_id m i) u c /\ related (S i) ks l
  | _, _ => False
  end.
Definition comp_item (c : component) : ckind * string * type := match c with Comp x u o d _ => (Elab.kind_of o d, x, u) end.
Definition comp_pair (c : component) : string * type := match c with Comp x u _ _ _ => (x, u) end.
Lemma members_related E name cs : forall i l, members_of E (map (member_decl name) cs) = Some l -> typed E (fun x => make_type_name x name) i (map comp_pair cs) -> related i (map comp_item cs) l.
Proof.
  induction cs as [|[x u o d co] cs IH]; intros i l H Ty; cbn [map members_of member_decl] in H; [injection H as <-; exact I|]. destruct Ty as ((ent & T1 & T2) & T3).
  destruct (match Elab.kind_of o d with Mand => true | Opt => _ | Def => _ end); [|discriminate]. rewrite (lookup_innermost _ _ _ T1) in H. destruct ent as [c| |]; try discriminate.
  destruct (members_of E (map (member_decl name) cs)) as [l'|] eqn:M; [|discriminate]. injection H as <-. cbn. split; [reflexivity|]. split; [apply T2; reflexivity|]. apply IH; [reflexivity|exact T3].
Qed.
Definition alt_item (a : string * type) : ckind * string * type := (Mand, fst a, snd a).
Lemma alternatives_related E nm alts : forall i ts labels, alternatives_of E (map (fun a => nm (fst a)) alts) = Some ts -> typed E nm i alts -> List.length labels = List.length alts ->
  related i (map alt_item alts) (combine (combine (repeat Mand (List.length ts)) ts) labels).
Proof.
  induction alts as [|[x u] alts IH]; intros i ts labels H Ty L; cbn [map alternatives_of fst] in H; [injection H as <-; exact I|]. destruct Ty as ((ent & T1 & T2) & T3).
  rewrite (lookup_innermost _ _ _ T1) in H. destruct ent as [c| |]; try discriminate. destruct (alternatives_of E _) as [l'|] eqn:M; [|discriminate]. injection H as <-. destruct labels as [|y labels]; [discriminate|].
  cbn. split; [reflexivity|]. split; [apply T2; reflexivity|]. apply IH; [reflexivity|exact T3|]. injection L as L. exact L.
Qed.
Lemma with_function_sound E ff x u o c c' n b : occurs T u -> component_function ff T m x u = Some o -> with_function E o c = Some c' -> elab n T m m u = Some b -> c' = member (mode_ m) b c.
Proof.
  intros O C W E1. unfold component_function, bind in C. destruct (resolve_named ff T m x u) as [[[x' r] mr]|] eqn:R; [|discriminate]. unfold member. rewrite (named_generated T SEP BARE ff u m x x' r mr n b Hm R E1).
  destruct (generated r); [|injection C as <-; cbn in W |- *; congruence]. destruct (identifier ff T m u) as [i|] eqn:I; [|discriminate]. injection C as <-.
  rewrite (identifier_same T SEP BARE ff m u i n m b Hm Hm O I E1) in *. cbn [andb]. destruct (ti_default (info (mode_ m) b)); cbn in W |- *; [congruence|].
  destruct (visible _ _); [|discriminate]. rewrite (eval_info b _ (elab_plain T SEP BARE n m m u b O E1)) in W. destruct c; try discriminate; congruence.
Qed.
Lemma tested_sound ff w i k u ls c' n b : occurs T u -> tested ff T m (match w with InSeq => true | _ => false end) i k u = Some ls -> elab n T m m u = Some b ->
  match ls with Some l => l | None => type_ids c' end = labels w (mode_ m) (Z.of_nat i) k b c'.
Proof.
  intros O H E. unfold tested in H. unfold labels. rewrite auto_same.
  assert (Z : forall l, option_map (fun l => Some (map cid_id l)) (outer_identifiers ff T m u) = Some l -> l = Some (map cid_id (outer_ids (mode_ m) b))).
  { intros l. destruct (outer_identifiers ff T m u) as [l0|] eqn:Ol; [|discriminate]. intros [= <-]. rewrite (outer_same T SEP BARE ff m u l0 n m b Hm Hm O Ol E). reflexivity. }
  destruct w.
  - destruct k; [injection H as <-; reflexivity| |]; rewrite (Z _ H); reflexivity.
  - destruct (is_auto m); [injection H as <-; reflexivity|]. rewrite (Z _ H). reflexivity.
  - destruct (is_auto m); [injection H as <-; reflexivity|]. rewrite (Z _ H). reflexivity.
Qed.
Lemma comps_sound E ff fk w lab (ks : list (ckind * string * type)) : forall i l enc dec n r cs', (forall k x u, In (k, x, u) ks -> occurs T u) -> related i ks l ->
  concat_map (fun i (it : ckind * string * type) => encode_entry ff T m (lab i (snd (fst it))) (snd (fst it)) (snd it)) i ks = Some enc ->
  concat_map (fun i (it : ckind * string * type) => decode_entry ff T m (match w with InSeq => true | _ => false end) i (fst (fst it)) (lab i (snd (fst it))) (snd (fst it)) (snd it)) i ks = Some dec ->
  comps_of E fk l enc dec = Some cs' -> traverse (fun it : ckind * string * type => option_map (pair (fst (fst it))) (elab n T m m (snd it))) ks = Some r ->
  cs' = cpp_comps w (mode_ m) (Z.of_nat i) (acomps_of r).
Proof.
  induction ks as [|[[k x] u] ks IH]; intros i l enc dec n r cs' O Re He Hd Hc Er.
  - destruct l; [|destruct Re]. injection He as <-. injection Hd as <-. injection Er as <-. injection Hc as <-. reflexivity.
  - destruct l as [|[[k' c] y] l]; [destruct Re|]. destruct Re as (-> & W & Re).
    apply concat_map_cons in He. destruct He as (e1 & e2 & He1 & He2 & ->). apply concat_map_cons in Hd. destruct Hd as (d1 & d2 & Hd1 & Hd2 & ->). cbn [fst snd] in He1, Hd1.
    unfold encode_entry, bind in He1. destruct (component_function ff T m x u) as [o|] eqn:Cf; [|discriminate]. injection He1 as <-.
    unfold decode_entry, bind in Hd1. rewrite Cf in Hd1. destruct (tested ff T m _ i k u) as [ls|] eqn:Te; [|discriminate]. injection Hd1 as <-.
    cbn [app comps_of] in Hc. destruct (_ && _ && _ && _); [|discriminate]. destruct (with_function E o c) as [c'|] eqn:Wf; [|discriminate]. destruct (comps_of E fk l e2 d2) as [cs2|] eqn:Hc2; [|discriminate]. injection Hc as <-.
    cbn [traverse fst snd] in Er. fold (traverse (fun it : ckind * string * type => option_map (pair (fst (fst it))) (elab n T m m (snd it)))) in Er.
    destruct (elab n T m m u) as [b|] eqn:Eb; [|discriminate]. cbn [option_map] in Er. destruct (traverse _ ks) as [r'|] eqn:Er'; [|discriminate]. injection Er as <-.
    assert (Ou : occurs T u) by (apply (O k x u); left; reflexivity).
    assert (Ec : c = cpp (mode_ m) (if is_automatic (mode_ m) then Some (Id context_specific (Z.of_nat i)) else None) b).
    { apply (W n b _ Eb). unfold member_id. rewrite auto_same. destruct (is_auto m); [|reflexivity]. exists (Id context_specific (Z.of_nat i)). split; reflexivity. }
    pose proof (with_function_sound E ff x u o c c' n b Ou Cf Wf Eb) as Ec'. cbn [acomps_of cpp_comps]. rewrite <- Ec, <- Ec'. rewrite (tested_sound ff w i k u ls c' n b Ou Te Eb).
    rewrite (IH (S i) l e2 d2 n r' cs2); [|intros k0 x0 u0 H0; apply (O k0 x0); right; exact H0|exact Re|exact He2|exact Hd2|exact Hc2|exact Er'].
    replace (Z.of_nat i + 1)%Z with (Z.of_nat (S i)) by lia. reflexivity.
Qed.

(** ** Names of members *)
Lemma names_class t : forall name ov, (forall y, a_type_name T y -> name <> (y ++ "Contained")%string) -> (is_list t = true -> forall y, a_type_name T y -> name <> y) -> names_ok true name t ov.
Proof.
  induction t as [k|ns|vs e|d fl|alts|set cs ext|set z v IH|g kw u IH|d]; intros name ov H1 H2; cbn [names_ok]; (split; [intros c _; exact H1|]); try exact I.
  - apply IH.
    + intros y Hy He. apply contained_inj in He. exact (H2 eq_refl y Hy He).
    + intros _ y Hy He. subst y. destruct Hy as [He|Hy]; [destruct name; discriminate|]. destruct (sp_types T SEP _ Hy (made_contained name)).
  - intros fuel id _. apply IH; [exact H1|]. intros L. apply H2. exact L.
Qed.
Lemma member_type_name x parent : ~ made_up (capitalised x) -> make_type_name x parent = capitalised x \/ make_type_name x parent = (capitalised x ++ "_")%string.
Proof. intros _. unfold make_type_name. rewrite capital_same. destruct (String.eqb _ _); auto. Qed.
Lemma member_names x u parent ov : member_named T x u -> names_ok true (make_type_name x parent) u ov.
Proof.
  intros M. pose proof (sp_members T SEP x u M) as Nm. apply names_class.
  - intros y _ He. destruct (member_type_name x parent Nm) as [E|E]; rewrite E in He.
    + apply Nm. rewrite He. apply made_contained.
    + apply (contained_under y (capitalised x)). congruence.
  - intros L y Hy He. destruct (member_type_name x parent Nm) as [E|E]; rewrite E in He.
    + subst y. destruct Hy as [Hy|Hy]; [apply Nm; rewrite Hy; left; reflexivity|]. apply (sp_lists T SEP x u M L Hy).
    + subst y. destruct Hy as [Hy|Hy]; [destruct (capitalised x); discriminate|]. apply (sp_types T SEP _ Hy (made_under _)).
Qed.
(** ** Functions *)
Lemma functions_own ff p t fl : functions ff T m p t = Some fl -> exists own, own_function ff T m p t = Some own /\ incl own fl.
Proof.
  intros H. assert (X : exists inner, bind inner (fun inner => bind (own_function ff T m p t) (fun own => Some (inner ++ own))) = Some fl) by (destruct t; cbn [functions] in H; eexists; exact H).
  destruct X as ([inner|] & X); [|discriminate]. cbn in X. destruct (own_function ff T m p t) as [own|]; [|discriminate]. injection X as <-. exists own. split; [reflexivity|]. apply incl_appr, incl_refl.
Qed.
Lemma functions_record ff p set cs ext fl x u o d co : functions ff T m p (TRecord set cs ext) = Some fl -> In (Comp x u o d co) cs ->
  exists fl', functions ff T m (p ++ [make_type_name x ""]) u = Some fl' /\ incl fl' fl.
Proof.
  intros H I. cbn [functions] in H. destruct (concat_map _ 0 cs) as [inner|] eqn:C; [|discriminate]. destruct (own_function _ _ _ _ _); [|discriminate]. injection H as <-.
  destruct (concat_map_in _ _ _ _ _ C I) as (j & a & H1 & H2). exists a. split; [exact H1|]. apply incl_appl, H2.
Qed.
Lemma functions_choice ff p alts fl x u : functions ff T m p (ParserTree.TChoice alts) = Some fl -> In (x, u) alts ->
  exists fl', functions ff T m (p ++ [make_type_name x ""]) u = Some fl' /\ incl fl' fl.
Proof.
  intros H I. cbn [functions] in H. destruct (concat_map _ 0 alts) as [inner|] eqn:C; [|discriminate]. destruct (own_function _ _ _ _ _); [|discriminate]. injection H as <-.
  destruct (concat_map_in _ _ _ _ _ C I) as (j & a & H1 & H2). exists a. split; [exact H1|]. apply incl_appl, H2.
Qed.
Lemma functions_tagged ff p g kw u fl : functions ff T m p (TTagged g kw u) = Some fl -> functions ff T m p u = Some fl.
Proof. intros H. cbn [functions] in H. destruct (functions ff T m p u) as [inner|]; [|discriminate]. cbn in H. rewrite app_nil_r in H. exact H. Qed.
Lemma open_path name E : path (open_class name E) = path E ++ [name]. Proof. reflexivity. Qed.
Lemma own_found E name t f : fun_ok E name t -> function_of fs (path E ++ [name]) = Some f -> exists ff own, own_function ff T m (path E ++ [name]) t = Some own /\ (forall g, In g own -> f_path g = path E ++ [name] -> g = f).
Proof.
  intros Fu Fo. apply function_of_in in Fo. destruct Fo as (If & Pf). destruct Fu as [(n & In_ & Mn)|(ff & fl & Ff & Inc)].
  - exfalso. apply (FS2 f n If); [|exact Mn]. rewrite Pf. unfold path. cbn. apply in_or_app. destruct In_ as [<-|In_]; [right; left; reflexivity|left]. apply in_rev in In_. exact In_.
  - destruct (functions_own _ _ _ _ Ff) as (own & Ow & Io). exists ff, own. split; [exact Ow|]. intros g Hg Pg. apply (distinct_same fs FS1 g f); [apply Inc, Io, Hg|exact If|congruence].
Qed.
Lemma member_function E name set cs ext x u o d co : fun_ok E name (TRecord set cs ext) -> In (Comp x u o d co) cs -> ~ made_up (capitalised x) -> fun_ok (open_class name E) (make_type_name x name) u.
Proof.
  intros Fu I Nm. destruct Fu as [(n & In_ & Mn)|(ff & fl & Ff & Inc)].
  - left. exists n. split; [|exact Mn]. right. exact In_.
  - unfold make_type_name. rewrite capital_same. destruct (String.eqb_spec (capitalised x) name) as [He|He].
    + left. exists (capitalised x ++ "_")%string. split; [left; reflexivity|apply made_under].
    + right. destruct (functions_record _ _ _ _ _ _ _ _ _ _ _ Ff I) as (fl' & H1 & H2). exists ff, fl'. split; [|apply (incl_tran H2 Inc)]. rewrite open_path. rewrite <- H1. f_equal. f_equal. f_equal.
      unfold make_type_name. rewrite capital_same. destruct (String.eqb_spec (capitalised x) "") as [Hx|]; [|reflexivity]. destruct Nm. rewrite Hx. left. reflexivity.
Qed.
Lemma alternative_function E name alts x u : fun_ok E name (ParserTree.TChoice alts) -> In (x, u) alts -> fun_ok (open_class name E) (make_type_name x "") u.
Proof.
  intros Fu I. destruct Fu as [(n & In_ & Mn)|(ff & fl & Ff & Inc)].
  - left. exists n. split; [|exact Mn]. right. exact In_.
  - right. destruct (functions_choice _ _ _ _ _ _ Ff I) as (fl' & H1 & H2). exists ff, fl'. split; [exact H1|apply (incl_tran H2 Inc)].
Qed.
Lemma defaults_run fuel cs : forall i ds E E', concat_map (fun _ => default_decl fuel T m) i cs = Some ds -> good T m E -> run_all (run fs) ds E = Some E' -> good T m E'.
Proof.
  induction cs as [|c cs IH]; intros i ds E E' C G R; [injection C as <-; injection R as <-; exact G|]. apply concat_map_cons in C. destruct C as (d1 & d2 & C1 & C2 & ->). rewrite run_all_app in R.
  destruct (run_all (run fs) d1 E) as [E1|] eqn:R1; [|discriminate]. apply (IH _ _ _ _ C2) in R; [exact R|]. destruct c as [x u o [v|] co]; cbn [default_decl] in C1; [|injection C1 as <-; injection R1 as <-; exact G].
  unfold bind in C1. destruct (value_type fuel T m u x) as [vt|]; [|discriminate]. destruct (resolve_named fuel T m x u) as [[[y r] mr]|]; [|discriminate]. destruct (value_text r y v); [|discriminate]. injection C1 as <-.
  rewrite run_all_cons in R1. cbn [run] in R1. destruct (vexp_ok E vt (enum_used r y)); [|discriminate]. destruct (declare _ Other_ false E) as [E2|] eqn:D; [|discriminate]. injection R1 as <-. apply (good_other _ _ _ _ _ _ _ G D). discriminate.
Qed.
Lemma encode_length ff lab (ks : list (ckind * string * type)) : forall i enc, concat_map (fun i (it : ckind * string * type) => encode_entry ff T m (lab i (snd (fst it))) (snd (fst it)) (snd it)) i ks = Some enc -> List.length enc = List.length ks.
Proof.
  induction ks as [|it ks IH]; intros i enc H; [injection H as <-; reflexivity|]. apply concat_map_cons in H. destruct H as (a & b & H1 & H2 & ->). unfold encode_entry, bind in H1. destruct (component_function _ _ _ _ _); [|discriminate]. injection H1 as <-.
  cbn. f_equal. apply (IH _ _ H2).
Qed.
Lemma traverse_comps n cs : forall r, traverse (fun c => match c with Comp _ u o d None => option_map (pair (Elab.kind_of o d)) (elab n T m m u) | Comp _ _ _ _ (Some _) => None end) cs = Some r ->
  traverse (fun it : ckind * string * type => option_map (pair (fst (fst it))) (elab n T m m (snd it))) (map comp_item cs) = Some r.
Proof.
  induction cs as [|[x u o d [co|]] cs IH]; intros r H; [exact H|discriminate|]. cbn in *. destruct (elab n T m m u); [|discriminate]. cbn in *.
  fold (traverse (fun it : ckind * string * type => option_map (pair (fst (fst it))) (elab n T m m (snd it)))). fold (traverse (fun c => match c with Comp _ u o d None => option_map (pair (Elab.kind_of o d)) (elab n T m m u) | Comp _ _ _ _ (Some _) => None end)) in H.
  destruct (traverse _ cs) as [r'|] eqn:Er; [|discriminate]. rewrite (IH r' eq_refl). exact H.
Qed.
Lemma traverse_alts n alts : forall r, traverse (fun e : string * type => option_map (pair Mand) (elab n T m m (snd e))) alts = Some r ->
  traverse (fun it : ckind * string * type => option_map (pair (fst (fst it))) (elab n T m m (snd it))) (map alt_item alts) = Some r.
Proof.
  induction alts as [|[x u] cs IH]; intros r H; [exact H|]. cbn in *. destruct (elab n T m m u); [|discriminate]. cbn in *.
  fold (traverse (fun it : ckind * string * type => option_map (pair (fst (fst it))) (elab n T m m (snd it)))). fold (traverse (fun e : string * type => option_map (pair Mand) (elab n T m m (snd e)))) in H.
  destruct (traverse _ cs) as [r'|] eqn:Er; [|discriminate]. rewrite (IH r' eq_refl). exact H.
Qed.

(** ** All types *)
Lemma record_sound fuel set cs ext name ov introduce ds E E' (IH : sound_at fuel) : create_type (S fuel) T m name (TRecord set cs ext) ov introduce = Some ds -> occurs T (TRecord set cs ext) -> good T m E ->
  run_all (run fs) ds E = Some E' -> fun_ok E name (TRecord set cs ext) -> names_ok (in_class E) name (TRecord set cs ext) ov ->
  good T m E' /\ exists ent, innermost E' name = Some ent /\ forall c, ent = Type_ c -> wrote T m ov (TRecord set cs ext) c.
Proof.
  intros C O G R Fu Na. cbn [create_type] in C. unfold bind in C. destruct (check_valid fuel T m set cs) as [ok|]; [|discriminate]. destruct (negb ok); [discriminate|]. destruct (existsb _ cs); [discriminate|].
  destruct (concat_map _ 0 cs) as [defaults|] eqn:Cd; [|discriminate]. destruct (concat_map _ 0 cs) as [types|] eqn:Ct in C; [|discriminate]. destruct (override fuel T m _ ov) as [id|] eqn:Ov; [|discriminate]. injection C as <-.
  rewrite run_all_cons in R. cbn [run] in R. rewrite run_all_app in R. destruct (run_all (run fs) defaults (open_class name E)) as [E0|] eqn:R0; [|discriminate]. destruct (run_all (run fs) types E0) as [E1|] eqn:R1; [|discriminate].
  destruct (declare_all _ E1) as [E2|] eqn:R2; [|discriminate]. destruct (members_of E2 _) as [l|] eqn:Ml; [|discriminate]. destruct (struct_type E2 fs l id) as [c|] eqn:St; [|discriminate]. destruct (declare name (Type_ c) false E) as [E3|] eqn:De; [|discriminate]. injection R as <-.
  pose proof (run_all_frame _ _ _ _ R0) as Fr0. pose proof (run_all_frame _ _ _ _ R1) as Fr1.
  assert (G0 : good T m E0) by (apply (defaults_run fuel cs 0%nat defaults _ _ Cd (good_open T m name E G) R0)).
  assert (Mem : forall x u o d co, In (Comp x u o d co) cs -> member_named T x u) by (intros x u o d co I; left; exists set, cs, ext, o, d, co; auto).
  assert (Occ : forall x u o d co, In (Comp x u o d co) cs -> occurs T u) by (intros x u o d co I; apply (occurs_inside T _ _ O); econstructor 2; [exact I|constructor]).
  assert (Ct' : concat_map (fun i (it : string * type) => create_type fuel T m (make_type_name (fst it) name) (snd it) (member_id m i) false) 0 (map comp_pair cs) = Some types).
  { rewrite concat_map_map, <- Ct. apply concat_map_ext. intros i [x u o d co] _. reflexivity. }
  destruct (items_run fuel (fun x => make_type_name x name) IH (map comp_pair cs) 0%nat types E0 E1 Ct' G0) as (G1 & Ty).
  { rewrite (frame_in_class _ _ Fr0). reflexivity. }
  { intros x u I. apply in_map_iff in I. destruct I as ([x' u' o d co] & [= -> ->] & I). split; [apply (Occ _ _ _ _ _ I)|]. split.
    - apply (fun_ok_frame _ _ _ _ Fr0). apply (member_function E name set cs ext x u o d co Fu I). apply (sp_members T SEP x u (Mem _ _ _ _ _ I)).
    - intros ov'. apply (member_names x u name ov' (Mem _ _ _ _ _ I)). }
  { exact R1. }
  destruct (declare_all_good _ _ _ G1 R2) as (G2 & Fr2). pose proof (typed_frame _ _ _ _ Fr2 _ Ty) as Ty2. pose proof (members_related E2 name cs 0%nat l Ml Ty2) as Re.
  assert (Pth : path E2 = path E ++ [name]) by (rewrite (frame_path _ _ Fr2), (frame_path _ _ Fr1), (frame_path _ _ Fr0); apply open_path).
  assert (W : wrote T m ov (TRecord set cs ext) c).
  { intros F a o Ea Eo. unfold struct_type in St. rewrite Pth in St. destruct (function_of fs (path E ++ [name])) as [f|] eqn:Ff; [|discriminate].
    destruct (own_found E name _ f Fu Ff) as (ff & own & Ow & Ou). cbn [own_function] in Ow. unfold bind in Ow. destruct (concat_map _ 0 cs) as [enc|] eqn:He in Ow; [|discriminate]. destruct (concat_map _ 0 cs) as [dec|] eqn:Hd in Ow; [|discriminate]. injection Ow as <-.
    specialize (Ou _ (or_introl eq_refl) eq_refl). subst f. cbn [f_kind f_encode f_decode] in St.
    pose proof (override_eval _ _ _ _ _ _ _ O Ov Ea Eo) as Hid. destruct F as [|n]; [discriminate|]. cbn [elab] in Ea. destruct (traverse _ cs) as [r|] eqn:Er; [|discriminate]. injection Ea as <-. apply traverse_comps in Er.
    destruct (visible _ _); [|discriminate]. destruct (comps_of E2 _ l enc dec) as [cs'|] eqn:Hc; [|discriminate].
    assert (Ok : forall k x u, In (k, x, u) (map comp_item cs) -> occurs T u) by (intros k x u I; apply in_map_iff in I; destruct I as ([x' u' o' d' co'] & Eq & I); cbn in Eq; assert (u = u') as -> by congruence; apply (Occ _ _ _ _ _ I)).
    assert (X : cs' = cpp_comps (if set then InSet else InSeq) (mode_ m) 0 (acomps_of r)).
    { apply (comps_sound E2 ff (if set then FSet ext else FSeq) (if set then InSet else InSeq) (fun _ x => x) (map comp_item cs) 0%nat l enc dec n r cs' Ok Re); [| |exact Hc|exact Er].
      - rewrite concat_map_map, <- He. apply concat_map_ext. intros i [x u o' d' co'] _. reflexivity.
      - rewrite concat_map_map, <- Hd. apply concat_map_ext. intros i [x u o' d' co'] _. destruct set; reflexivity. }
    subst cs'. rewrite Hid in St. destruct set; cbn [info] in St; destruct o as [j|]; cbn in St |- *; congruence. }
  split.
  - apply (good_declare _ _ _ _ _ _ _ G De). intros c' [= <-]. apply (names_final _ _ _ _ _ Na W).
  - exists (Type_ c). split; [apply (declare_spec _ _ _ _ _ De)|]. intros c' [= <-]. exact W.
Qed.
Lemma choice_sound fuel alts name ov introduce ds E E' (IH : sound_at fuel) : create_type (S fuel) T m name (ParserTree.TChoice alts) ov introduce = Some ds -> occurs T (ParserTree.TChoice alts) -> good T m E ->
  run_all (run fs) ds E = Some E' -> fun_ok E name (ParserTree.TChoice alts) -> names_ok (in_class E) name (ParserTree.TChoice alts) ov ->
  good T m E' /\ exists ent, innermost E' name = Some ent /\ forall c, ent = Type_ c -> wrote T m ov (ParserTree.TChoice alts) c.
Proof.
  intros C O G R Fu Na. cbn [create_type] in C. unfold bind in C. destruct (override fuel T m _ ov) as [id|] eqn:Ov; [|discriminate]. destruct (concat_map _ 0 alts) as [types|] eqn:Ct in C; [|discriminate]. injection C as <-.
  rewrite run_all_cons in R. cbn [run] in R. destruct (run_all (run fs) types (open_class name E)) as [E1|] eqn:R1; [|discriminate].
  destruct (declare_all _ E1) as [E2|] eqn:R2; [|discriminate]. destruct (alternatives_of E2 _) as [ts|] eqn:Ml; [|discriminate]. destruct (choice_type E2 fs ts id) as [c|] eqn:St; [|discriminate]. destruct (declare name (Type_ c) false E) as [E3|] eqn:De; [|discriminate]. injection R as <-.
  pose proof (run_all_frame _ _ _ _ R1) as Fr1.
  assert (Mem : forall x u, In (x, u) alts -> member_named T x u) by (intros x u I; right; exists alts; auto).
  assert (Occ : forall x u, In (x, u) alts -> occurs T u) by (intros x u I; apply (occurs_inside T _ _ O); econstructor 3; [exact I|constructor]).
  destruct (items_run fuel (fun x => make_type_name x "") IH alts 0%nat types _ E1 Ct (good_open T m name E G) eq_refl) as (G1 & Ty).
  { intros x u I. split; [apply (Occ _ _ I)|]. split; [apply (alternative_function E name alts x u Fu I)|]. intros ov'. apply (member_names x u "" ov' (Mem _ _ I)). }
  { exact R1. }
  destruct (declare_all_good _ _ _ G1 R2) as (G2 & Fr2). pose proof (typed_frame _ _ _ _ Fr2 _ Ty) as Ty2.
  assert (Pth : path E2 = path E ++ [name]) by (rewrite (frame_path _ _ Fr2), (frame_path _ _ Fr1); apply open_path).
  assert (W : wrote T m ov (ParserTree.TChoice alts) c).
  { intros F a o Ea Eo. unfold choice_type in St. rewrite Pth in St. destruct (function_of fs (path E ++ [name])) as [f|] eqn:Ff; [|discriminate].
    destruct (own_found E name _ f Fu Ff) as (ff & own & Ow & Ou). cbn [own_function] in Ow. unfold bind in Ow. destruct (concat_map _ 0 alts) as [enc|] eqn:He in Ow; [|discriminate]. destruct (concat_map _ 0 alts) as [dec|] eqn:Hd in Ow; [|discriminate]. injection Ow as <-.
    specialize (Ou _ (or_introl eq_refl) eq_refl). subst f. cbn [f_kind f_encode f_decode] in St.
    pose proof (override_eval _ _ _ _ _ _ _ O Ov Ea Eo) as Hid. assert (P : plain a) by apply (elab_plain T SEP BARE F m m _ a O Ea).
    destruct F as [|n]; [discriminate|]. cbn [elab] in Ea. destruct (traverse _ alts) as [r|] eqn:Er; [|discriminate]. injection Ea as <-. apply traverse_alts in Er.
    destruct (_ && _); [|discriminate]. destruct (comps_of E2 _ _ enc dec) as [cs'|] eqn:Hc; [|discriminate].
    assert (Ok : forall k x u, In (k, x, u) (map alt_item alts) -> occurs T u) by (intros k x u I; apply in_map_iff in I; destruct I as ([x' u'] & Eq & I); unfold alt_item in Eq; cbn in Eq; assert (u = u') as -> by congruence; apply (Occ _ _ I)).
    assert (He' : concat_map (fun i (it : ckind * string * type) => encode_entry ff T m (to_string (Z.of_nat i)) (snd (fst it)) (snd it)) 0 (map alt_item alts) = Some enc) by (rewrite concat_map_map; exact He).
    assert (L : List.length (map fst enc) = List.length alts) by (rewrite map_length, (encode_length ff (fun i _ => to_string (Z.of_nat i)) _ _ _ He'); apply map_length).
    pose proof (alternatives_related E2 (fun x => make_type_name x "") alts 0%nat ts (map fst enc) Ml Ty2 L) as Re.
    assert (X : cs' = cpp_comps InChoice (mode_ m) 0 (acomps_of r)).
    { apply (comps_sound E2 ff FChoice InChoice (fun i _ => to_string (Z.of_nat i)) (map alt_item alts) 0%nat _ enc dec n r cs' Ok Re He'); [|exact Hc|exact Er].
      rewrite concat_map_map. exact Hd. }
    subst cs'. rewrite Hid in St. destruct P as (P1 & P2). unfold ti_name in St. cbn [info ti_outer ti_choice] in St. destruct (choice_ids (mode_ m) 0 (acomps_of r)) eqn:Ci; [destruct (choice_not_nil _ _ _ P2 P1 Ci)|].
    destruct o as [j|]; cbn [or_id cpp] in St |- *; congruence. }
  split.
  - apply (good_declare _ _ _ _ _ _ _ G De). intros c' [= <-]. apply (names_final _ _ _ _ _ Na W).
  - exists (Type_ c). split; [apply (declare_spec _ _ _ _ _ De)|]. intros c' [= <-]. exact W.
Qed.
Lemma create_sound fuel : sound_at fuel.
Proof.
  induction fuel as [|fuel IH]; intros name t ov introduce ds E E' C O G R Fu Na; [discriminate|].
  (* the last declaration *)
  assert (Last : forall e E1, good T m E1 -> frame E E1 -> run_all (run fs) [if introduce then DAlias name e else DUsing name e] E1 = Some E' -> (forall c, eval_type E1 e = Some (Type_ c) -> wrote T m ov t c) ->
    good T m E' /\ exists ent, innermost E' name = Some ent /\ forall c, ent = Type_ c -> wrote T m ov t c).
  { intros e E1 G1 Fr R1 W. rewrite run_all_cons in R1. destruct (run fs _ E1) as [E2|] eqn:R2; [|discriminate]. injection R1 as <-. destruct (finish_run introduce name e E1 E2 R2) as (ent & F1 & F2 & F3).
    assert (W' : forall c, ent = Type_ c -> wrote T m ov t c) by (intros c ->; apply W, F1). split; [|exists ent; auto]. apply (F3 G1). intros c Hc. rewrite (frame_in_class _ _ Fr). apply (names_final _ _ _ _ _ Na (W' c Hc)). }
  destruct t as [k|ns|vs ex|d fl|alts|set cs ext|set z v|g kw v|[mo x ps]].
  - cbn [create_type] in C. unfold bind in C. destruct (override fuel T m _ ov) as [id|] eqn:Ov; [|discriminate]. destruct (type_as_string fuel T m _ name id) as [e|] eqn:Ta; [|discriminate]. injection C as <-.
    apply (Last e E G (frame_refl E) R). intros c Ec. apply (direct_sound fuel fuel _ name id ov e E c O G Ov Ta Ec eq_refl eq_refl eq_refl). discriminate.
  - cbn [create_type] in C. unfold bind in C. destruct (override fuel T m _ ov) as [id|] eqn:Ov; [|discriminate]. destruct (type_as_string fuel T m _ name id) as [e|] eqn:Ta; [|discriminate]. injection C as <-.
    apply (Last e E G (frame_refl E) R). intros c Ec. apply (direct_sound fuel fuel _ name id ov e E c O G Ov Ta Ec eq_refl eq_refl eq_refl). discriminate.
  - cbn [create_type] in C. unfold bind in C. destruct (override fuel T m _ ov) as [id|] eqn:Ov; [|discriminate]. destruct (type_as_string fuel T m _ name id) as [e|] eqn:Ta; [|discriminate]. injection C as <-.
    rewrite run_all_cons in R. destruct (run fs _ E) as [E1|] eqn:R1; [|discriminate]. pose proof (run_frame _ _ _ _ R1) as Fr1. assert (G1 : good T m E1) by (apply (good_other _ _ _ _ _ _ _ G R1); discriminate).
    apply (Last e E1 G1 Fr1 R). intros c Ec. apply (direct_sound fuel fuel _ name id ov e E1 c O G1 Ov Ta Ec eq_refl eq_refl eq_refl). discriminate.
  - exfalso. cbn [create_type] in C. unfold bind in C. destruct (override fuel T m _ ov); [|discriminate]. destruct fuel; discriminate.
  - apply (choice_sound fuel alts name ov introduce ds E E' IH C O G R Fu Na).
  - apply (record_sound fuel set cs ext name ov introduce ds E E' IH C O G R Fu Na).
  - cbn [create_type] in C. unfold bind in C. destruct (create_type fuel T m (name ++ "Contained") v None false) as [ds1|] eqn:C1; [|discriminate].
    destruct (override fuel T m _ ov) as [id|] eqn:Ov; [|discriminate]. destruct (type_as_string fuel T m _ name id) as [e|] eqn:Ta; [|discriminate]. injection C as <-.
    rewrite run_all_app in R. destruct (run_all (run fs) ds1 E) as [E1|] eqn:R1; [|discriminate]. pose proof (run_all_frame _ _ _ _ R1) as Fr1.
    destruct (IH _ _ _ _ _ _ _ C1 (occurs_inside T _ _ O ltac:(econstructor 4; constructor)) G R1) as (G1 & ent & I1 & I2).
    + left. exists (name ++ "Contained")%string. split; [left; reflexivity|apply made_contained].
    + apply Na.
    + apply (Last e E1 G1 Fr1 R). intros c Ec. apply (direct_sound fuel fuel _ name id ov e E1 c O G1 Ov Ta Ec eq_refl eq_refl eq_refl).
      intros set' n' v' k [= <- <- <-] L. rewrite (lookup_innermost _ _ _ I1) in L. injection L as ->. apply I2. reflexivity.
  - cbn [create_type] in C. unfold bind in C. destruct (override fuel T m _ ov) as [id|] eqn:Ov; [|discriminate]. pose proof (occurs_inside T _ _ O ltac:(econstructor 5; constructor) : occurs T v) as Ov'.
    destruct (IH _ _ _ _ _ _ _ C Ov' G R) as (G1 & ent & I1 & I2).
    + destruct Fu as [Fu|(ff & fl & Ff & Inc)]; [left; exact Fu|right]. exists ff, fl. split; [apply (functions_tagged _ _ _ _ _ _ Ff)|exact Inc].
    + apply (proj2 Na fuel id Ov).
    + split; [exact G1|]. exists ent. split; [exact I1|]. intros c Hc F a o Ea Eo. pose proof (override_eval _ _ _ _ _ _ _ O Ov Ea Eo) as Hid. destruct g as [cl n].
      destruct (elab_tagged T SEP BARE _ _ _ _ _ _ _ _ Hm Hm Ea) as (F' & b & -> & -> & Eb). destruct (tagged_name_some (mode_of kw) (class_of_tag cl) n b (mode_ m)) as (j & Hj).
      apply (I2 c Hc F' b (or_id o (ti_name (info (mode_ m) (ATagged (mode_of kw) (class_of_tag cl) n b)))) Eb). cbn [ev]. rewrite Hid. rewrite Hj. destruct o as [j'|]; cbn; eauto.
  - cbn [create_type] in C. unfold bind in C. destruct (override fuel T m _ ov) as [id|] eqn:Ov; [|discriminate]. destruct (resolve_ref fuel T m m _) as [[[x' r] m']|]; [|discriminate].
    destruct (type_as_string fuel T m _ name id) as [e|] eqn:Ta; [|discriminate]. injection C as <-.
    assert (W : forall E1 c, good T m E1 -> eval_type E1 e = Some (Type_ c) -> wrote T m ov (TRef (Defined mo x ps)) c).
    { intros E1 c G1 Ec F a o Ea Eo. pose proof (override_eval _ _ _ _ _ _ _ O Ov Ea Eo) as Hid. assert (P : plain a) by apply (elab_plain T SEP BARE F m m _ a O Ea). pose proof Ta as Ta'.
      destruct fuel as [|f]; [discriminate|]. cbn [type_as_string] in Ta. destruct (resolve_ref f T m m (Defined mo x ps)) as [[[x1 u1] m1]|] eqn:R1; [|discriminate].
      destruct (resolve_elab T SEP BARE _ _ _ _ _ _ _ _ _ Hm Hm R1 Ea) as (w & m2 & a1 & a2 & Fd). destruct Fd as [Ffo Fa Fw' Fm2 Fu' Fgen Fcpp Fref Frefs Fsh]. subst a.
      destruct (follow_elab T BARE _ _ _ _ _ _ Ffo) as (-> & _ & _ & _ & _). destruct Fw' as (Fw & Ew). destruct (generated u1) eqn:Gu.
      - injection Ta as <-. cbn [cpp]. rewrite Fgen. apply (xref_sound T BARE m Hmod E1 mo x c w m2 G1 Ffo Ec Fw a1 None Ew eq_refl).
      - destruct (or_id o (ti_name (info (mode_ m) (ADef (mode_ m2) a1)))) as [j|] eqn:J.
        + rewrite (cpp_named _ _ o j P J). apply (tas_sound T SEP BARE m Hm Hmod (S f) (TRef (Defined mo x [])) name id e E1 c m F (ADef (mode_ m2) a1) j G1 Hm Ta' Ec Ea Hid eq_refl).
          * intros d [= <-]. split; [exact O|discriminate].
          * intros d _. left. reflexivity.
          * discriminate.
        + exfalso. destruct o; [discriminate|]. cbn [or_id] in J. apply name_or_generated in J. cbn [gen_def] in J. congruence. }
    assert (Last' : forall E1, good T m E1 -> frame E E1 -> run_all (run fs) [if introduce then DAlias name e else DUsing name e] E1 = Some E' ->
      good T m E' /\ exists ent, innermost E' name = Some ent /\ forall c, ent = Type_ c -> wrote T m ov (TRef (Defined mo x ps)) c) by (intros E1 G1 Fr1 R1; apply (Last e E1 G1 Fr1 R1); intros c; apply (W E1 c G1)).
    destruct r as [| |vs ex| | | | | |]; try (apply (Last' E G (frame_refl E) R)). destruct (String.eqb (m_name m') (m_name m)); [apply (Last' E G (frame_refl E) R)|].
    cbn [app] in R. rewrite run_all_cons in R. destruct (run fs _ E) as [E1|] eqn:R1; [|discriminate]. apply (Last' E1); [|apply (run_frame _ _ _ _ R1)|exact R].
    cbn [run] in R1. destruct (eval_type E _) as [ent|]; [|discriminate]. apply (good_declare _ _ _ _ _ _ _ G R1). intros c _. apply (allowed_values T SEP BARE _ _ _ _ Hm).
Qed.
End Create.
