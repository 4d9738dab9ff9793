(** The classes that a header declares, if it compiles, are those of Compiler.v. *)
From Coq Require Import List String Ascii ZArith Bool Lia.
From Verif Require Import Base CompilerNames Ident Prims Schema ParserTree Compiler Elab ElabProofs HeaderSpec CppSpec Header HeaderIds.
Import ListNotations.
Local Open Scope string_scope.
Local Open Scope list_scope.

Fixpoint core (t : type) : type := match t with TTagged _ _ u => core u | _ => t end.
Definition explicit_ref (d : defined) : bool := match d with Defined (Some _) _ _ => true | _ => false end.

Section Refs.
Context (T : list module) (SEP : separate T) (BARE : forall m, In m T -> m_imports m = []).
Notation mode_ m := (mode_of (m_tagging m)).

Lemma core_tagged_name t : forall d, core t = TRef d -> explicit_ref d = false -> is_ref t = false -> tagged_name t = true.
Proof.
  induction t as [k|ns|vs e|d0 fs|alts|set cs ext|set x u IH|g kw u IH|d0]; intros d H X R; try discriminate. cbn [core] in H.
  destruct u as [| | | | | | |g' kw' u'|d1]; try (cbn in H; discriminate).
  - cbn [tagged_name]. apply (IH d); [exact H|exact X|reflexivity].
  - cbn in H. injection H as ->. destruct d as [[y|] r ps]; [discriminate X|]. reflexivity.
Qed.
Lemma core_inside t : inside (core t) t.
Proof. induction t; try constructor. cbn [core]. assumption. Qed.
(** Where the reference is written does not matter. *)
Definition anywhere (d : defined) : Prop := List.length T = 1%nat \/ explicit_ref d = true.
Lemma anywhere_same d m m' : anywhere d -> In m T -> In m' T ->
  follow T m d = follow T m' d /\ (forall fuel cur, resolve_ref fuel T cur m d = resolve_ref fuel T cur m' d) /\ (forall F s, elab F T s m (TRef d) = elab F T s m' (TRef d)).
Proof.
  intros [L|X] Hm Hm'; [rewrite (in_one T m m' L Hm Hm'); auto|]. destruct d as [[y|] r ps]; [|discriminate]. split; [reflexivity|].
  split; [|intros [|F] s; reflexivity]. intros [|fuel] cur; reflexivity.
Qed.
Definition refs_ok (u : type) : Prop := forall d, core u = TRef d -> occurs T (TRef d) /\ (is_ref u = false -> anywhere d).
Lemma assigned_refs m x u : assigned T m x u -> refs_ok u.
Proof.
  intros A d H. pose proof (assigned_occurs _ _ _ _ A) as O. split; [rewrite <- H; apply (occurs_inside _ _ _ O (core_inside u))|]. intros R. unfold anywhere.
  destruct (sp_tags T SEP) as [L|NB]; [left; exact L|]. right. destruct (explicit_ref d) eqn:X; [reflexivity|]. specialize (NB m x u A). rewrite (core_tagged_name u d H X R) in NB. discriminate.
Qed.
Lemma elab_generated F : forall s m u b, elab F T s m u = Some b -> is_generated b = generated u.
Proof.
  induction F as [|n IH]; intros s m u b E; [discriminate|]. cbn [elab] in E. destruct u as [k|ns|vs e|d fs|alts|set cs ext|set x u|[c k] kw u|[mo x [|p ps]]]; try discriminate.
  - destruct (class_of_simple k); [|discriminate]. injection E as <-. reflexivity.
  - injection E as <-. reflexivity.
  - injection E as <-. reflexivity.
  - destruct (traverse _ alts); [|discriminate]. injection E as <-. reflexivity.
  - destruct (traverse _ cs); [|discriminate]. injection E as <-. destruct set; reflexivity.
  - destruct (elab n T m m u); [|discriminate]. injection E as <-. reflexivity.
  - destruct (elab n T _ m u) eqn:Eu; [|discriminate]. injection E as <-. cbn. apply (IH _ _ _ _ Eu).
  - destruct (module_named T _) as [m'|]; [|discriminate]. destruct (type_named m' x); [|discriminate]. destruct (_ && _); [discriminate|]. destruct (elab n T _ m' _); [|discriminate]. injection E as <-. reflexivity.
Qed.
Lemma elab_gen_def F s m u b : elab F T s m u = Some b -> is_ref u = false -> (forall g kw d, u <> TTagged g kw (TRef d)) -> gen_def b = generated u.
Proof.
  intros E R N. rewrite <- (elab_generated _ _ _ _ _ E). destruct F as [|n]; [discriminate|]. cbn [elab] in E. destruct u as [k|ns|vs e|d fs|alts|set cs ext|set x u|[c k] kw u|[mo x [|p ps]]]; try discriminate.
  - destruct (class_of_simple k); [|discriminate]. injection E as <-. reflexivity.
  - injection E as <-. reflexivity.
  - injection E as <-. reflexivity.
  - destruct (traverse _ alts); [|discriminate]. injection E as <-. reflexivity.
  - destruct (traverse _ cs); [|discriminate]. injection E as <-. destruct set; reflexivity.
  - destruct (elab n T m m u); [|discriminate]. injection E as <-. reflexivity.
  - destruct (elab n T _ m u) as [b'|] eqn:Eu; [|discriminate]. injection E as <-. destruct b' as [| | | | | |m' b']; try reflexivity. exfalso.
    destruct n as [|n]; [discriminate|]. cbn [elab] in Eu. destruct u as [k'|ns|vs e|d fs|alts|set cs ext|set x u|[c' k'] kw' u|d]; try discriminate.
    + destruct (class_of_simple k'); discriminate.
    + destruct (traverse _ alts); discriminate.
    + destruct (traverse _ cs); [|discriminate]. destruct set; discriminate.
    + destruct (elab n T m m u); discriminate.
    + destruct (elab n T _ m u); discriminate.
    + apply (N _ _ _ eq_refl).
Qed.
Lemma elab_tagged F s m c n kw u a : In m T -> In s T -> elab F T s m (TTagged (c, n) kw u) = Some a ->
  exists F' b, F = S F' /\ a = ATagged (mode_of kw) (class_of_tag c) n b /\ elab F' T m m u = Some b.
Proof.
  intros Hm Hs E. destruct F as [|F]; [discriminate|]. cbn [elab] in E. destruct (elab F T _ m u) as [b|] eqn:Eb; [|discriminate]. injection E as <-. exists F, b. split; [reflexivity|]. split; [reflexivity|].
  destruct (is_ref u || is_tagged_ref u); [|exact Eb]. apply (elab_site T SEP BARE F s m m u b Hm Hs Hm Eb).
Qed.
(** What is found for a reference. *)
Record found (mw : module) (d : defined) (a : aty) (u : type) (m2 : module) (w : type) (m1 : module) (a1 a2 : aty) : Prop := Found {
  fo_follow : follow T mw d = Some (w, m1);
  fo_a : a = ADef (mode_ m1) a1;
  fo_w : exists F, elab F T m1 m1 w = Some a1;
  fo_m2 : In m2 T;
  fo_u : exists F, elab F T m2 m2 u = Some a2;
  fo_gen : gen_def a1 = generated u;
  fo_cpp : generated u = false -> forall j, cpp (mode_ m1) (Some j) a1 = cpp (mode_ m2) (Some j) a2;
  fo_ref : is_ref u = false;
  fo_refs : refs_ok u;
  fo_shape : (w = u /\ m2 = m1) \/ is_ref w = true \/ exists g kw u', u = TTagged g kw u'
}.
Lemma resolve_elab fuel : forall cur mw d x u m2 F a, In cur T -> In mw T -> resolve_ref fuel T cur mw d = Some (x, u, m2) -> elab F T mw mw (TRef d) = Some a ->
  exists w m1 a1 a2, found mw d a u m2 w m1 a1 a2.
Proof.
  induction fuel as [|fuel IH]; intros cur mw d x u m2 F a Hc Hw R E; [discriminate|]. cbn [resolve_ref] in R. destruct d as [mo y ps].
  destruct (follow T mw (Defined mo y ps)) as [[w m1]|] eqn:Fo; [|discriminate]. destruct (follow_elab T BARE _ _ _ _ _ _ Fo) as (-> & _ & _ & Hm1 & A).
  destruct (elab_ref T SEP BARE _ _ _ _ _ _ _ _ Fo Hw E) as (n & a1 & -> & -> & Ea).
  assert (Base : is_ref w = false -> (forall g kw d, w <> TTagged g kw (TRef d)) -> u = w -> m2 = m1 -> exists w0 m3 a2 a3, found mw (Defined mo y []) (ADef (mode_ m1) a1) u m2 w0 m3 a2 a3).
  { intros R1 R2 -> ->. exists w, m1, a1, a1. constructor; try assumption; try reflexivity; try (exists n; exact Ea).
    - apply (elab_gen_def _ _ _ _ _ Ea R1 R2).
    - apply (assigned_refs m1 y w A).
    - left. auto. }
  destruct w as [k|ns|vs e|d fs|alts|set cs ext|set z v|g kw v|d']; try (injection R as <- <- <-; apply Base; [reflexivity|discriminate|reflexivity|reflexivity]).
  - destruct v as [k|ns|vs e|d fs|alts|set cs ext|set z v|g' kw' v|d']; try (injection R as <- <- <-; apply Base; [reflexivity|discriminate|reflexivity|reflexivity]).
    destruct (resolve_ref fuel T cur cur d') as [[[x' u'] m'']|] eqn:R'; [|discriminate]. injection R as <- <- <-. destruct g as [c k].
    destruct (elab_tagged _ _ _ _ _ _ _ _ Hm1 Hm1 Ea) as (n' & b & -> & -> & Eb).
    assert (AW : anywhere d') by (apply (proj2 (assigned_refs m1 y _ A d' eq_refl) eq_refl)).
    destruct (anywhere_same d' cur m1 AW Hc Hm1) as (_ & S1 & S2).
    assert (Eb' : elab n' T cur cur (TRef d') = Some b) by (rewrite S2; apply (elab_site T SEP BARE n' m1 cur m1 _ _ Hm1 Hm1 Hc Eb)).
    destruct (IH cur cur d' x' u' m'' n' b Hc Hc R' Eb') as (w' & m3 & b1 & b2 & Fd). destruct Fd. subst b. destruct fo_u0 as (Fu & Eu).
    exists (TTagged (c, k) kw (TRef d')), m1, (ATagged (mode_of kw) (class_of_tag c) k (ADef (mode_ m3) b1)), (ATagged (mode_of kw) (class_of_tag c) k b2).
    constructor; try assumption; try reflexivity.
    + exists (S n'). exact Ea.
    + exists (S Fu). cbn [elab]. destruct (is_ref u' || is_tagged_ref u'); rewrite Eu; reflexivity.
    + intros G j. cbn [generated] in G. cbn [cpp or_id]. rewrite fo_gen0, G. apply (fo_cpp0 G).
    + intros d Hd. cbn [core is_ref] in *. destruct (fo_refs0 d Hd) as (O1 & O2). split; [exact O1|]. intros _. apply O2. exact fo_ref0.
    + right. right. eauto.
  - destruct (IH cur m1 d' x u m2 n a1 Hc Hm1 R Ea) as (w' & m3 & b1 & b2 & Fd). destruct Fd. subst a1.
    exists (TRef d'), m1, (ADef (mode_ m3) b1), b2. constructor; try assumption; try reflexivity.
    + exists n. exact Ea.
    + intros G j. cbn [cpp or_id]. rewrite fo_gen0, G. apply (fo_cpp0 G).
    + right. left. reflexivity.
Qed.
Lemma resolve_name fuel : forall cur mw mo y ps x u m2, resolve_ref fuel T cur mw (Defined mo y ps) = Some (x, u, m2) -> exists w m1, follow T mw (Defined mo y ps) = Some (w, m1).
Proof. intros cur mw mo y ps x u m2 H. destruct fuel; [discriminate|]. cbn [resolve_ref] in H. destruct (follow T mw _) as [[w m1]|]; [eauto|discriminate]. Qed.
Lemma named_generated fuel : forall t m name x r m2 F a, In m T -> resolve_named fuel T m name t = Some (x, r, m2) -> elab F T m m t = Some a -> gen_named a = generated r.
Proof.
  induction t as [k|ns|vs e|d0 fs|alts|set cs ext|set y u IH|[c n] kw u IH|d0]; intros m name x r m2 F a Hm R E; cbn [resolve_named] in R;
    try (injection R as <- <- <-; rewrite <- (elab_generated _ _ _ _ _ E); destruct F as [|F]; [discriminate|]; cbn [elab] in E).
  - destruct (class_of_simple k); [|discriminate]. injection E as <-. reflexivity.
  - injection E as <-. reflexivity.
  - injection E as <-. reflexivity.
  - discriminate.
  - destruct (traverse _ alts); [|discriminate]. injection E as <-. reflexivity.
  - destruct (traverse _ cs); [|discriminate]. injection E as <-. destruct set; reflexivity.
  - destruct (elab F T m m u); [|discriminate]. injection E as <-. reflexivity.
  - destruct (elab_tagged _ _ _ _ _ _ _ _ Hm Hm E) as (F' & b & -> & -> & Eb). cbn [gen_named]. apply (IH m name x r m2 F' b Hm R Eb).
  - destruct (resolve_elab _ _ _ _ _ _ _ _ _ Hm Hm R E) as (w & m1 & a1 & a2 & Fd). destruct Fd. subst a. cbn [gen_named]. assumption.
Qed.
End Refs.

(** * Scopes *)
Definition innermost (E : env) (x : string) : option entity := match e_classes E with (_, s) :: _ => assoc s x | [] => assoc (e_names E) x end.
Definition in_class (E : env) : bool := match e_classes E with [] => false | _ => true end.
Record frame (E E' : env) : Prop := Frame {
  fr_done : e_done E' = e_done E;
  fr_module : e_module E' = e_module E;
  fr_classes : map fst (e_classes E') = map fst (e_classes E);
  fr_names : forall x e, innermost E x = Some e -> innermost E' x = Some e
}.
Lemma frame_refl E : frame E E. Proof. constructor; auto. Qed.
Lemma frame_trans A B C : frame A B -> frame B C -> frame A C.
Proof. intros [] []. constructor; try congruence. auto. Qed.
Lemma frame_path E E' : frame E E' -> path E' = path E. Proof. intros []. unfold path. congruence. Qed.
Lemma frame_in_class E E' : frame E E' -> in_class E' = in_class E.
Proof. intros []. unfold in_class. destruct (e_classes E), (e_classes E'); try reflexivity; discriminate. Qed.
Lemma assoc_cons {A} (l : list (string * A)) x y e : assoc ((x, e) :: l) y = if String.eqb x y then Some e else assoc l y.
Proof. unfold assoc. cbn [find fst]. destruct (String.eqb x y); reflexivity. Qed.
Lemma declare_spec n e ag E E' : declare n e ag E = Some E' -> frame E E' /\ innermost E' n = Some e /\ (ag = false -> innermost E n = None).
Proof.
  unfold declare, innermost. destruct E as [dn md nm cl]. cbn [e_classes e_names e_done e_module]. destruct cl as [|[c s] cl].
  - destruct (assoc nm n) as [e'|] eqn:A.
    + destruct ag; [|discriminate]. destruct (same_enum e e') eqn:Sm; [|discriminate]. intros [= <-]. split; [apply frame_refl|]. split; [|discriminate]. cbn.
      rewrite A. unfold same_enum in Sm. destruct e as [|p|]; try discriminate. destruct e' as [|q|]; try discriminate. destruct (list_eq_dec string_dec p q) as [->|]; [reflexivity|discriminate].
    + intros [= <-]. split; [|split; [cbn; rewrite assoc_cons, String.eqb_refl; reflexivity|auto]]. constructor; try reflexivity. unfold innermost. cbn. intros x e' H. rewrite assoc_cons.
      destruct (String.eqb_spec n x) as [->|]; [congruence|exact H].
  - destruct (String.eqb c n) eqn:C; [discriminate|]. destruct (assoc s n) eqn:A; [discriminate|]. intros [= <-]. cbn. split; [|split; [rewrite assoc_cons, String.eqb_refl; reflexivity|auto]].
    constructor; try reflexivity. unfold innermost. cbn. intros x e' H. rewrite assoc_cons. destruct (String.eqb_spec n x) as [->|]; [congruence|exact H].
Qed.
Lemma lookup_innermost E x e : innermost E x = Some e -> lookup E x = Some e.
Proof. unfold innermost, lookup. destruct (e_classes E) as [|[c s] l]; [auto|]. cbn. intros ->. reflexivity. Qed.
Lemma lookup_classes_in l x t : lookup_classes l x = Some (Type_ t) -> exists c s, In (c, s) l /\ assoc s x = Some (Type_ t).
Proof.
  induction l as [|[c s] l IH]; [discriminate|]. cbn. destruct (assoc s x) as [e|] eqn:A.
  - intros [= ->]. exists c, s. auto.
  - destruct (String.eqb c x); [discriminate|]. intros H. destruct (IH H) as (c' & s' & I & A'). exists c', s'. auto.
Qed.
Lemma run_frame fs d E E' : run fs d E = Some E' -> frame E E'.
Proof.
  assert (D : forall n e ag, declare n e ag E = Some E' -> frame E E') by (intros n e ag H; apply (declare_spec _ _ _ _ _ H)).
  destruct d; cbn [run]; try apply D.
  - destruct (eval_type E e) as [ent|]; [apply D|discriminate].
  - destruct (eval_type E e) as [[]|]; try discriminate. apply D.
  - destruct (vexp_ok E t uses); [apply D|discriminate].
  - destruct (run_all _ body _); [|discriminate]. destruct (declare_all _ _); [|discriminate]. destruct (members_of _ _); [|discriminate]. destruct (struct_type _ _ _ _); [apply D|discriminate].
  - destruct (run_all _ body _); [|discriminate]. destruct (declare_all _ _); [|discriminate]. destruct (alternatives_of _ _); [|discriminate]. destruct (choice_type _ _ _ _); [apply D|discriminate].
  - destruct (vexp_ok E t uses); [apply D|discriminate].
  - destruct (lookup E m); [discriminate|]. destruct (lookup_in E m x) as [[]|]; try discriminate. apply D.
Qed.
Lemma run_all_cons f d l E : run_all f (d :: l) E = match f d E with Some E1 => run_all f l E1 | None => None end.
Proof. reflexivity. Qed.
Lemma run_all_app f a : forall b E, run_all f (a ++ b) E = match run_all f a E with Some E1 => run_all f b E1 | None => None end.
Proof. induction a as [|d a IH]; intros b E; [reflexivity|]. cbn [app]. rewrite !run_all_cons. destruct (f d E); [apply IH|reflexivity]. Qed.
Lemma run_all_frame fs l : forall E E', run_all (run fs) l E = Some E' -> frame E E'.
Proof.
  induction l as [|d l IH]; intros E E'; [intros [= <-]; apply frame_refl|]. rewrite run_all_cons. destruct (run fs d E) as [E1|] eqn:R; [|discriminate]. intros H.
  apply (frame_trans _ E1); [apply (run_frame _ _ _ _ R)|apply (IH _ _ H)].
Qed.

Fixpoint list_element (t : type) : option type := match t with TListOf _ _ v => Some v | TTagged _ _ u => list_element u | _ => None end.
Lemma list_element_is t v : list_element t = Some v -> is_list t = true.
Proof. induction t; cbn; auto; discriminate. Qed.

Section Env.
Context (T : list module) (SEP : separate T) (BARE : forall m, In m T -> m_imports m = []).
Notation mode_ m := (mode_of (m_tagging m)).
(** The identifier that an override stands for. *)
Definition ev (ov : option idexp) (o : option ident) : Prop := match ov with None => o = None | Some i => exists j, o = Some j /\ eval_id i = Some (Some j) end.
Definition wrote (m : module) (ov : option idexp) (t : type) (c : ty) : Prop := forall F a o, elab F T m m t = Some a -> ev ov o -> c = cpp (mode_ m) o a.
Definition a_type_name (x : string) : Prop := x = "" \/ type_name T x.
Record good (m : module) (E : env) : Prop := Good {
  g_module : e_module E = m_name m;
  g_done : forall M s m' x u t, assoc (e_done E) M = Some s -> module_named T M = Some m' -> type_named m' x = Some u -> assoc s x = Some (Type_ t) -> wrote m' None u t;
  g_here : forall x u t, type_named m x = Some u -> assoc (e_names E) x = Some (Type_ t) -> wrote m None u t;
  g_elem : forall x t, ~ made_up x -> assoc (e_names E) (x ++ "Contained") = Some (Type_ t) ->
             exists u v, type_named m x = Some u /\ list_element u = Some v /\ wrote m None v t;
  g_none : forall t, assoc (e_names E) "Contained" <> Some (Type_ t);
  g_class : forall c s x t, In (c, s) (e_classes E) -> a_type_name x -> assoc s (x ++ "Contained") <> Some (Type_ t)
}.
Definition allowed (cls : bool) (m : module) (n : string) (t : ty) : Prop :=
  if cls then forall x, a_type_name x -> n <> (x ++ "Contained")%string
  else (forall u, type_named m n = Some u -> wrote m None u t) /\
       (forall x, ~ made_up x -> n = (x ++ "Contained")%string -> exists u v, type_named m x = Some u /\ list_element u = Some v /\ wrote m None v t) /\
       n <> "Contained".
Lemma good_declare m n e ag E E' : good m E -> declare n e ag E = Some E' -> (forall t, e = Type_ t -> allowed (in_class E) m n t) -> good m E'.
Proof.
  intros G D A. unfold declare, in_class in *. destruct E as [dn md nm cl]. cbn [e_classes e_names e_done e_module] in *. destruct cl as [|[c s] cl].
  - destruct (assoc nm n) as [e'|]; [destruct (ag && same_enum e e'); [injection D as <-; exact G|discriminate]|]. injection D as <-. destruct G as [g1 g2 g3 g4 g5 g6]. cbn in *.
    constructor; cbn; auto.
    + intros x u t Hx. rewrite assoc_cons. destruct (String.eqb_spec n x) as [->|]; [|apply g3; exact Hx]. intros [= ->]. apply (proj1 (A t eq_refl) u Hx).
    + intros x t Hx. rewrite assoc_cons. destruct (String.eqb_spec n (x ++ "Contained")) as [He|]; [|apply g4; exact Hx]. intros [= ->]. apply (proj1 (proj2 (A t eq_refl)) x Hx He).
    + intros t. rewrite assoc_cons. destruct (String.eqb_spec n "Contained") as [He|]; [|apply g5]. intros [= ->]. apply (proj2 (proj2 (A t eq_refl)) He).
  - destruct (String.eqb c n); [discriminate|]. destruct (assoc s n); [discriminate|]. injection D as <-. destruct G as [g1 g2 g3 g4 g5 g6]. cbn in *.
    constructor; cbn; auto. intros c' s' x t [[= <- <-]|I] Hx; [|apply (g6 c' s' x t); auto]. rewrite assoc_cons. destruct (String.eqb_spec n (x ++ "Contained")) as [He|]; [|apply (g6 c s x t); auto].
    intros [= ->]. apply (A t eq_refl x Hx He).
Qed.
Lemma good_other m n e ag E E' : good m E -> declare n e ag E = Some E' -> (forall t, e <> Type_ t) -> good m E'.
Proof. intros G D N. apply (good_declare _ _ _ _ _ _ G D). intros t He. destruct (N t He). Qed.
Lemma allowed_values cls m x t : In m T -> allowed cls m (x ++ "Values") t.
Proof.
  intros Hm. unfold allowed. destruct cls.
  - intros y _ H. apply (contained_values y x). congruence.
  - split; [|split].
    + intros u Hu. destruct (assigned_name T SEP _ _ _ (type_named_in T BARE _ _ _ Hm Hu) (made_values x)).
    + intros y _ H. destruct (contained_values y x). congruence.
    + intros H. apply (contained_values "" x). symmetry; exact H.
Qed.
Lemma good_open m x E : good m E -> good m (open_class x E).
Proof. intros []. constructor; cbn; auto. intros c s y t [[= <- <-]|I]; [discriminate|]. apply (g_class0 c s y t I). Qed.
(** Names that end in Contained. *)
Lemma lookup_contained m E x t : good m E -> a_type_name x -> lookup E (x ++ "Contained") = Some (Type_ t) -> assoc (e_names E) (x ++ "Contained") = Some (Type_ t).
Proof.
  intros G Hx H. unfold lookup in H. destruct (lookup_classes (e_classes E) (x ++ "Contained")) as [e|] eqn:L; [|exact H]. injection H as ->.
  destruct (lookup_classes_in _ _ _ L) as (c & s & I & A). destruct (g_class _ _ G c s x t I Hx A).
Qed.
Lemma class_same k kk c : assoc library_classes (class_name k) = Some kk -> class_of_simple k = Some c -> kk = c.
Proof. destruct k as [| | | | | | | | | | | | | | | | | | | | |[]]; vm_compute; congruence. Qed.

Context (m : module) (Hm : In m T) (Hmod : module_named T (m_name m) = Some m).
Lemma xref_sound E mo x t' w m1 : good m E -> follow T m (Defined mo x []) = Some (w, m1) ->
  eval_type E (XRef (match mo with Some y => y | None => m_name m end) x) = Some (Type_ t') -> wrote m1 None w t'.
Proof.
  intros G Fo H. destruct (follow_elab T BARE _ _ _ _ _ _ Fo) as (_ & Em & Ew & _ & _). cbn [eval_type] in H. unfold lookup_in, namespace in H. rewrite (g_module _ _ G) in H.
  destruct (String.eqb_spec (match mo with Some y => y | None => m_name m end) (m_name m)) as [He|He].
  - rewrite He in Em. rewrite Hmod in Em. injection Em as <-. apply (g_here _ _ G x w t' Ew H).
  - destruct (assoc (e_done E) _) as [s|] eqn:A; [|discriminate]. apply (g_done _ _ G _ s m1 x w t' A Em Ew H).
Qed.
Lemma tas_sound fuel : forall u x id e E t' m2 F a2 j, good m E -> In m2 T -> type_as_string fuel T m u x id = Some e -> eval_type E e = Some (Type_ t') ->
  elab F T m2 m2 u = Some a2 -> eval_id id = Some (Some j) -> generated u = false -> refs_ok T u -> (forall d, u = TRef d -> m2 = m \/ anywhere T d) ->
  (forall set n v t, u = TListOf set n v -> lookup E (x ++ "Contained") = Some (Type_ t) -> wrote m2 None v t) -> t' = cpp (mode_ m2) (Some j) a2.
Proof.
  induction fuel as [|fuel IH]; intros u x id e E t' m2 F a2 j G Hm2 Tas Ev E2 Hid Gen RO Any Hlist; [discriminate|]. cbn [type_as_string] in Tas.
  destruct u as [k|ns|vs ex|d fs|alts|set cs ext|set z v|[c n] kw v|[mo y ps]]; try discriminate.
  - injection Tas as <-. cbn [eval_type] in Ev. destruct (visible _ _); [|discriminate]. destruct (assoc library_classes (class_name k)) as [kk|] eqn:A; [|discriminate]. rewrite Hid in Ev. injection Ev as <-.
    destruct F as [|F]; [discriminate|]. cbn [elab] in E2. destruct (class_of_simple k) as [c|] eqn:C; [|discriminate]. injection E2 as <-. rewrite (class_same k kk c A C). reflexivity.
  - injection Tas as <-. cbn [eval_type] in Ev. destruct (visible _ _); [|discriminate]. rewrite Hid in Ev. vm_compute in Ev. injection Ev as <-.
    destruct F as [|F]; [discriminate|]. injection E2 as <-. reflexivity.
  - injection Tas as <-. cbn [eval_type] in Ev. destruct (visible _ _); [|discriminate]. rewrite Hid in Ev. destruct (lookup E _) as [[]|]; try discriminate. injection Ev as <-.
    destruct F as [|F]; [discriminate|]. injection E2 as <-. reflexivity.
  - injection Tas as <-. cbn [eval_type] in Ev. destruct (visible _ _); [|discriminate]. rewrite Hid in Ev. destruct (lookup E _) as [[t| |]|] eqn:L; try discriminate. injection Ev as <-.
    destruct F as [|F]; [discriminate|]. cbn [elab] in E2. destruct (elab F T m2 m2 v) as [b|] eqn:Eb; [|discriminate]. injection E2 as <-. cbn [cpp get_id]. f_equal.
    apply (Hlist set z v t eq_refl eq_refl F b None Eb eq_refl).
  - destruct (identifier fuel T m _); [|discriminate]. destruct (elab_tagged T SEP BARE _ _ _ _ _ _ _ _ Hm2 Hm2 E2) as (F' & b & -> & -> & Eb). cbn [cpp or_id].
    apply (IH v "" id e E t' m2 F' b j G Hm2 Tas Ev Eb Hid Gen).
    + intros d Hd. destruct (RO d Hd) as (O1 & O2). split; [exact O1|]. intros _. apply O2. reflexivity.
    + intros d ->. right. apply (proj2 (RO d eq_refl) eq_refl).
    + intros set z w c1 -> L. apply (lookup_contained m E "" c1 G) in L; [|left; reflexivity]. destruct (g_none _ _ G c1 L).
  - destruct (resolve_ref fuel T m m (Defined mo y ps)) as [[[x' ur] mr]|] eqn:R; [|discriminate].
    assert (E2' : elab F T m m (TRef (Defined mo y ps)) = Some a2).
    { destruct (Any _ eq_refl) as [->|AW]; [exact E2|]. rewrite (proj2 (proj2 (anywhere_same T _ m m2 AW Hm Hm2))). apply (elab_site T SEP BARE F m2 m m2 _ _ Hm2 Hm2 Hm E2). }
    destruct (resolve_elab T SEP BARE _ _ _ _ _ _ _ _ _ Hm Hm R E2') as (w & m1 & a1 & ar & Fd). destruct Fd as [Ffo Fa Fw' Fm2 Fu' Fgen Fcpp Fref Frefs Fsh]. subst a2.
    destruct (follow_elab T BARE _ _ _ _ _ _ Ffo) as (-> & Em & Ew & Hm1 & A). destruct Fw' as (Fw & Ea1). destruct Fu' as (Fu & Ear). cbn [cpp or_id]. rewrite Fgen.
    destruct (generated ur) eqn:Gr.
    + injection Tas as <-. apply (xref_sound E mo y t' w m1 G Ffo Ev Fw a1 None Ea1 eq_refl).
    + rewrite (Fcpp eq_refl j). apply (IH ur y id e E t' mr Fu ar j G Fm2 Tas Ev Ear Hid Gr Frefs).
      * intros d ->. discriminate Fref.
      * intros set z v t -> L. assert (Ny : type_name T y) by (exists m1, w; exact A). apply (lookup_contained m E y t G (or_intror Ny)) in L.
        destruct (g_elem _ _ G y t (sp_types T SEP y Ny) L) as (u0 & v0 & Eu0 & El & W).
        destruct (String.eqb_spec (m_name m1) (m_name m)) as [He|He].
        -- pose proof (proj2 (module_named_in T _ _ Em)) as Hn. rewrite <- Hn, He, Hmod in Em. injection Em as <-. rewrite Ew in Eu0. injection Eu0 as <-.
           destruct Fsh as [(-> & ->)|[Hr|(g & kw & u' & ?)]]; [|destruct w; discriminate|discriminate]. cbn in El. injection El as <-. exact W.
        -- pose proof (proj2 (module_named_in T _ _ Em)) as Hn. destruct mo as [N|]; [|congruence]. subst N.
           assert (Il : is_list u0 = false) by (apply (sp_modules T SEP m (m_name m1) y [] u0 (proj1 (RO _ eq_refl)) (type_named_in T BARE _ _ _ Hm Eu0)); congruence).
           rewrite (list_element_is _ _ El) in Il. discriminate.
Qed.
End Env.
