(** Running a whole header. *)
From Coq Require Import List String Ascii ZArith Bool Lia.
From Verif Require Import Base CompilerNames Ident Prims Schema ParserTree Compiler Elab ElabProofs HeaderSpec CppSpec Header HeaderIds HeaderSound HeaderCreate.
Import ListNotations.
Local Open Scope string_scope.
Local Open Scope list_scope.

(** ** Induction over types *)
Inductive child : type -> type -> Prop :=
| ch_component set cs ext x u o d co : In (Comp x u o d co) cs -> child u (TRecord set cs ext)
| ch_alternative alts x u : In (x, u) alts -> child u (ParserTree.TChoice alts)
| ch_element set x u : child u (TListOf set x u)
| ch_tagged g kw u : child u (TTagged g kw u).
Lemma type_child_ind (P : type -> Prop) : (forall t, (forall u, child u t -> P u) -> P t) -> forall t, P t.
Proof.
  intros H. fix IH 1. intros t. apply H. destruct t as [k|ns|vs e|d fl|alts|set cs ext|set z v|g kw v|d]; intros u C; try (exfalso; inversion C; fail).
  - assert (F : Forall (fun a => P (snd a)) alts) by (clear C; induction alts as [|[x w] alts IHl]; [constructor|constructor; [apply IH|exact IHl]]). inversion C; subst. rewrite Forall_forall in F. match goal with I : In _ _ |- _ => apply (F _ I) end.
  - assert (F : Forall (fun c => match c with Comp _ w _ _ _ => P w end) cs) by (clear C; induction cs as [|[x w o d co] cs IHl]; [constructor|constructor; [apply IH|exact IHl]]). inversion C; subst. rewrite Forall_forall in F. match goal with I : In _ _ |- _ => apply (F _ I) end.
  - inversion C; subst. apply IH.
  - inversion C; subst. apply IH.
Qed.
Lemma child_inside u t : child u t -> inside u t.
Proof. intros []; econstructor; eauto; constructor. Qed.

Lemma concat_map_from {A C} (f : nat -> A -> option (list C)) l : forall i r y, concat_map f i l = Some r -> In y r -> exists x j a, In x l /\ f j x = Some a /\ In y a.
Proof.
  induction l as [|x l IH]; intros i r y H I; [injection H as <-; destruct I|]. apply concat_map_cons in H. destruct H as (a & b & H1 & H2 & ->). apply in_app_or in I. destruct I as [I|I].
  - exists x, i, a. split; [left; reflexivity|auto].
  - destruct (IH _ _ _ H2 I) as (x' & j & a' & X). exists x', j, a'. destruct X as (X1 & X2). split; [right; exact X1|exact X2].
Qed.

Section Run.
Context (T : list module) (SEP : separate T) (BARE : forall m, In m T -> m_imports m = []).

(** ** Paths of functions *)
Lemma functions_paths ff m t : occurs T t -> forall p fl f, functions ff T m p t = Some fl -> In f fl -> exists r, f_path f = p ++ r /\ forall n, In n r -> ~ made_up n.
Proof.
  induction t as [t IH] using type_child_ind. intros O p fl f H I.
  assert (Own : forall own, own_function ff T m p t = Some own -> In f own -> exists r, f_path f = p ++ r /\ forall n, In n r -> ~ made_up n).
  { intros own Ho Io. exists []. rewrite app_nil_r. split; [|intros n []]. destruct t; cbn [own_function] in Ho; unfold bind in Ho; try (injection Ho as <-; destruct Io).
    - destruct (concat_map _ 0 choices) eqn:? in Ho; [|discriminate]. destruct (concat_map _ 0 choices) eqn:? in Ho; [|discriminate]. injection Ho as <-. destruct Io as [<-|[]]. reflexivity.
    - destruct (concat_map _ 0 components) eqn:? in Ho; [|discriminate]. destruct (concat_map _ 0 components) eqn:? in Ho; [|discriminate]. injection Ho as <-. destruct Io as [<-|[]]. reflexivity. }
  assert (Step : forall u x fl', child u t -> ~ made_up (capitalised x) -> functions ff T m (p ++ [make_type_name x ""]) u = Some fl' -> In f fl' -> exists r, f_path f = p ++ r /\ forall n, In n r -> ~ made_up n).
  { intros u x fl' C Nm Hf If. destruct (IH u C (occurs_inside T _ _ O (child_inside _ _ C)) _ _ _ Hf If) as (r & P & N). exists (make_type_name x "" :: r). split; [rewrite P, <- app_assoc; reflexivity|].
    intros n [<-|Hn]; [|apply N, Hn]. unfold make_type_name. rewrite capital_same. destruct (String.eqb_spec (capitalised x) "") as [He|_]; [destruct Nm; rewrite He; left; reflexivity|exact Nm]. }
  destruct t as [k|ns|vs e|d fl0|alts|set cs ext|set [z|] v|g kw v|d]; cbn [functions] in H; unfold bind in H.
  1-4,10: destruct (own_function _ _ _ _ _) as [own|] eqn:Eo in H; [|discriminate]; injection H as <-; apply (Own own Eo I).
  - destruct (concat_map _ 0 alts) as [inner|] eqn:C in H; [|discriminate]. destruct (own_function _ _ _ _ _) as [own|] eqn:Eo in H; [|discriminate]. injection H as <-. apply in_app_or in I. destruct I as [I|I]; [|apply (Own own Eo I)].
    destruct (concat_map_from _ _ _ _ _ C I) as ([x u] & j & a & Ix & Fx & Ia). cbn [fst snd] in Fx. apply (Step u x a); [econstructor; exact Ix| |exact Fx|exact Ia]. apply (sp_members T SEP x u). right. exists alts. auto.
  - destruct (concat_map _ 0 cs) as [inner|] eqn:C in H; [|discriminate]. destruct (own_function _ _ _ _ _) as [own|] eqn:Eo in H; [|discriminate]. injection H as <-. apply in_app_or in I. destruct I as [I|I]; [|apply (Own own Eo I)].
    destruct (concat_map_from _ _ _ _ _ C I) as ([x u o d co] & j & a & Ix & Fx & Ia). apply (Step u x a); [econstructor; exact Ix| |exact Fx|exact Ia]. apply (sp_members T SEP x u). left. exists set, cs, ext, o, d, co. auto.
  - destruct (functions ff T m _ v) as [inner|] eqn:C; [|discriminate]. destruct (own_function _ _ _ _ _) as [own|] eqn:Eo in H; [|discriminate]. injection H as <-. apply in_app_or in I. destruct I as [I|I]; [|apply (Own own Eo I)].
    apply (Step v z inner); [constructor| |exact C|exact I]. apply (sp_elements T SEP set z v O).
  - destruct (own_function _ _ _ _ _) as [own|] eqn:Eo in H; [|discriminate]. injection H as <-. apply (Own own Eo I).
  - destruct (functions ff T m p v) as [inner|] eqn:C; [|discriminate]. destruct (own_function _ _ _ _ _) as [own|] eqn:Eo in H; [|discriminate]. injection H as <-. apply in_app_or in I. destruct I as [I|I]; [|apply (Own own Eo I)].
    apply (IH v ltac:(constructor) (occurs_inside T _ _ O ltac:(apply child_inside; constructor)) _ _ _ C I).
Qed.

(** ** Names of assignments *)
Section Module.
Context (m : module) (Hm : In m T).
Notation mode_ m := (mode_of (m_tagging m)).
Lemma tag_wrote fuel g kw u ov id c : occurs T (TTagged g kw u) -> override fuel T m (TTagged g kw u) ov = Some id -> wrote T m (Some id) u c -> wrote T m ov (TTagged g kw u) c.
Proof.
  intros O Ov W F a o Ea Eo. pose proof (override_eval T SEP BARE m Hm _ _ _ _ _ _ _ O Ov Ea Eo) as Hid. destruct g as [cl n].
  destruct (elab_tagged T SEP BARE _ _ _ _ _ _ _ _ Hm Hm Ea) as (F' & b & -> & -> & Eb). destruct (tagged_name_some (mode_of kw) (class_of_tag cl) n b (mode_ m)) as (j & Hj).
  apply (W F' b (or_id o (ti_name (info (mode_ m) (ATagged (mode_of kw) (class_of_tag cl) n b)))) Eb). cbn [ev]. rewrite Hid. rewrite Hj. destruct o as [j'|]; cbn; eauto.
Qed.
Lemma names_module t : forall name ov, occurs T t -> name <> "" -> (forall c, wrote T m ov t c -> allowed T false m name c) ->
  (~ made_up name -> forall v, list_element t = Some v -> exists u, type_named m name = Some u /\ list_element u = Some v) -> names_ok T m false name t ov.
Proof.
  induction t as [k|ns|vs e|d fl|alts|set cs ext|set z v IH|g kw u IH|d]; intros name ov O Ne A B; cbn [names_ok]; (split; [exact A|]); try exact I.
  - apply IH; [apply (occurs_inside T _ _ O); apply child_inside; constructor|destruct name; discriminate| |].
    + intros c W. split; [|split].
      * intros u Hu. destruct (assigned_name T SEP _ _ _ (type_named_in T BARE _ _ _ Hm Hu) (made_contained name)).
      * intros x Nx He. apply contained_inj in He. subst x. destruct (B Nx v eq_refl) as (u & H1 & H2). exists u, v. auto.
      * intros He. apply Ne. apply (contained_inj name ""). exact He.
    + intros N. destruct (N (made_contained name)).
  - intros fuel id Ov. apply IH; [apply (occurs_inside T _ _ O); apply child_inside; constructor|exact Ne| |exact B].
    intros c W. apply A. apply (tag_wrote fuel _ _ _ _ id c O Ov W).
Qed.
Lemma assigned_named x t ps : In (Assign x (AType t) ps) (m_assigns m) -> type_named m x = Some t.
Proof.
  intros I. destruct (sp_assignments T SEP m Hm) as (N & P). pose proof (P _ I) as Hp. cbn in Hp. subst ps. unfold type_named, with_imports. rewrite (BARE m Hm). cbn [flat_map]. rewrite app_nil_r.
  assert (X : assign_named (m_assigns m) x = Some (Assign x (AType t) [])); [|rewrite X; reflexivity]. clear P. induction (m_assigns m) as [|a l IH]; [destruct I|]. cbn in N. inversion N as [|? ? N1 N2]; subst. unfold assign_named. cbn [find].
  destruct I as [->|I].
  - cbn. rewrite String.eqb_refl. reflexivity.
  - destruct (String.eqb_spec (a_name a) x) as [He|_]; [|apply (IH I N2)]. destruct N1. rewrite He. apply (in_map a_name _ _ I).
Qed.
Lemma names_top x t : type_named m x = Some t -> names_ok T m false x t None.
Proof.
  intros H. pose proof (type_named_in T BARE _ _ _ Hm H) as A. pose proof (assigned_name T SEP _ _ _ A) as N. apply names_module.
  - apply (assigned_occurs T _ _ _ A).
  - intros ->. apply N. left. reflexivity.
  - intros c W. split; [|split].
    + intros u Hu. rewrite H in Hu. injection Hu as <-. exact W.
    + intros y _ He. destruct N. rewrite He. apply made_contained.
    + intros He. destruct N. rewrite He. apply (made_contained "").
  - intros _ v Hv. exists t. auto.
Qed.

(** ** One assignment *)
Context (fs : list func) (FS1 : distinct_paths fs = true) (FS2 : forall f n, In f fs -> In n (tl (f_path f)) -> ~ made_up n) (Hmod : module_named T (m_name m) = Some m).
Lemma alias_type fuel : forall name t ov ds E E' ent, create_type fuel T m name t ov true = Some ds -> run_all (run fs) ds E = Some E' -> innermost E' name = Some ent -> exists c, ent = Type_ c.
Proof.
  assert (Last : forall e l name E E' ent, run_all (run fs) (l ++ [DAlias name e]) E = Some E' -> innermost E' name = Some ent -> exists c, ent = Type_ c).
  { intros e l name E E' ent R I. rewrite run_all_app in R. destruct (run_all (run fs) l E) as [E1|]; [|discriminate]. rewrite run_all_cons in R. cbn [run] in R.
    destruct (eval_type E1 e) as [[c| |]|]; try discriminate. destruct (declare name (Type_ c) false E1) as [E2|] eqn:D; [|discriminate]. injection R as <-. destruct (declare_spec _ _ _ _ _ D) as (_ & D2 & _). exists c. congruence. }
  induction fuel as [|fuel IH]; intros name t ov ds E E' ent C R I; [discriminate|].
  destruct t as [k|ns|vs ex|d fl|alts|set cs ext|set z v|g kw v|[mo x ps]]; cbn [create_type] in C; unfold bind in C.
  - destruct (override _ _ _ _ _); [|discriminate]. destruct (type_as_string _ _ _ _ _ _) as [e|]; [|discriminate]. injection C as <-. apply (Last e [] _ _ _ _ R I).
  - destruct (override _ _ _ _ _); [|discriminate]. destruct (type_as_string _ _ _ _ _ _) as [e|]; [|discriminate]. injection C as <-. apply (Last e [] _ _ _ _ R I).
  - destruct (override _ _ _ _ _); [|discriminate]. destruct (type_as_string _ _ _ _ _ _) as [e|]; [|discriminate]. injection C as <-. apply (Last e [_] _ _ _ _ R I).
  - destruct (override _ _ _ _ _); [|discriminate]. destruct (type_as_string _ _ _ _ _ _) as [e|]; [|discriminate]. injection C as <-. apply (Last e [] _ _ _ _ R I).
  - destruct (override _ _ _ _ _) as [id|]; [|discriminate]. destruct (concat_map _ 0 alts) as [types|] eqn:? in C; [|discriminate]. injection C as <-. rewrite run_all_cons in R. cbn [run] in R. destruct (run_all (run fs) types _); [|discriminate].
    destruct (declare_all _ _); [|discriminate]. destruct (alternatives_of _ _); [|discriminate]. destruct (choice_type _ _ _ _) as [c|]; [|discriminate]. destruct (declare name (Type_ c) false E) as [E2|] eqn:D; [|discriminate]. injection R as <-.
    destruct (declare_spec _ _ _ _ _ D) as (_ & D2 & _). exists c. congruence.
  - destruct (check_valid _ _ _ _ _) as [ok|]; [|discriminate]. destruct (negb ok); [discriminate|]. destruct (existsb _ cs); [discriminate|]. destruct (concat_map _ 0 cs) as [defaults|] eqn:? in C; [|discriminate]. destruct (concat_map _ 0 cs) as [types|] eqn:? in C; [|discriminate].
    destruct (override _ _ _ _ _) as [id|]; [|discriminate]. injection C as <-. rewrite run_all_cons in R. cbn [run] in R. destruct (run_all (run fs) _ _); [|discriminate].
    destruct (declare_all _ _); [|discriminate]. destruct (members_of _ _); [|discriminate]. destruct (struct_type _ _ _ _) as [c|]; [|discriminate]. destruct (declare name (Type_ c) false E) as [E2|] eqn:D; [|discriminate]. injection R as <-.
    destruct (declare_spec _ _ _ _ _ D) as (_ & D2 & _). exists c. congruence.
  - destruct (create_type fuel T m _ v None false) as [ds1|]; [|discriminate]. destruct (override _ _ _ _ _); [|discriminate]. destruct (type_as_string _ _ _ _ _ _) as [e|]; [|discriminate]. injection C as <-. apply (Last e ds1 _ _ _ _ R I).
  - destruct (override _ _ _ _ _) as [id|]; [|discriminate]. apply (IH _ _ _ _ _ _ _ C R I).
  - destruct (override _ _ _ _ _); [|discriminate]. destruct (resolve_ref _ _ _ _ _) as [[[x' r] m']|]; [|discriminate]. destruct (type_as_string _ _ _ _ _ _) as [e|]; [|discriminate]. injection C as <-. apply (Last e _ _ _ _ _ R I).
Qed.
Lemma assignment_sound fuel a ds E E' : In a (m_assigns m) -> create_assignment fuel T m a = Some ds -> good T m E -> e_classes E = [] -> run_all (run fs) ds E = Some E' ->
  (forall t, a_specific a = AType t -> exists ff fl, functions ff T m [m_name m; a_name a] t = Some fl /\ incl fl fs) ->
  good T m E' /\ (forall t, a_specific a = AType t -> exists c, assoc (e_names E') (a_name a) = Some (Type_ c)).
Proof.
  intros Ia C G Cl R Fu. destruct a as [x [t|t v|cf|] ps]; cbn [create_assignment a_specific a_name] in *.
  - pose proof (assigned_named _ _ _ Ia) as Na. pose proof (type_named_in T BARE _ _ _ Hm Na) as A.
    destruct (create_sound T SEP BARE fs FS1 FS2 m Hm Hmod fuel x t None true ds E E' C (assigned_occurs T _ _ _ A) G R) as (G' & ent & I1 & I2).
    + right. destruct (Fu t eq_refl) as (ff & fl & F1 & F2). exists ff, fl. split; [|exact F2]. unfold path. rewrite Cl, (g_module _ _ _ G). exact F1.
    + unfold in_class. rewrite Cl. apply (names_top x t Na).
    + split; [exact G'|]. intros t' _. destruct (alias_type _ _ _ _ _ _ _ _ C R I1) as (c & ->). exists c. pose proof (run_all_frame _ _ _ _ R) as Fr. unfold innermost in I1.
      pose proof (fr_classes _ _ Fr) as Fc. rewrite Cl in Fc. destruct (e_classes E'); [exact I1|discriminate].
  - split; [|discriminate]. unfold bind in C. destruct (match t with TRef d => _ | _ => _ end) as [r|]; [|discriminate].
    assert (X : bind (value_type fuel T m t "") (fun ty => bind (value_text r x v) (fun e => Some [DConst x ty e (enum_used r x)])) = Some ds) by (destruct r; try discriminate; exact C).
    unfold bind in X. destruct (value_type fuel T m t "") as [vt|]; [|discriminate]. destruct (value_text r x v); [|discriminate]. injection X as <-. rewrite run_all_cons in R. cbn [run] in R.
    destruct (vexp_ok E vt (enum_used r x)); [|discriminate]. destruct (declare x Other_ false E) as [E1|] eqn:D; [|discriminate]. injection R as <-. apply (good_other _ _ _ _ _ _ _ G D). discriminate.
  - discriminate.
  - injection C as <-. injection R as <-. split; [exact G|discriminate].
Qed.
Lemma body_sound fuel l : forall i ds E E', incl l (m_assigns m) -> concat_map (fun _ => create_assignment fuel T m) i l = Some ds -> good T m E -> e_classes E = [] -> run_all (run fs) ds E = Some E' ->
  (forall x t ps, In (Assign x (AType t) ps) l -> exists ff fl, functions ff T m [m_name m; x] t = Some fl /\ incl fl fs) ->
  good T m E' /\ (forall x t ps, In (Assign x (AType t) ps) l -> exists c, assoc (e_names E') x = Some (Type_ c)).
Proof.
  induction l as [|a l IH]; intros i ds E E' Il C G Cl R Fu; [injection C as <-; injection R as <-; split; [exact G|intros x t ps []]|].
  apply concat_map_cons in C. destruct C as (d1 & d2 & C1 & C2 & ->). rewrite run_all_app in R. destruct (run_all (run fs) d1 E) as [E1|] eqn:R1; [|discriminate].
  destruct (assignment_sound fuel a d1 E E1 (Il _ (or_introl eq_refl)) C1 G Cl R1) as (G1 & A1).
  { intros t Ht. destruct a as [x sp ps]. cbn in Ht. subst sp. apply (Fu x t ps (or_introl eq_refl)). }
  pose proof (run_all_frame _ _ _ _ R1) as Fr1. pose proof (fr_classes _ _ Fr1) as Fc. rewrite Cl in Fc. assert (Cl1 : e_classes E1 = []) by (destruct (e_classes E1); [reflexivity|discriminate]).
  destruct (IH (S i) d2 E1 E' (fun a H => Il a (or_intror H)) C2 G1 Cl1 R) as (G2 & A2); [intros x t ps H; apply (Fu x t ps (or_intror H))|].
  split; [exact G2|]. intros x t ps [->|H]; [|apply (A2 x t ps H)]. destruct (A1 t eq_refl) as (c & Hc). exists c. pose proof (run_all_frame _ _ _ _ R) as Fr2. pose proof (fr_names _ _ Fr2 x (Type_ c)) as N. unfold innermost in N. rewrite Cl1 in N.
  pose proof (fr_classes _ _ Fr2) as Fc2. rewrite Cl1 in Fc2. destruct (e_classes E'); [apply N, Hc|discriminate].
Qed.
Lemma imports_good l : forall E E', good T m E -> e_classes E = [] -> run_all (run fs) l E = Some E' -> (forall d, In d l -> exists x n, d = DImport x n) -> good T m E' /\ e_classes E' = [].
Proof.
  induction l as [|d l IH]; intros E E' G Cl R H; [injection R as <-; auto|]. rewrite run_all_cons in R. destruct (run fs d E) as [E1|] eqn:R1; [|discriminate].
  assert (G1 : good T m E1). { destruct (H d (or_introl eq_refl)) as (x & n & ->). cbn [run] in R1. destruct (lookup E n); [discriminate|]. destruct (lookup_in E n x) as [[]|]; try discriminate. apply (good_other _ _ _ _ _ _ _ G R1). discriminate. }
  apply (IH E1 E' G1); [|exact R|intros d' Hd; apply H; right; exact Hd]. pose proof (fr_classes _ _ (run_frame _ _ _ _ R1)) as Fc. rewrite Cl in Fc. destruct (e_classes E1); [reflexivity|discriminate].
Qed.
End Module.
End Run.

(** ** All modules *)
Lemma assoc_snoc {A} (l : list (string * A)) m s x : assoc ((m, s) :: l) x = if String.eqb m x then Some s else assoc l x.
Proof. unfold assoc. cbn. destruct (String.eqb m x); reflexivity. Qed.
Lemma first_module pre m l : ~ In (m_name m) (map m_name pre) -> module_named (bare (pre ++ m :: l)) (m_name m) = Some (bare_module m).
Proof.
  induction pre as [|a pre IH]; intros N; unfold module_named, bare; cbn.
  - rewrite String.eqb_refl. reflexivity.
  - destruct (String.eqb_spec (m_name a) (m_name m)) as [E|E]; [destruct N; left; exact E|]. apply IH. intros H. apply N. right. exact H.
Qed.
Section Program.
Context (tr : list module) (SEP : separate (bare tr)) (fuel : nat).
Context (fs : list func) (FS1 : distinct_paths fs = true).
Context (HF : concat_map (fun _ m => create_detail fuel (bare tr) (bare_module m)) 0 tr = Some fs).
Notation T := (bare tr).
Lemma bare_imports m : In m T -> m_imports m = [].
Proof. intros H. apply in_map_iff in H. destruct H as (m' & <- & _). reflexivity. Qed.
Lemma detail_paths f n : In f fs -> In n (tl (f_path f)) -> ~ made_up n.
Proof.
  intros If. destruct (concat_map_from _ _ _ _ _ HF If) as (m & j & fl & Im & Fm & Ia). unfold create_detail in Fm. destruct (concat_map_from _ _ _ _ _ Fm Ia) as (a & j' & fa & Iam & Fa & Ib).
  destruct a as [x [t| | |] ps]; cbn in Fa; try (injection Fa as <-; destruct Ib).
  assert (A : assigned T (bare_module m) x t) by (split; [apply (in_map bare_module _ _ Im)|exists ps; exact Iam]).
  destruct (functions_paths T SEP fuel (bare_module m) t (assigned_occurs T _ _ _ A) _ _ _ Fa Ib) as (r & P & N). rewrite P. cbn. intros [<-|H]; [apply (assigned_name T SEP _ _ _ A)|apply N, H].
Qed.
Lemma detail_functions m x t ps : In m tr -> In (Assign x (AType t) ps) (m_assigns m) -> exists ff fl, functions ff T (bare_module m) [m_name m; x] t = Some fl /\ incl fl fs.
Proof.
  intros Im I. destruct (concat_map_in _ _ _ _ _ HF Im) as (j & a & Fa & Ia). unfold create_detail in Fa. destruct (concat_map_in _ _ _ _ _ Fa I) as (j' & b & Fb & Ib). cbn in Fb. exists fuel, b. split; [exact Fb|]. apply (incl_tran Ib Ia).
Qed.
Definition done_ok (finished : list (string * scope)) : Prop :=
  forall M s m x u, assoc finished M = Some s -> module_named T M = Some m -> type_named m x = Some u -> exists c, assoc s x = Some (Type_ c) /\ wrote T m None u c.
Lemma modules_sound l : forall pre finished i ms S, tr = pre ++ l -> concat_map (fun _ m => bind (create_body fuel T (bare_module m)) (fun ds => Some [(m_name m, create_imports (m_imports m) ++ ds)])) i l = Some ms ->
  run_modules fs ms finished = Some S -> done_ok finished -> (forall M, In M (map m_name pre) <-> assoc finished M <> None) -> done_ok S /\ forall M, In M (map m_name tr) -> assoc S M <> None.
Proof.
  induction l as [|m l IH]; intros pre finished i ms S Htr C R D N.
  - injection C as <-. injection R as <-. rewrite app_nil_r in Htr. split; [exact D|]. intros M HM. apply N. rewrite <- Htr. exact HM.
  - apply concat_map_cons in C. destruct C as (a & b & C1 & C2 & ->). unfold bind in C1. destruct (create_body fuel T (bare_module m)) as [ds|] eqn:Cb; [|discriminate]. injection C1 as <-. cbn [app run_modules] in R.
    destruct (existsb (String.eqb (m_name m)) library_names); [discriminate|]. destruct (assoc finished (m_name m)) as [?|] eqn:As; [discriminate|]. destruct (run_all (run fs) _ _) as [E|] eqn:Ra; [|discriminate].
    assert (Npre : ~ In (m_name m) (map m_name pre)) by (intros H; apply N in H; congruence).
    assert (Im : In m tr) by (rewrite Htr; apply in_or_app; right; left; reflexivity).
    assert (Hm : In (bare_module m) T) by apply (in_map bare_module _ _ Im).
    assert (Hmod : module_named T (m_name (bare_module m)) = Some (bare_module m)) by (rewrite Htr; apply (first_module pre m l), Npre).
    assert (G : good T (bare_module m) (Env finished (m_name m) [] [])).
    { constructor; cbn; try discriminate; try contradiction; [reflexivity|]. intros M s m' x u t H1 H2 H3 H4. destruct (D M s m' x u H1 H2 H3) as (c & H5 & H6). assert (t = c) as -> by congruence. exact H6. }
    rewrite run_all_app in Ra. destruct (run_all (run fs) (create_imports (m_imports m)) _) as [E0|] eqn:R0; [|discriminate].
    destruct (imports_good T (bare_module m) fs _ _ _ G eq_refl R0) as (G0 & Cl0).
    { intros d Hd. unfold create_imports in Hd. apply in_flat_map in Hd. destruct Hd as (im & _ & Hd). apply in_map_iff in Hd. destruct Hd as (x & <- & _). eauto. }
    destruct (body_sound T SEP bare_imports (bare_module m) Hm fs FS1 detail_paths Hmod fuel _ 0%nat ds E0 E (incl_refl _) Cb G0 Cl0 Ra) as (G1 & A1).
    { intros x t ps I. apply (detail_functions m x t ps Im I). }
    apply (IH (pre ++ [m]) ((m_name m, e_names E) :: finished) _ _ _ ltac:(rewrite <- app_assoc; exact Htr) C2 R).
    + intros M s m' x u. rewrite assoc_snoc. destruct (String.eqb_spec (m_name m) M) as [<-|]; [|apply D]. intros [= <-] Hn Hx. cbn in Hmod. rewrite Hmod in Hn. injection Hn as <-.
      destruct (type_named_in T bare_imports _ _ _ Hm Hx) as (_ & ps & I). destruct (A1 x u ps I) as (c & Hc). exists c. split; [exact Hc|]. apply (g_here _ _ _ G1 x u c Hx Hc).
    + intros M. rewrite assoc_snoc. rewrite map_app, in_app_iff, N. cbn. destruct (String.eqb_spec (m_name m) M) as [->|Hne]; [split; [discriminate|auto]|]. tauto.
Qed.
End Program.
(** A header that compiles has the code that was to be written. *)
Theorem header_sound fuel tr p S M X m t : separate (bare tr) -> header fuel tr = Some p -> compiles p = Some S -> module_named (bare tr) M = Some m -> type_named m X = Some t ->
  exists s c, assoc S M = Some s /\ assoc s X = Some (Type_ c) /\ wrote (bare tr) m None t c.
Proof.
  intros SEP H C Hm Ht. unfold header, bind in H. destruct (concat_map _ 0 tr) as [ms|] eqn:Cm in H; [|discriminate]. destruct (concat_map _ 0 tr) as [fs|] eqn:Cf in H; [|discriminate]. injection H as <-.
  unfold compiles in C. cbn [p_functions p_modules] in C. destruct (distinct_paths fs) eqn:D; [|discriminate]. destruct (functions_belong _) in C; [|discriminate]. cbn [andb] in C.
  destruct (modules_sound tr SEP fuel fs D Cf tr [] [] 0%nat ms S eq_refl Cm C) as (D1 & D2); [intros M' s m' x u; discriminate|intros M'; cbn; tauto|].
  assert (In M (map m_name tr)) as HM. { unfold module_named in Hm. apply find_some in Hm. destruct Hm as (I & E). apply in_map_iff in I. destruct I as (m0 & <- & I). apply String.eqb_eq in E. cbn in E. subst M. apply (in_map m_name _ _ I). }
  specialize (D2 M HM). destruct (assoc S M) as [s|] eqn:As; [|congruence]. destruct (D1 M s m X t As Hm Ht) as (c & H1 & H2). exists s, c. auto.
Qed.
