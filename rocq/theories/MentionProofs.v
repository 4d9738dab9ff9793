(** Every type that is referred to is defined: along the passes of Frontend.v, and in Header.v. *)
From Coq Require Import List String ZArith Bool Permutation Lia.
From Verif Require Import Base CompilerNames CompilerTree CompilerPasses Ident View Prims Schema ParserTree ParserFile Compiler Elab ElabProofs Frontend FrontOrder FrontNest PassesSpec PassNest TreeSpec PropertiesTree FrontPasses FrontStays.
From Verif Require Import Frontend FrontNest FrontPasses FrontStays ParserTree Elab.
Import ListNotations.
Local Open Scope string_scope.
Local Open Scope list_scope.

(** ** References of types *)
Fixpoint refs (t : type) : list (option string * string) :=
  match t with
  | TRef (Defined m r []) => [(m, r)]
  | TRef _ => []
  | TRecord _ cs _ => flat_map (fun c => match c with Comp _ u _ _ co => match co with Some v => refs v | None => refs u end end) cs
  | TListOf _ _ u | TTagged _ _ u => refs u
  | ParserTree.TChoice alts => flat_map (fun a => refs (snd a)) alts
  | TSimple _ | TInteger _ | TEnumerated _ _ | TField _ _ => []
  end.
Definition is_type (a : assignment) : bool := match a_specific a with AType _ => true | _ => false end.
Definition all_refs (a : assignment) : list (option string * string) :=
  match a_specific a with AType t => refs t | AValue (TRef (Defined m r [])) _ => [(m, r)] | _ => [] end.
(** The type [X] of module [M] is referred to; there is one. *)
Definition uses (tr : list module) (M X : string) : Prop :=
  exists m a mo, In m tr /\ In a (m_assigns m) /\ a_parameters a = [] /\ In (mo, X) (all_refs a) /\ M = ref_module (m_name m) mo.
Definition type_in (tr : list module) (M X : string) : Prop :=
  exists m a, In m tr /\ m_name m = M /\ In a (m_assigns m) /\ a_name a = X /\ is_type a = true.
Definition plain_in (tr : list module) (M X : string) : Prop :=
  exists m a, In m tr /\ m_name m = M /\ In a (m_assigns m) /\ a_name a = X /\ is_type a = true /\ a_parameters a = [].

Definition like (F : option string * string -> Prop) (a a' : assignment) : Prop :=
  a_name a' = a_name a /\ a_parameters a' = a_parameters a /\ is_type a' = is_type a /\ forall r, In r (all_refs a) -> In r (all_refs a') \/ F r.
Lemma like_refl F a : like F a a.
Proof. split; [reflexivity|]. split; [reflexivity|]. split; auto. Qed.
Lemma omap_in {A} (f : A -> out A) (g : A -> list (option string * string)) (F : option string * string -> Prop) l l' :
  Forall (fun x => forall y, f x = Done y -> forall r, In r (g x) -> In r (g y) \/ F r) l -> omap f l = Done l' -> forall r, In r (flat_map g l) -> In r (flat_map g l') \/ F r.
Proof.
  intros H E. apply omap_forall2 in E. induction E as [|x y l l' Exy E IH]; intros r I; [destruct I|]. inversion H; subst. cbn [flat_map] in *. apply in_app_or in I as [I|I].
  - destruct (H2 y Exy r I) as [K|K]; [left; apply in_or_app; left; exact K|right; exact K].
  - destruct (IH H3 r I) as [K|K]; [left; apply in_or_app; right; exact K|right; exact K].
Qed.
(** Parameters. *)
Lemma concrete_refs tr md t : forall t', to_concrete tr md t = Done t' -> forall r, In r (refs t) -> In r (refs t') \/ False.
Proof.
  induction t as [| | | |alts IH|set cs ext IH|set n u IH|g kw u IH|[mo x args]] using type_induct; cbn [to_concrete]; intros t' E r I; try (injection E as <-; left; exact I).
  - apply obind_ok in E as (alts' & E1 & E). injection E as <-. cbn [refs] in *. revert r I. eapply (omap_in _ _ (fun _ => False)); [|exact E1]. eapply Forall_impl; [|exact IH]. intros [y u] H b Eb r I. cbn [fst snd] in *. apply obind_ok in Eb as (u' & Eu & Eb). injection Eb as <-. cbn [snd]. eapply H; eassumption.
  - apply obind_ok in E as (cs' & E1 & E). injection E as <-. cbn [refs] in *. revert r I. eapply (omap_in _ _ (fun _ => False)); [|exact E1]. eapply Forall_impl; [|exact IH]. intros [y u o d co] H b Eb r I. apply obind_ok in Eb as (u' & Eu & Eb). injection Eb as <-. destruct co; [left; exact I|]. eapply H; eassumption.
  - apply obind_ok in E as (u' & E1 & E). injection E as <-. cbn [refs] in *. eapply IH; eassumption.
  - apply obind_ok in E as (u' & E1 & E). injection E as <-. cbn [refs] in *. eapply IH; eassumption.
  - destruct args as [|b args]; [injection E as <-; left; exact I|destruct I].
Qed.
Lemma concrete_like tr md a a' : concrete tr md a = Done a' -> a_parameters a = [] -> like (fun _ => False) a a'.
Proof.
  destruct a as [x [t| | |] ps]; unfold concrete; cbn [a_specific a_parameters]; intros E P; try (injection E as <-; apply like_refl). subst ps. cbn [is_template a_parameters] in E.
  apply obind_ok in E as (t' & E1 & E). injection E as <-. repeat split; auto. cbn [all_refs a_specific]. eapply concrete_refs, E1.
Qed.
(** Nested structures. *)
Definition held (s : nest_state) (r : option string * string) : Prop := exists p, In p (snd s) /\ In r (refs (snd p)).
Lemma hoist_refs md t s t' s' : Frontend.hoist md t s = (t', s') -> (forall r, In r (refs t) -> In r (refs t') \/ held s' r) /\ incl (snd s) (snd s').
Proof.
  unfold Frontend.hoist. destruct (Frontend.unnamed_prefix t); intros [= <- <-]; [|split; [auto|apply incl_refl]]. cbn [snd]. split; [|apply incl_appl, incl_refl].
  intros r I. right. exists ((s0 ++ to_string (fst s))%string, t). split; [apply in_or_app; right; left; reflexivity|exact I].
Qed.
Lemma held_incl s s' r : incl (snd s) (snd s') -> held s r -> held s' r.
Proof. intros H (p & I & K). exists p. auto. Qed.
Lemma nmap_refs {A} (f : A -> nest_state -> A * nest_state) (g : A -> list (option string * string)) l :
  Forall (fun x => forall s y s', f x s = (y, s') -> (forall r, In r (g x) -> In r (g y) \/ held s' r) /\ incl (snd s) (snd s')) l ->
  forall s l' s', nmap f l s = (l', s') -> (forall r, In r (flat_map g l) -> In r (flat_map g l') \/ held s' r) /\ incl (snd s) (snd s').
Proof.
  induction 1 as [|x l H _ IH]; intros s l' s' E; cbn [nmap] in E; [injection E as <- <-; split; [intros r []|apply incl_refl]|]. fold (nmap f) in E.
  destruct (f x s) as [y s1] eqn:E1. destruct (nmap f l s1) as [l1 s2] eqn:E2. injection E as <- <-. destruct (H _ _ _ E1) as (H1 & H2). destruct (IH _ _ _ E2) as (K1 & K2). split; [|eapply incl_tran; eassumption].
  intros r I. cbn [flat_map] in *. apply in_app_or in I as [I|I].
  - destruct (H1 r I) as [J|J]; [left; apply in_or_app; left; exact J|right; eapply held_incl; eassumption].
  - destruct (K1 r I) as [J|J]; [left; apply in_or_app; right; exact J|right; exact J].
Qed.
Lemma nested_refs md t : forall s t' s', Frontend.find_nested md t s = (t', s') -> (forall r, In r (refs t) -> In r (refs t') \/ held s' r) /\ incl (snd s) (snd s').
Proof.
  induction t as [| | | |alts IH|set cs ext IH|set n u IH|g kw u IH|[mo x args]] using type_induct; cbn [Frontend.find_nested]; intros s t' s' E; try (injection E as <- <-; split; [auto|apply incl_refl]).
  - match type of E with context [nmap ?f alts s] => set (h := f) in E end. destruct (nmap h alts s) as [l1 s1] eqn:E1. injection E as <- <-. cbn [refs]. eapply nmap_refs; [|exact E1]. eapply Forall_impl; [|exact IH].
    intros [y u] H s0 b s0' Eb. unfold h in Eb. cbn [fst snd] in *. destruct (Frontend.find_nested md u s0) as [u' s2] eqn:Eu. injection Eb as <- <-. eapply H; exact Eu.
  - match type of E with context [nmap ?f cs s] => set (h := f) in E end. destruct (nmap h cs s) as [l1 s1] eqn:E1. injection E as <- <-. cbn [refs]. eapply nmap_refs; [|exact E1]. eapply Forall_impl; [|exact IH].
    intros [y u o d co] H s0 b s0' Eb. unfold h in Eb. destruct (Frontend.find_nested md u s0) as [u' s2] eqn:Eu. injection Eb as <- <-. destruct (H _ _ _ Eu) as (H1 & H2). split; [|exact H2]. destruct co; [auto|exact H1].
  - destruct (Frontend.find_nested md u s) as [u1 s1] eqn:E1. destruct (Frontend.hoist md u1 s1) as [u2 s2] eqn:E2. injection E as <- <-. cbn [refs]. destruct (IH _ _ _ E1) as (H1 & H2). destruct (hoist_refs _ _ _ _ _ E2) as (K1 & K2). split; [|eapply incl_tran; eassumption].
    intros r I. destruct (H1 r I) as [J|J]; [auto|right; eapply held_incl; eassumption].
  - destruct (Frontend.find_nested md u s) as [u1 s1] eqn:E1. destruct (Frontend.hoist md u1 s1) as [u2 s2] eqn:E2. injection E as <- <-. cbn [refs]. destruct (IH _ _ _ E1) as (H1 & H2). destruct (hoist_refs _ _ _ _ _ E2) as (K1 & K2). split; [|eapply incl_tran; eassumption].
    intros r I. destruct (H1 r I) as [J|J]; [auto|right; eapply held_incl; eassumption].
Qed.
Lemma split_refs md l : forall n a r, In a l -> In r (all_refs a) -> a_parameters a = [] -> exists a', In a' (fst (Frontend.split_nested md l n)) /\ In r (all_refs a') /\ a_parameters a' = [].
Proof.
  induction l as [|b l IH]; intros n a r I J P; [destruct I|]. cbn [Frontend.split_nested]. destruct (a_specific b) as [t| | |] eqn:Eb.
  - destruct (Frontend.find_nested md t (n, [])) as [t' [n1 nested]] eqn:F. specialize (IH n1). destruct (Frontend.split_nested md l n1) as [l1 n2]. cbn [fst] in *. destruct I as [<-|I].
    + apply nested_refs in F as (F & _). unfold all_refs in J. rewrite Eb in J. destruct (F r J) as [K|(p & Ip & K)].
      * eexists. split; [apply in_or_app; right; left; reflexivity|]. split; [exact K|exact P].
      * exists (type_assign p). split; [apply in_or_app; left; apply in_map; apply -> in_rev; exact Ip|]. split; [exact K|reflexivity].
    + destruct (IH a r I J P) as (a' & I' & T). exists a'. split; [apply in_or_app; right; right; exact I'|exact T].
  - specialize (IH n). destruct (Frontend.split_nested md l n) as [l1 n2]. cbn [fst] in *. destruct I as [<-|I]; [exists b; split; [left; reflexivity|auto]|]. destruct (IH a r I J P) as (a' & I' & T). exists a'. split; [right; exact I'|exact T].
  - specialize (IH n). destruct (Frontend.split_nested md l n) as [l1 n2]. cbn [fst] in *. destruct I as [<-|I]; [exists b; split; [left; reflexivity|auto]|]. destruct (IH a r I J P) as (a' & I' & T). exists a'. split; [right; exact I'|exact T].
  - specialize (IH n). destruct (Frontend.split_nested md l n) as [l1 n2]. cbn [fst] in *. destruct I as [<-|I]; [exists b; split; [left; reflexivity|auto]|]. destruct (IH a r I J P) as (a' & I' & T). exists a'. split; [right; exact I'|exact T].
Qed.
Lemma split_back md l : forall n a', In a' (fst (Frontend.split_nested md l n)) -> made_up (a_name a') \/ exists a, In a l /\ a_name a = a_name a' /\ is_type a = is_type a'.
Proof.
  induction l as [|b l IH]; intros n a' I; [destruct I|]. cbn [Frontend.split_nested] in I. destruct (a_specific b) as [t| | |] eqn:Eb.
  - destruct (Frontend.find_nested md t (n, [])) as [t' [n1 nested]] eqn:F. specialize (IH n1). destruct (Frontend.split_nested md l n1) as [l1 n2]. cbn [fst] in *. apply in_app_or in I as [I|[<-|I]].
    + left. apply in_map_iff in I as (p & <- & I). apply in_rev in I. destruct (find_nested_nests _ _ _ _ _ F) as (new & (N1 & N2 & N3) & _). cbn [fst snd app] in N1, N3. subst nested. cbn [type_assign a_name].
      destruct (gen_from_in _ _ (fst p) N3 (in_map fst _ _ I)) as (q & i & Hq & E & _). exists q, i. auto.
    + right. exists b. split; [left; reflexivity|]. split; [reflexivity|]. unfold is_type. rewrite Eb. reflexivity.
    + destruct (IH _ I) as [K|(a & K & K')]; [left; exact K|right; exists a; split; [right; exact K|exact K']].
  - specialize (IH n). destruct (Frontend.split_nested md l n) as [l1 n2]. cbn [fst] in *. destruct I as [<-|I]; [right; exists b; split; [left; reflexivity|auto]|]. destruct (IH _ I) as [K|(a & K & K')]; [left; exact K|right; exists a; split; [right; exact K|exact K']].
  - specialize (IH n). destruct (Frontend.split_nested md l n) as [l1 n2]. cbn [fst] in *. destruct I as [<-|I]; [right; exists b; split; [left; reflexivity|auto]|]. destruct (IH _ I) as [K|(a & K & K')]; [left; exact K|right; exists a; split; [right; exact K|exact K']].
  - specialize (IH n). destruct (Frontend.split_nested md l n) as [l1 n2]. cbn [fst] in *. destruct I as [<-|I]; [right; exists b; split; [left; reflexivity|auto]|]. destruct (IH _ I) as [K|(a & K & K')]; [left; exact K|right; exists a; split; [right; exact K|exact K']].
Qed.
(** COMPONENTS OF. *)
Definition alike (m m' : module) : Prop := m_name m' = m_name m /\ Forall2 (fun a a' => a_name a' = a_name a /\ is_type a' = is_type a) (m_assigns m) (m_assigns m').
Lemma alike_refl m : alike m m.
Proof. split; [reflexivity|]. apply Forall2_refl. auto. Qed.
Lemma type_in_alike tr tr' M X : Forall2 alike tr tr' -> type_in tr' M X -> type_in tr M X.
Proof.
  intros F (m' & a' & Im & E & Ia & Ea & T). destruct (Forall2_in_r _ _ _ _ F Im) as (m & I & N & G). destruct (Forall2_in_r _ _ _ _ G Ia) as (a & J & K & K'). exists m, a. repeat split; congruence.
Qed.
Lemma alike_type_in tr tr' M X : Forall2 alike tr tr' -> type_in tr M X -> type_in tr' M X.
Proof.
  intros F (m & a & Im & E & Ia & Ea & T). destruct (Forall2_in_l _ _ _ _ F Im) as (m' & I & N & G). destruct (Forall2_in_l _ _ _ _ G Ia) as (a' & J & K & K'). exists m', a'. repeat split; congruence.
Qed.
Definition there (tr : list module) (md : string) (r : option string * string) : Prop := type_in tr (ref_module md (fst r)) (snd r).
Lemma expand_refs tr md name cs : forall cs', expand_comps tr md name cs = Done cs' ->
  forall r, In r (refs (TRecord false cs false)) -> In r (refs (TRecord false cs' false)) \/ there tr md r.
Proof.
  induction cs as [|c0 cs IH]; intros cs' E r I; [destruct I|]. cbn [expand_comps] in E. apply obind_ok in E as (l & E1 & E). apply obind_ok in E as (k & E2 & E). injection E as <-. cbn [refs] in *. rewrite flat_map_app. cbn [flat_map] in I. apply in_app_or in I as [I|I].
  - destruct c0 as [y u o d [v|]].
    + right. cbn [included] in E1. destruct v as [| | | | | | | |[mo x args]]; try discriminate. destruct args as [|? ?]; [|destruct I]. apply obind_ok in E1 as (w & Ew & E1). apply obind_ok in E1 as (a & Ea & E1). destruct I as [<-|[]]. unfold there. cbn [fst snd]. unfold olift in Ew, Ea.
      destruct (module_named tr (ref_module md mo)) as [m0|] eqn:Em; [|discriminate]. injection Ew as ->. destruct (assign_named (m_assigns w) x) as [a0|] eqn:En; [|discriminate]. injection Ea as ->. apply find_some in Em as (Im & Em). apply find_some in En as (Ia & En). apply String.eqb_eq in Em, En.
      exists w, a. repeat split; auto. unfold is_type. destruct (a_specific a); try discriminate. reflexivity.
    + left. apply in_or_app. left. apply in_flat_map. exists (Comp y u o d None). split; [|exact I]. apply filter_In. split; [apply in_or_app; right; left; reflexivity|reflexivity].
  - destruct (IH _ E2 r I) as [K|K]; [left; apply in_or_app; right; exact K|right; exact K].
Qed.
Lemma expand_like tr md a a' : expand_assign tr md a = Done a' -> like (there tr md) a a'.
Proof.
  destruct a as [x [[| | | | |[|] cs ext| | |]| | |] ps]; unfold expand_assign; cbn [a_specific]; intros E; try (injection E as <-; apply like_refl).
  apply obind_ok in E as (cs' & E1 & E). injection E as <-. repeat split; auto. cbn [all_refs a_specific]. exact (expand_refs _ _ _ _ _ E1).
Qed.
Lemma expand_module_like T0 before m after : forall todo done_ l, (forall M X, type_in (rev before ++ with_assigns m (rev done_ ++ todo) :: after) M X -> type_in T0 M X) ->
  expand_module before m done_ todo after = Done l -> exists l2, l = rev done_ ++ l2 /\ Forall2 (like (there T0 (m_name m))) todo l2.
Proof.
  induction todo as [|a todo IH]; intros done_ l H E; cbn [expand_module] in E; [injection E as <-; exists []; rewrite app_nil_r; split; [reflexivity|constructor]|].
  apply obind_ok in E as (a' & E1 & E). pose proof (expand_like _ _ _ _ E1) as (L1 & L2 & L3 & L4). apply IH in E as (l2 & -> & F).
  - exists (a' :: l2). cbn [rev]. rewrite <- app_assoc. split; [reflexivity|]. constructor; [|exact F]. repeat split; auto. intros r I. destruct (L4 r I) as [K|K]; [left; exact K|right; apply H, K].
  - intros M X K. apply H. eapply type_in_alike; [|exact K]. apply Forall2_app; [apply Forall2_refl, alike_refl|]. constructor; [|apply Forall2_refl, alike_refl]. split; [reflexivity|]. cbn [m_assigns with_assigns rev]. rewrite <- app_assoc. cbn [app].
    apply Forall2_app; [apply Forall2_refl; auto|]. constructor; [auto|apply Forall2_refl; auto].
Qed.
Definition likes (F : string -> option string * string -> Prop) (m m' : module) : Prop := m_name m' = m_name m /\ Forall2 (like (F (m_name m))) (m_assigns m) (m_assigns m').
Lemma likes_alike F m m' : likes F m m' -> alike m m'.
Proof. intros (N & G). split; [exact N|]. eapply Forall2_impl2; [|exact G]. intros a a' (H1 & _ & H2 & _). auto. Qed.
Lemma expand_tree_like T0 : forall after before tr', (forall M X, type_in (rev before ++ after) M X -> type_in T0 M X) -> expand_tree before after = Done tr' -> exists l, tr' = rev before ++ l /\ Forall2 (likes (there T0)) after l.
Proof.
  induction after as [|m after IH]; intros before tr' H E; cbn [expand_tree] in E; [injection E as <-; exists []; rewrite app_nil_r; split; [reflexivity|constructor]|].
  apply obind_ok in E as (l & E1 & E). apply (expand_module_like T0) in E1 as (l3 & -> & F3); [|cbn [rev app]; destruct m; exact H]. cbn [rev app] in E. assert (L : likes (there T0) m (with_assigns m l3)) by (split; [reflexivity|exact F3]).
  apply IH in E as (l2 & -> & F).
  - exists (with_assigns m l3 :: l2). cbn [rev]. rewrite <- app_assoc. split; [reflexivity|]. constructor; assumption.
  - intros M X K. apply H. eapply type_in_alike; [|exact K]. cbn [rev]. rewrite <- app_assoc. apply Forall2_app; [apply Forall2_refl, alike_refl|]. cbn [app]. constructor; [eapply likes_alike, L|apply Forall2_refl, alike_refl].
Qed.
(** Object classes. *)
Lemma class_refs tr md t : forall t', classes_to_concrete tr md t = Done t' -> forall r, In r (refs t) -> In r (refs t') \/ False.
Proof.
  induction t as [| | | |alts IH|set cs ext IH|set n u IH|g kw u IH|[mo x args]] using type_induct; cbn [classes_to_concrete]; intros t' E r I; try (injection E as <-; left; exact I); try (destruct I).
  - apply obind_ok in E as (alts' & E1 & E). injection E as <-. cbn [refs] in *. revert r I. eapply (omap_in _ _ (fun _ => False)); [|exact E1]. eapply Forall_impl; [|exact IH]. intros [y u] H b Eb r I. cbn [fst snd] in *. apply obind_ok in Eb as (u' & Eu & Eb). injection Eb as <-. cbn [snd]. eapply H; eassumption.
  - apply obind_ok in E as (cs' & E1 & E). injection E as <-. cbn [refs] in *. revert r I. eapply (omap_in _ _ (fun _ => False)); [|exact E1]. eapply Forall_impl; [|exact IH]. intros [y u o d co] H b Eb r I. apply obind_ok in Eb as (u' & Eu & Eb). injection Eb as <-. destruct co; [left; exact I|]. eapply H; eassumption.
  - apply obind_ok in E as (u' & E1 & E). injection E as <-. cbn [refs] in *. eapply IH; eassumption.
  - apply obind_ok in E as (u' & E1 & E). injection E as <-. cbn [refs] in *. eapply IH; eassumption.
Qed.
Lemma class_free_like tr md a a' : class_free tr md a = Done a' -> like (fun _ => False) a a'.
Proof.
  destruct a as [x [t| | |] ps]; unfold class_free; cbn [a_specific]; intros E; try (injection E as <-; apply like_refl).
  apply obind_ok in E as (t' & E1 & E). injection E as <-. repeat split; auto. cbn [all_refs a_specific]. eapply class_refs, E1.
Qed.
Lemma classes_like tr tr' : no_classes tr -> resolve_object_classes tr = Done tr' -> Forall2 (likes (fun _ _ => False)) tr tr'.
Proof.
  intros H E. unfold resolve_object_classes in E. apply obind_ok in E as (names & E1 & E). apply (names_none tr names H) in E1. subst names. apply obind_ok in E as (tr1 & E1 & E). injection E as <-.
  apply omap_forall2, Forall2_with_in in E1. unfold remove_object_classes. apply Forall2_map_r. eapply Forall2_impl2; [|exact E1]. intros m m1 (Hm & E). apply obind_ok in E as (l & E & [= <-]). apply omap_forall2, Forall2_with_in in E.
  split; [reflexivity|]. cbn [m_assigns with_assigns m_name]. rewrite filter_all.
  - eapply Forall2_impl2; [|exact E]. intros a a' (_ & Ea). eapply class_free_like, Ea.
  - intros a' I. destruct (Forall2_in_r _ _ _ _ E I) as (a & _ & Ia & Ea). rewrite removed_none; [reflexivity|]. destruct (class_free_kept _ _ _ _ Ea) as (_ & K & _). rewrite K. eapply H; eassumption.
Qed.
Lemma uses_likes F tr tr' M X : Forall2 (likes F) tr tr' -> uses tr M X -> uses tr' M X \/ exists md mo, M = ref_module md mo /\ F md (mo, X).
Proof.
  intros G (m & a & mo & Im & Ia & P & R & E). destruct (Forall2_in_l _ _ _ _ G Im) as (m' & Im' & N & G'). destruct (Forall2_in_l _ _ _ _ G' Ia) as (a' & Ia' & _ & L2 & _ & L4).
  destruct (L4 _ R) as [K|K]; [left; exists m', a', mo; repeat split; congruence|right; exists (m_name m), mo; auto].
Qed.
(** ** All passes *)
Definition import_of (m : module) (N X : string) : Prop := exists i, In i (m_imports m) /\ i_module i = N /\ In X (i_types i).
Definition alias (N X : string) : assignment := Assign X (AType (TRef (Defined (Some N) X []))) [].
Theorem passes_uses fuel tr tr' : clean tr -> passes fuel tr = Done tr' ->
  NoDup (map m_name tr') /\ (forall m', In m' tr' -> NoDup (map a_name (m_assigns m'))) /\
  (forall M X, uses tr M X -> type_in tr' M X \/ uses tr' M X) /\
  (forall M X, type_in tr' M X -> made_up X \/ plain_in tr M X \/ exists m N, In m tr /\ m_name m = M /\ import_of m N X) /\
  (forall m N X, In m tr -> import_of m N X -> exists m', In m' tr' /\ m_name m' = m_name m /\ In (alias N X) (m_assigns m')).
Proof.
  intros C E. unfold passes in E. apply obind_ok in E as (tr1 & E1 & E). apply obind_ok in E as (tr2 & E2 & E). apply obind_ok in E as (tr3 & E3 & E). apply obind_ok in E as (tr4 & E4 & E). apply obind_ok in E as (tr5 & E5 & E6).
  pose proof E1 as E1'. apply parameters_facts in E1. pose proof (clean_concreted _ _ C E1) as C1. apply reorder_modules_perm in E2; [|apply C1]. pose proof (clean_perm _ _ C1 E2) as (C2 & C2' & C2'').
  pose proof (split_tracked _ _ _ E3) as T3. apply split_modules_facts in E3; [|lia]. apply Forall2_with_in in E3.
  assert (NC3 : no_classes tr3). { intros m3 a Hm Ha. destruct (Forall2_in_r _ _ _ _ E3 Hm) as (m0 & _ & Hin & n & n' & l' & H0 & H1 & E & ->). destruct (is_class a) eqn:K; [|reflexivity]. cbn in Ha.
      destruct (split_nested_facts _ _ _ _ _ E) as (tab & _ & _ & _ & G & _). destruct (with_imports_assigns _ _ (G a Ha K)) as [K'|K']; [rewrite (C2'' _ _ Hin K') in K; discriminate|congruence]. }
  assert (ND3 : forall m, In m tr3 -> NoDup (map a_name (m_assigns m))).
  { intros m3 Hm. destruct (Forall2_in_r _ _ _ _ E3 Hm) as (m0 & _ & Hin & n & n' & l' & H0 & H1 & E & ->). destruct (C2' _ Hin) as (D & M). eapply split_names; eassumption. }
  pose proof E4 as E4t. apply expand_tree_tracked in E4t as (l4 & E4t & T4). cbn in E4t. subst l4. pose proof E4 as E4'. apply (expand_tree_like tr3) in E4' as (l4 & E4' & L4); [|intros M X K; exact K]. cbn in E4'. subst l4. apply expand_tree_kept in E4 as (l4 & E4 & F4). cbn in E4. subst l4.
  assert (NC4 : no_classes tr4). { intros m4 a Hm Ha. destruct (Forall2_in_r _ _ _ _ F4 Hm) as (m0 & Hm0 & _ & _ & F). destruct (Forall2_in_r _ _ _ _ F Ha) as (a0 & Ha0 & _ & E & _). rewrite E. eapply NC3; eassumption. }
  pose proof (classes_like _ _ NC4 E5) as L5. pose proof (classes_tracked _ _ NC4 E5) as T5. pose proof (resolve_classes_kept _ _ NC4 E5) as F5.
  assert (ND5 : forall m, In m tr5 -> NoDup (map a_name (m_assigns m))).
  { intros m5 Hm. destruct (Forall2_in_r _ _ _ _ F5 Hm) as (m4 & Hm4 & _ & _ & G5). destruct (Forall2_in_r _ _ _ _ F4 Hm4) as (m3 & Hm3 & _ & _ & G4). rewrite (kept_names _ _ G5), (kept_names _ _ G4). auto. }
  apply reorder_tree_perm in E6 as (l6 & E6 & F6); [|exact ND5]. cbn in E6. subst l6.
  assert (N6 : map m_name tr' = map m_name tr5) by (clear -F6; induction F6 as [|m m' l l' (k & -> & _) F IH]; cbn; [reflexivity|rewrite IH; reflexivity]).
  assert (A4 : Forall2 alike tr3 tr4) by (eapply Forall2_impl2; [|exact L4]; intros; eapply likes_alike; eassumption).
  assert (A5 : Forall2 alike tr4 tr5) by (eapply Forall2_impl2; [|exact L5]; intros; eapply likes_alike; eassumption).
  assert (U65 : forall M X, type_in tr5 M X -> type_in tr' M X).
  { intros M X (m & a & Im & N & Ia & K). destruct (Forall2_in_l _ _ _ _ F6 Im) as (m' & Im' & l & -> & P). exists (with_assigns m l), a. split; [exact Im'|]. split; [exact N|]. split; [eapply Permutation_in; eassumption|exact K]. }
  assert (V65 : forall M X, type_in tr' M X -> type_in tr5 M X).
  { intros M X (m' & a & Im & N & Ia & K). destruct (Forall2_in_r _ _ _ _ F6 Im) as (m & Im' & l & -> & P). exists m, a. split; [exact Im'|]. split; [exact N|]. split; [eapply Permutation_in; [apply Permutation_sym|]; eassumption|exact K]. }
  split; [|split; [|split; [|split]]].
  - rewrite N6, (tracked_names _ _ T5), (tracked_names _ _ T4), (tracked_names _ _ T3). exact C2.
  - intros m' Im. destruct (Forall2_in_r _ _ _ _ F6 Im) as (m & Im' & l & -> & P). cbn [m_assigns with_assigns]. eapply Permutation_NoDup; [apply Permutation_map; exact P|apply ND5; exact Im'].
  - intros M X (m & a & mo & Im & Ia & P & R & Em).
    unfold Frontend.resolve_parameters in E1'. apply obind_ok in E1' as (tr1' & E1' & E1e). injection E1e as <-. apply omap_forall2 in E1'. destruct (Forall2_in_l _ _ _ _ E1' Im) as (m1 & Im1 & Ec). apply obind_ok in Ec as (l & Ec & [= <-]). apply omap_forall2 in Ec.
    destruct (Forall2_in_l _ _ _ _ Ec Ia) as (a1 & Ia1 & Ea1). apply concrete_like in Ea1 as (_ & L2 & _ & L4'); [|exact P]. destruct (L4' _ R) as [R1|[]].
    assert (I2 : In (with_assigns (with_assigns m l) (filter (fun a => negb (is_template a)) l)) tr2) by (eapply Permutation_in; [exact E2|]; apply (in_map (fun m => with_assigns m (filter (fun a => negb (is_template a)) (m_assigns m))) _ _ Im1)).
    destruct (Forall2_in_l _ _ _ _ E3 I2) as (m3 & I3 & _ & n & n' & l' & H0 & H1 & Es & ->). cbn [m_name with_assigns] in *.
    edestruct (split_refs (m_name m) (with_imports (with_assigns (with_assigns m l) (filter (fun a => negb (is_template a)) l))) n a1 (mo, X)) as (a3 & Ia3 & R3 & P3); [| |congruence|].
    { unfold with_imports. apply in_or_app. left. cbn [m_assigns with_assigns]. apply filter_In. split; [exact Ia1|]. unfold is_template. rewrite L2, P. reflexivity. } { exact R1. }
    assert (U3 : uses tr3 M X). { eexists _, a3, mo. split; [exact I3|]. split; [|split; [exact P3|split; [exact R3|exact Em]]]. cbn [m_assigns with_assigns]. rewrite Es in Ia3. exact Ia3. }
    destruct (uses_likes _ _ _ _ _ L4 U3) as [U4|(md & mo' & -> & K)]; [|left; apply U65; eapply alike_type_in; [exact A5|]; eapply alike_type_in; [exact A4|]; exact K].
    destruct (uses_likes _ _ _ _ _ L5 U4) as [(m5 & a5 & mo5 & J1 & J2 & J3 & J4 & J5)|(? & ? & _ & [])]. right. destruct (Forall2_in_l _ _ _ _ F6 J1) as (m' & Im' & k & -> & Pk). exists (with_assigns m5 k), a5, mo5. repeat split; auto. cbn [m_assigns with_assigns]. eapply Permutation_in; eassumption.
  - intros M X K. apply V65 in K. apply (type_in_alike _ _ _ _ A5) in K. apply (type_in_alike _ _ _ _ A4) in K. destruct K as (m3 & a3 & I3 & N3 & Ia3 & Na3 & T).
    destruct (Forall2_in_r _ _ _ _ E3 I3) as (m2 & I2 & _ & n & n' & l' & H0 & H1 & Es & ->). cbn [m_assigns with_assigns m_name] in *. pose proof (split_back (m_name m2) (with_imports m2) n a3) as B. rewrite Es in B. destruct (B Ia3) as [B1|(a & Ia & Na & Ta)]; [left; congruence|right].
    assert (I1 : In m2 tr1) by (eapply Permutation_in; [apply Permutation_sym; exact E2|exact I2]). unfold Frontend.resolve_parameters in E1'. apply obind_ok in E1' as (tr1' & E1' & E1e). injection E1e as <-. apply omap_forall2 in E1'.
    apply in_map_iff in I1 as (m1 & <- & I1). destruct (Forall2_in_r _ _ _ _ E1' I1) as (m & Im & Ec). apply obind_ok in Ec as (l & Ec & [= <-]). apply omap_forall2 in Ec. cbn [m_name with_assigns] in N3. unfold with_imports in Ia. cbn [m_assigns m_imports with_assigns] in Ia. apply in_app_or in Ia as [Ia|Ia].
    + left. apply filter_In in Ia as (Ia & Te). assert (Te' : a_parameters a = []) by (unfold is_template in Te; destruct (a_parameters a); [reflexivity|discriminate]). clear Te. destruct (Forall2_in_r _ _ _ _ Ec Ia) as (a0 & Ia0 & Ea0). exists m, a0. split; [exact Im|]. split; [exact N3|]. split; [exact Ia0|].
      destruct a0 as [x [t| | |] ps]; unfold concrete in Ea0; cbn [a_specific] in Ea0; try (injection Ea0 as <-; split; [congruence|split; congruence]). destruct (is_template _); [injection Ea0 as <-; split; [congruence|split; congruence]|]. apply obind_ok in Ea0 as (t' & _ & Ea0). injection Ea0 as <-. split; [cbn [a_name] in *; congruence|]. split; [reflexivity|exact Te'].
    + right. exists m. apply in_flat_map in Ia as (i & Ii & Ia). apply in_map_iff in Ia as (y & <- & Iy). exists (i_module i). split; [exact Im|]. split; [exact N3|]. exists i. split; [exact Ii|]. split; [reflexivity|]. cbn [a_name] in Na. congruence.
  - intros m N X Im (i & Ii & Hi & Ix). destruct (Forall2_in_l _ _ _ _ E1 Im) as (m1 & I1 & N1 & _ & Im1 & _). pose proof (Permutation_in _ E2 I1) as I2. destruct (Forall2_in_l _ _ _ _ E3 I2) as (m3 & I3 & _ & n & n' & l' & H0 & H1 & Es & Em3).
    assert (K3 : In (alias N X) (m_assigns m3)).
    { edestruct (split_tracks (m_name m1) (with_imports m1) n) with (a := alias N X) as (a' & Ia' & T).
      - unfold with_imports. apply in_or_app. right. apply in_flat_map. exists i. rewrite Im1. split; [exact Ii|]. apply in_map_iff. exists X. rewrite Hi. auto.
      - destruct T as (_ & _ & T & _). cbn [alias a_specific] in T. rewrite (T eq_refl) in Ia'. rewrite Es in Ia'. subst m3. exact Ia'. }
    destruct (Forall2_in_l _ _ _ _ T4 I3) as (m4 & I4 & N4 & K4). destruct (K4 _ K3 eq_refl) as (a4 & Ia4 & _ & _ & Ta4 & _). rewrite (Ta4 eq_refl) in Ia4.
    destruct (Forall2_in_l _ _ _ _ T5 I4) as (m5 & I5 & N5 & K5). destruct (K5 _ Ia4 eq_refl) as (a5 & Ia5 & _ & _ & Ta5 & _). rewrite (Ta5 eq_refl) in Ia5.
    destruct (Forall2_in_l _ _ _ _ F6 I5) as (m6 & I6 & k & -> & Pk). exists (with_assigns m5 k). split; [exact I6|]. split; [|cbn [m_assigns with_assigns]; eapply Permutation_in; eassumption]. cbn [m_name with_assigns]. subst m3. cbn [m_name with_assigns] in N4. congruence.
Qed.
