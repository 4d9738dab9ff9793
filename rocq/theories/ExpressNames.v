(** Names in the headers: which are declared, and that they do not get in each other's way. *)
From Coq Require Import List String Ascii ZArith Bool Lia.
From Verif Require Import Base CompilerNames Ident Prims Schema ParserTree Compiler Elab HeaderSpec CppSpec Header HeaderIds HeaderSound HeaderCheck ExpressSpec.
Import ListNotations.
Local Open Scope string_scope.
Local Open Scope list_scope.

(** * Names made from others *)
Inductive extends (p : string) : string -> Prop :=
| ext_self : extends p p
| ext_contained n : extends p n -> extends p (n ++ "Contained")
| ext_values n : extends p n -> extends p (n ++ "Values").
Definition suffixed (n : string) : Prop := exists p, n = (p ++ "Contained")%string \/ n = (p ++ "Values")%string.
Definition suffixed_b (n : string) : bool := ends_with "Contained" n || ends_with "Values" n.
Lemma suffixed_check n : suffixed n -> suffixed_b n = true.
Proof. intros (p & [->| ->]); unfold suffixed_b; rewrite ends_with_app; [reflexivity|apply orb_true_r]. Qed.
Lemma suffixed_made n : suffixed n -> made_up n. Proof. intros (p & H). right. exists p. tauto. Qed.
Lemma extends_cases p n : extends p n -> n = p \/ suffixed n.
Proof. intros []; [left; reflexivity|right; eexists; left; reflexivity|right; eexists; right; reflexivity]. Qed.
Lemma extends_trans p q n : extends p q -> extends q n -> extends p n.
Proof. intros H. induction 1; [exact H|constructor; assumption|constructor; assumption]. Qed.
Lemma extends_length p n : extends p n -> (String.length p <= String.length n)%nat.
Proof. induction 1; rewrite ?slen_app; lia. Qed.
Lemma values_inj p q : (p ++ "Values" = q ++ "Values")%string -> p = q.
Proof. intros H. apply (sapp_inj p q "Values" "Values" eq_refl H). Qed.
Lemma extends_unique p n : extends p n -> forall q, ~ made_up p -> ~ made_up q -> extends q n -> p = q.
Proof.
  induction 1 as [|n H IH|n H IH]; intros q Np Nq Hq.
  - destruct (extends_cases _ _ Hq) as [E|S]; [exact E|]. destruct Np. apply suffixed_made, S.
  - inversion Hq as [He|n' H' He|n' H' He].
    + destruct Nq. rewrite He. apply made_contained.
    + apply contained_inj in He. subst n'. apply (IH q Np Nq H').
    + destruct (contained_values n n'). symmetry. exact He.
  - inversion Hq as [He|n' H' He|n' H' He].
    + destruct Nq. rewrite He. apply made_values.
    + destruct (contained_values n' n). exact He.
    + apply values_inj in He. subst n'. apply (IH q Np Nq H').
Qed.
Lemma not_suffixed_list l n : forallb (fun x => negb (suffixed_b x)) l = true -> suffixed n -> ~ In n l.
Proof. rewrite forallb_forall. intros H S I. specialize (H n I). rewrite (suffixed_check n S) in H. discriminate. Qed.
Lemma library_not_suffixed n : suffixed n -> ~ In n library_names. Proof. apply not_suffixed_list. vm_compute. reflexivity. Qed.
Lemma struct_not_suffixed n : suffixed n -> ~ In n struct_names. Proof. apply not_suffixed_list. vm_compute. reflexivity. Qed.
Lemma choice_not_suffixed n : suffixed n -> ~ In n choice_names. Proof. apply not_suffixed_list. vm_compute. reflexivity. Qed.
Lemma extends_library p n : ~ In p library_names -> extends p n -> ~ In n library_names.
Proof. intros N H. destruct (extends_cases _ _ H) as [->|S]; [exact N|apply library_not_suffixed, S]. Qed.

(** The names of structs with default values. *)
Fixpoint starts_with (s n : string) : bool := match s, n with "", _ => true | String c s, String d n => Ascii.eqb c d && starts_with s n | _, "" => false end.
Lemma starts_with_app s r : starts_with s (s ++ r) = true.
Proof. induction s as [|c s IH]; [reflexivity|]. cbn [append starts_with]. rewrite Ascii.eqb_refl. exact IH. Qed.
Lemma starts_with_split s : forall n, starts_with s n = true -> exists r, n = (s ++ r)%string.
Proof.
  induction s as [|c s IH]; intros n H; [exists n; reflexivity|]. destruct n as [|d n]; [discriminate|]. cbn in H. apply andb_true_iff in H. destruct H as (H1 & H2). apply Ascii.eqb_eq in H1. subst d.
  destruct (IH n H2) as (r & ->). exists r. reflexivity.
Qed.
Definition default_name (x : string) : string := "DefaultValue" ++ x.
Lemma default_contained p x : (p ++ "Contained")%string = default_name x -> exists r, p = ("DefaultValue" ++ r)%string.
Proof.
  unfold default_name. intros H. apply starts_with_split.
  do 12 (destruct p as [|? p]; [cbn in H; discriminate H|cbn [append] in H; injection H as -> H]). reflexivity.
Qed.
Lemma default_values p x : (p ++ "Values")%string = default_name x -> p = "Default" \/ exists r, p = ("DefaultValue" ++ r)%string.
Proof.
  unfold default_name. intros H.
  do 7 (destruct p as [|? p]; [cbn in H; discriminate H|cbn [append] in H; injection H as -> H]).
  destruct p as [|? p]; [left; reflexivity|]. right. cbn [append] in H; injection H as -> H. apply starts_with_split.
  do 4 (destruct p as [|? p]; [cbn in H; discriminate H|cbn [append] in H; injection H as -> H]). reflexivity.
Qed.
Lemma default_not_values p x : free library_names p -> (p ++ "Values")%string <> default_name x.
Proof. intros (N & D) H. destruct (default_values _ _ H) as [->|(r & E)]; [apply N; vm_compute; tauto|apply (D r E)]. Qed.
Lemma default_not_contained p x : free library_names p -> (p ++ "Contained")%string <> default_name x.
Proof. intros (N & D) H. destruct (default_contained _ _ H) as (r & E). apply (D r E). Qed.
Lemma starts_with_list s l n : forallb (fun x => negb (starts_with s x)) l = true -> ~ In (s ++ n)%string l.
Proof. rewrite forallb_forall. intros H I. specialize (H _ I). rewrite starts_with_app in H. discriminate. Qed.
Lemma default_library x : ~ In (default_name x) library_names. Proof. apply starts_with_list. vm_compute. reflexivity. Qed.
Lemma default_struct x : ~ In (default_name x) struct_names. Proof. apply starts_with_list. vm_compute. reflexivity. Qed.
Lemma default_inj x y : default_name x = default_name y -> x = y.
Proof. unfold default_name. cbn. intros H. injection H as H. exact H. Qed.

(** * Declaring *)
Definition class_is (E : env) (n : string) : bool := match e_classes E with (c, _) :: _ => String.eqb c n | [] => false end.
Definition add (n : string) (e : entity) (E : env) : env :=
  match e_classes E with
  | (c, s) :: l => Env (e_done E) (e_module E) (e_names E) ((c, (n, e) :: s) :: l)
  | [] => Env (e_done E) (e_module E) ((n, e) :: e_names E) []
  end.
Lemma declare_add n e ag E : innermost E n = None -> class_is E n = false -> declare n e ag E = Some (add n e E).
Proof.
  unfold innermost, class_is, declare, add. destruct (e_classes E) as [|[c s] l]; intros -> H; [reflexivity|]. rewrite H. reflexivity.
Qed.
Lemma innermost_add n e E k : innermost (add n e E) k = if String.eqb n k then Some e else innermost E k.
Proof. unfold add, innermost. destruct E as [dn md nm [|[c s] l]]; cbn; apply assoc_cons. Qed.
Lemma class_is_add n e E k : class_is (add n e E) k = class_is E k.
Proof. unfold add, class_is. destruct E as [dn md nm [|[c s] l]]; reflexivity. Qed.
Lemma path_add n e E : path (add n e E) = path E.
Proof. unfold add, path. destruct E as [dn md nm [|[c s] l]]; reflexivity. Qed.
(** [after E E']: E', later in the same scope. *)
Record after (E E' : env) : Prop := After {
  af_done : e_done E' = e_done E;
  af_module : e_module E' = e_module E;
  af_outer : if in_class E then e_names E' = e_names E /\ tl (e_classes E') = tl (e_classes E) else e_classes E' = [];
  af_classes : map fst (e_classes E') = map fst (e_classes E);
  af_names : forall x e, innermost E x = Some e -> innermost E' x = Some e
}.
Lemma after_refl E : after E E.
Proof. constructor; auto. unfold in_class. destruct (e_classes E) eqn:C; auto. Qed.
Lemma after_in_class E E' : after E E' -> in_class E' = in_class E.
Proof. intros []. unfold in_class. destruct (e_classes E), (e_classes E'); try reflexivity; discriminate. Qed.
Lemma after_trans A B C : after A B -> after B C -> after A C.
Proof.
  intros H H'. pose proof (after_in_class _ _ H) as I. destruct H, H'. rewrite I in *. constructor; try congruence; [|auto]. destruct (in_class A); [|congruence]. destruct af_outer0, af_outer1. split; congruence.
Qed.
Lemma after_add n e E : innermost E n = None -> after E (add n e E).
Proof.
  intros N. constructor.
  - unfold add. destruct (e_classes E) as [|[? ?] ?]; reflexivity.
  - unfold add. destruct (e_classes E) as [|[? ?] ?]; reflexivity.
  - unfold add, in_class. destruct E as [dn md nm [|[? ?] ?]]; cbn; auto.
  - unfold add. destruct E as [dn md nm [|[? ?] ?]]; cbn; auto.
  - intros x e' H. rewrite innermost_add. destruct (String.eqb_spec n x) as [->|]; congruence.
Qed.
Lemma after_class E E' n : after E E' -> class_is E' n = class_is E n.
Proof. intros []. unfold class_is. destruct (e_classes E) as [|[? ?] ?], (e_classes E') as [|[? ?] ?]; cbn in *; try discriminate; congruence. Qed.
Lemma after_path E E' : after E E' -> path E' = path E. Proof. intros []. unfold path. congruence. Qed.
Lemma after_lookup_in E E' m x e : after E E' -> lookup_in E m x = Some e -> lookup_in E' m x = Some e.
Proof.
  intros []. unfold lookup_in, namespace. rewrite af_done0, af_module0. destruct (String.eqb m (e_module E)); [|auto]. unfold in_class, innermost in *. destruct (e_classes E) eqn:C.
  - rewrite af_outer0 in af_names0. apply af_names0.
  - destruct af_outer0 as (-> & _). auto.
Qed.
Lemma after_names E E' x e : after E E' -> assoc (e_names E) x = Some e -> assoc (e_names E') x = Some e.
Proof.
  intros []. unfold in_class, innermost in *. destruct (e_classes E) eqn:C.
  - rewrite af_outer0 in af_names0. apply af_names0.
  - destruct af_outer0 as (-> & _). auto.
Qed.

(** * Scopes without accidents *)
(** [ok_entry n e]: a name of the library is not hidden, and names that end in Values or Contained stand for what they should. *)
Record ok_entry (n : string) (e : entity) : Prop := OkEntry {
  oe_library : ~ In n library_names;
  oe_values : forall x, free library_names x -> n = (x ++ "Values")%string -> exists p, e = Enum_ p;
  oe_contained : forall x, free library_names x -> n = (x ++ "Contained")%string -> exists t, e = Type_ t
}.
Definition ok_scope (s : scope) : Prop := forall n e, assoc s n = Some e -> ok_entry n e.
Record fine (E : env) : Prop := Fine {
  fi_names : ok_scope (e_names E);
  fi_classes : forall c s, In (c, s) (e_classes E) -> ok_scope s /\ ~ In c library_names /\ ~ suffixed c
}.
Lemma ok_scope_add s n e : ok_scope s -> ok_entry n e -> ok_scope ((n, e) :: s).
Proof. intros H Ok k e'. rewrite assoc_cons. destruct (String.eqb_spec n k) as [->|]; [intros [= <-]; exact Ok|apply H]. Qed.
Lemma fine_add n e E : fine E -> ok_entry n e -> fine (add n e E).
Proof.
  intros [F1 F2] Ok. unfold add. destruct E as [dn md nm [|[c s] l]]; cbn in *.
  - constructor; cbn; [apply ok_scope_add; assumption|contradiction].
  - constructor; cbn; [assumption|]. intros c' s' [[= <- <-]|I]; [|apply F2; auto]. destruct (F2 c s (or_introl eq_refl)) as (H1 & H2). split; [apply ok_scope_add; assumption|exact H2].
Qed.
Lemma fine_open c E : fine E -> ~ In c library_names -> ~ suffixed c -> fine (open_class c E).
Proof. intros [F1 F2] H1 H2. constructor; cbn; [assumption|]. intros c' s [[= <- <-]|I]; [|apply F2, I]. split; [intros n e; discriminate|auto]. Qed.
Lemma ok_entry_other n : ~ In n library_names -> (forall x, free library_names x -> n <> (x ++ "Values")%string) -> (forall x, free library_names x -> n <> (x ++ "Contained")%string) -> ok_entry n Other_.
Proof. intros H1 H2 H3. constructor; [exact H1| |]; intros x Fx E; [destruct (H2 x Fx E)|destruct (H3 x Fx E)]. Qed.
Lemma ok_entry_default x : ok_entry (default_name x) Other_.
Proof. apply ok_entry_other; [apply default_library| |]; intros y Fy E; symmetry in E; [apply (default_not_values y x Fy E)|apply (default_not_contained y x Fy E)]. Qed.
Lemma ok_entry_plain n e : ~ In n library_names -> ~ suffixed n -> ok_entry n e.
Proof. intros H1 H2. constructor; [exact H1| |]; intros x _ E; destruct H2; exists x; auto. Qed.
(** A name of the library is not found. *)
Lemma library_visible E l : fine E -> incl l library_names -> visible E l = true.
Proof.
  intros [F1 F2] I. unfold visible. apply forallb_forall. intros x Hx. apply I in Hx. unfold lookup.
  assert (L : lookup_classes (e_classes E) x = None).
  { revert F2. generalize (e_classes E). intros cl. induction cl as [|[c s] cl IH]; intros F2; [reflexivity|]. cbn. destruct (F2 c s (or_introl eq_refl)) as (H1 & H2 & _).
    destruct (assoc s x) as [e|] eqn:A; [destruct (oe_library _ _ (H1 x e A) Hx)|]. destruct (String.eqb_spec c x) as [->|]; [contradiction|]. apply IH. intros c' s' I'. apply F2. right. exact I'. }
  rewrite L. destruct (assoc (e_names E) x) as [e|] eqn:A; [destruct (oe_library _ _ (F1 x e A) Hx)|reflexivity].
Qed.
Lemma lookup_suffixed E n (P : entity -> Prop) : fine E -> suffixed n -> (forall e, ok_entry n e -> P e) -> assoc (e_names E) n <> None -> exists e, lookup E n = Some e /\ P e.
Proof.
  intros [F1 F2] Sn HP D. unfold lookup.
  assert (L : forall e, lookup_classes (e_classes E) n = Some e -> P e).
  { revert F2. generalize (e_classes E). intros cl. induction cl as [|[c s] cl IH]; intros F2 e; [discriminate|]. cbn. destruct (F2 c s (or_introl eq_refl)) as (H1 & _ & H2).
    destruct (assoc s n) as [e'|] eqn:A; [intros [= <-]; apply HP, (H1 n e' A)|]. destruct (String.eqb_spec c n) as [->|]; [contradiction|]. apply IH. intros c' s' I'. apply F2. right. exact I'. }
  destruct (lookup_classes (e_classes E) n) as [e|] eqn:Lc; [exists e; split; [reflexivity|apply L; reflexivity]|]. destruct (assoc (e_names E) n) as [e|] eqn:A; [|congruence]. exists e. split; [reflexivity|apply HP, (F1 n e A)].
Qed.
Lemma lookup_values E x : fine E -> free library_names x -> assoc (e_names E) (x ++ "Values") <> None -> exists p, lookup E (x ++ "Values") = Some (Enum_ p).
Proof.
  intros F Fx D. destruct (lookup_suffixed E (x ++ "Values") (fun e => exists p, e = Enum_ p) F) as (e & L & p & ->); [exists x; auto| |exact D|eauto].
  intros e Ok. apply (oe_values _ _ Ok x Fx eq_refl).
Qed.
Lemma lookup_contained_type E x : fine E -> free library_names x -> assoc (e_names E) (x ++ "Contained") <> None -> exists t, lookup E (x ++ "Contained") = Some (Type_ t).
Proof.
  intros F Fx D. destruct (lookup_suffixed E (x ++ "Contained") (fun e => exists p, e = Type_ p) F) as (e & L & p & ->); [exists x; auto| |exact D|eauto].
  intros e Ok. apply (oe_contained _ _ Ok x Fx eq_refl).
Qed.

(** * Identifiers *)
Lemma class_text_library c : In (class_text c) library_names. Proof. destruct c; vm_compute; tauto. Qed.
Lemma cid_names c : incl (single_names (cid_text c)) library_names.
Proof.
  unfold cid_text. destruct (c_univ c =? 0)%Z; cbn [single_names]; intros x [<-|[<-|[]]]; try apply class_text_library; vm_compute; tauto.
Qed.
Lemma cid_id_names c : id_names (cid_text c) = single_names (cid_text c). Proof. unfold cid_text. destruct (c_univ c =? 0)%Z; reflexivity. Qed.
Lemma info_names i : incl (id_names (info_text i)) library_names.
Proof.
  unfold info_text. destruct (ti_outer i) as [o|]; [|destruct (ti_choice i) as [|c l]].
  - cbn [id_names]. apply incl_cons; [vm_compute; tauto|]. apply incl_app; apply cid_names.
  - rewrite cid_id_names. apply cid_names.
  - cbn [id_names]. apply incl_cons; [vm_compute; tauto|]. intros x Hx. apply in_flat_map in Hx. destruct Hx as (j & Hj & Hx). apply in_map_iff in Hj. destruct Hj as (c' & <- & _). apply (cid_names c' x Hx).
Qed.
(** What an override can be. *)
Definition sure (i : idexp) : Prop := incl (id_names i) library_names /\ exists j, eval_id i = Some (Some j).
Definition sure_opt (ov : option idexp) : Prop := forall i, ov = Some i -> sure i.
Definition known_info (i : tinfo) : Prop := known (ti_inner i) /\ (forall o, ti_outer i = Some o -> known o) /\ Forall known (ti_choice i).
Lemma known_univ k : has_identifier k = true -> no_number k = false -> known (univ_cid (universal_of k)).
Proof. destruct k as [| | | | | | | | | | | | | | | | | | | | |[]]; intros H1 H2; try discriminate; reflexivity. Qed.
Lemma numbered_known {A} (f : nat -> A -> option (list cid)) (l : list A) : (forall i x r, f i x = Some r -> Forall known r) -> forall i r, numbered f i l = Some r -> Forall known r.
Proof.
  intros H. induction l as [|x l IH]; intros i r; cbn; [intros [= <-]; constructor|]. fold (numbered f). destruct (f i x) as [a|] eqn:Fx; [|discriminate]. destruct (numbered f (S i) l) as [b|] eqn:N; [|discriminate]. intros [= <-].
  apply Forall_app. split; [apply (H _ _ _ Fx)|apply (IH _ _ N)].
Qed.
Lemma outer_identifiers_known T fuel : forall m t l, outer_identifiers fuel T m t = Some l -> Forall known l.
Proof.
  induction fuel as [|fuel IH]; intros m t l H; [discriminate|]. cbn [outer_identifiers] in H. destruct t as [k|ns|vs e|d fl|alts|set cs ext|set z v|[c n] kw v|d]; try discriminate.
  - destruct (has_identifier k) eqn:Hk; [|discriminate]. injection H as <-. destruct (no_number k) eqn:Nk; constructor; [apply known_univ; assumption|constructor].
  - injection H as <-. repeat constructor.
  - injection H as <-. repeat constructor.
  - revert H. apply numbered_known. intros i a r. destruct (is_auto m); [intros [= <-]; repeat constructor|apply IH].
  - injection H as <-. destruct set; repeat constructor.
  - injection H as <-. destruct set; repeat constructor.
  - injection H as <-. constructor; [apply known_tag|constructor].
  - destruct (follow T m d) as [[u m']|]; [|discriminate]. apply (IH _ _ _ H).
Qed.
Lemma identifier_known T fuel : forall m t i, identifier fuel T m t = Some i -> known_info i.
Proof.
  induction fuel as [|fuel IH]; intros m t i H; [discriminate|]. cbn [identifier] in H. unfold known_info.
  assert (Sim : forall k, known k -> forall b, known_info (TInfo None k [] b)) by (intros k Hk b; split; [exact Hk|split; [discriminate|constructor]]).
  destruct t as [k|ns|vs e|d fl|alts|set cs ext|set z v|[c n] kw v|d]; try discriminate.
  - destruct (has_identifier k) eqn:Hk; [|discriminate]. injection H as <-. destruct (no_number k) eqn:Nk; apply Sim; [reflexivity|apply known_univ; assumption].
  - injection H as <-. apply Sim. reflexivity.
  - injection H as <-. apply Sim. reflexivity.
  - destruct (numbered _ 0 alts) as [ids|] eqn:Nm; [|discriminate]. destruct (has_dup _); [discriminate|]. injection H as <-. cbn. split; [reflexivity|]. split; [discriminate|]. revert Nm. apply numbered_known.
    intros j a r. destruct (is_auto m); [|apply outer_identifiers_known]. destruct (snd a) eqn:Sa; try (intros [= <-]; repeat constructor; fail). destruct (outer_identifiers fuel T m _) as [ol|] eqn:Ol; [|discriminate]. intros [= <-].
    apply outer_identifiers_known in Ol. destruct Ol; cbn; [constructor|constructor; [assumption|constructor]].
  - injection H as <-. apply Sim. destruct set; reflexivity.
  - injection H as <-. apply Sim. destruct set; reflexivity.
  - destruct (identifier fuel T m v) as [ch|] eqn:Ch; [|discriminate]. destruct (IH _ _ _ Ch) as (K1 & K2 & K3). destruct (_ || _); injection H as <-; cbn; (split; [try exact K1; try apply known_tag|split; [|constructor]]); intros o Ho; inversion Ho; apply known_tag.
  - destruct (follow T m d) as [[u m']|]; [|discriminate]. apply (IH _ _ _ H).
Qed.
Lemma info_evaluates i : known_info i -> exists d, eval_id (info_text i) = Some d /\ (ti_choice i = [] -> exists j, d = Some j).
Proof.
  intros (K1 & K2 & K3). unfold info_text. destruct (ti_outer i) as [o|] eqn:Ou; [|destruct (ti_choice i) as [|c l] eqn:Ch].
  - specialize (K2 o eq_refl). cbn [eval_id]. unfold known in *. rewrite K1, K2. eexists. split; [reflexivity|eauto].
  - rewrite (eval_known _ K1). eexists. split; [reflexivity|eauto].
  - cbn [eval_id]. assert (F : forallb (fun j => match eval_single j with Some _ => true | None => false end) (map cid_text (c :: l)) = true).
    { apply forallb_forall. intros j Hj. apply in_map_iff in Hj. destruct Hj as (c' & <- & Hc). rewrite Forall_forall in K3. rewrite (K3 c' Hc). reflexivity. }
    rewrite F. eexists. split; [reflexivity|discriminate].
Qed.
Lemma info_sure T fuel m t i : identifier fuel T m t = Some i -> ti_choice i = [] -> sure (info_text i).
Proof. intros H C. split; [apply info_names|]. destruct (info_evaluates i (identifier_known _ _ _ _ _ H)) as (d & Hd & X). destruct (X C) as (j & ->). eauto. Qed.
Lemma auto_sure i : sure (cid_text (auto_cid i)).
Proof. split; [rewrite cid_id_names; apply cid_names|]. rewrite (eval_known (auto_cid i) (known_tag _ _)). eauto. Qed.
Lemma member_id_sure m i : sure_opt (member_id m i).
Proof. intros j. unfold member_id. destruct (is_auto m); [|discriminate]. intros [= <-]. apply auto_sure. Qed.
