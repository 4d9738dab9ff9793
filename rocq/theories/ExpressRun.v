(** A header written for modules that keep to ExpressSpec.v has no errors. *)
From Coq Require Import List String Ascii ZArith Bool Lia.
From Verif Require Import Base CompilerNames Ident Prims Schema ParserTree Compiler Elab HeaderSpec CppSpec Header HeaderIds HeaderSound HeaderCreate HeaderRun HeaderCheck ExpressSpec ExpressNames ExpressCreate.
Import ListNotations.
Local Open Scope string_scope.
Local Open Scope list_scope.

(** * No function is written twice *)
Lemma distinct_nodup fs : NoDup (map f_path fs) -> distinct_paths fs = true.
Proof.
  induction fs as [|f fs IH]; intros N; [reflexivity|]. cbn [map] in N. inversion N as [|? ? N1 N2]; subst. cbn. rewrite (IH N2), andb_true_r. apply negb_true_iff. destruct (existsb _ fs) eqn:X; [|reflexivity]. apply existsb_exists in X. destruct X as (g & Ig & E).
  destruct (list_eq_dec string_dec (f_path f) (f_path g)) as [E'|]; [|discriminate]. destruct N1. rewrite E'. apply in_map, Ig.
Qed.
Lemma concat_distinct {A} (f : nat -> A -> option (list func)) (key : A -> string) p l : (forall j x a, In x l -> f j x = Some a -> NoDup (map f_path a) /\ forall g, In g a -> exists r, f_path g = p ++ key x :: r) -> NoDup (map key l) ->
  forall i r, concat_map f i l = Some r -> NoDup (map f_path r) /\ forall g, In g r -> exists x q, In x l /\ f_path g = p ++ key x :: q.
Proof.
  induction l as [|x l IH]; intros H N i r C; [injection C as <-; split; [constructor|intros g []]|]. apply concat_map_cons in C. destruct C as (a & b & C1 & C2 & ->). cbn [map] in N. inversion N as [|? ? N1 N2]; subst.
  destruct (H i x a (or_introl eq_refl) C1) as (Na & Pa). destruct (IH (fun j y a I => H j y a (or_intror I)) N2 (S i) b C2) as (Nb & Pb). split.
  - rewrite map_app. apply nodup_app; [exact Na|exact Nb|]. intros q I1 I2. apply in_map_iff in I1. destruct I1 as (g & <- & I1). apply in_map_iff in I2. destruct I2 as (g' & E & I2). destruct (Pa g I1) as (r1 & E1). destruct (Pb g' I2) as (y & r2 & Iy & E2).
    rewrite E1, E2 in E. apply app_inv_head in E. injection E as E _. apply N1. rewrite <- E. apply in_map, Iy.
  - intros g I. apply in_app_or in I. destruct I as [I|I]; [destruct (Pa g I) as (q & E); exists x, q; split; [left; reflexivity|exact E]|]. destruct (Pb g I) as (y & q & Iy & E). exists y, q. split; [right; exact Iy|exact E].
Qed.
Section Distinct.
Context (T : list module) (SEP : separate T) (EX : expressible T).
Lemma flat_child t u : flat t -> child u t -> flat u.
Proof. intros F C v I. apply F. apply (inside_trans _ _ _ I (child_inside _ _ C)). Qed.
Lemma functions_flat ff m t : flat t -> forall p fl, functions ff T m p t = Some fl -> fl = [].
Proof.
  induction t as [k|ns|vs e|d fl0|alts|set cs ext|set z v IH|g kw v IH|d]; intros F p fl H; try discriminate (F _ (in_self _)); cbn [functions own_function] in H; try (injection H as <-; reflexivity).
  - destruct z as [z|]; [|injection H as <-; reflexivity]. unfold bind in H. destruct (functions ff T m _ v) as [inner|] eqn:Fi; [|discriminate]. injection H as <-. rewrite (IH (flat_child _ _ F ltac:(constructor)) _ _ Fi). reflexivity.
  - unfold bind in H. destruct (functions ff T m p v) as [inner|] eqn:Fi; [|discriminate]. injection H as <-. rewrite (IH (flat_child _ _ F ltac:(constructor)) _ _ Fi). reflexivity.
Qed.
Lemma own_path ff m p t own f : own_function ff T m p t = Some own -> In f own -> own = [f] /\ f_path f = p.
Proof.
  intros Ho Io. destruct t; cbn [own_function] in Ho; unfold bind in Ho; try (injection Ho as <-; destruct Io).
  - destruct (concat_map _ 0 choices) eqn:? in Ho; [|discriminate]. destruct (concat_map _ 0 choices) eqn:? in Ho; [|discriminate]. injection Ho as <-. destruct Io as [<-|[]]. auto.
  - destruct (concat_map _ 0 components) eqn:? in Ho; [|discriminate]. destruct (concat_map _ 0 components) eqn:? in Ho; [|discriminate]. injection Ho as <-. destruct Io as [<-|[]]. auto.
Qed.
Lemma both_distinct (inner own : list func) p : NoDup (map f_path inner) -> (forall g, In g inner -> exists x q, f_path g = p ++ x :: q) -> (forall f, In f own -> own = [f] /\ f_path f = p) ->
  NoDup (map f_path (inner ++ own)) /\ forall g, In g (inner ++ own) -> exists r, f_path g = p ++ r.
Proof.
  intros Ni Pi Po. split.
  - rewrite map_app. apply nodup_app; [exact Ni| |].
    + destruct own as [|f own]; [constructor|]. destruct (Po f (or_introl eq_refl)) as (E & _). rewrite E. cbn. constructor; [intros []|constructor].
    + intros q I1 I2. apply in_map_iff in I1. destruct I1 as (g & <- & I1). apply in_map_iff in I2. destruct I2 as (f & E & I2). destruct (Pi g I1) as (x & r & E1). destruct (Po f I2) as (_ & E2). rewrite E1, E2 in E. rewrite <- (app_nil_r p) in E at 1. apply app_inv_head in E. discriminate.
  - intros g I. apply in_app_or in I. destruct I as [I|I]; [destruct (Pi g I) as (x & q & E); eauto|]. destruct (Po g I) as (_ & E). exists []. rewrite app_nil_r. exact E.
Qed.
Lemma functions_distinct ff m t : occurs T t -> forall n p fl, owner T n t -> functions ff T m p t = Some fl -> NoDup (map f_path fl) /\ forall g, In g fl -> exists r, f_path g = p ++ r.
Proof.
  induction t as [t IH] using type_child_ind. intros O n p fl Ow H.
  assert (Own : forall own f, own_function ff T m p t = Some own -> In f own -> own = [f] /\ f_path f = p) by (intros own f Ho; apply (own_path ff m p t own f Ho)).
  assert (Empty : forall own, own_function ff T m p t = Some own -> NoDup (map f_path ([] ++ own)) /\ forall g, In g ([] ++ own) -> exists r, f_path g = p ++ r).
  { intros own Ho. apply both_distinct; [constructor|intros g []|intros f; apply (Own own f Ho)]. }
  destruct t as [k|ns|vs e|d fl0|alts|set cs ext|set z v|g kw v|d]; cbn [functions] in H; unfold bind in H.
  1-4,9: destruct (own_function _ _ _ _ _) as [own|] eqn:Eo in H; [|discriminate]; injection H as <-; apply (Empty own Eo).
  - destruct (concat_map _ 0 alts) as [inner|] eqn:C in H; [|discriminate]. destruct (own_function _ _ _ _ _) as [own|] eqn:Eo in H; [|discriminate]. injection H as <-.
    destruct (ex_choices T EX n alts Ow) as (N & _ & _).
    refine (_ (concat_distinct _ (fun a => capitalised (fst a)) p alts _ N 0%nat inner C)); [intros (Ni & Pi)|].
    2:{ intros j [x u] a I Fx. cbn [fst snd] in Fx. rewrite plain_name in Fx by (apply (sp_members T SEP x u); right; exists alts; auto). assert (Cu : child u (ParserTree.TChoice alts)) by (econstructor; exact I).
      destruct (IH u Cu (occurs_inside T _ _ O (child_inside _ _ Cu)) _ _ _ (ow_alternative T n alts x u Ow I) Fx) as (X1 & X2). split; [exact X1|]. intros g Ig. destruct (X2 g Ig) as (r & E). exists r. rewrite E, <- app_assoc. reflexivity. }
    apply both_distinct; [exact Ni|intros g Ig; destruct (Pi g Ig) as (x & q & _ & E); eauto|intros f; apply (Own own f Eo)].
  - destruct (concat_map _ 0 cs) as [inner|] eqn:C in H; [|discriminate]. destruct (own_function _ _ _ _ _) as [own|] eqn:Eo in H; [|discriminate]. injection H as <-.
    destruct (ex_records T EX n set cs ext Ow) as (N & _ & _). apply nodup_parts in N. destruct N as (_ & N). rewrite map_map in N.
    refine (_ (concat_distinct _ (fun c => capitalised (comp_name c)) p cs _ N 0%nat inner C)); [intros (Ni & Pi)|].
    2:{ intros j [x u o d co] a I Fx. rewrite plain_name in Fx by (apply (sp_members T SEP x u); left; exists set, cs, ext, o, d, co; auto). assert (Cu : child u (TRecord set cs ext)) by (econstructor; exact I).
      destruct (IH u Cu (occurs_inside T _ _ O (child_inside _ _ Cu)) _ _ _ (ow_component T n set cs ext x u o d co Ow I) Fx) as (X1 & X2). split; [exact X1|]. intros g Ig. destruct (X2 g Ig) as (r & E). exists r. rewrite E, <- app_assoc. reflexivity. }
    apply both_distinct; [exact Ni|intros g Ig; destruct (Pi g Ig) as (x & q & _ & E); eauto|intros f; apply (Own own f Eo)].
  - assert (F : flat v) by (intros w Iw; apply (ex_elements T EX set z v w O Iw)).
    destruct z as [z|].
    + destruct (functions ff T m _ v) as [inner|] eqn:C; [|discriminate]. rewrite (functions_flat _ _ _ F _ _ C) in H. destruct (own_function _ _ _ _ _) as [own|] eqn:Eo in H; [|discriminate]. injection H as <-. apply (Empty own Eo).
    + destruct (own_function _ _ _ _ _) as [own|] eqn:Eo in H; [|discriminate]. injection H as <-. apply (Empty own Eo).
  - destruct (functions ff T m p v) as [inner|] eqn:C; [|discriminate]. cbn [own_function] in H. rewrite app_nil_r in H. injection H as <-. assert (Cu : child v (TTagged g kw v)) by constructor.
    apply (IH v Cu (occurs_inside T _ _ O (child_inside _ _ Cu)) n p inner (ow_tagged T n g kw v Ow) C).
Qed.
(** * Every function has its class *)
Lemma concat_map_both {A B C} (f : nat -> A -> option (list B)) (g : nat -> A -> option (list C)) (P : B -> Prop) (Q : C -> Prop) l : (forall x j k a b, In x l -> f j x = Some a -> g k x = Some b -> forall y, In y a -> P y -> exists z, In z b /\ Q z) ->
  forall j k fl gl y, concat_map f j l = Some fl -> concat_map g k l = Some gl -> In y fl -> P y -> exists z, In z gl /\ Q z.
Proof.
  induction l as [|x l IH]; intros H j k fl gl y F G I Py; [injection F as <-; destruct I|]. apply concat_map_cons in F. destruct F as (a & b & F1 & F2 & ->). apply concat_map_cons in G. destruct G as (a' & b' & G1 & G2 & ->).
  apply in_app_or in I. destruct I as [I|I].
  - destruct (H x j k a a' (or_introl eq_refl) F1 G1 y I Py) as (z & Iz & Qz). exists z. split; [apply in_or_app; left; exact Iz|exact Qz].
  - destruct (IH (fun x' j k a b I' => H x' j k a b (or_intror I')) _ _ _ _ _ F2 G2 I Py) as (z & Iz & Qz). exists z. split; [apply in_or_app; right; exact Iz|exact Qz].
Qed.
Definition has_path (q : list string) (f : func) (d : decl) : Prop := In (f_path f) (class_paths q d).
Lemma functions_classes ff m t : occurs T t -> forall fuel q name ov introduce fl ds f, owner T name t -> functions ff T m (q ++ [name]) t = Some fl -> create_type fuel T m name t ov introduce = Some ds -> In f fl -> exists d, In d ds /\ has_path q f d.
Proof.
  induction t as [t IH] using type_child_ind. intros O fuel q name ov introduce fl ds f Ow H C I. destruct fuel as [|fuel]; [discriminate|].
  destruct t as [k|ns|vs e|d fl0|alts|set cs ext|set z v|g kw v|d]; cbn [functions] in H; unfold bind in H.
  1-4,9: cbn [own_function] in H; injection H as <-; destruct I.
  - destruct (concat_map _ 0 alts) as [inner|] eqn:Fi in H; [|discriminate]. destruct (own_function _ _ _ _ _) as [own|] eqn:Eo in H; [|discriminate]. injection H as <-.
    cbn [create_type] in C. unfold bind in C. destruct (override _ _ _ _ _) as [id|]; [|discriminate]. destruct (concat_map _ 0 alts) as [types|] eqn:Ct in C; [|discriminate]. injection C as <-.
    eexists. split; [left; reflexivity|]. unfold has_path. cbn [class_paths]. apply in_app_or in I. destruct I as [I|I]; [|left; symmetry; apply (own_path _ _ _ _ _ _ Eo I)]. right.
    refine (_ (concat_map_both _ _ (fun f' => f' = f) (has_path (q ++ [name]) f) alts _ 0%nat 0%nat inner types f Fi Ct I eq_refl)); [intros (d & Id & Hd); apply in_flat_map; exists d; split; [exact Id|exact Hd]|].
    intros [x u] j k a b Ix Fx Cx y Iy ->. cbn [fst snd] in *. assert (Cu : child u (ParserTree.TChoice alts)) by (econstructor; exact Ix). assert (Nm : ~ made_up (capitalised x)) by (apply (sp_members T SEP x u); right; exists alts; auto).
    rewrite plain_name in Fx by exact Nm. rewrite plain_name in Cx by exact Nm. apply (IH u Cu (occurs_inside T _ _ O (child_inside _ _ Cu)) fuel (q ++ [name]) _ _ _ _ _ f (ow_alternative T name alts x u Ow Ix) Fx Cx Iy).
  - destruct (concat_map _ 0 cs) as [inner|] eqn:Fi in H; [|discriminate]. destruct (own_function _ _ _ _ _) as [own|] eqn:Eo in H; [|discriminate]. injection H as <-.
    cbn [create_type] in C. unfold bind in C. destruct (check_valid _ _ _ _ _) as [ok|]; [|discriminate]. destruct (negb ok); [discriminate|]. destruct (existsb _ cs); [discriminate|].
    destruct (concat_map (fun _ => default_decl fuel T m) 0 cs) as [defaults|] eqn:? in C; [|discriminate]. destruct (concat_map _ 0 cs) as [types|] eqn:Ct in C; [|discriminate]. destruct (override _ _ _ _ _) as [id|]; [|discriminate]. injection C as <-.
    eexists. split; [left; reflexivity|]. unfold has_path. cbn [class_paths]. apply in_app_or in I. destruct I as [I|I]; [|left; symmetry; apply (own_path _ _ _ _ _ _ Eo I)]. right.
    refine (_ (concat_map_both _ _ (fun f' => f' = f) (has_path (q ++ [name]) f) cs _ 0%nat 0%nat inner types f Fi Ct I eq_refl)); [intros (d & Id & Hd); apply in_flat_map; exists d; split; [apply in_or_app; right; exact Id|exact Hd]|].
    intros [x u o d co] j k a b Ix Fx Cx y Iy ->. assert (Cu : child u (TRecord set cs ext)) by (econstructor; exact Ix). assert (Nm : ~ made_up (capitalised x)) by (apply (sp_members T SEP x u); left; exists set, cs, ext, o, d, co; auto).
    rewrite plain_name in Fx by exact Nm. rewrite member_plain_name in Cx. 2:{ intros En. apply (proj1 (proj2 (ex_records T EX name set cs ext Ow))). apply in_or_app. right. apply in_or_app. left. rewrite <- En. apply in_map, (in_map comp_name _ _ Ix). }
    apply (IH u Cu (occurs_inside T _ _ O (child_inside _ _ Cu)) fuel (q ++ [name]) _ _ _ _ _ f (ow_component T name set cs ext x u o d co Ow Ix) Fx Cx Iy).
  - exfalso. assert (F : flat v) by (intros w Iw; apply (ex_elements T EX set z v w O Iw)). destruct z as [z|].
    + destruct (functions ff T m _ v) as [inner|] eqn:Fi; [|discriminate]. rewrite (functions_flat _ _ _ F _ _ Fi) in H. injection H as <-. destruct I.
    + injection H as <-. destruct I.
  - destruct (functions ff T m _ v) as [inner|] eqn:Fi; [|discriminate]. cbn [own_function] in H. rewrite app_nil_r in H. injection H as <-. cbn [create_type] in C. unfold bind in C. destruct (override _ _ _ _ _) as [id|]; [|discriminate].
    assert (Cu : child v (TTagged g kw v)) by constructor. apply (IH v Cu (occurs_inside T _ _ O (child_inside _ _ Cu)) fuel q name _ _ _ _ f (ow_tagged T name g kw v Ow) Fi C I).
Qed.
End Distinct.

(** * One module *)
Lemma run_all_some fs a b E E1 : run_all (run fs) a E = Some E1 -> run_all (run fs) (a ++ b) E = run_all (run fs) b E1.
Proof. intros H. rewrite run_all_app, H. reflexivity. Qed.
Section Module.
Context (T : list module) (SEP : separate T) (EX : expressible T) (BARE : forall m, In m T -> m_imports m = []).
Context (fs : list func) (FS1 : distinct_paths fs = true).
Context (m : module) (pre post : list module) (Split : T = pre ++ m :: post).
Lemma split_in : In m T. Proof. rewrite Split. apply in_or_app. right. left. reflexivity. Qed.
Lemma split_pre m' : In m' pre -> In m' T. Proof. intros H. rewrite Split. apply in_or_app. left. exact H. Qed.
Lemma split_named : module_named T (m_name m) = Some m.
Proof.
  unfold module_named. destruct (find _ T) as [m'|] eqn:F.
  - apply find_some in F. destruct F as (I & E). apply String.eqb_eq in E. f_equal. apply (named_same m_name T m' m (proj1 (ex_modules T EX)) I split_in E).
  - pose proof (find_none _ _ F m split_in) as X. cbn in X. rewrite String.eqb_refl in X. discriminate.
Qed.
Lemma pre_other m' : In m' pre -> m_name m' <> m_name m.
Proof.
  intros I E. pose proof (proj1 (ex_modules T EX)) as N. rewrite Split, map_app in N. cbn [map] in N. apply NoDup_remove_2 in N. apply N. apply in_or_app. left. rewrite <- E. apply in_map, I.
Qed.
(** Constants. *)
Lemma value_leads fuel : forall t x vt, value_type fuel T m t x = Some vt -> (forall r, leads T m t r -> enumeration r = false) -> exists s, vt = VPlain s.
Proof.
  induction fuel as [|fuel IH]; intros t x vt H N; [discriminate|]. destruct t as [k|ns|vs e|d fl|alts|set cs ext|set z v|g kw v|d].
  1-7: apply (value_plain T m (S fuel) _ x vt H); [|reflexivity]; apply N; cbn; apply le_end; [reflexivity|discriminate].
  - cbn [value_type] in H. destruct (identifier fuel T m _); [|discriminate]. apply (IH v "" vt H). intros r L. apply N. apply le_tag, L.
  - cbn [value_type] in H. destruct (resolve_ref fuel T m m d) as [[[y u] m2]|] eqn:R; [|discriminate]. destruct (resolve_leads T SEP EX BARE _ _ _ _ _ _ _ split_in split_in R) as (L & Rf & _). apply (value_plain T m fuel u y vt H); [apply N, L|exact Rf].
Qed.
Lemma value_uses t r x : (match t with TRef d => option_map fst (follow T m d) | _ => Some t end) = Some r -> (forall u, leads T m t u -> enumeration u = false) -> enum_used r x = None.
Proof.
  intros H N. destruct (enumeration r) eqn:En; [|destruct r; try reflexivity; discriminate]. assert (X : forall g kw u, r <> TTagged g kw u) by (destruct r; discriminate). assert (Y : reference r = false) by (destruct r; reflexivity || discriminate).
  assert (L : leads T m t r).
  { destruct t as [k|ns|vs e|d fl|alts|set cs ext|set z v|g kw v|d]; try (injection H as <-; apply le_end; [reflexivity|discriminate]).
    destruct d as [mo y ps]. destruct (follow T m (Defined mo y ps)) as [[w m1]|] eqn:Fo; [|discriminate]. injection H as ->. apply (follow_leads T BARE _ _ _ _ _ _ _ Fo). apply le_end; assumption. }
  rewrite (N r L) in En. discriminate.
Qed.

Definition typed (m' : module) (s : scope) (x : string) (t : type) : Prop := exists c, assoc s x = Some (Type_ c) /\ forall r, leads T m' t r -> structure r = true -> is_struct c = true.
Definition finished_ok (finished : list (string * scope)) : Prop := forall m', In m' pre -> exists s, assoc finished (m_name m') = Some s /\
  (forall x t ps, In (Assign x (AType t) ps) (m_assigns m') -> typed m' s x t) /\ (forall x t v ps, In (Assign x (AValue t v) ps) (m_assigns m') -> assoc s x = Some Other_).
Context (finished : list (string * scope)) (Done : finished_ok finished) (vals : list string).
Context (Vals : forall x, In x vals -> free library_names x /\ ~ made_up x /\ ~ In x (map a_name (m_assigns m))).
Record so_far (before : list assignment) (E : env) : Prop := SoFar {
  sf_fine : fine E;
  sf_classes : e_classes E = [];
  sf_module : e_module E = m_name m;
  sf_done : e_done E = finished;
  sf_names : forall n, assoc (e_names E) n <> None -> In n vals \/ exists a, In a before /\ extends (a_name a) n;
  sf_types : forall x t ps, In (Assign x (AType t) ps) before -> typed m (e_names E) x t /\ (is_list t = true -> assoc (e_names E) (x ++ "Contained") <> None) /\
    (enumeration (behind_tags t) = true -> assoc (e_names E) (x ++ "Values") <> None);
  sf_values : forall x t v ps, In (Assign x (AValue t v) ps) before -> assoc (e_names E) x = Some Other_
}.
Lemma so_far_ready before a l t E : m_assigns m = before ++ a :: l -> a_specific a = AType t -> so_far before E -> ready T m E t.
Proof.
  intros Ha Ht S mo y ps w m1 I Fo. destruct (follow_assigned T BARE _ _ _ _ _ _ Fo) as (-> & (Hm1 & ps' & A) & En & _).
  destruct (ex_order T EX pre m post before a l t mo y [] Split Ha Ht I) as [(Mo & Iy)|(N & -> & IN)].
  - assert (En' : m_name m1 = m_name m) by (destruct Mo as [-> | ->]; exact En). pose proof (named_same m_name T m1 m (proj1 (ex_modules T EX)) Hm1 split_in En') as ->.
    assert (Ib : In (Assign y (AType w) ps') before).
    { apply in_map_iff in Iy. destruct Iy as (b & Eb & Ib). assert (b = Assign y (AType w) ps') as <-; [|exact Ib]. apply (named_same a_name (m_assigns m) _ _ (proj1 (sp_assignments T SEP m split_in))); [|exact A|exact Eb]. rewrite Ha. apply in_or_app. left. exact Ib. }
    destruct (sf_types _ _ S y w ps' Ib) as ((c & C1 & C2) & C3 & C4). exists c. rewrite <- En. unfold lookup_in, namespace. rewrite (sf_module _ _ S), String.eqb_refl. split; [exact C1|]. split; [exact C2|]. intros _. split; [intros L _ _; apply C3, L|].
    intros L. apply C4. destruct w; try discriminate. reflexivity.
  - apply in_map_iff in IN. destruct IN as (m' & E' & I'). cbn in En. pose proof (named_same m_name T m1 m' (proj1 (ex_modules T EX)) Hm1 (split_pre _ I') (eq_trans En (eq_sym E'))) as ->.
    destruct (Done m' I') as (s & S1 & S2 & _). destruct (S2 y w ps' A) as (c & C1 & C2). exists c. split; [|split; [exact C2|]].
    + unfold lookup_in, namespace. rewrite (sf_module _ _ S), (sf_done _ _ S). destruct (String.eqb_spec N (m_name m)) as [X|X]; [destruct (pre_other m' I'); congruence|]. rewrite <- E', S1. exact C1.
    + intros X. destruct (pre_other m' I' X).
Qed.
Lemma so_far_fresh before a l E : m_assigns m = before ++ a :: l -> so_far before E -> fresh E (a_name a).
Proof.
  intros Ha S n Ex. unfold class_is, innermost. rewrite (sf_classes _ _ S). split; [|reflexivity]. destruct (assoc (e_names E) n) as [e|] eqn:An; [|reflexivity]. exfalso.
  assert (Ia : In a (m_assigns m)) by (rewrite Ha; apply in_or_app; right; left; reflexivity). pose proof (proj2 (ex_names T EX m a split_in Ia)) as Na.
  destruct (sf_names _ _ S n) as [Iv|(b & Ib & Eb)]; [congruence| |].
  - destruct (Vals n Iv) as (_ & Nm & Nn). destruct (extends_cases _ _ Ex) as [->|X]; [apply Nn, in_map, Ia|apply Nm, suffixed_made, X].
  - assert (Ib' : In b (m_assigns m)) by (rewrite Ha; apply in_or_app; left; exact Ib). pose proof (extends_unique _ _ Ex _ Na (proj2 (ex_names T EX m b split_in Ib')) Eb) as X.
    pose proof (proj1 (sp_assignments T SEP m split_in)) as N. rewrite Ha, map_app in N. cbn [map] in N. apply NoDup_remove_2 in N. apply N. apply in_or_app. left. rewrite X. apply in_map, Ib.
Qed.
Lemma assign_good a : In a (m_assigns m) -> good_name (a_name a).
Proof. intros Ia. destruct (ex_names T EX m a split_in Ia) as (F & N). split; [exact F|]. intros p E. apply N. right. exists p. auto. Qed.
Lemma step before a l ds E fuel : m_assigns m = before ++ a :: l -> create_assignment fuel T m a = Some ds -> so_far before E ->
  (forall t, a_specific a = AType t -> exists ff fl, functions ff T m [m_name m; a_name a] t = Some fl /\ incl fl fs) ->
  exists E', run_all (run fs) ds E = Some E' /\ so_far (before ++ [a]) E'.
Proof.
  intros Ha C S Fu. assert (Ia : In a (m_assigns m)) by (rewrite Ha; apply in_or_app; right; left; reflexivity). pose proof (so_far_fresh _ _ _ _ Ha S) as Fr. pose proof (assign_good a Ia) as G.
  assert (Names : forall E', (forall n, assoc (e_names E') n <> None -> assoc (e_names E) n <> None \/ extends (a_name a) n) -> forall n, assoc (e_names E') n <> None -> In n vals \/ exists b, In b (before ++ [a]) /\ extends (a_name b) n).
  { intros E' H n Hn. destruct (H n Hn) as [Hn'|Hn']; [|right; exists a; split; [apply in_or_app; right; left; reflexivity|exact Hn']]. destruct (sf_names _ _ S n Hn') as [X|(b & X1 & X2)]; [left; exact X|right; exists b; split; [apply in_or_app; left; exact X1|exact X2]]. }
  destruct (a_specific a) as [t|t v|cf|] eqn:Sp; unfold create_assignment in C; rewrite Sp in C.
  - destruct a as [x sp ps]. cbn [a_name a_specific] in *. subst sp.
    assert (A : assigned T m x t) by (split; [apply split_in|exists ps; exact Ia]).
    destruct (create_progress T SEP EX BARE fs FS1 m split_in fuel x t None true ds E C) as (E' & R & Res); auto.
    { exists x, t. split; [exact A|constructor]. } { intros i; discriminate. } { apply (sf_fine _ _ S). } { apply (so_far_ready _ _ _ _ _ Ha eq_refl S). }
    { left. split; [apply (ow_assigned T m), A|]. split; [apply (proj2 (ex_names T EX m _ split_in Ia))|]. destruct (Fu t eq_refl) as (ff & fl & F1 & F2). exists ff, fl. split; [|exact F2]. unfold path. rewrite (sf_classes _ _ S), (sf_module _ _ S). exact F1. }
    exists E'. split; [exact R|]. destruct Res as [Af Fi Ad Ty Li En].
    assert (Cl' : e_classes E' = []). { pose proof (af_outer _ _ Af) as X. unfold in_class in X. rewrite (sf_classes _ _ S) in X. exact X. }
    unfold innermost in *. rewrite Cl' in *. rewrite (sf_classes _ _ S) in *.
    assert (Keep : forall n, assoc (e_names E) n <> None -> assoc (e_names E') n <> None).
    { intros n. destruct (assoc (e_names E) n) as [e|] eqn:An; [|congruence]. intros _. rewrite (after_names _ _ _ _ Af An). discriminate. }
    constructor; [exact Fi|exact Cl'| | |exact (Names E' Ad)| |].
    + rewrite (af_module _ _ Af). apply (sf_module _ _ S).
    + rewrite (af_done _ _ Af). apply (sf_done _ _ S).
    + intros y u qs I. apply in_app_or in I. destruct I as [I|[[= <- <- <-]|[]]].
      * destruct (sf_types _ _ S y u qs I) as ((c & C1 & C2) & C3 & C4). split; [exists c; split; [apply (after_names _ _ _ _ Af C1)|exact C2]|]. split; intros X; apply Keep; auto.
      * split; [|split; assumption]. destruct Ty as (c & C1 & C2). exists c. split; assumption.
    + intros y u w qs I. apply in_app_or in I. destruct I as [I|[I|[]]]; [|discriminate]. apply (after_names _ _ _ _ Af), (sf_values _ _ S y u w qs I).
  - unfold bind in C. destruct (match t with TRef d => _ | _ => _ end) as [r|] eqn:Er; [|discriminate].
    assert (X : bind (value_type fuel T m t "") (fun ty => bind (value_text r (a_name a) v) (fun e => Some [DConst (a_name a) ty e (enum_used r (a_name a))])) = Some ds) by (destruct r; try discriminate; exact C).
    unfold bind in X. destruct (value_type fuel T m t "") as [vt|] eqn:Vt; [|discriminate]. destruct (value_text r (a_name a) v); [|discriminate]. injection X as <-.
    assert (NE : forall u, leads T m t u -> enumeration u = false). { intros u L. destruct a as [x sp ps]. cbn in Sp. subst sp. apply (ex_values T EX m x t v ps u split_in Ia L). }
    destruct (value_leads _ _ _ _ Vt NE) as (txt & ->). rewrite (value_uses t r _ Er NE). destruct (fresh_name _ _ Fr) as (N1 & N2).
    exists (add (a_name a) Other_ E). rewrite run_all_cons. cbn [run vexp_ok andb]. rewrite (declare_add _ _ _ _ N1 N2). split; [reflexivity|].
    pose proof (after_add (a_name a) Other_ E N1) as Af. destruct (ex_names T EX m a split_in Ia) as (Fa & Na).
    assert (Cl' : e_classes (add (a_name a) Other_ E) = []). { pose proof (af_outer _ _ Af) as X. unfold in_class in X. rewrite (sf_classes _ _ S) in X. exact X. }
    assert (Ix : forall n, assoc (e_names (add (a_name a) Other_ E)) n = if String.eqb (a_name a) n then Some Other_ else assoc (e_names E) n).
    { intros n. pose proof (innermost_add (a_name a) Other_ E n) as X. unfold innermost in X. rewrite Cl', (sf_classes _ _ S) in X. exact X. }
    assert (Keep : forall n, assoc (e_names E) n <> None -> assoc (e_names (add (a_name a) Other_ E)) n <> None).
    { intros n. rewrite Ix. destruct (String.eqb _ n); [discriminate|auto]. }
    constructor; [|exact Cl'| | | | |].
    + apply fine_add; [apply (sf_fine _ _ S)|]. apply ok_entry_plain; [apply Fa|]. intros X. apply Na, suffixed_made, X.
    + rewrite (af_module _ _ Af). apply (sf_module _ _ S).
    + rewrite (af_done _ _ Af). apply (sf_done _ _ S).
    + apply Names. intros n. rewrite Ix. destruct (String.eqb_spec (a_name a) n) as [<-|]; [right; constructor|auto].
    + intros y u qs I. apply in_app_or in I. destruct I as [I|[->|[]]]; [|discriminate].
      destruct (sf_types _ _ S y u qs I) as ((c & C1 & C2) & C3 & C4). split; [exists c; split; [apply (after_names _ _ _ _ Af C1)|exact C2]|]. split; intros X; apply Keep; auto.
    + intros y u w qs I. apply in_app_or in I. destruct I as [I|[->|[]]]; [apply (after_names _ _ _ _ Af), (sf_values _ _ S y u w qs I)|]. rewrite Ix. cbn. rewrite String.eqb_refl. reflexivity.
  - discriminate.
  - injection C as <-. exists E. split; [reflexivity|]. destruct S as [S1 S2 S3 S4 S5 S6 S7]. constructor; [exact S1|exact S2|exact S3|exact S4|apply Names; auto| |].
    + intros y u qs I. apply in_app_or in I. destruct I as [I|[->|[]]]; [apply (S6 y u qs I)|discriminate].
    + intros y u w qs I. apply in_app_or in I. destruct I as [I|[->|[]]]; [apply (S7 y u w qs I)|discriminate].
Qed.
Lemma body_progress fuel l : forall before i ds E, m_assigns m = before ++ l -> concat_map (fun _ => create_assignment fuel T m) i l = Some ds -> so_far before E ->
  (forall x t ps, In (Assign x (AType t) ps) (m_assigns m) -> exists ff fl, functions ff T m [m_name m; x] t = Some fl /\ incl fl fs) ->
  exists E', run_all (run fs) ds E = Some E' /\ so_far (m_assigns m) E'.
Proof.
  induction l as [|a l IH]; intros before i ds E Ha C S Fu; [injection C as <-; exists E; split; [reflexivity|]; rewrite Ha, app_nil_r; exact S|].
  apply concat_map_cons in C. destruct C as (d1 & d2 & C1 & C2 & ->).
  destruct (step before a l d1 E fuel Ha C1 S) as (E1 & R1 & S1).
  { intros t Ht. destruct a as [x sp ps]. cbn in Ht. subst sp. apply (Fu x t ps). rewrite Ha. apply in_or_app. right. left. reflexivity. }
  destruct (IH (before ++ [a]) (Datatypes.S i) d2 E1) as (E2 & R2 & S2); [rewrite <- app_assoc; exact Ha|exact C2|exact S1|exact Fu|]. exists E2. split; [|exact S2]. rewrite (run_all_some _ _ _ _ _ R1). exact R2.
Qed.
(** Imports of values. *)
Lemma imports_progress l : forall names E, (forall x N, In (x, N) l -> In x vals /\ exists m' t v ps, In m' pre /\ m_name m' = N /\ In (Assign x (AValue t v) ps) (m_assigns m')) ->
  (forall x, In x vals -> ~ In x (map m_name T)) -> NoDup (names ++ map fst l) -> incl names vals -> so_far [] E -> (forall n, assoc (e_names E) n <> None -> In n names) ->
  exists E', run_all (run fs) (map (fun p => DImport (fst p) (snd p)) l) E = Some E' /\ so_far [] E'.
Proof.
  induction l as [|[x N] l IH]; intros names E H Hn Nd Inn S Nm; [exists E; split; [reflexivity|exact S]|].
  cbn [map fst snd] in *. rewrite run_all_cons. cbn [run]. destruct (H x N (or_introl eq_refl)) as (Iv & m' & t & v & ps & Im & EN & Ia).
  assert (Fresh : forall n, ~ In n names -> assoc (e_names E) n = None). { intros n X. destruct (assoc (e_names E) n) eqn:An; [|reflexivity]. destruct X. apply Nm. rewrite An. discriminate. }
  assert (Lk : lookup E N = None).
  { unfold lookup. rewrite (sf_classes _ _ S). cbn. apply Fresh. intros X. apply (Hn N (Inn _ X)). rewrite <- EN. apply in_map, split_pre, Im. }
  assert (Li : lookup_in E N x = Some Other_).
  { unfold lookup_in, namespace. rewrite (sf_module _ _ S), (sf_done _ _ S). destruct (String.eqb_spec N (m_name m)) as [X|X]; [destruct (pre_other m' Im); congruence|]. destruct (Done m' Im) as (s & S1 & _ & S3). rewrite <- EN, S1. apply (S3 x t v ps Ia). }
  assert (Nx : ~ In x names) by (intros X; apply NoDup_remove_2 in Nd; apply Nd, in_or_app; left; exact X).
  assert (N1 : innermost E x = None) by (unfold innermost; rewrite (sf_classes _ _ S); apply Fresh, Nx). assert (N2 : class_is E x = false) by (unfold class_is; rewrite (sf_classes _ _ S); reflexivity).
  rewrite Lk, Li, (declare_add _ _ _ _ N1 N2). pose proof (after_add x Other_ E N1) as Af.
  assert (Cl' : e_classes (add x Other_ E) = []). { pose proof (af_outer _ _ Af) as X. unfold in_class in X. rewrite (sf_classes _ _ S) in X. exact X. }
  assert (Ix : forall n, assoc (e_names (add x Other_ E)) n <> None -> n = x \/ assoc (e_names E) n <> None).
  { intros n. pose proof (innermost_add x Other_ E n) as X. unfold innermost in X. rewrite Cl', (sf_classes _ _ S) in X. rewrite X. destruct (String.eqb_spec x n); auto. }
  apply (IH (names ++ [x])).
  - intros y M I. apply (H y M). right. exact I.
  - exact Hn.
  - rewrite <- app_assoc. exact Nd.
  - apply incl_app; [exact Inn|]. intros y [<-|[]]. exact Iv.
  - destruct (Vals x Iv) as (Fx & Mx & _). constructor; [|exact Cl'| | | | |].
    + apply fine_add; [apply (sf_fine _ _ S)|]. apply ok_entry_plain; [apply Fx|]. intros X. apply Mx, suffixed_made, X.
    + rewrite (af_module _ _ Af). apply (sf_module _ _ S).
    + rewrite (af_done _ _ Af). apply (sf_done _ _ S).
    + intros n Hn'. destruct (Ix n Hn') as [->|X]; [left; exact Iv|apply (sf_names _ _ S n X)].
    + intros y u qs [].
    + intros y u w qs [].
  - intros n Hn'. apply in_or_app. destruct (Ix n Hn') as [->|X]; [right; left; reflexivity|left; apply Nm, X].
Qed.
End Module.

(** * All modules *)
Lemma create_imports_map l : create_imports l = map (fun p => DImport (fst p) (snd p)) (flat_map (fun i => map (fun x => (x, i_module i)) (i_values i)) l).
Proof. unfold create_imports. induction l as [|i l IH]; [reflexivity|]. cbn [flat_map]. rewrite map_app, map_map, IH. reflexivity. Qed.
Lemma import_names l : map fst (flat_map (fun i => map (fun x => (x, i_module i)) (i_values i)) l) = flat_map i_values l.
Proof. induction l as [|i l IH]; [reflexivity|]. cbn [flat_map]. rewrite map_app, map_map, IH. cbn. rewrite map_id. reflexivity. Qed.
Lemma import_in l x N : In (x, N) (flat_map (fun i => map (fun x => (x, i_module i)) (i_values i)) l) -> exists i, In i l /\ i_module i = N /\ In x (i_values i).
Proof. intros H. apply in_flat_map in H. destruct H as (i & Ii & H). apply in_map_iff in H. destruct H as (y & [= -> <-] & H). eauto. Qed.
Lemma existsb_not_in x l : ~ In x l -> existsb (String.eqb x) l = false.
Proof. intros H. destruct (existsb _ l) eqn:X; [|reflexivity]. apply existsb_exists in X. destruct X as (y & Iy & E). apply String.eqb_eq in E. subst y. contradiction. Qed.
Section Program.
Context (tr : list module) (SEP : separate (bare tr)) (EX : expressible (bare tr)) (IM : imports_expressible tr) (fuel : nat).
Notation T := (bare tr).
Context (fs : list func) (HF : concat_map (fun _ m => create_detail fuel T (bare_module m)) 0 tr = Some fs).
Lemma all_distinct : distinct_paths fs = true.
Proof.
  apply distinct_nodup. refine (proj1 (concat_distinct _ m_name [] tr _ _ 0%nat fs HF)).
  - intros j m fl Im Fm. assert (Hm : In (bare_module m) T) by apply (in_map bare_module _ _ Im).
    refine (_ (concat_distinct _ a_name [m_name m] (m_assigns m) _ (proj1 (sp_assignments T SEP _ Hm)) 0%nat fl Fm)).
    + intros (N & P). split; [exact N|]. intros g Ig. destruct (P g Ig) as (a & q & _ & E). exists (a_name a :: q). exact E.
    + intros j' [x [t|t v|cf|] ps] fa Ia Fa; cbn [a_specific a_name] in Fa; try (injection Fa as <-; split; [constructor|intros g []]).
      assert (A : assigned T (bare_module m) x t) by (split; [exact Hm|exists ps; exact Ia]).
      destruct (functions_distinct T SEP EX fuel (bare_module m) t (assigned_occurs T _ _ _ A) x _ fa (ow_assigned T _ x t A) Fa) as (N & P). split; [exact N|]. intros g Ig. destruct (P g Ig) as (r & E). exists r. exact E.
  - pose proof (proj1 (ex_modules T EX)) as N. unfold bare in N. rewrite map_map in N. exact N.
Qed.
Lemma all_belong ms : concat_map (fun _ m => bind (create_body fuel T (bare_module m)) (fun ds => Some [(m_name m, create_imports (m_imports m) ++ ds)])) 0 tr = Some ms -> functions_belong (Program ms fs) = true.
Proof.
  intros Cm. apply forallb_forall. intros f If. cbn [p_functions] in If. apply existsb_exists. exists (f_path f). split; [|destruct (list_eq_dec string_dec (f_path f) (f_path f)); [reflexivity|congruence]].
  unfold all_class_paths. cbn [p_modules]. apply in_flat_map.
  refine (concat_map_both _ _ (fun f' => f' = f) (fun d : string * list decl => In (f_path f) (flat_map (class_paths [fst d]) (snd d))) tr _ 0%nat 0%nat fs ms f HF Cm If eq_refl).
  intros m j k fl b Im Fm Cb y Iy ->. cbn beta in Cb. unfold bind in Cb. destruct (create_body fuel T (bare_module m)) as [ds|] eqn:Cd; [|discriminate]. injection Cb as <-. eexists. split; [left; reflexivity|]. cbn [fst snd].
  assert (Hm : In (bare_module m) T) by apply (in_map bare_module _ _ Im).
  refine (_ (concat_map_both _ _ (fun f' => f' = f) (has_path [m_name m] f) (m_assigns m) _ 0%nat 0%nat fl ds f Fm Cd Iy eq_refl)); [intros (d & Id & Hd)|].
  - apply in_flat_map. exists d. split; [apply in_or_app; right; exact Id|exact Hd].
  - intros [x [t|t v|cf|] ps] j' k' fa ds' Ia Fa Ca y Iy' ->; cbn [a_specific a_name create_assignment] in *; try (injection Fa as <-; destruct Iy').
    assert (A : assigned T (bare_module m) x t) by (split; [exact Hm|exists ps; exact Ia]).
    apply (functions_classes T SEP EX fuel (bare_module m) t (assigned_occurs T _ _ _ A) fuel [m_name m] x None true fa ds' f (ow_assigned T _ x t A) Fa Ca Iy').
Qed.
Lemma modules_progress l : forall pre finished i ms, tr = pre ++ l -> concat_map (fun _ m => bind (create_body fuel T (bare_module m)) (fun ds => Some [(m_name m, create_imports (m_imports m) ++ ds)])) i l = Some ms ->
  finished_ok T (bare pre) finished -> (forall M, assoc finished M <> None -> In M (map m_name pre)) -> run_modules fs ms finished <> None.
Proof.
  induction l as [|m l IH]; intros pre finished i ms Htr C D N; [injection C as <-; discriminate|].
  apply concat_map_cons in C. destruct C as (a & b & C1 & C2 & ->). unfold bind in C1. destruct (create_body fuel T (bare_module m)) as [ds|] eqn:Cb; [|discriminate]. injection C1 as <-. cbn [app run_modules].
  assert (Im : In m tr) by (rewrite Htr; apply in_or_app; right; left; reflexivity). assert (Hm : In (bare_module m) T) by apply (in_map bare_module _ _ Im).
  assert (Split : T = bare pre ++ bare_module m :: bare l) by (rewrite Htr; unfold bare; apply map_app).
  rewrite (existsb_not_in (m_name m) library_names) by apply (proj2 (ex_modules T EX) _ Hm).
  assert (Nm : assoc finished (m_name m) = None).
  { destruct (assoc finished (m_name m)) eqn:X; [|reflexivity]. exfalso. assert (Y : In (m_name m) (map m_name pre)) by (apply N; congruence). apply in_map_iff in Y. destruct Y as (m' & E & I).
    apply (pre_other T EX (bare_module m) (bare pre) (bare l) Split (bare_module m') (in_map bare_module _ _ I)). exact E. }
  rewrite Nm. destruct (im_names tr IM m Im) as (Nd & Free).
  assert (Vals : forall x, In x (imported_values m) -> free library_names x /\ ~ made_up x /\ ~ In x (map a_name (m_assigns (bare_module m)))).
  { intros x Ix. destruct (Free x Ix) as (F1 & F2 & _). split; [exact F1|]. split; [exact F2|]. intros Y. apply (nodup_disjoint _ _ x Nd Ix Y). }
  set (E0 := Env finished (m_name m) [] []).
  assert (S0 : so_far T (bare_module m) finished (imported_values m) [] E0).
  { constructor; cbn; try reflexivity; try contradiction. constructor; cbn; [intros n e; discriminate|contradiction]. }
  destruct (imports_progress T EX fs (bare_module m) (bare pre) (bare l) Split finished D (imported_values m) Vals (flat_map (fun i => map (fun x => (x, i_module i)) (i_values i)) (m_imports m)) [] E0) as (E1 & R1 & S1).
  { intros x M I. split; [unfold imported_values; rewrite <- import_names; apply (in_map fst _ _ I)|]. apply import_in in I. destruct I as (im & Ii & EM & Ix). destruct (im_values tr IM pre m l im x Htr Ii Ix) as (m' & t & v & ps & I1 & I2 & I3).
    exists (bare_module m'), t, v, ps. split; [apply (in_map bare_module _ _ I1)|]. split; [cbn; congruence|exact I3]. }
  { intros x Ix. destruct (Free x Ix) as (_ & _ & F). unfold bare. rewrite map_map. exact F. }
  { rewrite import_names. apply (proj1 (nodup_parts _ _ Nd)). }
  { intros x []. } { exact S0. } { intros n X. destruct X. reflexivity. }
  rewrite create_imports_map, (run_all_some _ _ _ _ _ R1).
  destruct (body_progress T SEP EX (bare_imports tr) fs all_distinct (bare_module m) (bare pre) (bare l) Split finished D (imported_values m) Vals fuel (m_assigns m) [] 0%nat ds E1 eq_refl Cb S1) as (E2 & R2 & S2).
  { intros x t ps I. apply (detail_functions tr fuel fs HF m x t ps Im I). }
  rewrite R2. apply (IH (pre ++ [m]) _ (Datatypes.S i) b); [rewrite <- app_assoc; exact Htr|exact C2| |].
  - intros m' I'. unfold bare in I'. rewrite map_app in I'. apply in_app_or in I'. destruct I' as [I'|[<-|[]]].
    + rewrite assoc_snoc. destruct (String.eqb_spec (m_name m) (m_name m')) as [E|_]; [destruct (pre_other T EX (bare_module m) (bare pre) (bare l) Split m' I'); symmetry; exact E|]. apply D, I'.
    + cbn [bare_module m_name m_assigns]. rewrite assoc_snoc, String.eqb_refl. eexists. split; [reflexivity|]. split; [|apply (sf_values _ _ _ _ _ _ S2)]. intros x t ps I. apply (sf_types _ _ _ _ _ _ S2 x t ps I).
  - intros M. rewrite assoc_snoc, map_app. destruct (String.eqb_spec (m_name m) M) as [<-|]; intros X; apply in_or_app; [right; left; reflexivity|left; apply N, X].
Qed.
End Program.
Theorem header_compiles fuel tr p : separate (bare tr) -> expressible (bare tr) -> imports_expressible tr -> header fuel tr = Some p -> compiles p <> None.
Proof.
  intros SEP EX IM H. unfold header, bind in H. destruct (concat_map _ 0 tr) as [ms|] eqn:Cm in H; [|discriminate]. destruct (concat_map _ 0 tr) as [fs|] eqn:Cf in H; [|discriminate]. injection H as <-.
  unfold compiles. cbn [p_functions p_modules]. rewrite (all_distinct tr SEP EX fuel fs Cf), (all_belong tr SEP EX fuel fs Cf ms Cm). cbn [andb].
  apply (modules_progress tr SEP EX IM fuel fs Cf tr [] [] 0%nat ms eq_refl Cm); [intros m' []|intros M X; destruct X; reflexivity].
Qed.
