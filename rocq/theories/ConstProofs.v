(** Constants and default values in the header: for C128. *)
From Coq Require Import List String Ascii ZArith Bool Lia Permutation.
From Verif Require Import Base CompilerNames Lexer Ident Schema NamesSpec PropertiesNames ParserTree ParserSource Compiler Elab ElabSpec ElabProofs Frontend FrontNest FrontPasses FrontText WriteOut.
From Verif Require Import CppSpec CppValues ConstSpec Header FrontStays.
From Verif Require Import ParserTree ParserSource Elab ConstSpec.
From Verif Require Spec DecimalSpec PropertiesRealDecimal RealText RealTextProofs.
Import ListNotations.
Local Open Scope string_scope.
Local Open Scope list_scope.
Local Open Scope Z_scope.

(** ** The sources *)
Lemma thread_forallb {A B} (f : A -> Z -> B * Z) (p : A -> bool) (q : B -> bool) l n : Forall (fun x => p x = true -> forall k, q (fst (f x k)) = true) l -> forallb p l = true -> forallb q (fst (thread f l n)) = true.
Proof.
  intros H P. pose proof (thread_Forall2 f l n) as F. set (l' := fst (thread f l n)) in *. clearbody l'. induction F as [|x y l l' (k & ->) F IH]; [reflexivity|]. cbn [forallb] in *. apply andb_true_iff in P as (P1 & P2). inversion H as [|? ? H1 H2]; subst. rewrite (H1 P1), (IH H2 P2). reflexivity.
Qed.
Definition calm_comp (set : bool) (c : component) : bool := match c with Comp _ u _ d _ => calm u && negb (set && named_default d) end.
Definition quiet_comp (set : bool) (c : ParserSource.comp) : bool := match c with CNamed _ t p | CAnonymous t p => quiet t && negb (set && names_value p) | COf _ => true end.
Lemma named_default_of p : named_default (default_of p) = names_value p.
Proof. destruct p as [| |[]]; reflexivity. Qed.
Lemma quiet_calm t : quiet t = true -> forall n, calm (fst (read_ty t n)) = true.
Proof.
  induction t as [k0| | |r m|root more IH1 IH2|set root more IH1 IH2|set size name t IH|c n m t IH|m x|x t IH| |t c IH] using ty_induct; intros Q k; cbn [quiet] in Q; try reflexivity.
  - apply andb_true_iff in Q as (Q1 & Q2). rewrite read_choice_eq. assert (Q2' : forallb (fun e => quiet (snd e)) (additions more) = true) by (destruct more; [exact Q2|reflexivity]).
    assert (T : forall l, Forall (fun e => quiet (snd e) = true -> forall n, calm (fst (read_ty (snd e) n)) = true) l -> forallb (fun e => quiet (snd e)) l = true -> forall n, forallb (fun a => calm (snd a)) (fst (thread read_named l n)) = true).
    { intros l F G n. eapply thread_forallb; [|exact G]. eapply Forall_impl; [|exact F]. intros [y u] Hu Gu j. unfold read_named. cbn [fst snd] in *. specialize (Hu Gu j). destruct (read_ty u j). exact Hu. }
    pose proof (T _ IH1 Q1 k) as E1. destruct (thread read_named root k) as [r1 k1]. pose proof (T _ IH2 Q2' k1) as E2. destruct (thread read_named (additions more) k1) as [r2 k2]. cbn [fst calm] in *. rewrite forallb_app, E1, E2. reflexivity.
  - rewrite read_record_eq. rewrite inserted_parts in IH2. apply Forall_app in IH2 as [IH2 IH3]. apply andb_true_iff in Q as (Q1 & Q2).
    assert (Q' : forallb (quiet_comp set) (first_part more) = true /\ forallb (quiet_comp set) (second_part more) = true).
    { destruct more as [[l [l2|]]|]; cbn [first_part second_part forallb] in *; auto. apply andb_true_iff in Q2. exact Q2. }
    destruct Q' as (Q3 & Q4). change (forallb (quiet_comp set) root = true) in Q1.
    assert (T : forall l, Forall (in_comp (fun t => quiet t = true -> forall n, calm (fst (read_ty t n)) = true)) l -> forallb (quiet_comp set) l = true -> forall n, forallb (calm_comp set) (fst (thread read_comp l n)) = true).
    { intros l F G n. eapply thread_forallb; [|exact G]. eapply Forall_impl; [|exact F]. intros [y u q|u q|u] Hu Gu j; cbn [in_comp quiet_comp read_comp] in *; try (apply andb_true_iff in Gu as (Gu & Gd); specialize (Hu Gu j)); destruct (read_ty u j); cbn [fst calm_comp]; [cbn [fst] in Hu; rewrite Hu, named_default_of, Gd; reflexivity|cbn [fst] in Hu; rewrite Hu, named_default_of, Gd; reflexivity|].
      destruct set; reflexivity. }
    pose proof (T _ IH1 Q1 k) as E1. destruct (thread read_comp root k) as [r1 k1]. pose proof (T _ IH2 Q3 k1) as E2. destruct (thread read_comp (first_part more) k1) as [r2 k2]. pose proof (T _ IH3 Q4 k2) as E3. destruct (thread read_comp (second_part more) k2) as [r3 k3].
    cbn [fst calm] in *. change (forallb (calm_comp set) (r1 ++ r2 ++ r3) = true). rewrite !forallb_app, E1, E2, E3. reflexivity.
  - specialize (IH Q k). cbn [read_ty]. destruct (read_ty t k). exact IH.
  - specialize (IH Q k). cbn [read_ty]. destruct (read_ty t k). exact IH.
  - specialize (IH Q k). cbn [read_ty]. destruct (read_ty t k). cbn [fst calm forallb] in *. rewrite IH. reflexivity.
  - exact (IH Q k).
Qed.
Lemma quiet_decl_calm d n : quiet_decl d = true -> calm_assign (fst (read_decl d n)) = true.
Proof.
  destruct d as [x ps t|x t v|x fs]; cbn [read_decl].
  - destruct (thread read_param ps n) as [l n1] eqn:El. intros Q.
    assert (G : quiet t = true -> calm_assign (fst (let (u, n) := read_ty t n1 in (Assign x (AType u) l, n))) = true) by (intros G; pose proof (quiet_calm t G n1) as H; destruct (read_ty t n1); apply calm_top; exact H).
    destruct ps as [|p ps]; [|apply G; destruct t; exact Q]. cbn [thread] in El. injection El as <- <-. destruct t as [k|names|names|root more|root more|set root more|set size name t|c k m t|m y|y t|c fs|t c]; try (apply G; exact Q).
    cbn [quiet_decl] in Q. clear G. rewrite read_record_eq. rewrite inserted_parts, !forallb_app in Q. apply andb_true_iff in Q as (Q1 & Q). apply andb_true_iff in Q as (Q2 & Q3).
    assert (T : forall l n, forallb quiet_component l = true -> calm_comps (fst (thread read_comp l n)) = true).
    { intros l n0 G. eapply thread_forallb; [|exact G]. apply Forall_forall. intros [y u q|u q|u] _ Gu j; cbn [read_comp quiet_component] in *; try (pose proof (quiet_calm u Gu j) as Hu); destruct (read_ty u j); [exact Hu|exact Hu|reflexivity]. }
    pose proof (T _ n Q1) as E1. destruct (thread read_comp root n) as [r1 k1]. pose proof (T _ k1 Q2) as E2. destruct (thread read_comp (first_part more) k1) as [r2 k2]. pose proof (T _ k2 Q3) as E3. destruct (thread read_comp (second_part more) k2) as [r3 k3].
    unfold calm_assign. cbn [fst a_specific is_template a_parameters] in *. unfold calm_comps in *. rewrite !forallb_app, E1, E2, E3. reflexivity.
  - intros Q. pose proof (quiet_calm t Q n) as H. destruct (read_ty t n). exact H.
  - intros _. destruct (thread read_field fs n). reflexivity.
Qed.
Lemma quiet_tree l : quiet_sets l -> calm_tree (fst (thread read_source l 0)).
Proof.
  intros Q m a Im Ia. destruct (Forall2_in_r _ _ _ _ (thread_Forall2 read_source l 0) Im) as (s & Is & k & ->). rewrite module_of_eq in Ia. cbn [m_assigns] in Ia. apply in_rev in Ia.
  destruct (Forall2_in_r _ _ _ _ (thread_Forall2 read_decl (s_decls s) k) Ia) as (d & Id & j & ->). apply quiet_decl_calm. eapply Q; eassumption.
Qed.
Lemma decl_there s m d : module_of s m -> In d (s_decls s) -> exists j, In (fst (read_decl d j)) (m_assigns m).
Proof.
  intros (k & ->) I. rewrite module_of_eq. cbn [m_assigns]. destruct (Forall2_in_l _ _ _ _ (thread_Forall2 read_decl (s_decls s) k) I) as (a & Ia & j & ->). exists j. apply -> in_rev. exact Ia.
Qed.

(** ** Literals *)
Lemma text_literal l : Forall (fun c => 0 < c < 256 /\ c <> 34 /\ c <> 92 /\ c <> 10) l -> cpp_literal (string_of (34 :: l ++ [34])) = Some l /\ before_nul l = l.
Proof.
  intros F. change (string_of (34 :: l ++ [34])) with (quote ++ string_of (l ++ [34]))%string. change (cpp_literal (quote ++ string_of (l ++ [34]))%string) with (literal_body (string_of (l ++ [34]))).
  induction F as [|c l ((H0 & H1) & H2 & H3 & H4) F (IH1 & IH2)]; [split; reflexivity|].
  change (string_of ((c :: l) ++ [34])) with (String (ascii_of_N (Z.to_N c)) (string_of (l ++ [34]))). assert (Ec : code (ascii_of_N (Z.to_N c)) = c) by (unfold code; rewrite N_ascii_embedding by lia; lia).
  split.
  - rewrite body_plain; [|unfold is_quote; rewrite Ec; lia|rewrite Ec; lia|rewrite Ec; lia]. rewrite IH1, Ec. unfold chr. destruct (c <? 256) eqn:E; [reflexivity|lia].
  - cbn [before_nul]. destruct (c =? 0) eqn:E; [lia|]. rewrite IH2. reflexivity.
Qed.

Lemma characters_of_eq l : string_of l = characters_of l.
Proof. induction l as [|c l IH]; [reflexivity|]. cbn. f_equal. exact IH. Qed.
(** A number with a point comes back from std::stod and std::to_string as the same double. *)
Lemma real_literal u d e : written_real u d -> RealText.real_text (string_of u) = Some e -> literal "double" e (CReal d).
Proof.
  intros (ip & fp & -> & A & B & C & L & N) E. unfold RealText.real_text in E.
  assert (AB : Forall (fun c => 0 <= c < 256) (ip ++ 46 :: fp)) by (apply Forall_app; split; [apply RealTextProofs.digits_octets, A|constructor; [lia|apply RealTextProofs.digits_octets, B]]).
  rewrite (RealTextProofs.characters_string _ AB) in E. destruct (RealText.stod (ip ++ 46 :: fp)) as [f|] eqn:Ef; [|discriminate E]. injection E as <-.
  assert (C' : ip ++ fp <> []) by (intros X; apply app_eq_nil in X; destruct X; contradiction).
  destruct (RealTextProofs.stod_text ip fp f A B C' Ef) as (d' & q & N' & F & -> & Hq & R). assert (Nn : 0 <= DecimalSpec.number_of (ip ++ fp)) by (apply RealTextProofs.number_of_nonneg, Forall_app; split; assumption).
  pose proof (PropertiesRealDecimal.C133_one_double _ _ _ _ _ Nn N N') as <-. assert (Lp : 0 <= zlen fp <= 6) by (unfold zlen in *; lia). pose proof (RealTextProofs.six_places_nearest _ _ _ _ Nn Lp N F (proj1 Hq) R) as K.
  destruct (RealTextProofs.fixed_spec q Hq) as (ip' & fp' & -> & A1 & A2 & A3 & A4 & A5). apply (l_floating _ ip' fp'); [apply characters_of_eq|exact A1|exact A2| | |exact F].
  - intros X. apply app_eq_nil in X. destruct X; contradiction.
  - rewrite A4, A5. exact K.
Qed.
Lemma whole_literal n d : - 2^63 < n < 2^63 -> DecimalSpec.nearest_double (n <? 0) (Z.abs n) 0 d -> literal "double" (to_string n) (CReal d).
Proof. intros H N. apply (l_whole _ n); [apply to_string_literal; [unfold in_i64; lia|lia]|unfold in_i64; lia|exact N]. Qed.
(** With more places, it is rounded to six. *)
Definition rounded_literal (ip fp : list Z) (c : cval) : Prop :=
  exists d q d', DecimalSpec.nearest_double false (DecimalSpec.number_of (ip ++ fp)) (- zlen fp) d /\ 2 * Z.abs (q * 2^1074 - PropertiesRealEq.in_units d * 10^6) <= 2^1074 /\ DecimalSpec.nearest_double false q (-6) d' /\ c = CReal d'.
Lemma places_literal ip fp e : DecimalSpec.digits ip -> DecimalSpec.digits fp -> ip <> [] -> RealText.real_text (string_of (ip ++ 46 :: fp)) = Some e -> exists c, rounded_literal ip fp c /\ literal "double" e c.
Proof.
  intros A B C E. unfold RealText.real_text in E.
  assert (AB : Forall (fun c => 0 <= c < 256) (ip ++ 46 :: fp)) by (apply Forall_app; split; [apply RealTextProofs.digits_octets, A|constructor; [lia|apply RealTextProofs.digits_octets, B]]).
  rewrite (RealTextProofs.characters_string _ AB) in E. destruct (RealText.stod (ip ++ 46 :: fp)) as [f|] eqn:Ef; [|discriminate E]. injection E as <-.
  assert (C' : ip ++ fp <> []) by (intros X; apply app_eq_nil in X; destruct X; contradiction).
  destruct (RealTextProofs.stod_text ip fp f A B C' Ef) as (d & q & N & F & -> & Hq & R). destruct (RealTextProofs.six_places_finite d q (proj1 N) (proj1 (proj2 N)) F (proj1 Hq) R) as (d' & N' & F').
  exists (CReal d'). split; [exists d, q, d'; auto|]. destruct (RealTextProofs.fixed_spec q Hq) as (ip' & fp' & -> & A1 & A2 & A3 & A4 & A5). apply (l_floating _ ip' fp'); [apply characters_of_eq|exact A1|exact A2| | |exact F'].
  - intros X. apply app_eq_nil in X. destruct X; contradiction.
  - rewrite A4, A5. exact N'.
Qed.

(** ** Types *)
Definition leaf_of (k : kind) (r : type) : Prop :=
  match k with
  | Number => exists names, r = TInteger names
  | Floating => r = TSimple Real
  | Truth => r = TSimple Boolean
  | Characters => exists c, r = TSimple (CharString c)
  | Oid => r = TSimple ObjectIdentifier
  | Item _ items => exists vs b, r = TEnumerated vs b /\ map fst vs = items
  end.
Definition ctype (k : kind) (name : string) : vexp :=
  match k with Number => VPlain "int64_t" | Floating => VPlain "double" | Truth => VPlain "bool" | Characters => VPlain "absl::string_view" | Oid => VPlain "ObjectIdentifier<>" | Item x _ => VEnum (name ++ "Values")%string end.
Definition is_item (k : kind) : bool := match k with Item _ _ => true | _ => false end.
Definition leads (m : module) (u : type) (k : kind) (r : type) : Prop :=
  leaf_of k r /\ ((u = r /\ is_item k = false) \/ exists A, u = TRef (Defined None A []) /\ In (Assign A (AType r) []) (m_assigns m) /\ (forall x items, k = Item x items -> A = x)).
Lemma directly_leaf t k : governs_directly t k -> forall n, leaf_of k (fst (read_ty t n)) /\ is_item k = false.
Proof. induction 1 as [names| | |c| |t c k H IH]; intros n; cbn; eauto. Qed.
Lemma leaf_untouched k r : leaf_of k r -> untouched r = true.
Proof. destruct k; cbn; [intros (? & ->)|intros ->|intros ->|intros (? & ->)|intros ->|intros (? & ? & -> & _)]; reflexivity. Qed.
Lemma settled_type m m' A t : settled m m' -> In (Assign A (AType t) []) (m_assigns m) -> untouched t = true -> In (Assign A (AType t) []) (m_assigns m').
Proof. intros ((_ & T) & _) I U. destruct (T _ I eq_refl) as (a' & I' & _ & _ & H). cbn [a_specific] in H. destruct H as (H & _). rewrite (H U) in I'. exact I'. Qed.
Lemma governs_leads s m m' t k : module_of s m -> settled m m' -> governs s t k -> forall n, exists r, leads m' (fst (read_ty t n)) k r.
Proof.
  intros M S. induction 1 as [t k H|x t k I H|x root more I|t c k H IH]; intros n.
  - destruct (directly_leaf t k H n) as (L & N). exists (fst (read_ty t n)). split; [exact L|]. left. split; [reflexivity|exact N].
  - destruct (decl_there s m _ M I) as (j & J). cbn [read_decl thread] in J. destruct (directly_leaf t k H j) as (L & N). destruct (read_ty t j) as [r j']. cbn [fst] in *. exists r. split; [exact L|]. right. exists x. split; [reflexivity|].
    split; [eapply settled_type; [exact S|exact J|eapply leaf_untouched; exact L]|]. intros y items ->. discriminate N.
  - destruct (decl_there s m _ M I) as (j & J). cbn [read_decl thread read_ty fst] in J. eexists. split; [|right; exists x; split; [reflexivity|split; [eapply settled_type; [exact S|exact J|reflexivity]|intros y items [= -> _]; reflexivity]]].
    cbn [leaf_of]. eexists _, _. split; [reflexivity|]. reflexivity.
  - cbn [read_ty]. apply IH.
Qed.

(** ** One module of the final tree *)
Section Final.
Context (tr : list module) (m : module) (Nm : NoDup (map m_name tr)) (Im : In m tr) (Na : NoDup (map a_name (m_assigns m))).
Lemma bare_found : module_named (bare tr) (m_name m) = Some (bare_module m).
Proof.
  unfold module_named. change (m_name m) with (m_name (bare_module m)). apply find_unique; [|apply in_map; exact Im]. unfold bare. rewrite map_map. exact Nm.
Qed.
Lemma bare_type A t : In (Assign A (AType t) []) (m_assigns m) -> follow (bare tr) (bare_module m) (Defined None A []) = Some (t, bare_module m).
Proof.
  intros I. unfold follow. change (m_name (bare_module m)) with (m_name m). rewrite bare_found. unfold type_named, with_imports. cbn [bare_module m_assigns m_imports flat_map]. rewrite app_nil_r.
  pose proof (find_unique a_name _ _ Na I) as F. cbn [a_name] in F. unfold assign_named. rewrite F. reflexivity.
Qed.
Lemma value_type_leaf fuel k r name ty : leaf_of k r -> value_type fuel (bare tr) (bare_module m) r name = Some ty -> ty = ctype k name.
Proof. destruct fuel; [discriminate|]. destruct k; cbn [leaf_of]; [intros (? & ->)|intros ->|intros ->|intros (? & ->)|intros ->|intros (? & ? & -> & _)]; cbn; intros [= <-]; reflexivity. Qed.
Lemma resolve_leaf fuel A k r x u mm : leaf_of k r -> In (Assign A (AType r) []) (m_assigns m) -> resolve_ref fuel (bare tr) (bare_module m) (bare_module m) (Defined None A []) = Some (x, u, mm) -> x = A /\ u = r.
Proof.
  destruct fuel; [discriminate|]. intros L I. cbn [resolve_ref]. rewrite (bare_type A r I). destruct k; cbn [leaf_of] in L; [destruct L as (? & ->)|subst r|subst r|destruct L as (? & ->)|subst r|destruct L as (? & ? & -> & _)]; intros [= <- <- <-]; auto.
Qed.
Lemma value_type_leads fuel u k r name ty : leads m u k r -> value_type fuel (bare tr) (bare_module m) u name = Some ty ->
  ty = ctype k (match k with Item x _ => x | _ => "" end).
Proof.
  intros (L & [(-> & N)|(A & -> & I & Hk)]) E.
  - rewrite (value_type_leaf _ _ _ _ _ L E). destruct k; try reflexivity. discriminate N.
  - destruct fuel; [discriminate|]. cbn [value_type] in E. destruct (resolve_ref _ _ _ _ _) as [[[x u] mm]|] eqn:R; [|discriminate]. apply (resolve_leaf _ _ _ _ _ _ _ L I) in R as (-> & ->). rewrite (value_type_leaf _ _ _ _ _ L E). destruct k; try reflexivity. rewrite (Hk _ _ eq_refl). reflexivity.
Qed.
Lemma resolve_named_leads fuel x u k r y r' mm : leads m u k r -> resolve_named fuel (bare tr) (bare_module m) x u = Some (y, r', mm) -> r' = r /\ (forall z items, k = Item z items -> y = z).
Proof.
  intros (L & [(-> & N)|(A & -> & I & Hk)]) E.
  - assert (E' : resolve_named fuel (bare tr) (bare_module m) x r = Some (x, r, bare_module m)) by (destruct k; cbn [leaf_of] in L; [destruct L as (? & ->)|subst r|subst r|destruct L as (? & ->)|subst r|discriminate N]; reflexivity).
    rewrite E' in E. injection E as <- <- <-. split; [reflexivity|]. intros z items ->. discriminate N.
  - cbn [resolve_named] in E. apply (resolve_leaf _ _ _ _ _ _ _ L I) in E as (-> & ->). split; [reflexivity|]. exact Hk.
Qed.
End Final.

(** ** Values *)
Definition plain_type (k : kind) : string := match k with Number => "int64_t" | Floating => "double" | Truth => "bool" | Characters => "absl::string_view" | Oid => "ObjectIdentifier<>" | Item _ _ => "" end.
Lemma const_literal s k r x v c e : leaf_of k r -> stands s v k c -> (forall y, v <> WRef y) -> value_text r x (read_val v) = Some e -> literal (plain_type k) e c.
Proof.
  intros L H N E. destruct H as [n Hn|u d Hu|n d Hn Hd|u l (-> & F)|l ns F|y t v k c]; [| | | | |destruct (N y eq_refl)].
  - destruct L as (names & ->). cbn in E. injection E as <-. apply l_int; [|unfold in_i64; lia]. apply to_string_literal; [unfold in_i64; lia|lia].
  - cbn [leaf_of] in L. subst r. cbn [read_val value_text kind_of_value] in E. exact (real_literal u d e Hu E).
  - cbn [leaf_of] in L. subst r. cbn in E. injection E as <-. exact (whole_literal n d Hn Hd).
  - destruct L as (ch & ->). cbn [read_val value_text plain_value kind_of_value value_as_string] in E. injection E as <-. destruct (text_literal l F) as (E1 & E2). apply l_view. exists (string_of (34 :: l ++ [34])), l. split; [reflexivity|]. split; [exact E1|exact E2].
  - cbn [leaf_of] in L. subst r. cbn [read_val value_text kind_of_value] in E.
    assert (P : exists vs, plain_value (VList (map read_val l)) = Some (CompilerNames.VList vs) /\ Forall2 PropertiesNames.numbered vs ns /\ Forall (fun n => 0 <= n < 2^63) ns).
    { clear E N. cbn [plain_value]. enough (P : exists vs, traverse plain_value (map read_val l) = Some vs /\ Forall2 PropertiesNames.numbered vs ns /\ Forall (fun n => 0 <= n < 2^63) ns) by (destruct P as (vs & -> & P); exists vs; split; [reflexivity|exact P]).
      induction F as [|v n l ns (Hn & Hv) F (vs & E1 & E2 & E3)]; [exists []; split; [reflexivity|split; [apply Forall2_nil|apply Forall_nil]]|]. cbn [map traverse]. destruct Hv as [->|(z & ->)]; cbn [read_val plain_value]; rewrite E1; eexists; (split; [reflexivity|]); (split; [|constructor; assumption]); (constructor; [|exact E2]).
      - left. reflexivity. - right. eauto. }
    destruct P as (vs & P & F1 & F2). rewrite P in E. destruct (C73_oid_partial vs ns F1 F2) as (e' & E' & D). rewrite E' in E. injection E as <-. apply l_oid. exact D.
Qed.
Lemma ref_text k r x y e : leaf_of k r -> k = Number \/ k = Floating \/ k = Characters -> value_text r x (VDefined y) = Some e -> e = y.
Proof. intros L [-> |[-> | ->]]; cbn [leaf_of] in L; [destruct L as (? & ->)|subst r|destruct L as (? & ->)]; cbn; intros [= <-]; reflexivity. Qed.

(** ** Lists of declarations *)
Lemma concat_map_app {A B} (f : nat -> A -> option (list B)) a : forall b i r, concat_map f i (a ++ b) = Some r -> exists r1 r2, r = r1 ++ r2 /\ concat_map f i a = Some r1 /\ concat_map f (i + length a) b = Some r2.
Proof.
  induction a as [|x a IH]; intros b i r E; cbn [app] in E.
  - exists [], r. cbn [length]. rewrite Nat.add_0_r. auto.
  - cbn [concat_map] in *. unfold bind in *. destruct (f i x) as [p|] eqn:F; [|discriminate]. fold (concat_map f) in E. destruct (concat_map f (S i) (a ++ b)) as [q|] eqn:G; [|discriminate]. injection E as <-. destruct (IH b _ _ G) as (r1 & r2 & -> & E1 & E2).
    exists (p ++ r1), r2. rewrite app_assoc. split; [reflexivity|]. fold (concat_map f). rewrite E1. split; [reflexivity|]. cbn [length]. rewrite Nat.add_succ_r. exact E2.
Qed.
Lemma concat_map_one {A B} (f : nat -> A -> option (list B)) x l i r : concat_map f i (x :: l) = Some r -> exists a b, f i x = Some a /\ concat_map f (S i) l = Some b /\ r = a ++ b.
Proof. cbn [concat_map]. unfold bind. destruct (f i x) as [a|]; [|discriminate]. fold (concat_map f). destruct (concat_map f (S i) l) as [b|]; [|discriminate]. intros [= <-]. eauto. Qed.
Lemma concat_map_in {A B} (f : nat -> A -> option (list B)) x l : forall i r, concat_map f i l = Some r -> In x l -> exists j a, f j x = Some a /\ incl a r.
Proof.
  induction l as [|y l IH]; intros i r E I; [destruct I|]. apply concat_map_one in E as (a & b & E1 & E2 & ->). destruct I as [->|I].
  - exists i, a. split; [exact E1|]. intros z Z. apply in_or_app. left. exact Z.
  - destruct (IH _ _ E2 I) as (j & a' & F & J). exists j, a'. split; [exact F|]. intros z Z. apply in_or_app. right. apply J. exact Z.
Qed.
Lemma constant_more ds ds' x t c : constant ds x t c -> constant (ds ++ ds') x t c.
Proof. intros []; rewrite <- app_assoc; cbn [app]; [apply k_literal|apply k_name]; assumption. Qed.
Lemma name_place {A} (f : A -> string) l a before b after : NoDup (map f l) -> In a l -> l = before ++ b :: after -> In (f a) (map f before) -> exists b1 b2, before = b1 ++ a :: b2.
Proof.
  intros N I E J. apply in_map_iff in J as (a' & Ea & J). assert (a' = a) as <-; [|apply in_split; exact J].
  pose proof (find_unique f l a N I) as F1. pose proof (find_unique f l a' N ltac:(rewrite E; apply in_or_app; left; exact J)) as F2. rewrite Ea in F2. congruence.
Qed.

Section Const.
Context (s : source) (m m' : module) (tr : list module) (fuel : nat) (Ms : module_of s m) (St : settled m m') (Nt : NoDup (map m_name tr)) (It : In m' tr).
Let create := create_assignment fuel (bare tr) (bare_module m').
Lemma value_kept x u v : In (Assign x (AValue u v) []) (m_assigns m) -> In (Assign x (AValue u v) []) (m_assigns m').
Proof. intros I. destruct St as ((_ & T) & _). destruct (T _ I eq_refl) as (a' & I' & _ & _ & H). cbn [a_specific] in H. subst a'. exact I'. Qed.
Lemma create_const x u v k r ds : leads m' u k r -> is_item k = false -> create (Assign x (AValue u v) []) = Some ds -> exists e us, value_text r x v = Some e /\ ds = [DConst x (VPlain (plain_type k)) e us].
Proof.
  intros L N E. unfold create, create_assignment in E. cbn [a_specific a_name] in E.
  assert (R : match u with TRef d => option_map fst (follow (bare tr) (bare_module m') d) | _ => Some u end = Some r /\ is_ref r = false).
  { destruct L as (L & [(-> & _)|(A & -> & I & _)]).
    - destruct k; cbn [leaf_of] in L; [destruct L as (? & ->)|subst r|subst r|destruct L as (? & ->)|subst r|discriminate N]; split; reflexivity.
    - rewrite (bare_type tr m' Nt It (proj1 (proj2 St)) A r I). split; [reflexivity|]. destruct k; cbn [leaf_of] in L; [destruct L as (? & ->)|subst r|subst r|destruct L as (? & ->)|subst r|discriminate N]; reflexivity. }
  destruct R as (R1 & R2). rewrite R1 in E. cbn [bind] in E.
  assert (E' : bind (value_type fuel (bare tr) (bare_module m') u "") (fun ty => bind (value_text r x v) (fun e => Some [DConst x ty e (enum_used r x)])) = Some ds) by (destruct r; try exact E; discriminate R2). clear E.
  unfold bind in E'. destruct (value_type _ _ _ _ _) as [ty|] eqn:V; [|discriminate]. destruct (value_text r x v) as [e|]; [|discriminate]. injection E' as <-.
  pose proof (value_type_leads tr m' Nt It (proj1 (proj2 St)) _ _ _ _ _ _ L V) as ->. eexists _, _. split; [reflexivity|]. destruct k; try reflexivity. discriminate N.
Qed.
Lemma stands_kind v k c : stands s v k c -> is_item k = false.
Proof. intros []; try reflexivity. destruct H as [-> |[-> | ->]]; reflexivity. Qed.
Lemma const_in v k c : stands s v k c -> forall x t n before after imports i r, governs s t k ->
  m_assigns m' = before ++ Assign x (AValue (fst (read_ty t n)) (read_val v)) [] :: after ->
  concat_map (fun _ => create) i (before ++ [Assign x (AValue (fst (read_ty t n)) (read_val v)) []]) = Some r -> constant (imports ++ r) x (plain_type k) c.
Proof.
  intros H. assert (D : (forall y, v <> WRef y) \/ exists y, v = WRef y) by (destruct v; try (left; intros ? X; discriminate X); right; eauto). destruct D as [D|D].
  - intros x t n before after imports i r G E F. apply concat_map_app in F as (r1 & r2 & -> & F1 & F2). apply concat_map_one in F2 as (a & b & F2 & F3 & ->). cbn in F3. injection F3 as <-.
    destruct (governs_leads s m m' t k Ms St G n) as (r & L). destruct (create_const _ _ _ _ _ _ L (stands_kind _ _ _ H) F2) as (e & us & V & ->).
    rewrite app_nil_r, app_assoc. apply k_literal. eapply const_literal; [exact (proj1 L)|exact H|exact D|exact V].
  - revert D. induction H as [| | | | |y t0 v k c Hk I0 G0 H IH]; intros (y' & Y); try discriminate Y. clear y' Y.
    intros x t n before after imports i r G E F. apply concat_map_app in F as (r1 & r2 & -> & F1 & F2). apply concat_map_one in F2 as (a & b & F2 & F3 & ->). cbn in F3. injection F3 as <-.
    destruct (governs_leads s m m' t k Ms St G n) as (r & L). destruct (create_const _ _ _ _ _ _ L ltac:(destruct Hk as [-> |[-> | ->]]; reflexivity) F2) as (e & us & V & ->).
    cbn [read_val] in V. apply (ref_text _ _ _ _ _ (proj1 L) Hk) in V. subst e. rewrite app_nil_r, app_assoc. apply k_name.
    destruct (decl_there s m _ Ms I0) as (j & J). cbn [read_decl] in J. destruct (read_ty t0 j) as [u0 j'] eqn:R0. cbn [fst] in J. apply value_kept in J.
    destruct St as (_ & Na & O). destruct (O _ _ _ E) as (O1 & _). specialize (O1 _ _ eq_refl).
    destruct (name_place a_name _ _ _ _ _ Na J E O1) as (b1 & b2 & ->). replace (b1 ++ Assign y (AValue u0 (read_val v)) [] :: b2) with ((b1 ++ [Assign y (AValue u0 (read_val v)) []]) ++ b2) in F1 by (rewrite <- app_assoc; reflexivity).
    apply concat_map_app in F1 as (q1 & q2 & -> & F1 & _). rewrite app_assoc. apply constant_more.
    assert (Eu : u0 = fst (read_ty t0 j)) by (rewrite R0; reflexivity). rewrite Eu in E, F1. rewrite <- app_assoc in E. cbn [app] in E.
    assert (D : (forall z, v <> WRef z) \/ exists z, v = WRef z) by (destruct v; try (left; intros ? X; discriminate X); right; eauto). destruct D as [D|D].
    + apply concat_map_app in F1 as (p1 & p2 & -> & F1 & F2'). apply concat_map_one in F2' as (a & b & F2' & F3 & ->). cbn in F3. injection F3 as <-.
      destruct (governs_leads s m m' t0 k Ms (conj (proj1 St) (conj Na O)) G0 j) as (r0 & L0). destruct (create_const _ _ _ _ _ _ L0 (stands_kind _ _ _ H) F2') as (e & us' & V & ->).
      rewrite app_nil_r, app_assoc. apply k_literal. eapply const_literal; [exact (proj1 L0)|exact H|exact D|exact V].
    + eapply (IH D); [exact G0|exact E|exact F1].
Qed.
Lemma real_const_in x t n u before after imports i r : governs s t Floating -> m_assigns m' = before ++ Assign x (AValue (fst (read_ty t n)) (VReal (string_of u))) [] :: after ->
  concat_map (fun _ => create) i (before ++ [Assign x (AValue (fst (read_ty t n)) (VReal (string_of u))) []]) = Some r ->
  exists e, RealText.real_text (string_of u) = Some e /\ forall c, literal "double" e c -> constant (imports ++ r) x "double" c.
Proof.
  intros G E F. apply concat_map_app in F as (r1 & r2 & -> & F1 & F2). apply concat_map_one in F2 as (a & b & F2 & F3 & ->). cbn in F3. injection F3 as <-.
  destruct (governs_leads s m m' t Floating Ms St G n) as (r & L). destruct (create_const _ _ _ _ _ _ L eq_refl F2) as (e & us & V & ->). pose proof (proj1 L) as Lf. cbn [leaf_of] in Lf. subst r. cbn [value_text kind_of_value] in V.
  exists e. split; [exact V|]. intros c Hc. rewrite app_nil_r, app_assoc. apply k_literal. exact Hc.
Qed.
End Const.

(** ** Default values *)
Lemma component_read set root more n c : In c (root ++ inserted more) -> exists cs ext j, fst (read_ty (YRecord set root more) n) = TRecord set cs ext /\ In (fst (read_comp c j)) cs.
Proof.
  intros I. rewrite inserted_parts in I. rewrite read_record_eq. pose proof (thread_Forall2 read_comp root n) as F1. destruct (thread read_comp root n) as [r1 k1]. pose proof (thread_Forall2 read_comp (first_part more) k1) as F2. destruct (thread read_comp (first_part more) k1) as [r2 k2].
  pose proof (thread_Forall2 read_comp (second_part more) k2) as F3. destruct (thread read_comp (second_part more) k2) as [r3 k3]. cbn [fst] in *. pose proof (Forall2_app F1 (Forall2_app F2 F3)) as F. destruct (Forall2_in_l _ _ _ _ F I) as (c' & I' & j & ->). eexists _, _, j. split; [reflexivity|exact I'].
Qed.
Lemma leads_untouched m u k r : leads m u k r -> untouched u = true.
Proof. intros (L & [(-> & _)|(A & -> & _)]); [eapply leaf_untouched; exact L|reflexivity]. Qed.
Section Default.
Context (s : source) (m m' : module) (tr : list module) (fuel : nat) (Ms : module_of s m) (St : settled m m') (Nt : NoDup (map m_name tr)) (It : In m' tr).
Let create := create_assignment fuel (bare tr) (bare_module m').
Lemma default_in X set root more f u v k c imports ds : In (DType X [] (YRecord set root more)) (s_decls s) -> In (CNamed f u (Default v)) (root ++ inserted more) -> governs s u k -> default_stands s v k c ->
  (forall z, name_needed v k = Some z -> unhidden (imports ++ ds) X f z) -> create_body fuel (bare tr) (bare_module m') = Some ds -> member_default (imports ++ ds) X f c.
Proof.
  intros Hd Hc G H Hid E. destruct (decl_there s m _ Ms Hd) as (j & J). cbn [read_decl thread] in J. destruct (component_read set root more j _ Hc) as (cs & ext & n & Er & Ic). destruct (read_ty (YRecord set root more) j) as [u0 j0]. cbn [fst] in *. subst u0.
  cbn [read_comp] in Ic. destruct (governs_leads s m m' u k Ms St G n) as (r & L). destruct (read_ty u n) as [u1 n1] eqn:Ru. cbn [fst is_optional default_of] in *.
  destruct St as ((_ & T) & Na & O). destruct (T _ J eq_refl) as (a' & J' & N1 & N2 & N3). cbn [a_specific a_name a_parameters] in *. destruct N3 as (_ & N3). destruct (N3 _ _ _ eq_refl) as (cs' & Sp & Hcs). specialize (Hcs _ _ _ _ (leads_untouched _ _ _ _ L) Ic).
  destruct a' as [X' sp ps]. cbn [a_name a_parameters a_specific] in N1, N2, Sp. subst X' ps sp. clear N3 T Ic J cs.
  apply in_split in J' as (before & after & Ea). unfold create_body in E. cbn [bare_module m_assigns] in E. rewrite Ea in E. apply concat_map_app in E as (r1 & r2 & -> & F1 & F2). apply concat_map_one in F2 as (a & r3 & F2 & F3 & ->).
  unfold create_assignment in F2. cbn [a_specific a_name] in F2. destruct fuel as [|fl] eqn:Ef; [discriminate|]. cbn [create_type] in F2. unfold bind in F2. destruct (check_valid _ _ _ _ _) as [[|]|]; try discriminate F2. cbn [negb] in F2. destruct (existsb _ cs'); [discriminate|].
  destruct (concat_map _ 0%nat cs') as [defaults|] eqn:Fd; [|discriminate]. destruct (concat_map _ 0%nat cs') as [types|] in F2; [|discriminate]. destruct (override _ _ _ _ _) as [id|]; [|discriminate]. injection F2 as <-.
  destruct (concat_map_in _ _ _ _ _ Fd Hcs) as (i0 & dd & F & Inc). cbn [default_decl] in F. unfold bind in F. destruct (value_type fl _ _ u1 f) as [ty|] eqn:V; [|discriminate]. destruct (resolve_named fl _ _ f u1) as [[[y r'] mm]|] eqn:R; [|discriminate].
  apply (resolve_named_leads tr m' Nt It Na _ _ _ _ _ _ _ _ L) in R as (-> & Hy). destruct (value_text r y (read_single v)) as [e|] eqn:Vt; [|discriminate]. injection F as <-. apply (value_type_leads tr m' Nt It Na _ _ _ _ _ _ L) in V. subst ty.
  set (D := ("DefaultValue" ++ capital f)%string) in *.
  assert (Im : In (Def, make_type_name f X, D, f) (map (member_decl X) cs')) by (change (Def, make_type_name f X, D, f) with (member_decl X (Comp f u1 false (Some (read_single v)) None)); apply in_map; exact Hcs).
  exists (imports ++ r1), (defaults ++ types), (map (member_decl X) cs'), id, r3, (make_type_name f X), D, (ctype k match k with Item x _ => x | _ => "" end), e, (enum_used r y).
  split; [rewrite <- app_assoc; reflexivity|]. split; [exact Im|]. split; [apply in_or_app; left; apply Inc; left; reflexivity|].
  assert (Hh : forall z, name_needed v k = Some z -> ~ In z (hiding X D (defaults ++ types) (map (member_decl X) cs'))).
  { intros z Hz. apply (Hid z Hz (defaults ++ types) (map (member_decl X) cs') id (make_type_name f X) D); [|exact Im]. apply in_or_app. right. apply in_or_app. right. left. reflexivity. }
  destruct (O _ _ _ Ea) as (_ & O'). destruct (O' _ _ _ _ _ _ _ eq_refl Hcs) as (Ov & Ou). clear O O'.
  destruct H as [n0 Hn|w d Hw|n0 d Hn Hd0|b|w l (-> & Hw)|x items it Hit|y0 t0 v0 k c Hk I0 G0 H0].
  - left. destruct L as ((names & ->) & _). cbn in Vt. injection Vt as <-. apply l_int; [apply to_string_literal; [unfold in_i64; lia|lia]|unfold in_i64; lia].
  - left. destruct L as (-> & _). cbn [read_single value_text kind_of_value] in Vt. exact (real_literal w d e Hw Vt).
  - left. destruct L as (-> & _). cbn in Vt. injection Vt as <-. exact (whole_literal n0 d Hn Hd0).
  - left. destruct L as (-> & _). cbn in Vt. injection Vt as <-. destruct b; constructor.
  - left. destruct L as ((ch & ->) & _). cbn [read_single value_text plain_value kind_of_value value_as_string] in Vt. injection Vt as <-. destruct (text_literal l Hw) as (E1 & E2). pose proof (l_chars _ _ E1) as K. rewrite E2 in K. exact K.
  - destruct L as ((vs & bb & -> & Hvs) & [(_ & X1)|(A & Eu & IA & HA)]); [discriminate X1|]. pose proof (HA _ _ eq_refl) as ->. pose proof (Hy _ _ eq_refl) as ->. cbn [read_single value_text plain_value kind_of_value value_as_string] in Vt. injection Vt as <-.
    subst u1. specialize (Ou _ eq_refl). destruct (name_place a_name _ _ _ _ _ Na IA Ea Ou) as (b1 & b2 & ->). cbn [returns ctype]. exists it, vs. split; [clear; induction x as [|ch x IH]; [reflexivity|cbn [append]; f_equal; exact IH]|].
    split; [apply Hh; reflexivity|]. split; [|split; [rewrite Hvs; exact Hit|reflexivity]]. apply in_or_app. right.
    destruct (concat_map_in _ (Assign x (AType (TEnumerated vs bb)) []) _ _ _ F1 ltac:(apply in_or_app; right; left; reflexivity)) as (i1 & ds1 & Fe & Inc1). apply Inc1. unfold create_assignment in Fe. cbn [a_specific a_name create_type] in Fe. unfold bind in Fe.
    destruct (override _ _ _ _ _) as [id1|]; [|discriminate]. destruct (type_as_string _ _ _ _ _ _) as [te|]; [|discriminate]. injection Fe as <-. left. reflexivity.
  - assert (Kp : ctype k match k with Item x _ => x | _ => "" end = VPlain (plain_type k)) by (destruct Hk as [-> |[-> | ->]]; reflexivity). rewrite Kp. cbn [read_single] in Vt. apply (ref_text _ _ _ _ _ (proj1 L) Hk) in Vt. subst e. right.
    split; [apply Hh; destruct Hk as [-> |[-> | ->]]; reflexivity|].
    assert (Ph : plain_here m' u1).
    { clear -L Hk. destruct L as (L & [(-> & _)|(A & -> & IA & _)]); (destruct Hk as [-> |[-> | ->]]; cbn [leaf_of] in L; [destruct L as (? & ->)|subst r|destruct L as (? & ->)]); cbn [plain_here no_structure]; try exact I; eexists; (split; [exact IA|exact I]). }
    specialize (Ov y0 eq_refl Ph). destruct (decl_there s m _ Ms I0) as (j1 & J1). cbn [read_decl] in J1. destruct (read_ty t0 j1) as [u2 j2] eqn:R2. cbn [fst] in J1. apply (value_kept m m' St) in J1.
    destruct (name_place a_name _ _ _ _ _ Na J1 Ea Ov) as (b1 & b2 & ->). replace (b1 ++ Assign y0 (AValue u2 (read_val v0)) [] :: b2) with ((b1 ++ [Assign y0 (AValue u2 (read_val v0)) []]) ++ b2) in F1 by (rewrite <- app_assoc; reflexivity).
    apply concat_map_app in F1 as (q1 & q2 & -> & F1 & _). rewrite app_assoc. apply constant_more. rewrite <- !app_assoc in Ea. cbn [app] in Ea.
    assert (Eu2 : u2 = fst (read_ty t0 j1)) by (rewrite R2; reflexivity). rewrite Eu2 in *. eapply (const_in s m m' tr (S fl) Ms St Nt It); [exact H0|exact G0|exact Ea|exact F1].
Qed.
End Default.
