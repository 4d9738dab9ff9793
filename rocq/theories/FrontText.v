(** From texts to trees that the passes of Frontend.v accept. *)
From Coq Require Import List String ZArith Bool Lia Permutation.
From Verif Require Import Base CompilerNames CompilerTree TreeSpec CompilerPasses Ident View Prims Schema Compiler CompilerSpec Frontend FrontOrder FrontNest FrontPasses FrontAccept.
From Verif Require Import Lexer LexerSpec ParserTree ParserFile ParserText ParserSource Elab ElabSpec ElabProofs AcceptSpec.
Import ListNotations.
Local Open Scope string_scope.
Local Open Scope list_scope.

Section ty_induct.
Context (P : ParserSource.ty -> Prop).
Definition in_comp (c : ParserSource.comp) : Prop := match c with CNamed _ t _ | CAnonymous t _ | COf t => P t end.
Context (Hsimple : forall k, P (YSimple k)) (Hbits : forall l, P (YBits l)) (Hint : forall l, P (YInteger l)) (Henum : forall r m, P (YEnumerated r m))
  (Hchoice : forall root more, Forall (fun e => P (snd e)) root -> Forall (fun e => P (snd e)) (additions more) -> P (YChoice root more))
  (Hrecord : forall set root more, Forall in_comp root -> Forall in_comp (inserted more) -> P (YRecord set root more))
  (Hlist : forall set size name t, P t -> P (YListOf set size name t)) (Htagged : forall c n m t, P t -> P (YTagged c n m t)) (Href : forall m x, P (YRef m x)) (Happly : forall x t, P t -> P (YApply x t))
  (Hfield : forall c f, P (YField c f)) (Hwith : forall t c, P t -> P (YWith t c)).
Fixpoint ty_induct (t : ParserSource.ty) : P t :=
  let alts := fix alts (l : list (string * ParserSource.ty)) : Forall (fun e => P (snd e)) l := match l with [] => Forall_nil _ | e :: l => Forall_cons e (ty_induct (snd e)) (alts l) end in
  let comp c := match c as c return in_comp c with CNamed _ t _ | CAnonymous t _ | COf t => ty_induct t end in
  let comps := fix comps (l : list ParserSource.comp) : Forall in_comp l := match l with [] => Forall_nil _ | c :: l => Forall_cons c (comp c) (comps l) end in
  match t with
  | YSimple k => Hsimple k
  | YBits l => Hbits l
  | YInteger l => Hint l
  | YEnumerated r m => Henum r m
  | YChoice root more => Hchoice root more (alts root) (match more with Some l => alts l | None => Forall_nil _ end)
  | YRecord set root more => Hrecord set root more (comps root) (match more with Some (l, Some l2) => proj2 (Forall_app _ l l2) (conj (comps l) (comps l2)) | Some (l, None) => comps l | None => Forall_nil _ end)
  | YListOf set size name t => Hlist set size name t (ty_induct t)
  | YTagged c n m t => Htagged c n m t (ty_induct t)
  | YRef m x => Href m x
  | YApply x t => Happly x t (ty_induct t)
  | YField c f => Hfield c f
  | YWith t c => Hwith t c (ty_induct t)
  end.
End ty_induct.
(** ** Sizes *)
Lemma sep_length s l : (sum (map (@List.length _) l) <= List.length (sep s l))%nat.
Proof. unfold sum. induction l as [|x l IH]; [constructor|]. destruct l as [|y l]; [cbn [map fold_right sep]; lia|]. change (sep s (x :: y :: l)) with (x ++ s :: sep s (y :: l)). rewrite app_length. cbn [List.length map fold_right] in *. lia. Qed.
Lemma braces_length l : List.length (braces l) = S (S (List.length l)).
Proof. unfold braces. cbn. rewrite app_length. cbn. lia. Qed.
Lemma record_tokens set root more : (S (sum (map (fun c => List.length (comp_tokens c)) (root ++ inserted more))) <= List.length (ty_tokens (YRecord set root more)))%nat.
Proof.
  cbn [ty_tokens List.length]. rewrite braces_length. pose proof (sep_length (kw "COMMA") (map comp_tokens root ++ match more with None => [] | Some (l, None) => [kw "ELIPSIS"] :: map comp_tokens l | Some (l, Some l2) => [kw "ELIPSIS"] :: map comp_tokens l ++ [kw "ELIPSIS"] :: map comp_tokens l2 end)) as H.
  fold commas in H. rewrite map_app, sum_app in *. rewrite map_map in H. assert (C : forall n l, sum (n :: l) = (n + sum l)%nat) by reflexivity. destruct more as [[l [l2|]]|]; cbn [inserted map List.length] in *; repeat (rewrite ?map_app, ?sum_app, ?C, ?map_map in *; cbn [map List.length] in * ); lia.
Qed.
Lemma choice_tokens root more : (S (sum (map (fun e : string * ParserSource.ty => List.length (ty_tokens (snd e))) root) + sum (map (fun e : string * ParserSource.ty => List.length (ty_tokens (snd e))) (additions more))) <= List.length (ty_tokens (YChoice root more)))%nat.
Proof.
  cbn [ty_tokens List.length]. rewrite braces_length. match goal with |- context [commas ?l] => pose proof (sep_length (kw "COMMA") l) as H end. fold commas in H. rewrite map_app, sum_app, map_map in H. cbn [List.length] in H.
  assert (G : forall l : list (string * ParserSource.ty), (sum (map (fun e => List.length (ty_tokens (snd e))) l) <= sum (map (fun e => S (List.length (ty_tokens (snd e)))) l))%nat) by (induction l as [|e l IH]; [constructor|]; unfold sum in *; cbn [map fold_right]; lia).
  pose proof (G root). destruct more as [l|]; cbn [additions map] in *; [|unfold sum in *; cbn in *; lia]. rewrite map_map in H. pose proof (G l). unfold sum in *. cbn [fold_right List.length] in *. lia.
Qed.
Lemma Forall2_sum {A B} (f : A -> nat) (g : B -> nat) l l' : Forall2 (fun x y => (g y <= f x)%nat) l l' -> (sum (map g l') <= sum (map f l))%nat.
Proof. unfold sum. induction 1; [constructor|]. cbn [map fold_right]. lia. Qed.
Lemma Forall2_from {A B} (P : A -> Prop) (R S : A -> B -> Prop) l l' : Forall P l -> Forall2 R l l' -> (forall x y, P x -> R x y -> S x y) -> Forall2 S l l'.
Proof. intros F F2 H. revert F. induction F2; intros F; inversion F; subst; constructor; auto. Qed.
Definition comp_structs (c : component) : nat := match c with Comp _ u _ _ _ => structs u end.
Lemma comps_size l n : Forall (in_comp (fun t => forall k, (structs (fst (read_ty t k)) <= List.length (ty_tokens t))%nat)) l -> (sum (map comp_structs (fst (thread read_comp l n))) <= sum (map (fun c => List.length (comp_tokens c)) l))%nat.
Proof.
  intros F. apply Forall2_sum. eapply Forall2_from; [exact F|apply thread_Forall2|]. cbn beta. intros [x t p|t p|t] y H (k & ->); cbn [in_comp read_comp comp_tokens] in *; specialize (H k); destruct (read_ty t k) as [u k']; cbn [fst comp_structs List.length] in *; rewrite ?app_length; [lia|lia|cbn; lia].
Qed.
Lemma alts_size l n : Forall (fun e : string * ParserSource.ty => forall k, (structs (fst (read_ty (snd e) k)) <= List.length (ty_tokens (snd e)))%nat) l -> (sum (map (fun e => structs (snd e)) (fst (thread read_named l n))) <= sum (map (fun e => List.length (ty_tokens (snd e))) l))%nat.
Proof.
  intros F. apply Forall2_sum. eapply Forall2_from; [exact F|apply thread_Forall2|]. cbn beta. intros [x t] y H (k & ->). specialize (H k). unfold read_named. cbn [fst snd] in *. destruct (read_ty t k) as [u k']. exact H.
Qed.
Lemma read_size t : forall k, (structs (fst (read_ty t k)) <= List.length (ty_tokens t))%nat.
Proof.
  induction t as [k0| | |r m|root more IH1 IH2|set root more IH1 IH2|set size name t IH|c n m t IH| |x t IH| |t c IH] using ty_induct; intros k; try (cbn; lia).
  - destruct (read_choice root more k) as (n1 & ->). cbn [structs]. pose proof (choice_tokens root more). rewrite map_app, sum_app. pose proof (alts_size _ k IH1). pose proof (alts_size _ n1 IH2). lia.
  - destruct (read_record set root more k) as (n1 & n2 & ->). cbn [structs]. pose proof (record_tokens set root more) as H. change (fun c => match c with Comp _ u _ _ _ => structs u end) with comp_structs. rewrite !map_app, !sum_app in *. pose proof (comps_size _ k IH1) as H1.
    destruct more as [[l [l2|]]|]; cbn [inserted] in *; [apply Forall_app in IH2 as (IH2 & IH3); pose proof (comps_size _ n1 IH2); pose proof (comps_size _ n2 IH3); rewrite map_app, sum_app in H; lia|pose proof (comps_size _ n1 IH2); change (fst (thread read_comp [] n2)) with (@nil component); unfold sum in *; cbn [map fold_right] in *; lia|].
    change (fst (thread read_comp [] n2)) with (@nil component). change (fst (thread read_comp [] n1)) with (@nil component). unfold sum in *; cbn [map fold_right] in *; lia.
  - specialize (IH k). cbn [read_ty]. destruct (read_ty t k). cbn [fst structs ty_tokens List.length] in *. rewrite !app_length. cbn [List.length]. rewrite !app_length. lia.
  - specialize (IH k). cbn [read_ty]. destruct (read_ty t k). cbn [fst structs ty_tokens List.length] in *. rewrite !app_length. cbn [List.length]. rewrite !app_length. lia.
  - cbn [read_ty]. destruct (read_ty t k). cbn. lia.
  - specialize (IH k). cbn [read_ty ty_tokens] in *. rewrite app_length. lia.
Qed.
Lemma spelled_nonempty u t rest : spelled u t rest -> (1 <= List.length u)%nat.
Proof.
  destruct 1; try (cbn; rewrite ?app_length; cbn; lia).
  - destruct s; [|cbn; lia]. exfalso. cbn in H. repeat destruct H as [E|H]; try discriminate E; exact H.
  - destruct s; [|cbn; lia]. exfalso. cbn in H. repeat destruct H as [E|H]; try discriminate E; exact H.
  - destruct w; [|cbn; lia]. destruct H1.
  - destruct w; [|cbn; lia]. destruct H0.
  - destruct ds; [congruence|cbn; lia].
Qed.
Lemma written_length text ts : written text ts -> (List.length ts <= List.length text)%nat.
Proof. induction 1; repeat (cbn [List.length app] in *; rewrite ?app_length in * ); try lia. apply spelled_nonempty in H. lia. Qed.
Lemma decl_size d k : (structs_of (fst (read_decl d k)) <= List.length (decl_tokens d))%nat.
Proof.
  destruct d as [x ps t|x t v|x fs]; cbn [read_decl decl_tokens].
  - destruct (thread read_param ps k) as [l j]. pose proof (read_size t j). destruct (read_ty t j). cbn [fst structs_of a_specific List.length] in *. rewrite app_length. cbn [List.length]. unfold structs_of. cbn. lia.
  - destruct (read_ty t k). cbn. lia.
  - destruct (thread read_field fs k). cbn. lia.
Qed.
Lemma flat_map_length {A B} (f : A -> list B) l : List.length (flat_map f l) = sum (map (fun x => List.length (f x)) l).
Proof. induction l as [|x l IH]; [reflexivity|]. cbn [flat_map map]. rewrite app_length, IH. reflexivity. Qed.
Lemma sum_zero {A} (f : A -> nat) l : (forall x, In x l -> f x = 0%nat) -> sum (map f l) = 0%nat.
Proof. induction l as [|x l IH]; intros H; [reflexivity|]. cbn. rewrite (H x (or_introl eq_refl)). apply IH. intros y Hy. apply H. right. exact Hy. Qed.
Lemma source_size s k : (size (fst (read_source s k)) <= List.length (source_tokens s))%nat.
Proof.
  rewrite module_of_eq. unfold size, with_imports. cbn [m_assigns m_imports]. rewrite map_app, sum_app. rewrite (sum_zero structs_of (flat_map _ _)); [|intros a Ha; apply in_flat_map in Ha as (i & _ & Ha); apply in_map_iff in Ha as (x & <- & _); reflexivity].
  rewrite map_rev, <- (sum_perm _ _ (Permutation_rev _)). assert (H : (sum (map structs_of (fst (thread read_decl (s_decls s) k))) <= sum (map (fun d => List.length (decl_tokens d)) (s_decls s)))%nat).
  { apply Forall2_sum. eapply Forall2_impl2; [|apply thread_Forall2]. intros d a (j & ->). apply decl_size. }
  rewrite <- flat_map_length in H. unfold source_tokens. repeat (cbn [List.length]; rewrite app_length). lia.
Qed.
Lemma files_size texts ls : Forall2 (fun l text => bytes text /\ l <> [] /\ forallb wf_source l = true /\ written text (flat_map source_tokens l)) ls texts ->
  (sum (map size (fst (thread read_source (concat ls) 0))) <= List.length (concat texts))%nat.
Proof.
  intros F. assert (H : (sum (map size (fst (thread read_source (concat ls) 0))) <= sum (map (fun s => List.length (source_tokens s)) (concat ls)))%nat).
  { apply Forall2_sum. eapply Forall2_impl2; [|apply thread_Forall2]. intros s m (j & ->). apply source_size. }
  eapply Nat.le_trans; [exact H|]. clear H. induction F as [|l text ls texts (_ & _ & _ & W) F IH]; [constructor|]. cbn [concat]. rewrite map_app, sum_app, app_length, <- flat_map_length. apply written_length in W. lia.
Qed.
(** ** Names *)
Lemma literal_ok t k p : default_ok t p = true -> literal (fst (read_ty t k)) (default_of p) = true.
Proof.
  intros H. destruct p as [| |[]]; cbn [default_of read_single literal]; try (destruct (fst (read_ty t k)); reflexivity). cbn [default_ok] in H.
  assert (E : exists l b, fst (read_ty t k) = TEnumerated l b); [|destruct E as (l & b & ->); reflexivity]. clear x. induction t; try discriminate H; cbn [read_ty fst]; [eauto|auto].
Qed.
Lemma read_own M t : forall inside k, own_names M inside t = true -> own M inside (fst (read_ty t k)) = true.
Proof.
  induction t as [k0| | |r m|root more IH1 IH2|set root more IH1 IH2|set size name t IH|c n m t IH|m x|x t IH| |t c IH] using ty_induct; intros inside k H; try reflexivity.
  - cbn [own_names] in H. apply andb_prop in H as (H1 & H2). assert (H3 : forallb (fun e : string * ParserSource.ty => own_names M inside (snd e)) (additions more) = true) by (destruct more; [exact H2|reflexivity]).
    destruct (read_choice root more k) as (n1 & ->). cbn [own]. rewrite forallb_app.
    assert (K : forall l n, Forall (fun e : string * ParserSource.ty => forall inside k, own_names M inside (snd e) = true -> own M inside (fst (read_ty (snd e) k)) = true) l -> forallb (fun e => own_names M inside (snd e)) l = true -> forallb (fun e => own M inside (snd e)) (fst (thread read_named l n)) = true).
    { clear. intros l n F H. apply forallb_Forall in H. pose proof (thread_Forall2 read_named l n) as G. induction G as [|[x t] y l l' (j & ->) G IH]; [reflexivity|]. inversion F as [|? ? F1 F2]; inversion H as [|? ? Q1 Q2]; subst. cbn [forallb]. rewrite (IH F2 Q2), andb_true_r. unfold read_named. cbn [fst snd] in *. specialize (F1 _ j Q1). destruct (read_ty t j). exact F1. }
    rewrite (K _ _ IH2 H3), (K _ _ IH1 H1). reflexivity.
  - cbn [own_names] in H. destruct (read_record set root more k) as (n1 & n2 & ->). cbn [own]. rewrite !forallb_app.
    assert (K : forall l n, Forall (in_comp (fun t => forall inside k, own_names M inside t = true -> own M inside (fst (read_ty t k)) = true)) l -> forallb (fun c => match c with CNamed _ t p | CAnonymous t p => own_names M true t && default_ok t p | COf t => own_names M true t end) l = true ->
      forallb (fun c => match c with Comp _ u _ d _ => own M true u && literal u d end) (fst (thread read_comp l n)) = true).
    { clear. intros l n F H. apply forallb_Forall in H. pose proof (thread_Forall2 read_comp l n) as G. induction G as [|c y l l' (j & ->) G IH]; [reflexivity|]. inversion F as [|? ? F1 F2]; inversion H as [|? ? Q1 Q2]; subst. cbn [forallb]. rewrite (IH F2 Q2), andb_true_r.
      destruct c as [x t p|t p|t]; cbn [read_comp in_comp] in *; [apply andb_prop in Q1 as (Q1 & H3); specialize (F1 true j Q1); pose proof (literal_ok t j p H3) as L; destruct (read_ty t j); cbn [fst] in *; rewrite F1, L; reflexivity..|]. destruct (read_ty t j). reflexivity. }
    apply andb_prop in H as (H1 & H2). rewrite (K _ _ IH1 H1). destruct more as [[l [l2|]]|]; cbn [inserted] in *; [apply andb_prop in H2 as (H2 & H3); apply Forall_app in IH2 as (IH2 & IH3); rewrite (K _ _ IH2 H2), (K _ _ IH3 H3); reflexivity|rewrite (K _ _ IH2 H2); reflexivity|reflexivity].
  - specialize (IH inside k H). cbn [read_ty]. destruct (read_ty t k). exact IH.
  - specialize (IH inside k H). cbn [read_ty]. destruct (read_ty t k). exact IH.
  - destruct m; [exact H|reflexivity].
  - cbn [read_ty]. destruct (read_ty t k). reflexivity.
  - exact (IH inside k H).
Qed.
(** ** The tree of the sources *)
Theorem sources_accept l : well_named l -> no_tagged_references l -> none_implied l -> clean (fst (thread read_source l 0)) -> (forall s x fs, In s l -> ~ In (DClass x fs) (s_decls s)) -> well_defined l -> imports_exist l -> no_import_cycle l ->
  (Z.of_nat (sum (map size (fst (thread read_source l 0)))) < 2^31)%Z -> exists low, forall fuel, (low <= fuel)%nat -> exists tr', passes fuel (fst (thread read_source l 0)) = CompilerTree.Done tr'.
Proof.
  intros W T I C Cl [D1 D2] Ie (number & Ic) Z. set (tr := fst (thread read_source l 0)) in *. assert (Hn : map m_name tr = map s_name l) by apply tree_names.
  assert (S : forall m, In m tr -> exists s, In s l /\ module_of s m). { intros m Hm. destruct (Forall2_in_r _ _ _ _ (thread_Forall2 read_source l 0) Hm) as (s & Hs & k & ->). exists s. split; [exact Hs|]. exists k. reflexivity. }
  assert (Im : forall s m, module_of s m -> map i_module (m_imports m) = imported_modules s).
  { intros s m (k & ->). rewrite module_of_eq. cbn [m_imports]. unfold imported_modules. destruct (s_imports s) as [i|]; [|reflexivity]. cbn [additions]. rewrite map_map. apply map_ext. intros [[? ?] ?]. reflexivity. }
  assert (E : forall s m t k, In s l -> In m tr -> module_of s m -> (exists a, means l s t a /\ everywhere small_tags (default_tags s) a) -> exists n b, elab n tr m m (fst (read_ty t k)) = Some b).
  { intros s m t k Hs Hm Hsm (a & Ha & Hsmall). destruct (proj1 (elab_means l 0 W T I) s t a Ha Hs (ex_intro (fun md => everywhere small_tags md a) _ Hsmall)) as (n & H). exists n, a. apply H; assumption. }
  apply passes_accept; [exact C| | | |exact Z].
  - intros m M Hm HM. apply in_map_iff in Hm as (m0 & <- & Hm0). destruct (S m0 Hm0) as (s & Hs & Hsm). cbn [outline_module CompilerTree.m_imports] in HM. rewrite (Im s m0 Hsm) in HM. unfold TreeSpec.module_names. rewrite map_map. change (map (fun x => CompilerTree.m_name (outline_module x)) tr) with (map m_name tr). rewrite Hn. exact (Ie s M Hs HM).
  - exists number. intros m M Hm HM. apply in_map_iff in Hm as (m0 & <- & Hm0). destruct (S m0 Hm0) as (s & Hs & Hsm). cbn [outline_module CompilerTree.m_imports CompilerTree.m_name] in *. rewrite (Im s m0 Hsm) in HM. rewrite (module_of_name s m0 Hsm). exact (Ic s M Hs HM).
  - intros m a Hm Ha. destruct (S m Hm) as (s & Hs & Hsm). pose proof (module_of_name s m Hsm) as Nm. pose proof Hsm as (k & Ek). rewrite module_of_eq in Ek. unfold with_imports in Ha. apply in_app_or in Ha as [Ha|Ha].
    + rewrite Ek in Ha. cbn [m_assigns] in Ha. apply in_rev in Ha. destruct (Forall2_in_r _ _ _ _ (thread_Forall2 read_decl (s_decls s) k) Ha) as (d & Hd & j & ->). destruct d as [x ps t|x t v|x fs].
      * destruct ps as [|p ps]; [|left; cbn [read_decl]; pose proof (thread_Forall2 read_param (p :: ps) j) as G; destruct (thread read_param (p :: ps) j) as [q j1]; destruct (read_ty t j1); cbn [fst] in G; destruct q; [inversion G|reflexivity]].
        right. cbn [read_decl thread]. destruct (D1 s x t Hs (or_introl Hd)) as (O & M). pose proof (read_own _ _ _ j O) as O'. pose proof (E s m t j Hs Hm Hsm M) as El. destruct (read_ty t j) as [u j1]. cbn [fst] in *. split; [reflexivity|]. cbn [a_specific]. rewrite Nm. split; assumption.
      * right. cbn [read_decl]. destruct (D2 s x t v Hs Hd) as (O & V & M). pose proof (read_own _ _ _ j O) as O'. pose proof (E s m t j Hs Hm Hsm M) as El. destruct (read_ty t j) as [u j1]. cbn [fst] in *. split; [reflexivity|]. cbn [a_specific]. rewrite Nm. split; [exact O'|]. split; [|exact El].
        intros r. destruct v; cbn; try discriminate. destruct (V x0 eq_refl).
      * destruct (Cl s x fs Hs Hd).
    + right. apply in_flat_map in Ha as (i & Hi & Ha). apply in_map_iff in Ha as (x & <- & Hx). split; [reflexivity|]. cbn [a_specific].  rewrite Ek in Hi. cbn [m_imports] in Hi. destruct (s_imports s) as [is|] eqn:Es; [|destruct Hi]. apply in_map_iff in Hi as ([[names M] oid] & <- & Hi). cbn [read_import i_types i_module] in *.
      apply in_map_iff in Hx as ([b x'] & Ex & Hx). cbn in Ex. subst x'. apply filter_In in Hx as (Hx & Hb). cbn in Hb. subst b.
      destruct (D1 s x (YRef (Some M) x) Hs) as (O & Me); [right; exists is, names, M, oid; auto|]. split; [reflexivity|]. exact (E s m (YRef (Some M) x) 0%Z Hs Hm Hsm Me).
Qed.
