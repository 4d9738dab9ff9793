(** Where the tree tells what has been written. *)
From Coq Require Import List String Ascii ZArith Bool Lia.
From Verif Require Import Base CompilerNames Lexer ParserTree ParserSource.
Import ListNotations.
Local Open Scope string_scope.
Local Open Scope list_scope.

(** Notation whose tree keeps everything: no constraints, no names for bits, no names of fields; no additions; numbers of tags fit in 31 bits;
    no components without a name; defaults are no words and no strings of bits or digits. *)
Definition octets (u : list Z) : bool := forallb (fun c => (0 <=? c) && (c <? 256))%Z u.
Definition exact_single (v : single) : bool :=
  match v with SBits _ | SHex _ | SWord _ => false | SText u | SReal u => octets u | _ => true end.
Definition exact_presence (p : presence) : bool := match p with Default v => exact_single v | _ => true end.
Fixpoint exact_ty (t : ty) : bool :=
  match t with
  | YSimple _ | YInteger _ | YRef _ _ => true
  | YBits _ | YField _ _ | YWith _ _ => false
  | YEnumerated _ more => match more with None | Some [] => true | _ => false end
  | YChoice root more => forallb (fun e => exact_ty (snd e)) root && match more with None => true | _ => false end
  | YRecord _ root more => forallb exact_comp root && match more with None | Some ([], None) => true | _ => false end
  | YListOf _ size _ t => match size with None => exact_ty t | Some _ => false end
  | YTagged _ n _ t => (0 <=? n)%Z && (n <? 2^31)%Z && exact_ty t
  | YApply _ t => exact_ty t
  end
with exact_comp (c : comp) : bool :=
  match c with CNamed _ t p => exact_ty t && exact_presence p | CAnonymous _ _ => false | COf t => exact_ty t end.

Section Ind.
  Variables (P : ty -> Prop) (Q : comp -> Prop).
  Definition all_hyp (l : list (string * ty)) : Prop := Forall (fun e => P (snd e)) l.
  Definition hyp (t : ty) : Prop :=
    match t with
    | YChoice root _ => all_hyp root
    | YRecord _ root _ => Forall Q root
    | YListOf _ _ _ t | YTagged _ _ _ t | YApply _ t => P t
    | _ => True
    end.
  Hypothesis Ht : forall t, hyp t -> P t.
  Hypothesis Hc : forall c, match c with CNamed _ t _ | CAnonymous t _ | COf t => P t end -> Q c.
  Fixpoint ty_exact_ind (t : ty) : P t :=
    let all := fix all (l : list (string * ty)) : Forall (fun e => P (snd e)) l := match l with [] => Forall_nil _ | x :: l => Forall_cons x (ty_exact_ind (snd x)) (all l) end in
    let alls := fix alls (l : list comp) : Forall Q l := match l with [] => Forall_nil _ | x :: l => Forall_cons x (comp_exact_ind x) (alls l) end in
    Ht t match t as t return hyp t with
      | YChoice root _ => all root
      | YRecord _ root _ => alls root
      | YListOf _ _ _ t => ty_exact_ind t | YTagged _ _ _ t => ty_exact_ind t | YApply _ t => ty_exact_ind t
      | _ => I
      end
  with comp_exact_ind (c : comp) : Q c := Hc c match c with CNamed _ t _ => ty_exact_ind t | CAnonymous t _ => ty_exact_ind t | COf t => ty_exact_ind t end.
End Ind.

Lemma string_of_inj u : forall w, octets u = true -> octets w = true -> string_of u = string_of w -> u = w.
Proof.
  induction u as [|c u IH]; intros [|d w] Hu Hw E; try reflexivity; try discriminate. cbn [string_of fold_right] in E. unfold octets in *. cbn [forallb] in *. rewrite !andb_true_iff in Hu, Hw.
  destruct Hu as [[C1 C2] Hu], Hw as [[D1 D2] Hw]. rewrite Z.leb_le in *. rewrite Z.ltb_lt in *. injection E as E1 E2. f_equal; [|apply IH; assumption].
  apply (f_equal N_of_ascii) in E1. rewrite !N_ascii_embedding in E1 by lia. lia.
Qed.
Lemma read_single_inj v v' : exact_single v = true -> exact_single v' = true -> read_single v = read_single v' -> v = v'.
Proof. destruct v, v'; cbn; intros H H' E; try discriminate; try (injection E as E); f_equal; auto using string_of_inj. Qed.
Lemma presence_inj p p' : exact_presence p = true -> exact_presence p' = true -> is_optional p = is_optional p' -> default_of p = default_of p' -> p = p'.
Proof. destruct p, p'; cbn; intros H H' E1 E2; try discriminate; auto. injection E2 as E2. f_equal. apply read_single_inj; auto. Qed.
Lemma to_int_small n : (0 <= n < 2^31)%Z -> to_int n = n.
Proof. intros H. unfold to_int. rewrite Z.mod_small; lia. Qed.

(** The tree of such notation. *)
Fixpoint tree_of (t : ty) : type :=
  match t with
  | YSimple k => TSimple k
  | YInteger l => TInteger l
  | YRef m x => TRef (Defined m x [])
  | YBits _ | YField _ _ | YWith _ _ => any_type
  | YEnumerated root more => TEnumerated root (match more with Some _ => true | None => false end)
  | YChoice root _ => TChoice (map (fun e => (fst e, tree_of (snd e))) root)
  | YRecord set root more => TRecord set (map tree_of_comp root) (match more with Some _ => true | None => false end)
  | YListOf set _ name t => TListOf set name (tree_of t)
  | YTagged c n mode t => TTagged (c, n) mode (tree_of t)
  | YApply x t => TRef (Defined None x [tree_of t])
  end
with tree_of_comp (c : comp) : component :=
  match c with
  | CNamed x t p => Comp x (tree_of t) (is_optional p) (default_of p) None
  | CAnonymous t p => Comp "" any_type false None None
  | COf t => Comp "" any_type false None (Some (tree_of t))
  end.
Lemma thread_map {A B} (f : A -> Z -> B * Z) (g : A -> B) l : Forall (fun x => forall n, f x n = (g x, n)) l -> forall n, thread f l n = (map g l, n).
Proof. induction 1 as [|x l Hx Hl IH]; intros n; cbn [thread map]; [reflexivity|]. rewrite Hx, IH. reflexivity. Qed.
Lemma and_all {A} (P Q : A -> Prop) (b : A -> bool) l : Forall P l -> forallb b l = true -> (forall x, P x -> b x = true -> Q x) -> Forall Q l.
Proof. intros H F I. rewrite forallb_forall in F. rewrite Forall_forall in *. auto. Qed.
Definition reads (t : ty) : Prop := exact_ty t = true -> forall n, read_ty t n = (tree_of t, n).
Definition comp_reads (c : comp) : Prop := exact_comp c = true -> forall n, read_comp c n = (tree_of_comp c, n).
Definition read_named (e : string * ty) (n : Z) : (string * type) * Z := let (u, n) := read_ty (snd e) n in ((fst e, u), n).
Definition read_ty_choice root more n : read_ty (YChoice root more) n =
  let (r, n) := thread read_named root n in let (m, n) := match more with Some l => thread read_named l n | None => ([], n) end in (TChoice (m ++ r), n) := eq_refl.
Lemma exact_reads : forall t, reads t.
Proof.
  apply (ty_exact_ind reads comp_reads).
  - intros t H X n. destruct t as [k|l|l|root more|root more|set root more|set size name t|cl x mode t|m x|x t|c fs|t c]; cbn [exact_ty] in X; try discriminate; try reflexivity; cbn [hyp] in H.
    + cbn. destruct more as [[|]|]; try discriminate; rewrite app_nil_r; reflexivity.
    + rewrite andb_true_iff in X. destruct X as [X M]. destruct more; [discriminate|]. rewrite read_ty_choice. rewrite (thread_map _ (fun e => (fst e, tree_of (snd e)))); [reflexivity|].
      eapply and_all; [exact H|exact X|]. intros [y u] Hu Xu m. unfold read_named. cbn [fst snd] in *. rewrite (Hu Xu). reflexivity.
    + rewrite andb_true_iff in X. destruct X as [X M]. assert (R : thread read_comp root n = (map tree_of_comp root, n)). { apply thread_map. eapply and_all; [exact H|exact X|]. intros c Hc Xc. exact (Hc Xc). }
      cbn [read_ty tree_of]. rewrite R. destruct more as [[[|] [|]]|]; try discriminate; cbn; rewrite !app_nil_r; reflexivity.
    + destruct size; [discriminate|]. cbn [read_ty tree_of]. rewrite (H X). reflexivity.
    + rewrite !andb_true_iff, Z.leb_le, Z.ltb_lt in X. destruct X as [X Xt]. cbn [read_ty tree_of]. rewrite (H Xt), to_int_small by lia. reflexivity.
    + cbn [read_ty tree_of]. rewrite (H X). reflexivity.
  - intros c H X n. destruct c as [x t p|t p|t]; cbn [exact_comp] in X; try discriminate.
    + rewrite andb_true_iff in X. cbn [read_comp tree_of_comp]. rewrite (H (proj1 X)). reflexivity.
    + cbn [read_comp tree_of_comp]. rewrite (H X). reflexivity.
Qed.
Definition inj (t : ty) : Prop := forall t', exact_ty t = true -> exact_ty t' = true -> tree_of t = tree_of t' -> t = t'.
Definition comp_inj (c : comp) : Prop := forall c', exact_comp c = true -> exact_comp c' = true -> tree_of_comp c = tree_of_comp c' -> c = c'.
Lemma map_inj {A B} (f : A -> B) (b : A -> bool) l : Forall (fun x => forall x', b x = true -> b x' = true -> f x = f x' -> x = x') l ->
  forall l', forallb b l = true -> forallb b l' = true -> map f l = map f l' -> l = l'.
Proof.
  induction 1 as [|x l Hx Hl IH]; intros [|x' l'] H0 H1 E; try discriminate; auto. cbn in *. rewrite andb_true_iff in *. injection E as E1 E2. f_equal; [apply Hx; tauto|apply IH; tauto].
Qed.
Lemma exact_injective : forall t, inj t.
Proof.
  apply (ty_exact_ind inj comp_inj).
  - intros t H t' X X' E. destruct t as [k|l|l|root more|root more|set root more|set size name t|cl x mode t|m x|x t|c fs|t c]; cbn [exact_ty] in X; try discriminate; cbn [hyp] in H;
    destruct t' as [k'|l'|l'|root' more'|root' more'|set' root' more'|set' size' name' t'|cl' x' mode' t'|m' x'|x' t'|c' fs'|t' c']; cbn [exact_ty] in X'; try discriminate; cbn [tree_of] in E; try discriminate.
    + injection E as ->. reflexivity.
    + injection E as ->. reflexivity.
    + injection E as -> E. destruct more as [[|]|], more' as [[|]|]; try discriminate; reflexivity.
    + injection E as E. rewrite andb_true_iff in X, X'. destruct X as [X M], X' as [X' M']. destruct more, more'; try discriminate. f_equal.
      eapply (map_inj _ (fun e => exact_ty (snd e))); [|exact X|exact X'|exact E]. eapply Forall_impl; [|exact H]. intros [y u] Hu [y' u'] B B' Eu. cbn [fst snd] in *. injection Eu as -> Eu. f_equal. apply Hu; assumption.
    + injection E as <- E E2. rewrite andb_true_iff in X, X'. destruct X as [X M], X' as [X' M']. assert (root = root') as <- by (eapply (map_inj _ exact_comp); [exact H|exact X|exact X'|exact E]).
      destruct more as [[[|] [|]]|], more' as [[[|] [|]]|]; try discriminate; reflexivity.
    + injection E as <- <- E. destruct size, size'; try discriminate. f_equal. apply H; assumption.
    + injection E as <- <- <- E. rewrite andb_true_iff in X, X'. f_equal. apply H; tauto.
    + injection E as <- <-. reflexivity.
    + injection E as <- E. f_equal. apply H; assumption.
  - intros c H c' X X' E. destruct c as [x t p|t p|t], c' as [x' t' p'|t' p'|t']; cbn [exact_comp] in X, X'; try discriminate; cbn [tree_of_comp] in E; try discriminate.
    + rewrite andb_true_iff in X, X'. injection E as <- E E2 E3. f_equal; [apply H; tauto|]. apply presence_inj; tauto.
    + injection E as E. f_equal. apply H; assumption.
Qed.
Theorem read_ty_injective t t' n n' : exact_ty t = true -> exact_ty t' = true -> fst (read_ty t n) = fst (read_ty t' n') -> t = t'.
Proof. intros X X' E. rewrite (exact_reads t X), (exact_reads t' X') in E. apply exact_injective; assumption. Qed.
(** Modules of assignments of such types, with their tagging written out and nothing imported or exported. *)
Definition exact_decl (d : decl) : bool := match d with DType _ [] t => exact_ty t | _ => false end.
Definition exact_source (m : source) : bool :=
  match s_oid m, s_tags m, s_implied m, s_exports m, s_imports m with [], Some _, false, None, None => forallb exact_decl (s_decls m) | _, _, _, _, _ => false end.
Definition tree_of_decl (d : decl) : assignment := match d with DType x _ t => Assign x (AType (tree_of t)) [] | _ => Assign "" AObjectSet [] end.
Definition tree_of_source (m : source) : module := Module (s_name m) (match s_tags m with Some t => t | None => Explicit end) [] (rev (map tree_of_decl (s_decls m))).
Lemma exact_decl_reads d n : exact_decl d = true -> read_decl d n = (tree_of_decl d, n).
Proof. destruct d as [x [|] t| |]; try discriminate. cbn [exact_decl]. intros X. cbn. rewrite (exact_reads t X). reflexivity. Qed.
Lemma exact_source_reads m n : exact_source m = true -> read_source m n = (tree_of_source m, n).
Proof.
  destruct m as [x oid tags im ex imp ds]. unfold exact_source, read_source, tree_of_source. cbn [s_oid s_tags s_implied s_exports s_imports s_decls s_name]. intros X.
  destruct oid, tags, im, ex, imp; try discriminate. rewrite (thread_map read_decl tree_of_decl); [reflexivity|]. rewrite forallb_forall in X. apply Forall_forall. intros d Hd k. apply exact_decl_reads, X, Hd.
Qed.
Lemma exact_decl_injective d d' : exact_decl d = true -> exact_decl d' = true -> tree_of_decl d = tree_of_decl d' -> d = d'.
Proof. destruct d as [x [|] t| |], d' as [x' [|] t'| |]; try discriminate. cbn. intros X X' E. injection E as <- E. f_equal. apply exact_injective; assumption. Qed.
Lemma exact_source_injective m m' : exact_source m = true -> exact_source m' = true -> tree_of_source m = tree_of_source m' -> m = m'.
Proof.
  destruct m as [x oid tags im ex imp ds], m' as [x' oid' tags' im' ex' imp' ds']. unfold exact_source, tree_of_source. cbn [s_oid s_tags s_implied s_exports s_imports s_decls s_name]. intros X X' E.
  destruct oid, tags, im, ex, imp; try discriminate. destruct oid', tags', im', ex', imp'; try discriminate. injection E as <- <- E. f_equal.
  apply (f_equal (@rev _)) in E. rewrite !rev_involutive in E. eapply (map_inj tree_of_decl exact_decl); [|exact X|exact X'|exact E]. apply Forall_forall. intros d _ d'. apply exact_decl_injective.
Qed.
Theorem sources_injective l l' n n' : forallb exact_source l = true -> forallb exact_source l' = true -> fst (thread read_source l n) = fst (thread read_source l' n') -> l = l'.
Proof.
  intros X X' E. assert (R : forall l, forallb exact_source l = true -> forall n, thread read_source l n = (map tree_of_source l, n)).
  { intros k K. apply thread_map. rewrite forallb_forall in K. apply Forall_forall. intros m Hm j. apply exact_source_reads, K, Hm. }
  rewrite (R l X), (R l' X') in E. eapply (map_inj tree_of_source exact_source); [|exact X|exact X'|exact E]. apply Forall_forall. intros m _ m'. apply exact_source_injective.
Qed.
