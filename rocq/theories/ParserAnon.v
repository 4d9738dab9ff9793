(** The names of components: those in the text, and those the compiler makes up. *)
From Coq Require Import List String Ascii ZArith Bool Lia.
From Verif Require Import Base CompilerNames Lexer ParserTree ParserSource.
Import ListNotations.
Local Open Scope nat_scope.
Local Open Scope string_scope.
Local Open Scope list_scope.

(** The names of all components in a tree. *)
Fixpoint type_names (t : type) : list string :=
  match t with
  | TChoice l => flat_map (fun e => type_names (snd e)) l
  | TRecord _ cs _ => flat_map component_names cs
  | TListOf _ _ t | TTagged _ _ t => type_names t
  | TRef (Defined _ _ ps) => flat_map type_names ps
  | _ => []
  end
with component_names (c : component) : list string :=
  match c with Comp x t _ _ None => x :: type_names t | Comp _ _ _ _ (Some t) => type_names t end.
Definition option_names (o : option type) : list string := match o with Some t => type_names t | None => [] end.
Definition assignment_names (a : assignment) : list string :=
  flat_map (fun p => option_names (p_governor p)) (a_parameters a) ++
  match a_specific a with AType t | AValue t _ => type_names t | AClass fs => flat_map (fun f => option_names (f_type f)) fs | AObjectSet => [] end.
Definition module_names (m : module) : list string := flat_map assignment_names (m_assigns m).

(** The names of the components in the notation that have one. *)
Fixpoint given_names (t : ty) : list string :=
  match t with
  | YChoice root more => flat_map (fun e => given_names (snd e)) root ++ match more with Some l => flat_map (fun e => given_names (snd e)) l | None => [] end
  | YRecord _ root more => flat_map given_comp root ++ match more with
      | None => [] | Some (l, None) => flat_map given_comp l | Some (l, Some l2) => flat_map given_comp l ++ flat_map given_comp l2 end
  | YListOf _ _ _ t | YTagged _ _ _ t | YApply _ t | YWith t _ => given_names t
  | _ => []
  end
with given_comp (c : comp) : list string :=
  match c with CNamed x t _ => x :: given_names t | CAnonymous t _ | COf t => given_names t end.
Definition given_decl (d : decl) : list string :=
  match d with
  | DType _ ps t => flat_map (fun p => match p with PPlain _ => [] | PGoverned t _ => given_names t end) ps ++ given_names t
  | DValue _ t _ => given_names t
  | DClass _ fs => flat_map (fun f => match f with FType _ _ => [] | FValue _ t _ _ => given_names t end) fs
  end.
Definition given_source (m : source) : list string := flat_map given_decl (s_decls m).
(** The names of the numbers from [n] up to but not including [m]. *)
Definition made_names (n m : Z) : list string := map (fun i => anon_name (n + Z.of_nat i)) (seq 0 (Z.to_nat (m - n))).

Definition cnt (x : string) (l : list string) : nat := count_occ string_dec l x.
Lemma cnt_app x a b : cnt x (a ++ b) = cnt x a + cnt x b.
Proof. apply count_occ_app. Qed.
Lemma made_none n : made_names n n = [].
Proof. unfold made_names. rewrite Z.sub_diag. reflexivity. Qed.
Lemma made_shift n : forall k a b, map (fun i => anon_name (n + Z.of_nat i)) (seq (a + b) k) = map (fun i => anon_name (n + Z.of_nat a + Z.of_nat i)) (seq b k).
Proof. induction k as [|k IH]; intros a b; [reflexivity|]. cbn [seq map]. f_equal; [f_equal; lia|]. replace (S (a + b)) with (a + S b) by lia. apply IH. Qed.
Lemma made_app n m k : (n <= m <= k)%Z -> made_names n k = made_names n m ++ made_names m k.
Proof.
  intros H. unfold made_names. replace (Z.to_nat (k - n)) with (Z.to_nat (m - n) + Z.to_nat (k - m)) by lia. rewrite seq_app, map_app. f_equal.
  replace (0 + Z.to_nat (m - n)) with (Z.to_nat (m - n) + 0) by lia. rewrite made_shift. apply map_ext. intros i. f_equal. lia.
Qed.
Lemma made_one n : made_names n (n + 1) = [anon_name n].
Proof. unfold made_names. replace (Z.to_nat (n + 1 - n)) with 1 by lia. cbn. rewrite Z.add_0_r. reflexivity. Qed.

Definition counted {A} (r : A * Z) (n : Z) (names : A -> list string) (given : list string) : Prop :=
  (n <= snd r)%Z /\ forall x, cnt x (names (fst r)) = cnt x given + cnt x (made_names n (snd r)).
Lemma counted_same {A} (v : A) n names : names v = [] -> counted (v, n) n names [].
Proof. intros E. split; [cbn; lia|]. intros x. cbn [fst snd]. rewrite E, made_none. reflexivity. Qed.
Lemma counted_thread {A B} (f : A -> Z -> B * Z) names given l : Forall (fun a => forall n, counted (f a n) n names (given a)) l ->
  forall n, counted (thread f l n) n (flat_map names) (flat_map given l).
Proof.
  induction 1 as [|a l Ha Hl IH]; intros n; [apply counted_same; reflexivity|]. cbn [thread flat_map]. specialize (Ha n). destruct (f a n) as [y m]. destruct Ha as [L1 C1]. cbn [fst snd] in *.
  specialize (IH m). destruct (thread f l m) as [ys k]. destruct IH as [L2 C2]. cbn [fst snd] in *. split; cbn [fst snd]; [lia|]. intros x. cbn [flat_map]. rewrite !cnt_app, C1, C2, (made_app n m k), cnt_app by lia. lia.
Qed.
Section Ind.
  Variables (P : ty -> Prop) (Q : comp -> Prop).
  Definition opt_all {A} (R : A -> Prop) (o : option A) : Prop := match o with Some x => R x | None => True end.
  Definition all_opt {A} (R : A -> Prop) (f : forall x, R x) (o : option A) : opt_all R o := match o as o return opt_all R o with Some x => f x | None => I end.
  Definition more_all (m : list comp * option (list comp)) : Prop := Forall Q (fst m) /\ opt_all (Forall Q) (snd m).
  Definition hyp (t : ty) : Prop :=
    match t with
    | YChoice root more => Forall (fun e => P (snd e)) root /\ opt_all (Forall (fun e => P (snd e))) more
    | YRecord _ root more => Forall Q root /\ opt_all more_all more
    | YListOf _ _ _ t | YTagged _ _ _ t | YApply _ t | YWith t _ => P t
    | _ => True
    end.
  Hypothesis Ht : forall t, hyp t -> P t.
  Hypothesis Hk : forall c, match c with CNamed _ t _ | CAnonymous t _ | COf t => P t end -> Q c.
  Fixpoint ty_all (t : ty) : P t :=
    let all := fix all (l : list (string * ty)) : Forall (fun e => P (snd e)) l := match l with [] => Forall_nil _ | x :: l => Forall_cons x (ty_all (snd x)) (all l) end in
    let alls := fix alls (l : list comp) : Forall Q l := match l with [] => Forall_nil _ | x :: l => Forall_cons x (comp_all x) (alls l) end in
    Ht t match t as t return hyp t with
      | YChoice root more => conj (all root) (all_opt _ all more)
      | YRecord _ root more => conj (alls root) (all_opt _ (fun m => conj (alls (fst m)) (all_opt _ alls (snd m))) more)
      | YListOf _ _ _ t => ty_all t | YTagged _ _ _ t => ty_all t | YApply _ t => ty_all t | YWith t _ => ty_all t
      | _ => I
      end
  with comp_all (c : comp) : Q c := Hk c match c with CNamed _ t _ => ty_all t | CAnonymous t _ => ty_all t | COf t => ty_all t end.
End Ind.
Definition read_named (e : string * ty) (n : Z) : (string * type) * Z := let (u, n) := read_ty (snd e) n in ((fst e, u), n).
Definition read_ty_choice root more n : read_ty (YChoice root more) n =
  let (r, n) := thread read_named root n in let (m, n) := match more with Some l => thread read_named l n | None => ([], n) end in (TChoice (m ++ r), n) := eq_refl.
Definition ty_counted (t : ty) : Prop := forall n, counted (read_ty t n) n type_names (given_names t).
Definition comp_counted (c : comp) : Prop := forall n, counted (read_comp c n) n component_names (given_comp c).
Lemma named_counted l : Forall (fun e => ty_counted (snd e)) l -> forall n, counted (thread read_named l n) n (flat_map (fun e => type_names (snd e))) (flat_map (fun e => given_names (snd e)) l).
Proof.
  intros H. apply (counted_thread read_named (fun e => type_names (snd e)) (fun e => given_names (snd e))). eapply Forall_impl; [|exact H]. intros [y t] Ht n. specialize (Ht n). cbn [snd] in *. unfold read_named. cbn [fst snd].
  destruct (read_ty t n) as [u m]. exact Ht.
Qed.
Lemma comps_counted l : Forall comp_counted l -> forall n, counted (thread read_comp l n) n (flat_map component_names) (flat_map given_comp l).
Proof. intros H. apply counted_thread. exact H. Qed.
Lemma all_counted : forall t, ty_counted t.
Proof.
  apply (ty_all ty_counted comp_counted).
  - intros t H n. destruct t as [k|l|l|root more|root more|set root more|set size name t|cl x mode t|m x|x t|c fs|t c]; cbn [hyp] in H; try (apply counted_same; reflexivity).
    + destruct H as [H1 H2]. rewrite read_ty_choice. cbn [given_names]. pose proof (named_counted root H1 n) as C. destruct (thread read_named root n) as [r m]. destruct C as [L C].
      destruct more as [l|]; cbn [opt_all] in H2.
      * pose proof (named_counted l H2 m) as D. destruct (thread read_named l m) as [r2 k]. destruct D as [L2 D]. cbn [fst snd] in *. split; cbn [fst snd]; [lia|]. intros y. cbn [type_names]. rewrite flat_map_app, !cnt_app, C, D, (made_app n m k), cnt_app by lia. lia.
      * split; [exact L|]. intros y. cbn [fst snd type_names app] in *. rewrite app_nil_r. apply C.
    + destruct H as [H1 H2]. cbn [read_ty given_names]. pose proof (comps_counted root H1 n) as C. destruct (thread read_comp root n) as [r m]. destruct C as [L C]. cbn [fst snd] in *.
      destruct more as [[l o]|]; cbn [opt_all] in H2.
      * destruct H2 as [H2 H3]. cbn [fst snd] in *. pose proof (comps_counted l H2 m) as D. destruct (thread read_comp l m) as [r2 k]. destruct D as [L2 D]. cbn [fst snd] in *. destruct o as [l2|]; cbn [opt_all] in H3.
        -- pose proof (comps_counted l2 H3 k) as F. destruct (thread read_comp l2 k) as [r3 j]. destruct F as [L3 F]. cbn [fst snd] in *. split; cbn [fst snd]; [lia|]. intros y. cbn [type_names]. rewrite !flat_map_app, !cnt_app, C, D, F, (made_app n m j), (made_app m k j), !cnt_app by lia. lia.
        -- split; cbn [fst snd]; [lia|]. intros y. cbn [type_names]. rewrite app_nil_r, flat_map_app, !cnt_app, C, D, (made_app n m k), !cnt_app by lia. lia.
      * split; [exact L|]. intros y. cbn [fst snd type_names app]. rewrite !app_nil_r. apply C.
    + specialize (H n). cbn [read_ty given_names]. destruct (read_ty t n) as [u m]. exact H.
    + specialize (H n). cbn [read_ty given_names]. destruct (read_ty t n) as [u m]. exact H.
    + specialize (H n). cbn [read_ty given_names]. destruct (read_ty t n) as [u m]. destruct H as [L C]. split; [exact L|]. intros y. cbn [fst snd type_names flat_map]. rewrite app_nil_r. apply C.
    + exact (H n).
  - intros c H n. destruct c as [x t p|t p|t]; specialize (H n); cbn [read_comp given_comp]; destruct (read_ty t n) as [u m]; destruct H as [L C]; cbn [fst snd] in *.
    + split; [exact L|]. intros y. cbn [fst snd component_names cnt count_occ]. specialize (C y). unfold cnt in *. destruct (string_dec x y); lia.
    + split; cbn [fst snd]; [lia|]. intros y. cbn [component_names]. rewrite (made_app n m (m + 1)), made_one, cnt_app by lia. specialize (C y). unfold cnt in *. cbn [count_occ]. destruct (string_dec (anon_name m) y); lia.
    + split; [exact L|]. intros y. cbn [fst snd component_names]. apply C.
Qed.
Lemma param_counted p n : counted (read_param p n) n (fun p => option_names (p_governor p)) (match p with PPlain _ => [] | PGoverned t _ => given_names t end).
Proof. destruct p as [x|t s]; [apply counted_same; reflexivity|]. pose proof (all_counted t n) as H. cbn [read_param]. destruct (read_ty t n) as [u m]. exact H. Qed.
Lemma field_counted f n : counted (read_field f n) n (fun f => option_names (f_type f)) (match f with FType _ _ => [] | FValue _ t _ _ => given_names t end).
Proof. destruct f as [x o|x t u p]; [apply counted_same; reflexivity|]. pose proof (all_counted t n) as H. cbn [read_field]. destruct (read_ty t n) as [v m]. exact H. Qed.
Lemma decl_counted d n : counted (read_decl d n) n assignment_names (given_decl d).
Proof.
  destruct d as [x ps t|x t v|x fs]; cbn [read_decl given_decl].
  - pose proof (counted_thread read_param _ _ ps (proj2 (Forall_forall _ _) (fun p _ => param_counted p)) n) as C. destruct (thread read_param ps n) as [l m]. destruct C as [L C]. cbn [fst snd] in *.
    pose proof (all_counted t m) as D. destruct (read_ty t m) as [u k]. destruct D as [L2 D]. cbn [fst snd] in *. split; cbn [fst snd]; [lia|]. intros y. unfold assignment_names. cbn [a_parameters a_specific]. rewrite !cnt_app, C, D, (made_app n m k), cnt_app by lia. lia.
  - pose proof (all_counted t n) as D. destruct (read_ty t n) as [u m]. exact D.
  - pose proof (counted_thread read_field _ _ fs (proj2 (Forall_forall _ _) (fun f _ => field_counted f)) n) as C. destruct (thread read_field fs n) as [l m]. exact C.
Qed.
Lemma cnt_flat_rev {A} (f : A -> list string) x l : cnt x (flat_map f (rev l)) = cnt x (flat_map f l).
Proof. induction l as [|a l IH]; [reflexivity|]. cbn [rev flat_map]. rewrite flat_map_app, !cnt_app, IH. cbn [flat_map]. rewrite app_nil_r. lia. Qed.
Lemma source_counted m n : counted (read_source m n) n module_names (given_source m).
Proof.
  unfold read_source, given_source. pose proof (counted_thread read_decl _ _ (s_decls m) (proj2 (Forall_forall _ _) (fun d _ => decl_counted d)) n) as C. destruct (thread read_decl (s_decls m) n) as [l k]. destruct C as [L C]. cbn [fst snd] in *.
  split; [exact L|]. intros x. cbn [fst snd]. unfold module_names. cbn [m_assigns]. rewrite cnt_flat_rev. apply C.
Qed.
Theorem sources_counted l n : counted (thread read_source l n) n (flat_map module_names) (flat_map given_source l).
Proof. apply counted_thread, Forall_forall. intros m _. apply source_counted. Qed.
