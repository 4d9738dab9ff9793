(** A check that modules are separate (HeaderSpec.v), for examples. *)
From Coq Require Import List String Ascii ZArith Bool Lia.
From Verif Require Import Base ParserTree HeaderSpec.
Import ListNotations.
Local Open Scope string_scope.
Local Open Scope list_scope.

Fixpoint subs (t : type) : list type :=
  t :: match t with
       | TRecord _ cs _ => flat_map (fun c => match c with Comp _ u _ _ _ => subs u end) cs
       | TChoice alts => flat_map (fun a => subs (snd a)) alts
       | TListOf _ _ u | TTagged _ _ u => subs u
       | _ => []
       end.
Lemma inside_subs u t : inside u t -> In u (subs t).
Proof.
  induction 1 as [t|set cs ext x u o d co t I H IH|alts x u t I H IH|set x u t H IH|g kw u t H IH].
  - destruct t; left; reflexivity.
  - right. apply in_flat_map. exists (Comp x u o d co). auto.
  - right. apply in_flat_map. exists (x, u). auto.
  - right. exact IH.
  - right. exact IH.
Qed.
Definition types_of (m : module) : list (string * type) := flat_map (fun a => match a_specific a with AType t => [(a_name a, t)] | _ => [] end) (m_assigns m).
Definition all_types (tr : list module) : list type := flat_map (fun m => flat_map (fun p => subs (snd p)) (types_of m)) tr.
Definition all_names (tr : list module) : list string := flat_map (fun m => map fst (types_of m)) tr.
Lemma assigned_types tr m x t : assigned tr m x t -> In m tr /\ In (x, t) (types_of m).
Proof. intros (H & ps & I). split; [exact H|]. unfold types_of. apply in_flat_map. eexists. split; [exact I|]. left. reflexivity. Qed.
Lemma occurs_types tr u : occurs tr u -> In u (all_types tr).
Proof. intros (m & x & t & A & I). apply assigned_types in A. destruct A as (A & B). apply in_flat_map. exists m. split; [exact A|]. apply in_flat_map. exists (x, t). split; [exact B|]. apply inside_subs, I. Qed.
Lemma name_types tr x : type_name tr x -> In x (all_names tr).
Proof. intros (m & t & A). apply assigned_types in A. destruct A as (A & B). apply in_flat_map. exists m. split; [exact A|]. apply (in_map fst _ _ B). Qed.

Fixpoint ends_with (s n : string) : bool := String.eqb n s || match n with "" => false | String _ r => ends_with s r end.
Lemma ends_with_app s p : ends_with s (p ++ s) = true.
Proof. induction p as [|c p IH]; cbn [append]; [destruct s; cbn [ends_with]; rewrite String.eqb_refl; reflexivity|]. cbn [ends_with]. rewrite IH. apply orb_true_r. Qed.
Definition made_up_b (n : string) : bool := String.eqb n "" || ends_with "Contained" n || ends_with "Values" n || ends_with "_" n.
Lemma made_up_check n : made_up_b n = false -> ~ made_up n.
Proof.
  unfold made_up_b. rewrite !orb_false_iff. intros (((A & B) & C) & D) [E|(p & [E|[E|E]])]; subst n; [discriminate| | |].
  - rewrite ends_with_app in B. discriminate.
  - rewrite ends_with_app in C. discriminate.
  - rewrite ends_with_app in D. discriminate.
Qed.
Definition in_b (x : string) (l : list string) : bool := existsb (String.eqb x) l.
Lemma in_check x l : in_b x l = false -> ~ In x l.
Proof. intros H I. assert (in_b x l = true); [|congruence]. apply existsb_exists. exists x. split; [exact I|apply String.eqb_refl]. Qed.
Fixpoint nodup_b (l : list string) : bool := match l with [] => true | x :: l => negb (in_b x l) && nodup_b l end.
Lemma nodup_check l : nodup_b l = true -> NoDup l.
Proof. induction l as [|x l IH]; intros H; constructor; apply andb_true_iff in H; destruct H as (A & B); [apply in_check, negb_true_iff, A|apply IH, B]. Qed.

Definition member_b (tr : list module) (x : string) (u : type) : bool := negb (made_up_b (capitalised x)) && (negb (is_list u) || negb (in_b (capitalised x) (all_names tr))).
Definition type_b (tr : list module) (t : type) : bool :=
  match t with
  | TRecord _ cs _ => forallb (fun c => match c with Comp x u _ _ _ => member_b tr x u end) cs
  | TChoice alts => negb (match alts with [] => true | _ => false end) && forallb (fun a => member_b tr (fst a) (snd a)) alts
  | TListOf _ (Some x) _ => negb (made_up_b (capitalised x))
  | TRef (Defined (Some N) x _) => forallb (fun m => String.eqb (m_name m) N || forallb (fun p => negb (String.eqb (fst p) x) || negb (is_list (snd p))) (types_of m)) tr
  | TSimple k => negb (untagged_time k)
  | _ => true
  end.
Definition separate_b (tr : list module) : bool :=
  forallb (fun m => nodup_b (map a_name (m_assigns m)) && forallb (fun a => match a_parameters a with [] => true | _ => false end) (m_assigns m)) tr &&
  forallb (fun x => negb (made_up_b x)) (all_names tr) &&
  forallb (type_b tr) (all_types tr) &&
  (Nat.eqb (length tr) 1 || forallb (fun m => forallb (fun p => negb (tagged_name (snd p))) (types_of m)) tr).
Lemma separate_check tr : separate_b tr = true -> separate tr.
Proof.
  unfold separate_b. rewrite !andb_true_iff, !forallb_forall. intros (((A & N) & B) & C).
  assert (TB : forall t, occurs tr t -> type_b tr t = true) by (intros t O; apply B, occurs_types, O).
  assert (MB : forall x u, member_named tr x u -> member_b tr x u = true).
  { intros x u [(set & cs & ext & o & d & co & O & I)|(alts & O & I)]; specialize (TB _ O); cbn in TB.
    - rewrite forallb_forall in TB. apply (TB _ I).
    - apply andb_true_iff in TB. destruct TB as (_ & TB). rewrite forallb_forall in TB. apply (TB _ I). }
  constructor.
  - intros m Hm. specialize (A m Hm). apply andb_true_iff in A. destruct A as (A1 & A2). split; [apply nodup_check, A1|]. rewrite forallb_forall in A2. intros a Ha. specialize (A2 a Ha). destruct (a_parameters a); [reflexivity|discriminate].
  - intros x Hx. apply made_up_check. apply name_types, N, negb_true_iff in Hx. exact Hx.
  - intros x u M. apply MB in M. unfold member_b in M. apply andb_true_iff in M. apply made_up_check, negb_true_iff, M.
  - intros set x u O. apply TB in O. cbn in O. apply made_up_check, negb_true_iff, O.
  - intros x u M L Hn. apply MB in M. unfold member_b in M. rewrite L in M. apply andb_true_iff in M. destruct M as (_ & M). cbn in M. apply negb_true_iff in M. apply (in_check _ _ M), name_types, Hn.
  - intros m n x ps u O As Ne. apply TB in O. cbn in O. rewrite forallb_forall in O. apply assigned_types in As. destruct As as (A1 & A2). specialize (O m A1). apply orb_true_iff in O.
    destruct O as [O|O]; [apply String.eqb_eq in O; congruence|]. rewrite forallb_forall in O. specialize (O _ A2). cbn in O. rewrite String.eqb_refl in O. cbn in O. apply negb_true_iff, O.
  - apply orb_true_iff in C. destruct C as [C|C]; [left; apply Nat.eqb_eq, C|right]. intros m x u As. apply assigned_types in As. destruct As as (A1 & A2). rewrite forallb_forall in C. specialize (C m A1). rewrite forallb_forall in C. specialize (C _ A2). apply negb_true_iff, C.
  - intros k O. apply TB in O. apply negb_true_iff, O.
  - intros O. apply TB in O. discriminate.
Qed.
