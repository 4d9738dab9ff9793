(** Finding the alternative of a DynamicVariant by its type (C134). *)
From Coq Require Import List Arith Bool Lia.
From Verif Require Import Dynamic DynamicSpec DynamicProofs DynamicSteps VariantTypes VariantTypesSpec VariantTypesProofs PropertiesDynamic.
Import ListNotations.

Section C134.
Context {T V : Type} (same_type : T -> T -> bool) (same_type_spec : forall a b, same_type a b = true <-> a = b).
Context (conversion : T -> T -> option nat).

(** holds_alternative<t> is true exactly if the object is a [t], if [t] is one of the alternatives once. *)
Theorem C134_holds_alternative : forall types (h : heap V) o t i u v, only_at t types i -> has_object types h o u v ->
  (holds_alternative same_type t types o = true <-> u = t).
Proof using same_type_spec.
  intros types h o t i u v Ht (j & a & n & -> & Hc & Hu). unfold holds_alternative. cbn. rewrite (only_at_index _ same_type_spec _ _ _ Ht), Nat.eqb_eq. rewrite <- (Ht j), Hu. split; congruence.
Qed.
(** get<t> gives the object if it is a [t], and throws BadVariantAccess if not; get_if<t> gives a pointer to it, or null. *)
Theorem C134_get : forall types (h : heap V) o t i u v, only_at t types i -> has_object types h o u v ->
  (u = t -> exists c, get_type same_type t types h o = Fine (Gives c) /\ get_if_type same_type t types h (Some o) = Fine (Some c) /\ c_val c = v /\ c_alt c = i) /\
  (u <> t -> get_type same_type t types h o = Fine Throws /\ get_if_type same_type t types h (Some o) = Fine None).
Proof using same_type_spec.
  intros types h o t i u v Ht Ho. pose proof (only_at_index _ same_type_spec _ _ _ Ht) as Ei. unfold get_type, get_if_type, get_if_index. rewrite Ei. split.
  - intros ->. destruct (value_as_object _ same_type_spec _ _ _ _ _ Ho) as (c & Hc & Hv & Hi). destruct (get_index_object _ same_type_spec _ _ _ _ _ Ho) as (i' & c' & Hi' & Hg & Hv' & Ha').
    destruct Ho as (j & a & n & -> & Hm & Hj). cbn in *. apply Ht in Hj. subst j. injection Hi' as <-. rewrite Nat.eqb_refl, Hg. exists c. cbn. rewrite Hc. cbn. injection Hi as Hi. split; [auto|].
    split; [|auto]. unfold get_index in Hg. cbn in Hg. rewrite Nat.eqb_refl, type_at_nth in Hg. cbn in Hg. rewrite (proj2 (Ht i) eq_refl), Hc in Hg. cbn in Hg. congruence.
  - intros Hu. destruct Ho as (j & a & n & -> & Hm & Hj). cbn. assert (Hji : j <> i) by (intros ->; rewrite (proj2 (Ht i) eq_refl) in Hj; congruence). apply Nat.eqb_neq in Hji. rewrite Hji. auto.
Qed.
(** No object is ever read as one of another type, whatever the alternatives: get<t> gives a [t] or throws. *)
Theorem C134_get_never_reinterprets : forall types (h : heap V) o t u v, has_object types h o u v ->
  get_type same_type t types h o = Fine Throws \/ u = t /\ exists c, get_type same_type t types h o = Fine (Gives c) /\ c_val c = v.
Proof using same_type_spec.
  intros types h o t u v Ho. unfold get_type. destruct Ho as (j & a & n & -> & Hm & Hj). cbn [o_index]. destruct (Nat.eqb j (index_of same_type t types)) eqn:E; cbn [negb]; [right|left; auto].
  apply Nat.eqb_eq in E. destruct (in_dec (fun x y => match same_type x y as b return same_type x y = b -> _ with true => fun e => left (proj1 (same_type_spec x y) e) | false => fun e => right (fun e' => Bool.diff_false_true (eq_trans (eq_sym e) (proj2 (same_type_spec x y) e'))) end eq_refl) t types) as [Hin | Hin].
  - pose proof (index_of_in _ same_type_spec _ _ Hin) as Hn. rewrite <- E, Hj in Hn. injection Hn as ->. split; [auto|].
    destruct (value_as_object same_type same_type_spec types h (Obj (Some j) (Some a)) t v) as (c & Hc & Hv & _); [exists j, a, n; auto|]. exists c. rewrite Hc. auto.
  - rewrite (index_of_out _ same_type_spec _ _ Hin) in E. exfalso. assert (j < length types) by (apply nth_error_Some; congruence). lia.
Qed.
(** A null pointer is given back as one. *)
Theorem C134_get_if_null : forall types (h : heap V) t, get_if_type same_type t types h None = Fine None.
Proof. reflexivity. Qed.
(** visit calls the visitor with the object, as the alternative it is; a variant without a value throws. *)
Theorem C134_visit : forall R (vis : nat -> cell V -> R) types (h : heap V) o u v, has_object types h o u v ->
  exists i c, o_index o = Some i /\ visit same_type vis types h o = Fine (Gives (vis i c)) /\ c_val c = v /\ c_alt c = i.
Proof using same_type_spec.
  intros R vis types h o u v Ho. apply (visit_impl_object same_type same_type_spec R vis types h o u v Ho). intros i Hi. destruct Ho as (j & a & n & -> & Hm & Hj). cbn in Hi. injection Hi as ->.
  assert (i < length types) by (apply nth_error_Some; congruence). lia.
Qed.
Theorem C134_visit_valueless : forall R (vis : nat -> cell V -> R) types (h : heap V) p, visit same_type vis types h (Obj None p) = Fine Throws.
Proof. intros. now apply visit_impl_none. Qed.

(** A variant without a value (a constructor threw: 490) holds no alternative, get throws and get_if gives null. *)
Theorem C134_valueless : forall types (h : heap V) t p, holds_alternative same_type t types (Obj None p) = false /\ get_type same_type t types h (Obj None p) = Fine Throws /\
  get_if_type same_type t types h (Some (Obj None p)) = Fine None.
Proof. repeat split. Qed.

(** A variant constructed from, or assigned, an argument of type [a]: it is accepted exactly if one alternative takes the argument better than all others and no other
    alternative has the same type, and then that alternative is made. *)
Theorem C134_converting : forall x p a types (v : V) o,
  (make_from same_type conversion x a types v = Some o <-> exists i t, best_match conversion a types i /\ only_at t types i /\ o = MakeFrom x i v) /\
  (assign_from same_type conversion p a types v = Some o <-> exists i t, best_match conversion a types i /\ only_at t types i /\ o = Emplace p i v).
Proof using same_type_spec.
  intros x p a types v o. unfold make_from, assign_from, accepted_type. destruct (accepted_index conversion a types) as [i|] eqn:Ea.
  - pose proof (proj1 (accepted_index_spec conversion _ _ _) Ea) as Hb. rewrite type_at_nth. destruct (accepted_index_lt _ _ _ _ Ea) as (t & Ht). rewrite Ht.
    assert (Hu : forall i', best_match conversion a types i' -> i' = i) by (intros i' Hi'; apply accepted_index_spec in Hi'; congruence).
    destruct (exactly_once same_type t types) eqn:Eo.
    + pose proof (proj1 (exactly_once_spec _ same_type_spec _ _) Eo) as Hon. assert (Ei : index_of same_type t types = i) by (symmetry; now apply Hon). rewrite Ei in *. split; split.
      * intros [= <-]. eauto 6.
      * intros (i' & t' & Hb' & _ & ->). now rewrite (Hu _ Hb').
      * intros [= <-]. eauto 6.
      * intros (i' & t' & Hb' & _ & ->). now rewrite (Hu _ Hb').
    + assert (Hno : forall i' t', best_match conversion a types i' -> only_at t' types i' -> False).
      { intros i' t' Hb' Hon'. rewrite (Hu _ Hb') in Hon'. assert (t' = t) by (pose proof (proj2 (Hon' i) eq_refl); congruence). subst t'. apply (only_at_exactly_once _ same_type_spec) in Hon' as (Hon' & _). congruence. }
      split; (split; [discriminate|]; intros (i' & t' & Hb' & Ht' & _); destruct (Hno _ _ Hb' Ht')).
  - split; (split; [discriminate|]; intros (i' & t' & Hb' & _); apply accepted_index_spec in Hb'; congruence).
Qed.
(** In-place construction of, and emplace<t>, make alternative [t], and compile exactly if it is one of the alternatives once.  (The conversion of a type to itself is better than all others.) *)
Theorem C134_in_place : (forall a b, conversion a b = Some 0 <-> a = b) -> forall x p t types (v : V) o,
  (make_in_place same_type x t types v = Some o <-> exists i, only_at t types i /\ o = MakeFrom x i v) /\
  (emplace_type same_type conversion p t types v = Some o <-> exists i, only_at t types i /\ o = Emplace p i v).
Proof using same_type_spec.
  intros Hid x p t types v o. unfold make_in_place, emplace_type. destruct (exactly_once same_type t types) eqn:Eo.
  - pose proof (proj1 (exactly_once_spec _ same_type_spec _ _) Eo) as Hon.
    assert (Hacc : accepted_index conversion t types = Some (index_of same_type t types)).
    { apply accepted_index_spec. exists t, 0. split; [now apply Hon|]. split; [now apply Hid|]. intros j h' r' Hne Hj Hr'. destruct r'; [|lia]. apply Hid in Hr'. subst h'. apply Hon in Hj. contradiction. }
    rewrite Hacc. split; split.
    + intros [= <-]. eauto.
    + intros (i & Hi & ->). now rewrite (only_at_index _ same_type_spec _ _ _ Hi).
    + intros [= <-]. eauto.
    + intros (i & Hi & ->). now rewrite (only_at_index _ same_type_spec _ _ _ Hi).
  - split; (split; [discriminate|]; intros (i & Hi & _); apply (only_at_exactly_once _ same_type_spec) in Hi as (Hi & _); congruence).
Qed.

Lemma holds_object (k : kind V) (types : list T) h o i v l t : holds k h o ((i, v) :: l) -> nth_error types i = Some t -> has_object types h o t v.
Proof. intros H Ht. inversion H; subst; eexists _, _, _; split; eauto. Qed.
(** So after any history of careful operations (C65) a variable that is then given a [t] by emplace<t> has that object, where get<t> finds it; and so has a variable constructed with a [t]. *)
Theorem C134_after_history : (forall a b, conversion a b = Some 0 <-> a = b) -> forall (k : kind V) ops s st x t types i v,
  variant k = true -> nested k 0 = false -> effects k ops nothing = Some s -> all_careful k ops nothing -> run k ops start = Fine st -> only_at t types i ->
  exists o st' b, (if match s x with Some _ => true | None => false end then emplace_type same_type conversion (x, 0) t types v else make_in_place same_type x t types v) = Some o /\
    run k [o] st = Fine st' /\ vars st' x = Some b /\ has_object types (mem st') b t v /\ exists c, get_type same_type t types (mem st') b = Fine (Gives c) /\ c_val c = v.
Proof using same_type_spec.
  intros Hid k ops s st x t types i v Hvar H0 He Hc Hr Ht. destruct (var_run_ok k Hvar H0 ops _ _ _ _ (start_rep k) He Hc) as (st1 & F & Hr1 & HR). assert (st1 = st) as -> by congruence.
  assert (Hop : exists o, (if match s x with Some _ => true | None => false end then emplace_type same_type conversion (x, 0) t types v else make_in_place same_type x t types v) = Some o /\
    exists s', effects k [o] s = Some s' /\ all_careful k [o] s /\ s' x = Some (made k i v)).
  { destruct (s x) as [l|] eqn:Ex.
    - exists (Emplace (x, 0) i v). split; [apply (C134_in_place Hid x); eauto|]. assert (Ha : at_ k s (x, 0) = Some l) by (unfold at_; cbn [fst snd]; rewrite Ex; destruct l as [|[] ?]; reflexivity). cbn [effects effect all_careful careful]. rewrite Ha. cbn [ifSome]. eexists. split; [reflexivity|]. split; [auto|]. unfold put_, upd. cbn. rewrite Nat.eqb_refl, Ex. reflexivity.
    - exists (MakeFrom x i v). split; [apply (C134_in_place Hid x (x, 0)); eauto|]. cbn. rewrite Ex. eexists. split; [reflexivity|]. split; [auto|]. unfold upd. now rewrite Nat.eqb_refl. }
  destruct Hop as (o & Ho & s' & He' & Hc' & Hx). destruct (var_run_ok k Hvar H0 _ _ _ _ _ HR He' Hc') as (st2 & F2 & Hr2 & HR2). destruct (Rep_shows _ _ _ _ HR2) as (Hsh & _). specialize (Hsh x). rewrite Hx in Hsh.
  destruct Hsh as (b & Hb & Hh). assert (Hobj : has_object types (mem st2) b t v) by (eapply holds_object; [exact Hh|now apply Ht]). exists o, st2, b. split; [auto|]. split; [auto|]. split; [auto|]. split; [auto|].
  destruct (C134_get types (mem st2) b t i t v Ht Hobj) as (Hg & _). destruct (Hg eq_refl) as (c & Hg' & _ & Hv & _). eauto.
Qed.

(** A type that is an alternative twice compiles for holds_alternative and get, but what the second one holds is not found. *)
Theorem C134_twice_refuted : forall types (h : heap V) t i j a n v, i < j -> nth_error types i = Some t -> nth_error types j = Some t -> nth_error h a = Some (Some (Cell j v n)) ->
  has_object types h (Obj (Some j) (Some a)) t v /\ holds_alternative same_type t types (Obj (Some j) (Some a)) = false /\ get_type same_type t types h (Obj (Some j) (Some a)) = Fine Throws.
Proof using same_type_spec.
  intros types h t i j a n v Hij Hi Hj Hc. split; [exists j, a, n; auto|]. pose proof (index_of_first _ same_type_spec _ _ _ Hi) as Hf. unfold holds_alternative, get_type. cbn.
  assert (Hne : Nat.eqb j (index_of same_type t types) = false) by (apply Nat.eqb_neq; lia). rewrite Hne. auto.
Qed.
End C134.

(** A variant that was moved from still says that it holds its alternative, but getting it follows a null pointer, as does visiting it. *)
Theorem C134_moved_from_refuted : exists st o, run tree [Make 0; MakeMove 1 (0, 0)] start = Fine st /\ vars st 0 = Some o /\
  holds_alternative Nat.eqb 7 [7; 8] o = true /\ get_type Nat.eqb 7 [7; 8] (mem st) o = UB /\ forall R (vis : nat -> cell nat -> R), visit Nat.eqb vis [7; 8] (mem st) o = UB.
Proof. eexists _, _. split; [vm_compute; reflexivity|]. split; [reflexivity|]. split; [reflexivity|]. split; [reflexivity|]. intros. reflexivity. Qed.

(** Some types of C++, and how they convert ([over.ics.rank]: 0 identity, 1 promotion, 2 standard conversion, 3 user-defined conversion). *)
Inductive cpp_type : Type := TBool | TInt | TString | TCString.
Definition cpp_same (a b : cpp_type) : bool :=
  match a, b with TBool, TBool | TInt, TInt | TString, TString | TCString, TCString => true | _, _ => false end.
Definition cpp_conversion (a b : cpp_type) : option nat :=
  match a, b with
  | TBool, TBool | TInt, TInt | TString, TString | TCString, TCString => Some 0
  | TBool, TInt => Some 1
  | TInt, TBool | TCString, TBool => Some 2
  | TCString, TString => Some 3
  | _, _ => None
  end.
Lemma cpp_same_spec : forall a b, cpp_same a b = true <-> a = b.
Proof. intros [] []; split; cbn; congruence. Qed.
(** variant<bool, int, string>: from an int, the int; from a string, the string; from text between quotes, the bool. *)
Example C134_example : (forall a b, cpp_conversion a b = Some 0 <-> a = b) /\ only_at TString [TBool; TInt; TString] 2 /\
  make_from cpp_same cpp_conversion 0 TInt [TBool; TInt; TString] 5 = Some (MakeFrom 0 1 5) /\
  make_from cpp_same cpp_conversion 0 TString [TBool; TInt; TString] 5 = Some (MakeFrom 0 2 5) /\
  make_from cpp_same cpp_conversion 0 TCString [TInt; TString] 5 = Some (MakeFrom 0 1 5) /\
  make_from cpp_same cpp_conversion 0 TString [TBool; TInt] 5 = None /\ make_from cpp_same cpp_conversion 0 TInt [TInt; TInt] 5 = None.
Proof. split; [intros [] []; cbn; split; congruence|]. split; [|repeat split; reflexivity]. intros [|[|[|j]]]; cbn; split; try congruence. all: destruct j; cbn; discriminate. Qed.
Theorem C134_text_makes_bool_refuted : make_from cpp_same cpp_conversion 0 TCString [TBool; TString] 5 = Some (MakeFrom 0 0 5).
Proof. reflexivity. Qed.
(** A history, then emplace<string>. *)
Example C134_history_example : exists st o st' b, run tree [Make 0; Make 1; Move (0, 0) (1, 0)] start = Fine st /\ emplace_type cpp_same cpp_conversion (1, 0) TString [TBool; TString] 9 = Some o /\
  run tree [o] st = Fine st' /\ vars st' 1 = Some b /\ has_object [TBool; TString] (mem st') b TString 9 /\ get_type cpp_same TBool [TBool; TString] (mem st') b = Fine Throws.
Proof.
  eexists _, _, _, _. split; [vm_compute; reflexivity|]. split; [reflexivity|]. split; [vm_compute; reflexivity|]. split; [reflexivity|]. split; [|vm_compute; reflexivity].
  eexists _, _, _. split; [reflexivity|]. split; reflexivity.
Qed.
