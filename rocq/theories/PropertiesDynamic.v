(** Recursive values on the heap: DynamicOptional and DynamicVariant (C64, C65, C74). *)
From Coq Require Import List Arith Bool Lia.
From Verif Require Import Dynamic DynamicSpec DynamicProofs DynamicSteps.
Import ListNotations.

(** * C64 *)
(** Whatever a caller does with optionals — including assigning one to itself, a part of it to itself and itself to a part of it — no
    freed or null memory is used, every variable contains what value semantics says, and the memory allocated is exactly
    that of the values the variables contain, each piece with one owner. *)
Theorem C64_dynamic_optional_owns_its_value : forall V (k : kind V) ops s,
  variant k = false -> effects k ops nothing = Some s -> exists st, run k ops start = Fine st /\ shows k st s /\ tidy k st.
Proof.
  intros V k ops s Hopt He. destruct (opt_run_ok k Hopt ops _ _ _ _ (start_rep k) He) as (st & F & Hr & HR). exists st. split; [exact Hr|]. eapply Rep_shows, HR.
Qed.
(** Nothing remains allocated when all variables are gone. *)
Theorem C64_dynamic_optional_no_leak : forall V (k : kind V) ops s st,
  variant k = false -> effects k ops nothing = Some s -> run k ops start = Fine st -> (forall x, s x = None) -> forall a c, ~ cell_at (mem st) a c.
Proof.
  intros V k ops s st Hopt He Hr Hs a c Hc. destruct (C64_dynamic_optional_owns_its_value V k ops s Hopt He) as (st' & Hr' & Hsh & Ht & _). assert (st' = st) as -> by congruence.
  destruct (proj1 (Ht a) (ex_intro _ c Hc)) as (x & o & Hx & _). specialize (Hsh x). rewrite Hs in Hsh. congruence.
Qed.
(** Changing a copy does not change what it was copied from. *)
Theorem C64_dynamic_optional_copies_independent : forall V (k : kind V) ops s st x y l d i w m v,
  variant k = false -> effects k ops nothing = Some s -> run k ops start = Fine st -> s x = Some l -> s y = None -> sub k l d = Some ((i, w) :: m) ->
  exists st' o o', run k [MakeCopy y (x, 0); SetValue (y, d) v] st = Fine st' /\ vars st' x = Some o /\ holds k (mem st') o l /\
    vars st' y = Some o' /\ holds k (mem st') o' (firstn d l ++ (i, v) :: m).
Proof.
  intros V k ops s st x y l d i w m v Hopt He Hr Hx Hy Hs. destruct (opt_run_ok k Hopt ops _ _ _ _ (start_rep k) He) as (st1 & F & Hr1 & HR). assert (st1 = st) as -> by congruence.
  assert (Hyx : Nat.eqb x y = false) by (apply Nat.eqb_neq; congruence).
  assert (He2 : effects k [MakeCopy y (x, 0); SetValue (y, d) v] s = Some (put_ (upd s y (Some l)) (y, d) ((i, v) :: m))).
  { cbn [effects effect]. rewrite Hy. unfold at_ at 1. cbn [fst snd]. rewrite Hx. destruct l as [|p l]; cbn [sub ifSome effects].
    - destruct d; discriminate Hs.
    - unfold at_. cbn [fst snd]. unfold upd at 1. rewrite Nat.eqb_refl, Hs. reflexivity. }
  destruct (opt_run_ok k Hopt _ _ _ _ _ HR He2) as (st2 & F2 & Hr2 & HR2). destruct (Rep_shows _ _ _ _ HR2) as (Hsh & _). pose proof (Hsh x) as Sx. pose proof (Hsh y) as Sy.
  unfold put_, upd in Sx, Sy. cbn [fst snd] in Sx, Sy. rewrite Hyx, Hx in Sx. rewrite !Nat.eqb_refl in Sy. destruct Sx as (o & Ho & Hh), Sy as (o' & Ho' & Hh'). eauto 8.
Qed.
(** A list of three, its tail assigned to itself, then the copy of it changed. *)
Definition lists : kind nat := Kind false (fun _ => true) 0.
Example C64_example : exists s st, effects lists [MakeFrom 0 0 1; Emplace (0, 1) 0 2; Emplace (0, 2) 0 3; MakeCopy 1 (0, 0); Copy (0, 0) (0, 0); Move (0, 0) (0, 1); SetValue (1, 2) 7] nothing = Some s /\
  s 0 = Some [(0, 2); (0, 3)] /\ s 1 = Some [(0, 1); (0, 2); (0, 7)] /\
  run lists [MakeFrom 0 0 1; Emplace (0, 1) 0 2; Emplace (0, 2) 0 3; MakeCopy 1 (0, 0); Copy (0, 0) (0, 0); Move (0, 0) (0, 1); SetValue (1, 2) 7] start = Fine st.
Proof. eexists _, _. split; [reflexivity|]. split; [reflexivity|]. split; [reflexivity|]. vm_compute. reflexivity. Qed.

(** * C65 *)
(** Variants: the same, for callers that do not copy a variant to itself, to a part of itself or from a part of it, do not copy one that
    was moved from, do not assign a value containing a variant, and whose constructors do not throw; alternative 0 not containing a
    variant. *)
Theorem C65_dynamic_variant_owns_its_value_partial : forall V (k : kind V) ops s,
  variant k = true -> nested k 0 = false -> effects k ops nothing = Some s -> all_careful k ops nothing ->
  exists st, run k ops start = Fine st /\ shows k st s /\ tidy k st.
Proof.
  intros V k ops s Hvar H0 He Hc. destruct (var_run_ok k Hvar H0 ops _ _ _ _ (start_rep k) He Hc) as (st & F & Hr & HR). exists st. split; [exact Hr|]. eapply Rep_shows, HR.
Qed.
Definition tree : kind nat := Kind true (fun i => Nat.eqb i 1) 0.
Example C65_example : exists s st, let ops := [MakeFrom 0 1 5; Emplace (0, 1) 1 6; MakeCopy 1 (0, 0); Move (1, 1) (0, 1); Swap (0, 0) (1, 0); Make 2; CopyValue (2, 0) (0, 2)] in
  effects tree ops nothing = Some s /\ all_careful tree ops nothing /\ s 0 = Some [(1, 5); (1, 6); (0, 0)] /\ s 1 = Some [(1, 5)] /\ s 2 = Some [(0, 0)] /\ run tree ops start = Fine st.
Proof.
  eexists _, _. cbv zeta. split; [reflexivity|]. split; [|split; [reflexivity|]; split; [reflexivity|]; split; [reflexivity|]; vm_compute; reflexivity].
  cbn. repeat split; try discriminate; try (eexists; split; [reflexivity|]; exact I). eexists _, _, _. split; reflexivity.
Qed.
(** Copy-assigning a variant to itself uses freed memory, or follows a null pointer, always. *)
Theorem C65_self_assignment_refuted : forall V (k : kind V) ops s st p m,
  variant k = true -> nested k 0 = false -> effects k ops nothing = Some s -> all_careful k ops nothing -> run k ops start = Fine st -> at_ k s p = Some m ->
  (exists s', effect k (Copy p p) s = Some s') /\ run k [Copy p p] st = UB.
Proof.
  intros V k ops s st [x d] m Hvar H0 He Hc Hr Hp. split; [cbn; rewrite Hp; eexists; reflexivity|].
  destruct (var_run_ok k Hvar H0 ops _ _ _ _ (start_rep k) He Hc) as (st1 & F & Hr1 & HR). assert (st1 = st) as -> by congruence. cbn [run]. unfold step. rewrite Hvar. rewrite (var_self_copy k _ _ _ _ _ _ Hvar HR Hp). reflexivity.
Qed.
(** [tree] has a moved-from variant copied, a variant assigned a part of itself, a constructor throwing before destruction: *)
Theorem C65_copy_of_moved_from_refuted : (exists s, effects tree [Make 0; MakeMove 1 (0, 0); MakeCopy 2 (0, 0)] nothing = Some s) /\ run tree [Make 0; MakeMove 1 (0, 0); MakeCopy 2 (0, 0)] start = UB.
Proof. split; [eexists; reflexivity|vm_compute; reflexivity]. Qed.
Theorem C65_assignment_of_part_refuted : (exists s, effects tree [MakeFrom 0 1 5; Copy (0, 0) (0, 1)] nothing = Some s) /\ run tree [MakeFrom 0 1 5; Copy (0, 0) (0, 1)] start = UB /\
  (exists s, effects tree [MakeFrom 0 1 5; Move (0, 0) (0, 1)] nothing = Some s) /\ run tree [MakeFrom 0 1 5; Move (0, 0) (0, 1)] start = UB.
Proof. split; [eexists; reflexivity|]. split; [vm_compute; reflexivity|]. split; [eexists; reflexivity|vm_compute; reflexivity]. Qed.
Theorem C65_throwing_constructor_refuted : (exists s, effects tree [Make 0; EmplaceThrows (0, 0) 1; Drop 0] nothing = Some s) /\ run tree [Make 0; EmplaceThrows (0, 0) 1; Drop 0] start = UB.
Proof. split; [eexists; reflexivity|vm_compute; reflexivity]. Qed.
(** Assigning an object to a variant takes what the object contains, though it was not given away: [v = t] moves from [t]. *)
Theorem C65_assignment_steals_refuted : exists s st l, effects tree [MakeFrom 0 1 5; Make 1; CopyValue (1, 0) (0, 0)] nothing = Some s /\ run tree [MakeFrom 0 1 5; Make 1; CopyValue (1, 0) (0, 0)] start = Fine st /\
  s 0 = Some [(1, 5); (0, 0)] /\ l = [(1, 5)] /\ (exists o, vars st 0 = Some o /\ holds tree (mem st) o l) /\ ~ shows tree st s.
Proof.
  eexists _, _, _. split; [reflexivity|]. split; [vm_compute; reflexivity|]. split; [reflexivity|]. split; [reflexivity|]. split.
  - eexists. split; [reflexivity|]. cbn. eapply h_node; [reflexivity|reflexivity|]. constructor.
  - intros H. specialize (H 0). cbn in H. destruct H as (o & Ho & Hh). injection Ho as <-. inversion Hh; subst. match goal with H : cell_at _ 1 _ |- _ => vm_compute in H; injection H as <- end.
    match goal with H : holds _ _ _ (default _) |- _ => inversion H end.
Qed.

(** * C74 *)
(** Two variables compare equal exactly if they contain the same, however deep; for variants, if neither was moved from. *)
Theorem C74_equality_is_deep_optional : forall V (k : kind V) eqv ops s st x y o o' l l', (forall a b, eqv a b = true <-> a = b) ->
  variant k = false -> effects k ops nothing = Some s -> run k ops start = Fine st -> vars st x = Some o -> vars st y = Some o' -> s x = Some l -> s y = Some l' ->
  exists b, equal k eqv (S (length l)) (mem st) o o' = Fine b /\ (b = true <-> l = l').
Proof.
  intros V k eqv ops s st x y o o' l l' Heqv Hopt He Hr Ho Ho' Hl Hl'. destruct (opt_run_ok k Hopt ops _ _ _ _ (start_rep k) He) as (st1 & F & Hr1 & (A & _)). assert (st1 = st) as -> by congruence.
  pose proof (A x) as Ax. pose proof (A y) as Ay. unfold var_ok in Ax, Ay. rewrite Hl in Ax. rewrite Hl' in Ay. destruct Ax as (o1 & E1 & C1), Ay as (o2 & E2 & C2).
  assert (o1 = o) as -> by congruence. assert (o2 = o') as -> by congruence. eapply equal_chain; try eassumption; try (intros E; congruence). lia.
Qed.
Theorem C74_equality_is_deep_variant_partial : forall V (k : kind V) eqv ops s st x y o o' l l', (forall a b, eqv a b = true <-> a = b) ->
  variant k = true -> nested k 0 = false -> effects k ops nothing = Some s -> all_careful k ops nothing -> run k ops start = Fine st ->
  vars st x = Some o -> vars st y = Some o' -> s x = Some l -> s y = Some l' -> whole k l -> whole k l' ->
  exists b, equal k eqv (S (length l)) (mem st) o o' = Fine b /\ (b = true <-> l = l').
Proof.
  intros V k eqv ops s st x y o o' l l' Heqv Hvar H0 He Hc Hr Ho Ho' Hl Hl' W W'. destruct (var_run_ok k Hvar H0 ops _ _ _ _ (start_rep k) He Hc) as (st1 & F & Hr1 & (A & _)). assert (st1 = st) as -> by congruence.
  pose proof (A x) as Ax. pose proof (A y) as Ay. unfold var_ok in Ax, Ay. rewrite Hl in Ax. rewrite Hl' in Ay. destruct Ax as (o1 & E1 & C1), Ay as (o2 & E2 & C2).
  assert (o1 = o) as -> by congruence. assert (o2 = o') as -> by congruence. eapply equal_chain; try eassumption; try (intros E; assumption). lia.
Qed.
(** Comparing with a moved-from variant of the same alternative follows a null pointer. *)
Theorem C74_comparing_moved_from_refuted : exists st o, run tree [Make 0; MakeMove 1 (0, 0)] start = Fine st /\ vars st 0 = Some o /\ equal tree Nat.eqb 9 (mem st) o o = UB.
Proof. eexists _, _. split; [reflexivity|]. split; [reflexivity|]. vm_compute. reflexivity. Qed.
(** Of two variants with different alternatives, that of the earlier alternative is less; one without value is less than every other. *)
Theorem C74_alternatives_in_order : forall V (k : kind V) (eqv : V -> V -> bool) fuel h a b, o_index a <> o_index b ->
  less k eqv fuel h a b = Fine (match o_index a, o_index b with None, _ => true | Some _, None => false | Some i, Some j => (i <? j)%nat end).
Proof.
  intros V k eqv fuel h a b H. unfold less. destruct (o_index a) as [i|], (o_index b) as [j|]; try reflexivity; [|congruence]. destruct (Nat.eqb_spec i j) as [->|N]; [congruence|]. f_equal.
  destruct (Nat.ltb_spec i j), (Nat.ltb_spec (i + 1) (j + 1)); lia || reflexivity.
Qed.
(** A variant that was not moved from is less than itself: operator< compares values of one alternative with ==. *)
Theorem C74_less_is_not_an_order_refuted : forall V (k : kind V) eqv ops s st x o l, (forall a b, eqv a b = true <-> a = b) ->
  variant k = true -> nested k 0 = false -> effects k ops nothing = Some s -> all_careful k ops nothing -> run k ops start = Fine st ->
  vars st x = Some o -> s x = Some l -> whole k l -> less k eqv (S (length l)) (mem st) o o = Fine true.
Proof.
  intros V k eqv ops s st x o l Heqv Hvar H0 He Hc Hr Ho Hl W.
  destruct (C74_equality_is_deep_variant_partial V k eqv ops s st x x o o l l Heqv Hvar H0 He Hc Hr Ho Ho Hl Hl W W) as (b & Hb & Hiff). assert (b = true) as -> by (apply Hiff; reflexivity).
  unfold less. destruct (o_index o) as [i|] eqn:Ei; [rewrite Nat.eqb_refl; exact Hb|]. cbn [equal] in Hb. rewrite Hvar, Ei in Hb. discriminate.
Qed.
(** And 1 is not less than 2. *)
Theorem C74_less_misses_refuted : exists st o o', run tree [MakeFrom 0 0 1; MakeFrom 1 0 2] start = Fine st /\ vars st 0 = Some o /\ vars st 1 = Some o' /\ less tree Nat.eqb 9 (mem st) o o' = Fine false.
Proof. eexists _, _, _. split; [reflexivity|]. split; [reflexivity|]. split; [reflexivity|]. vm_compute. reflexivity. Qed.
