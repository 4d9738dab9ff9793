(** The subset of the grammar (ParserSubset.v) by numbers, and the checks that LRComplete.v asks for. *)
From Coq Require Import List String ZArith NArith Bool FSets.FMapPositive Lia.
From Verif Require Import Base Parser LRSpec LRProofs LRComplete ParserTable ParserGrammar ParserTree ParserActions ParserFile ParserSubset ParserCert ParserValid.
Import ListNotations.
Local Open Scope string_scope.
Local Open Scope Z_scope.
Local Open Scope list_scope.

(** ** The subset *)
(** The restricted versions of symbols have the numbers 400, 401, ... *)
Definition sub_number (s : string) : Z := let n := number s in if n <? 0 then place s (map fst restricted) 400 else n.
Definition sub_list : list (Z * (Z * (Z * list Z))) := Eval vm_compute in
  map (fun k => match rules k with
    | Some (X, rhs) => (k, (k, (X, match find (fun c => fst c =? k) changed with Some (_, r) => map sub_number r | None => rhs end)))
    | None => (0, (0, (0, []))) end) (filter (fun k => negb (mem k dropped)) all_rules) ++
  map (fun p => (600 + Z.of_nat (fst p), let '(k, (X, r)) := snd p in (k, (sub_number X, map sub_number r)))) (combine (seq 0 (length added)) added).
Definition sub_map : PositiveMap.t (Z * (Z * list Z)) := Eval vm_compute in
  fold_left (fun m e => PositiveMap.add (Z.to_pos (fst e)) (snd e) m) sub_list (PositiveMap.empty _).
Definition sub_find (j : Z) : option (Z * (Z * list Z)) := match j with Zpos p => PositiveMap.find p sub_map | _ => None end.
Definition sub (j : Z) : option (Z * list Z) := option_map snd (sub_find j).
Definition base (j : Z) : Z := match sub_find j with Some (k, _) => k | None => 0 end.
(** The symbol that a symbol is a version of. *)
Definition proj (X : Z) : Z := if X <? 400 then X else match nth_error restricted (Z.to_nat (X - 400)) with Some (_, b) => number b | None => -1 end.
Definition bits (l : list Z) : N := fold_right (fun a m => N.setbit m (Z.to_N a)) 0%N l.
Definition forbidden_map : PositiveMap.t N := Eval vm_compute in
  fold_left (fun m e => PositiveMap.add (Z.to_pos (fst e)) (bits (map number (snd e))) m) not_before (PositiveMap.empty _).
Definition forbidden (j : Z) : N := match PositiveMap.find (Z.to_pos j) forbidden_map with Some m => m | None => 0%N end.
Definition member (a : Z) (m : N) : bool := (0 <=? a) && N.testbit m (Z.to_N a).
Definition allowed (j a : Z) : bool := negb (member a (forbidden j)).

(** ** Items *)
Definition key (j d : Z) : positive := Z.to_pos (16 * j + d + 1).
Definition m_sets : PositiveMap.t N := Eval vm_compute in map_of cert_sets.
Definition m_items : PositiveMap.t (PositiveMap.t N) := Eval vm_compute in
  map_of (map (fun l => fold_left (fun m (e : Z * Z * Z) => let '(j, d, i) := e in PositiveMap.add (key j d) (at_ m_sets 0%N i) m) l (PositiveMap.empty N)) cert_items).
Definition item (s j d : Z) : N := match PositiveMap.find (key j d) (at_ m_items (PositiveMap.empty N) s) with Some m => m | None => 0%N end.
Definition in_map (s j d : Z) : bool := PositiveMap.mem (key j d) (at_ m_items (PositiveMap.empty N) s).
(** The states and items that the certificate lists. *)
Definition has (s j : Z) (d : nat) (a : Z) : Prop := 0 <= s < nstates /\ 0 <= j /\ Z.of_nat d < 16 /\ in_map s j (Z.of_nat d) = true /\ member a (item s j (Z.of_nat d)) = true.
Definition m_first : PositiveMap.t N := Eval vm_compute in fold_left (fun m e => PositiveMap.add (Z.to_pos (fst e)) (snd e) m) cert_first (PositiveMap.empty N).
Definition m_nullable : PositiveMap.t unit := Eval vm_compute in fold_left (fun m x => PositiveMap.add (Z.to_pos x) tt m) cert_nullable (PositiveMap.empty unit).
Definition first_set (x : Z) : N := if x <? ntokens yy_tables then bits [x] else match PositiveMap.find (Z.to_pos x) m_first with Some m => m | None => 0%N end.
Definition first (x b : Z) : bool := member b (first_set x).
Definition nullable (x : Z) : bool := (ntokens yy_tables <=? x) && PositiveMap.mem (Z.to_pos x) m_nullable.

(** ** Sets *)
Definition subset (a b : N) : bool := N.eqb (N.ldiff a b) 0.
Lemma subset_member a b x : subset a b = true -> member x a = true -> member x b = true.
Proof.
  unfold subset, member. rewrite N.eqb_eq, !andb_true_iff. intros H [H1 H2]. split; [exact H1|]. assert (E : N.testbit (N.ldiff a b) (Z.to_N x) = false) by (rewrite H; apply N.bits_0).
  rewrite N.ldiff_spec, H2 in E. cbn in E. apply negb_false_iff in E. exact E.
Qed.
Lemma member_lor a b x : member x (N.lor a b) = member x a || member x b.
Proof. unfold member. rewrite N.lor_spec. destruct (0 <=? x); reflexivity. Qed.
Lemma member_ldiff a b x : member x (N.ldiff a b) = member x a && negb (member x b).
Proof. unfold member. rewrite N.ldiff_spec. destruct (0 <=? x); reflexivity. Qed.
Lemma member_single x : 0 <= x -> member x (bits [x]) = true.
Proof. intros H. unfold member, bits. cbn [fold_right]. rewrite N.setbit_eqb, N.eqb_refl. cbn. rewrite andb_true_r. lia. Qed.
(** ** Checks *)
Definition sub_ids : list Z := map fst sub_list.
Lemma sub_in j X rhs : sub j = Some (X, rhs) -> In j sub_ids /\ sub_find j = Some (base j, (X, rhs)).
Proof.
  unfold sub, base. intros H. destruct (sub_find j) as [[k e]|] eqn:E; [|discriminate]. cbn in H. injection H as ->. split; [|reflexivity].
  unfold sub_find in E. destruct j as [|p|p]; try discriminate.
  assert (C : forallb (fun e => mem (Zpos (fst e)) sub_ids) (PositiveMap.elements sub_map) = true) by (vm_compute; reflexivity).
  rewrite forallb_forall in C. apply PositiveMap.elements_correct in E. specialize (C _ E). apply mem_in in C. exact C.
Qed.
Lemma sub_check (P : Z -> Z * (Z * list Z) -> bool) : forallb (fun j => match sub_find j with Some e => P j e | None => true end) sub_ids = true ->
  forall j X rhs, sub j = Some (X, rhs) -> P j (base j, (X, rhs)) = true.
Proof. intros C j X rhs H. apply sub_in in H. destruct H as [H1 H2]. rewrite forallb_forall in C. specialize (C j H1). rewrite H2 in C. exact C. Qed.
Lemma sub_base_ok j X rhs : sub j = Some (X, rhs) -> get (t_r1 yy_tables) (base j) = Ok (proj X) /\ get (t_r2 yy_tables) (base j) = Ok (zlen rhs) /\ ntokens yy_tables <= X.
Proof.
  intros H. assert (C := sub_check (fun j e => same (get (t_r1 yy_tables) (fst e)) (proj (fst (snd e))) && same (get (t_r2 yy_tables) (fst e)) (zlen (snd (snd e))) && (ntokens yy_tables <=? fst (snd e)))).
  specialize (C ltac:(vm_compute; reflexivity) j X rhs H). cbn [fst snd] in C. rewrite !andb_true_iff, Z.leb_le in C. destruct C as [[C1 C2] C3]. split; [apply same_ok, C1|]. split; [apply same_ok, C2|exact C3].
Qed.
(** Each rule is a version of a rule of the grammar. *)
Lemma sub_rules j X rhs : sub j = Some (X, rhs) -> rules (base j) = Some (proj X, map proj rhs).
Proof.
  intros H. assert (C := sub_check (fun j e => match rules (fst e) with Some (Y, r) => (Y =? proj (fst (snd e))) && if list_eq_dec Z.eq_dec r (map proj (snd (snd e))) then true else false | None => false end)).
  specialize (C ltac:(vm_compute; reflexivity) j X rhs H). cbn [fst snd] in C. destruct (rules (base j)) as [[Y r]|]; [|discriminate]. rewrite andb_true_iff, Z.eqb_eq in C. destruct C as [-> C].
  destruct (list_eq_dec Z.eq_dec r (map proj rhs)) as [->|]; [reflexivity|discriminate].
Qed.
Fixpoint first_check (X : N) (rhs : list Z) : bool :=
  match rhs with [] => true | x :: rhs => subset (first_set x) X && (negb (nullable x) || first_check X rhs) end.
Lemma first_check_ok X : forall rhs i x b, first_check X rhs = true -> nth_error rhs i = Some x -> forallb nullable (firstn i rhs) = true -> member b (first_set x) = true -> member b X = true.
Proof.
  induction rhs as [|y rhs IH]; intros i x b C En Nl F; [destruct i; discriminate|]. cbn [first_check] in C. rewrite andb_true_iff in C. destruct C as [C1 C2].
  destruct i as [|i]; cbn [nth_error firstn forallb] in *; [injection En as ->; eapply subset_member; eassumption|].
  rewrite andb_true_iff in Nl. destruct Nl as [N1 N2]. rewrite N1 in C2. cbn in C2. eapply IH; eassumption.
Qed.
Lemma rule_first_ok j X rhs : sub j = Some (X, rhs) -> forall i x b, nth_error rhs i = Some x -> forallb nullable (firstn i rhs) = true -> first x b = true -> first X b = true.
Proof.
  intros H i x b En Nl F. assert (C := sub_check (fun j e => first_check (first_set (fst (snd e))) (snd (snd e)))). specialize (C ltac:(vm_compute; reflexivity) j X rhs H). cbn [fst snd] in C.
  unfold first in *. eapply first_check_ok; eassumption.
Qed.
Lemma rule_nullable_ok j X rhs : sub j = Some (X, rhs) -> forallb nullable rhs = true -> nullable X = true.
Proof.
  intros H Nl. assert (C := sub_check (fun j e => negb (forallb nullable (snd (snd e))) || nullable (fst (snd e)))). specialize (C ltac:(vm_compute; reflexivity) j X rhs H). cbn [fst snd] in C.
  rewrite Nl in C. exact C.
Qed.
Lemma first_token_ok a : 0 <= a < ntokens yy_tables -> first a a = true.
Proof. intros H. unfold first, first_set. destruct (Z.ltb_spec a (ntokens yy_tables)); [|lia]. apply member_single. lia. Qed.
(** The rules for a symbol. *)
Definition m_by : PositiveMap.t (list Z) := Eval vm_compute in
  fold_left (fun m (e : Z * (Z * (Z * list Z))) => let X := Z.to_pos (fst (snd (snd e))) in PositiveMap.add X (fst e :: match PositiveMap.find X m with Some l => l | None => [] end) m) sub_list (PositiveMap.empty _).
Definition rules_for (X : Z) : list Z := match PositiveMap.find (Z.to_pos X) m_by with Some l => l | None => [] end.
Lemma rules_for_ok j X rhs : sub j = Some (X, rhs) -> In j (rules_for X).
Proof. intros H. assert (C := sub_check (fun j e => mem j (rules_for (fst (snd e))))). specialize (C ltac:(vm_compute; reflexivity) j X rhs H). apply mem_in, C. Qed.
Fixpoint starts_set (xs : list Z) (m : N) : N := match xs with [] => m | x :: xs => N.lor (first_set x) (if nullable x then starts_set xs m else 0%N) end.
Lemma starts_set_ok m a b : member a m = true -> forall xs, starts first nullable xs a b -> member b (starts_set xs m) = true.
Proof.
  intros Ma. induction xs as [|x xs IH]; cbn [starts starts_set]; [intros <-; exact Ma|]. rewrite member_lor. intros [H|[H1 H2]]; [unfold first in H; rewrite H; reflexivity|].
  rewrite H1, (IH H2). apply orb_true_r.
Qed.
Definition looks_check (s a : Z) (p : decision -> bool) : bool :=
  negb (s =? final yy_tables) && match get (t_pact yy_tables) s with
  | Ok n => match (if n =? pact_ninf yy_tables then default_decision yy_tables s else decide yy_tables s n a) with Ok d => p d | _ => false end
  | _ => false end.
Lemma looks_check_ok s a p : looks_check s a p = true -> exists d, p d = true /\ looks yy_tables s a d.
Proof.
  unfold looks_check, looks. rewrite andb_true_iff, negb_true_iff, Z.eqb_neq. intros [N H]. destruct (get (t_pact yy_tables) s) as [n| |]; try discriminate.
  destruct (if n =? pact_ninf yy_tables then default_decision yy_tables s else decide yy_tables s n a) as [d| |] eqn:E; try discriminate.
  exists d. split; [exact H|]. split; [exact N|]. exists n. split; [reflexivity|]. destruct (n =? pact_ninf yy_tables); exact E.
Qed.
(** An item is in a state with at least the given set. *)
Definition advances (s j d : Z) (m : N) : bool := is_state s && (d <? 16) && in_map s j d && subset m (item s j d).
Definition every_token : N := Eval vm_compute in bits (upto (ntokens yy_tables)).
Definition item_check (s j d : Z) : bool :=
  let m := item s j d in
  match sub j with
  | None => false
  | Some (X, rhs) =>
      match nth_error rhs (Z.to_nat d) with
      | Some Y =>
          if Y <? ntokens yy_tables then (0 <=? Y) && looks_check s Y (fun dd => match dd with Shift s' => advances s' j (d + 1) m | _ => false end)
          else match lr_goto yy_tables s (proj Y) with Ok s' => advances s' j (d + 1) m | _ => false end &&
               let f := starts_set (skipn (S (Z.to_nat d)) rhs) m in
               forallb (fun j' => let r := N.ldiff f (forbidden j') in N.eqb r 0 || (in_map s j' 0 && subset r (item s j' 0))) (rules_for Y)
      | None => if j =? 1 then s =? final yy_tables else
                subset m every_token && forallb (fun a => negb (member a m) || looks_check s a (fun dd => match dd with Reduce k => k =? base j | _ => false end)) (upto (ntokens yy_tables))
      end
  end.
Lemma items_checked : forallb (fun s => forallb (fun e => item_check s ((Zpos (fst e) - 1) / 16) ((Zpos (fst e) - 1) mod 16)) (PositiveMap.elements (at_ m_items (PositiveMap.empty N) s))) (upto nstates) = true.
Proof. vm_compute. reflexivity. Qed.
Lemma has_check s j d a : has s j d a -> item_check s j (Z.of_nat d) = true.
Proof.
  intros (Hs & Hj & Hd & Hm & _). pose proof items_checked as C. rewrite forallb_forall in C. specialize (C s (in_upto s nstates Hs)). cbn beta in C. rewrite forallb_forall in C.
  unfold in_map in Hm. apply PositiveMap.mem_2 in Hm. destruct Hm as [m Hm]. apply PositiveMap.find_1 in Hm. apply PositiveMap.elements_correct in Hm. specialize (C _ Hm). cbn [fst] in C.
  unfold key in C. rewrite Z2Pos.id in C by lia. replace (16 * j + Z.of_nat d + 1 - 1) with (Z.of_nat d + j * 16) in C by lia.
  rewrite Z.div_add, Z.mod_add, Z.div_small, Z.mod_small in C by lia. exact C.
Qed.
Lemma advances_has s j d a m : advances s j (Z.of_nat d + 1) m = true -> 0 <= j -> member a m = true -> has s j (S d) a.
Proof.
  unfold advances, has. rewrite !andb_true_iff, Z.ltb_lt. intros (((H1 & H2) & H3) & H4) Hj Ma. replace (Z.of_nat (S d)) with (Z.of_nat d + 1) by lia.
  split; [apply is_state_ok, H1|]. split; [exact Hj|]. split; [exact H2|]. split; [exact H3|]. eapply subset_member; eassumption.
Qed.
Lemma sub_nonneg j X rhs : sub j = Some (X, rhs) -> 0 <= j.
Proof. intros H. destruct j; [lia|lia|discriminate H]. Qed.
Lemma has_closure_ok s j d a X rhs Y b j' rhs' : has s j d a -> sub j = Some (X, rhs) -> nth_error rhs d = Some Y ->
  starts first nullable (skipn (S d) rhs) a b -> sub j' = Some (Y, rhs') -> allowed j' b = true -> has s j' 0 b.
Proof.
  intros H E En St E' A. pose proof (has_check _ _ _ _ H) as C. destruct H as (Hs & Hj & Hd & Hm & Ha). unfold item_check in C. rewrite E, Nat2Z.id, En in C.
  destruct (sub_base_ok _ _ _ E') as (_ & _ & NY). destruct (Z.ltb_spec Y (ntokens yy_tables)); [lia|]. rewrite andb_true_iff in C. destruct C as [_ C].
  rewrite forallb_forall in C. specialize (C j' (rules_for_ok _ _ _ E')). cbv beta zeta in C.
  assert (M : member b (N.ldiff (starts_set (skipn (S d) rhs) (item s j (Z.of_nat d))) (forbidden j')) = true).
  { rewrite member_ldiff, (starts_set_ok _ _ _ Ha _ St). exact A. }
  rewrite orb_true_iff, andb_true_iff in C. destruct C as [C|[C1 C2]].
  - apply N.eqb_eq in C. rewrite C in M. unfold member in M. rewrite N.bits_0, andb_false_r in M. discriminate.
  - split; [exact Hs|]. split; [eapply sub_nonneg; eassumption|]. split; [reflexivity|]. split; [exact C1|]. eapply subset_member; eassumption.
Qed.
Lemma has_shift_ok s j d a X rhs b : has s j d a -> sub j = Some (X, rhs) -> nth_error rhs d = Some b -> 0 <= b < ntokens yy_tables ->
  exists s', looks yy_tables s b (Shift s') /\ has s' j (S d) a.
Proof.
  intros H E En Hb. pose proof (has_check _ _ _ _ H) as C. destruct H as (Hs & Hj & Hd & Hm & Ha). unfold item_check in C. rewrite E, Nat2Z.id, En in C.
  destruct (Z.ltb_spec b (ntokens yy_tables)); [|lia]. rewrite andb_true_iff in C. destruct C as [_ C]. apply looks_check_ok in C. destruct C as (dd & C & L).
  destruct dd; try discriminate. eexists. split; [exact L|]. eapply advances_has; eassumption.
Qed.
Lemma has_goto_ok s j d a X rhs Y : has s j d a -> sub j = Some (X, rhs) -> nth_error rhs d = Some Y -> ntokens yy_tables <= Y ->
  exists s', lr_goto yy_tables s (proj Y) = Ok s' /\ has s' j (S d) a.
Proof.
  intros H E En Hb. pose proof (has_check _ _ _ _ H) as C. destruct H as (Hs & Hj & Hd & Hm & Ha). unfold item_check in C. rewrite E, Nat2Z.id, En in C.
  destruct (Z.ltb_spec Y (ntokens yy_tables)); [lia|]. rewrite andb_true_iff in C. destruct C as [C _].
  destruct (lr_goto yy_tables s (proj Y)) as [s'| |]; try discriminate. exists s'. split; [reflexivity|]. eapply advances_has; eassumption.
Qed.
Lemma every_token_ok a : member a every_token = true -> 0 <= a < ntokens yy_tables.
Proof.
  unfold member. rewrite andb_true_iff, Z.leb_le. intros [H1 H2]. split; [exact H1|]. destruct (Z.lt_ge_cases a (ntokens yy_tables)) as [|G]; [assumption|].
  rewrite N.bits_above_log2 in H2; [discriminate|]. assert (E : (N.log2 every_token < Z.to_N (ntokens yy_tables))%N) by (vm_compute; reflexivity). lia.
Qed.
Lemma has_reduce_ok s j a X rhs : has s j (length rhs) a -> sub j = Some (X, rhs) -> j <> 1 -> looks yy_tables s a (Reduce (base j)).
Proof.
  intros H E N1. pose proof (has_check _ _ _ _ H) as C. destruct H as (Hs & Hj & Hd & Hm & Ha). unfold item_check in C. rewrite E, Nat2Z.id in C.
  rewrite (proj2 (nth_error_None rhs (length rhs))) in C by lia. destruct (Z.eqb_spec j 1); [contradiction|]. rewrite andb_true_iff, forallb_forall in C. destruct C as [C1 C2].
  pose proof (every_token_ok _ (subset_member _ _ _ C1 Ha)) as T. specialize (C2 a (in_upto _ _ T)). cbv beta in C2. rewrite Ha in C2. cbn [negb orb] in C2.
  apply looks_check_ok in C2. destruct C2 as (dd & C & L). destruct dd; try discriminate. apply Z.eqb_eq in C. subst. exact L.
Qed.
Lemma start_rule_is : sub 1 = Some (number "$accept", [START; 0]).
Proof. vm_compute. reflexivity. Qed.
Lemma no_start_ok j X rhs S0 rhs0 : sub j = Some (X, rhs) -> sub 1 = Some (S0, rhs0) -> ~ In S0 rhs.
Proof.
  intros E E0 I. rewrite start_rule_is in E0. injection E0 as <- <-.
  assert (C := sub_check (fun j e => negb (mem (number "$accept") (snd (snd e))))). specialize (C ltac:(vm_compute; reflexivity) j X rhs E). cbn [fst snd] in C.
  apply mem_in in I. rewrite I in C. discriminate.
Qed.
Lemma has_start_ok : has 0 1 0 0.
Proof. unfold has. split; [unfold nstates; lia|]. split; [lia|]. split; [reflexivity|]. split; vm_compute; reflexivity. Qed.
Lemma has_end_ok s a : has s 1 2 a -> s = final yy_tables.
Proof.
  intros H. pose proof (has_check _ _ _ _ H) as C. unfold item_check in C. rewrite start_rule_is in C. cbn [nth_error Z.to_nat Z.of_nat Pos.of_succ_nat Pos.to_nat Pos.iter_op Pos.succ Nat.add] in C.
  replace (1 =? 1) with true in C by reflexivity. apply Z.eqb_eq, C.
Qed.
(** ** Sentences of the subset are accepted *)
Definition sub_filtered := filtered semantic ParserTree.state (ntokens yy_tables) sub (sub_action semantic ParserTree.state perform base) allowed.
Theorem yy_accepts w st v st' ve i : sub_filtered START w 0 st v st' -> exists n, forall fuel, (n <= fuel)%nat ->
  run semantic ParserTree.state yy_tables perform nothing fuel (start semantic ParserTree.state nothing st (prefix semantic w (SToken 0 ve i))) = Ok (Accepted, st').
Proof.
  intros F. eapply (accepts semantic ParserTree.state yy_tables perform nothing sub base proj allowed 1 START first nullable first_token_ok rule_first_ok rule_nullable_ok has
    has_closure_ok has_shift_ok has_goto_ok has_reduce_ok sub_base_ok no_start_ok (ex_intro _ _ start_rule_is) has_start_ok has_end_ok); [reflexivity|exact F].
Qed.
