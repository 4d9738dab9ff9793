(** The checks of the tables that LRProofs.v asks for. *)
From Coq Require Import List String ZArith Bool FSets.FMapPositive Lia.
From Verif Require Import Base Parser LRSpec LRProofs ParserTable ParserGrammar ParserTree ParserActions ParserFile ParserCert.
Import ListNotations.
Local Open Scope string_scope.
Local Open Scope Z_scope.

(** ** Certificates as functions *)
Definition map_of {A} (l : list A) : PositiveMap.t A :=
  snd (fold_left (fun (a : positive * PositiveMap.t A) x => (Pos.succ (fst a), PositiveMap.add (fst a) x (snd a))) l (1%positive, PositiveMap.empty A)).
Definition at_ {A} (m : PositiveMap.t A) (d : A) (i : Z) : A :=
  if i <? 0 then d else match PositiveMap.find (Z.to_pos (i + 1)) m with Some x => x | None => d end.
Definition m_preds : PositiveMap.t (list Z) := Eval vm_compute in map_of cert_preds.
Definition m_R : PositiveMap.t Z := Eval vm_compute in map_of cert_R.
Definition m_Q : PositiveMap.t Z := Eval vm_compute in map_of cert_Q.
Definition m_stos : PositiveMap.t Z := Eval vm_compute in map_of yystos.
Definition preds : Z -> list Z := at_ m_preds [].
Definition stos : Z -> Z := at_ m_stos (-1).
Definition pot : Z -> Z := at_ m_R 0.
Definition level : Z -> Z := at_ m_Q 0.
Definition nstates : Z := 876.
Definition cost : Z := 10.
Definition mem (x : Z) (l : list Z) : bool := existsb (Z.eqb x) l.
Lemma mem_in x l : mem x l = true <-> In x l.
Proof. unfold mem. rewrite existsb_exists. split; [intros (y & H & E); apply Z.eqb_eq in E; subst; exact H|intros H; exists x; split; [exact H|apply Z.eqb_refl]]. Qed.
Definition upto (n : Z) : list Z := map Z.of_nat (seq 0 (Z.to_nat n)).
Lemma in_upto x n : 0 <= x < n -> In x (upto n).
Proof. intros H. unfold upto. apply in_map_iff. exists (Z.to_nat x). split; [lia|]. apply in_seq. lia. Qed.
Definition is_state (s : Z) : bool := (0 <=? s) && (s <? nstates).
Lemma is_state_ok s : is_state s = true -> LRProofs.state nstates s.
Proof. unfold is_state, LRProofs.state. rewrite andb_true_iff, Z.leb_le, Z.ltb_lt. tauto. Qed.

(** ** The tables *)
Fixpoint back_check (xs : list Z) (s X : Z) : bool :=
  match xs with
  | [] => match lr_goto yy_tables s X with Ok g => is_state g && mem s (preds g) && (stos g =? X) | _ => false end
  | x :: xs => negb (s =? 0) && (stos s =? x) && forallb (fun p => back_check xs p X) (preds s)
  end.
Lemma back_check_ok X : forall xs s, back_check xs s X = true -> back_ok yy_tables nstates preds stos xs s X.
Proof.
  induction xs as [|x xs IH]; intros s H; cbn in *.
  - destruct (lr_goto yy_tables s X) as [g| |]; try discriminate. rewrite !andb_true_iff in H. destruct H as [[H1 H2] H3].
    exists g. split; [reflexivity|]. split; [apply is_state_ok, H1|]. split; [apply mem_in, H2|apply Z.eqb_eq, H3].
  - rewrite !andb_true_iff, negb_true_iff, Z.eqb_neq, Z.eqb_eq, forallb_forall in H. destruct H as [[H1 H2] H3].
    split; [exact H1|]. split; [exact H2|]. intros p E. apply IH, H3, E.
Qed.
Definition same (r : res Z) (x : Z) : bool := match r with Ok y => y =? x | _ => false end.
Lemma same_ok r x : same r x = true -> r = Ok x.
Proof. destruct r; cbn; try discriminate. intros H. apply Z.eqb_eq in H. congruence. Qed.
Definition reduce_check (s k : Z) : bool :=
  match rules k with
  | Some (X, rhs) => same (get (t_r1 yy_tables) k) X && same (get (t_r2 yy_tables) k) (zlen rhs) && back_check (rev rhs) s X && (1 + sumR pot rhs <=? pot X)
  | None => false
  end.
Lemma reduce_check_ok s k : reduce_check s k = true -> reduce_ok yy_tables rules nstates preds stos pot s k.
Proof.
  unfold reduce_check, reduce_ok. destruct (rules k) as [[X rhs]|]; [|discriminate]. rewrite !andb_true_iff, Z.leb_le. intros [[[H1 H2] H3] H4].
  exists X, rhs. split; [reflexivity|]. split; [apply same_ok, H1|]. split; [apply same_ok, H2|]. split; [apply back_check_ok, H3|exact H4].
Qed.
(** The rules that a state reduces by. *)
Definition decisions (s n : Z) : list (res decision) := map (decide yy_tables s n) (upto (ntokens yy_tables)).
Definition rules_of (ds : list (res decision)) : list Z :=
  fold_right (fun d ks => match d with Ok (Reduce k) => if mem k ks then ks else k :: ks | _ => ks end) [] ds.
Lemma rules_of_in k ds : In (Ok (Reduce k)) ds -> In k (rules_of ds).
Proof.
  induction ds as [|d ds IH]; [intros []|]. unfold rules_of. cbn [In fold_right]. fold (rules_of ds). intros [->|H].
  - destruct (mem k (rules_of ds)) eqn:E; [apply mem_in, E|left; reflexivity].
  - specialize (IH H). destruct d as [[s'|k'|]| |]; try exact IH. destruct (mem k' (rules_of ds)); [exact IH|right; exact IH].
Qed.
Definition shift_check (s a : Z) (d : res decision) : bool :=
  match d with
  | Ok (Shift s') => is_state s' && mem s (preds s') && (stos s' =? a)
  | Ok _ => true
  | _ => false
  end.
Definition error_check (n : Z) : bool :=
  if (0 <=? n + 1) && (n + 1 <=? last_ yy_tables) then
    match get (t_check yy_tables) (n + 1) with
    | Ok c => negb (c =? 1) || match get (t_table yy_tables) (n + 1) with Ok y => negb (0 <? y) | _ => false end
    | _ => false
    end
  else true.
Definition state_check (s : Z) : bool :=
  match get (t_pact yy_tables) s with
  | Ok n =>
      if n =? pact_ninf yy_tables then
        (s =? final yy_tables) || match default_decision yy_tables s with Ok (Reduce k) => reduce_check s k | Ok Error => true | _ => false end
      else let ds := decisions s n in
           forallb (fun a => shift_check s a (decide yy_tables s n a)) (upto (ntokens yy_tables)) && forallb (reduce_check s) (rules_of ds) && error_check n
  | _ => false
  end.
Lemma state_check_ok s : state_check s = true -> state_ok yy_tables rules nstates preds stos pot s.
Proof.
  unfold state_check, state_ok. destruct (get (t_pact yy_tables) s) as [n| |]; try discriminate. intros H. exists n. split; [reflexivity|].
  destruct (n =? pact_ninf yy_tables).
  - apply orb_true_iff in H. destruct H as [H|H]; [left; apply Z.eqb_eq, H|right]. unfold decision_ok. destruct (default_decision yy_tables s) as [[s'|k|]| |]; try discriminate; [apply reduce_check_ok, H|exact I].
  - rewrite !andb_true_iff, !forallb_forall in H. destruct H as [[H1 H2] H3]. split.
    + intros a Ha. specialize (H1 a (in_upto _ _ Ha)). unfold decision_ok. destruct (decide yy_tables s n a) as [[s'|k|]| |] eqn:E; cbn in H1; try discriminate; [| |exact I].
      * rewrite !andb_true_iff in H1. destruct H1 as [[H4 H5] H6]. split; [apply is_state_ok, H4|]. split; [apply mem_in, H5|apply Z.eqb_eq, H6].
      * apply reduce_check_ok, H2, rules_of_in. unfold decisions. rewrite <- E. apply in_map, in_upto, Ha.
    + unfold error_check in H3. destruct ((0 <=? n + 1) && (n + 1 <=? last_ yy_tables)); [|exact I].
      destruct (get (t_check yy_tables) (n + 1)) as [c| |]; try discriminate. exists c. split; [reflexivity|]. rewrite orb_true_iff, negb_true_iff in H3. destruct H3 as [H3|H3]; [left; exact H3|right].
      destruct (get (t_table yy_tables) (n + 1)) as [y| |]; try discriminate. exists y. rewrite negb_true_iff in H3. auto.
Qed.
Lemma yy_states_ok : forall s, LRProofs.state nstates s -> state_ok yy_tables rules nstates preds stos pot s.
Proof.
  assert (H : forallb state_check (upto nstates) = true) by (vm_compute; reflexivity).
  intros s Hs. apply state_check_ok. rewrite forallb_forall in H. apply H, in_upto, Hs.
Qed.
Lemma yy_edges_ok : forall s s', LRProofs.state nstates s' -> edge preds s s' -> LRProofs.state nstates s /\ level s + pot (stos s') <= level s'.
Proof.
  assert (H : forallb (fun s' => forallb (fun s => is_state s && (level s + pot (stos s') <=? level s')) (preds s')) (upto nstates) = true) by (vm_compute; reflexivity).
  intros s s' Hs E. rewrite forallb_forall in H. specialize (H s' (in_upto _ _ Hs)). rewrite forallb_forall in H. specialize (H s E).
  rewrite andb_true_iff, Z.leb_le in H. split; [apply is_state_ok|]; apply H.
Qed.
Lemma yy_level_ok : forall s, LRProofs.state nstates s -> level s <= 0.
Proof.
  assert (H : forallb (fun s => level s <=? 0) (upto nstates) = true) by (vm_compute; reflexivity).
  intros s Hs. rewrite forallb_forall in H. apply Z.leb_le, H, in_upto, Hs.
Qed.
Lemma yy_pot_tokens : forall a, 0 <= a < ntokens yy_tables -> pot a = - cost.
Proof.
  assert (H : forallb (fun a => pot a =? - cost) (upto (ntokens yy_tables)) = true) by (vm_compute; reflexivity).
  intros a Ha. rewrite forallb_forall in H. apply Z.eqb_eq, H, in_upto, Ha.
Qed.
(** The start symbol. *)
Definition START : Z := number "ModuleDefinitionList".
Lemma yy_final_ok : final yy_tables <> 0 /\ stos (final yy_tables) = 0 /\
  forall s, edge preds s (final yy_tables) -> s <> 0 /\ stos s = START /\ forall p, edge preds p s -> p = 0.
Proof.
  split; [discriminate|]. split; [vm_compute; reflexivity|].
  assert (H : forallb (fun s => negb (s =? 0) && (stos s =? START) && forallb (fun p => p =? 0) (preds s)) (preds (final yy_tables)) = true) by (vm_compute; reflexivity).
  intros s E. rewrite forallb_forall in H. specialize (H s E). rewrite !andb_true_iff, negb_true_iff, Z.eqb_neq, Z.eqb_eq, forallb_forall in H.
  destruct H as [[H1 H2] H3]. split; [exact H1|]. split; [exact H2|]. intros p Ep. apply Z.eqb_eq, H3, Ep.
Qed.
Lemma yy_eof_final : forall s, LRProofs.state nstates s -> s <> 0 -> stos s = 0 -> s = final yy_tables.
Proof.
  assert (H : forallb (fun s => (s =? 0) || negb (stos s =? 0) || (s =? final yy_tables)) (upto nstates) = true) by (vm_compute; reflexivity).
  intros s Hs N E. rewrite forallb_forall in H. specialize (H s (in_upto _ _ Hs)). rewrite E in H. rewrite !orb_true_iff, Z.eqb_refl, !Z.eqb_eq in H. destruct H as [[H|H]|H]; [contradiction|discriminate|exact H].
Qed.

(** ** The rules *)
Lemma rules_range k X rhs : rules k = Some (X, rhs) -> 1 <= k <= 578.
Proof.
  unfold rules. destruct k as [|p|p]; try discriminate. intros E. destruct (Z_le_gt_dec (Zpos p) 578) as [L|G]; [lia|exfalso].
  assert (H : forallb (fun e => Zpos (fst e) <=? 578) (PositiveMap.elements numbered_map) = true) by (vm_compute; reflexivity).
  rewrite forallb_forall in H. apply PositiveMap.elements_correct in E. specialize (H _ E). cbn [fst] in H. lia.
Qed.
Definition all_rules : list Z := map (fun k => k + 1) (upto 578).
Lemma in_all_rules k : 1 <= k <= 578 -> In k all_rules.
Proof. intros H. unfold all_rules. apply in_map_iff. exists (k - 1). split; [lia|]. apply in_upto. lia. Qed.
Lemma yy_rules_lhs : forall k X rhs, rules k = Some (X, rhs) -> ntokens yy_tables <= X.
Proof.
  assert (H : forallb (fun k => match rules k with Some (X, _) => ntokens yy_tables <=? X | None => true end) all_rules = true) by (vm_compute; reflexivity).
  intros k X rhs E. rewrite forallb_forall in H. specialize (H k (in_all_rules _ (rules_range _ _ _ E))). rewrite E in H. apply Z.leb_le, H.
Qed.
(** ** The actions *)
Definition fits (a : Z) (v : semantic) : Prop := projT1 v = kind_of a.
Definition kinds_eqb (a b : list kind) : bool := if list_eq_dec kind_eq_dec a b then true else false.
Definition action_check (k : Z) : bool :=
  match rules k with
  | Some (X, rhs) =>
      match nth_error actions (Z.to_nat (k - 1)) with
      | Some (Action ks kd _) => kinds_eqb ks (map kind_of rhs) && if kind_eq_dec kd (kind_of X) then true else false
      | None => false
      end
  | None => true
  end.
Lemma apply_fits {R} ks : forall (f : function ks R) vs, Forall2 (fun k v => projT1 v = k) ks vs -> exists r, apply f vs = Some r.
Proof.
  induction ks as [|k ks IH]; intros f vs H; inversion H as [|? v ? vs' E H']; subst; cbn; [eauto|].
  unfold cast. destruct (kind_eq_dec (projT1 v) (projT1 v)) as [e|n]; [|contradiction]. apply IH, H'.
Qed.
Lemma yy_action_fits : forall k X rhs vs st, rules k = Some (X, rhs) -> Forall2 fits rhs vs ->
  exists v st', perform k vs st = Ok (v, st') /\ fits X v.
Proof.
  assert (H : forallb action_check all_rules = true) by (vm_compute; reflexivity).
  intros k X rhs vs st E F. rewrite forallb_forall in H. specialize (H k (in_all_rules _ (rules_range _ _ _ E))). unfold action_check in H. rewrite E in H.
  unfold perform. destruct (nth_error actions (Z.to_nat (k - 1))) as [[ks kd f]|]; [|discriminate].
  rewrite andb_true_iff in H. destruct H as [H1 H2]. unfold kinds_eqb in H1. destruct (list_eq_dec kind_eq_dec ks (map kind_of rhs)) as [Ek|]; [|discriminate].
  destruct (kind_eq_dec kd (kind_of X)) as [Ex|]; [|discriminate]. unfold act.
  destruct (apply_fits ks f vs) as [g Eg].
  { subst ks. clear - F. induction F as [|x v xs vs H F IH]; cbn; constructor; [exact H|exact IH]. }
  rewrite Eg. destruct (g st) as [v st'] eqn:Ev. exists (existT _ kd v), st'. split; [reflexivity|]. exact Ex.
Qed.
(** ** The result *)
Definition yy_parse_ok st0 input fuel := parse_ok semantic state yy_tables perform nothing rules nstates preds stos pot level cost
  yy_states_ok ltac:(split; vm_compute; congruence) yy_edges_ok yy_level_ok ltac:(vm_compute; congruence) yy_pot_tokens ltac:(vm_compute; congruence)
  START ltac:(intros q H; exact H) yy_final_ok ltac:(reflexivity) yy_rules_lhs yy_eof_final fits yy_action_fits st0 input fuel.
