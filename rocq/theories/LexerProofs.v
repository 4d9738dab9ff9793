(** The generated automaton finds the longest match: derivatives of the rules, and a simulation that is checked by computation. *)
From Coq Require Import String Ascii List ZArith PArith FSets.FMapPositive Lia.
From Verif Require Import Base CompilerNames Lexer LexerTable LexerSpec.
Local Open Scope list_scope.
Local Open Scope nat_scope.

(** ** Derivatives *)
Fixpoint nullable (r : re) : bool :=
  match r with
  | RSet _ => false
  | REps | RStar _ => true
  | RSeq a b => nullable a && nullable b
  | RAlt a b => nullable a || nullable b
  end.
Definition rseq (a b : re) : re := match a with REps => b | _ => RSeq a b end.
Fixpoint pd (c : Z) (r : re) : list re :=
  match r with
  | RSet rs => if in_ranges c rs then [REps] else []
  | REps => []
  | RSeq a b => map (fun x => rseq x b) (pd c a) ++ (if nullable a then pd c b else [])
  | RAlt a b => pd c a ++ pd c b
  | RStar a => map (fun x => rseq x (RStar a)) (pd c a)
  end.
Lemma in_ranges_iff c rs : in_ranges c rs = true <-> in_set c rs.
Proof.
  unfold in_ranges, in_set. rewrite existsb_exists. split.
  - intros ([lo hi] & H & E). exists lo, hi. cbn in E. split; [exact H|lia].
  - intros (lo & hi & H & E). exists (lo, hi). cbn. split; [exact H|lia].
Qed.
Lemma nullable_iff r : nullable r = true <-> matches r [].
Proof.
  split.
  - induction r as [rs| |a IHa b IHb|a IHa b IHb|a IHa]; cbn; intros H; try discriminate.
    + constructor.
    + apply andb_prop in H. destruct H. change (@nil Z) with (@nil Z ++ []). constructor; auto.
    + apply orb_prop in H. destruct H; [apply m_left|apply m_right]; auto.
    + constructor.
  - intros H. remember (@nil Z) as w eqn:E. induction H as [c rs Hc| |a b v w H1 IH1 H2 IH2|a b w H IH|a b w H IH| |a v w H1 IH1 H2 IH2]; cbn; try discriminate; auto.
    + apply app_eq_nil in E. destruct E. rewrite IH1, IH2; auto.
    + rewrite IH; auto.
    + rewrite IH; auto. apply orb_true_r.
Qed.
Lemma rseq_iff a b w : matches (rseq a b) w <-> matches (RSeq a b) w.
Proof.
  destruct a; cbn [rseq]; try tauto. split; intros H.
  - change w with ([] ++ w). constructor; [constructor|exact H].
  - inversion H as [| |? ? v' w' H1 H2| | | |]; subst. inversion H1; subst. exact H2.
Qed.
Lemma pd_iff c : forall r w, matches r (c :: w) <-> exists r', In r' (pd c r) /\ matches r' w.
Proof.
  induction r as [rs| |a IHa b IHb|a IHa b IHb|a IHa]; intros w; cbn [pd].
  - split.
    + intros H. inversion H as [c' rs' Hc| | | | | |]; subst. apply in_ranges_iff in Hc. rewrite Hc. exists REps. split; [left; reflexivity|constructor].
    + intros (r' & Hr & Hm). destruct (in_ranges c rs) eqn:E; [|destruct Hr]. destruct Hr as [<-|[]]. inversion Hm; subst. constructor. apply in_ranges_iff, E.
  - split; [intros H; inversion H|intros (r' & [] & _)].
  - split.
    + intros H. inversion H as [| |? ? v' w' H1 H2 E1 E2| | | |]; subst. destruct v' as [|c' v']; cbn in E2.
      * subst w'. apply nullable_iff in H1. apply IHb in H2. destruct H2 as (r' & Hr & Hm). exists r'. rewrite H1. split; [apply in_or_app; right; exact Hr|exact Hm].
      * injection E2 as -> <-. apply IHa in H1. destruct H1 as (r' & Hr & Hm). exists (rseq r' b). split; [apply in_or_app; left; apply (in_map (fun x => rseq x b)), Hr|].
        apply rseq_iff. constructor; assumption.
    + intros (r' & Hr & Hm). apply in_app_or in Hr. destruct Hr as [Hr|Hr].
      * apply in_map_iff in Hr. destruct Hr as (x & <- & Hx). apply rseq_iff in Hm. inversion Hm as [| |? ? v' w' H1 H2| | | |]; subst.
        change (c :: v' ++ w') with ((c :: v') ++ w'). constructor; [|exact H2]. apply IHa. eauto.
      * destruct (nullable a) eqn:E; [|destruct Hr]. apply nullable_iff in E. change (c :: w) with ([] ++ c :: w). constructor; [exact E|]. apply IHb. eauto.
  - split.
    + intros H. inversion H as [| | |? ? ? H1|? ? ? H1| |]; subst; [apply IHa in H1|apply IHb in H1]; destruct H1 as (r' & Hr & Hm); exists r'; (split; [apply in_or_app; auto|exact Hm]).
    + intros (r' & Hr & Hm). apply in_app_or in Hr. destruct Hr as [Hr|Hr]; [apply m_left, IHa|apply m_right, IHb]; eauto.
  - split.
    + intros H. remember (c :: w) as u eqn:Eu. remember (RStar a) as s eqn:Es. revert Eu Es.
      induction H as [| | | | |a'|a' v u H1 _ H2 IH]; intros Eu Es; try discriminate. injection Es as ->. destruct v as [|c' v]; cbn in Eu; [apply IH; auto|].
      injection Eu as -> <-. apply IHa in H1. destruct H1 as (r' & Hr & Hm). exists (rseq r' (RStar a)).
      split; [apply (in_map (fun x => rseq x (RStar a))), Hr|]. apply rseq_iff. constructor; assumption.
    + intros (r' & Hr & Hm). apply in_map_iff in Hr. destruct Hr as (x & <- & Hx). apply rseq_iff in Hm. inversion Hm as [| |? ? v' w' H1 H2| | | |]; subst.
      change (c :: v' ++ w') with ((c :: v') ++ w'). constructor; [|exact H2]. apply IHa. eauto.
Qed.
(** ** Can a text go on? *)
Definition some_char (rs : list (Z * Z)) : bool := existsb (fun r => (0 <=? fst r)%Z && (fst r <=? snd r)%Z && (fst r <? 256)%Z) rs.
Fixpoint usable (r : re) : bool :=
  match r with
  | RSet rs => some_char rs
  | REps => true
  | RSeq a b | RAlt a b => usable a && usable b
  | RStar a => usable a
  end.
Fixpoint more (r : re) : bool :=
  match r with
  | RSet _ => true
  | REps => false
  | RSeq a b | RAlt a b => more a || more b
  | RStar a => more a
  end.
Lemma usable_matches r : usable r = true -> exists w, bytes w /\ matches r w.
Proof.
  induction r as [rs| |a IHa b IHb|a IHa b IHb|a IHa]; cbn [usable]; intros H.
  - unfold some_char in H. rewrite existsb_exists in H. destruct H as ([lo hi] & Hin & E). cbn in E. exists [lo]. split; [constructor; [unfold wf_byte; lia|constructor]|].
    constructor. exists lo, hi. split; [exact Hin|lia].
  - exists []. split; constructor.
  - apply andb_prop in H. destruct H as [H1 H2]. destruct (IHa H1) as (v & Bv & Mv), (IHb H2) as (w & Bw & Mw). exists (v ++ w). split; [apply Forall_app; auto|constructor; assumption].
  - apply andb_prop in H. destruct H as [H1 H2]. destruct (IHa H1) as (v & Bv & Mv). exists v. split; [exact Bv|apply m_left, Mv].
  - exists []. split; constructor.
Qed.
Lemma more_iff r : usable r = true -> (more r = true <-> exists w, w <> [] /\ bytes w /\ matches r w).
Proof.
  intros U. split.
  - induction r as [rs| |a IHa b IHb|a IHa b IHb|a IHa]; cbn [usable more] in *; intros H; try discriminate.
    + destruct (usable_matches (RSet rs) U) as (w & B & M). exists w. split; [|auto]. inversion M; discriminate.
    + apply andb_prop in U. destruct U as [U1 U2]. destruct (usable_matches a U1) as (v & Bv & Mv), (usable_matches b U2) as (w & Bw & Mw). apply orb_prop in H. destruct H as [H|H].
      * destruct (IHa U1 H) as (v' & N & Bv' & Mv'). exists (v' ++ w). split; [destruct v'; [congruence|discriminate]|]. split; [apply Forall_app; auto|constructor; assumption].
      * destruct (IHb U2 H) as (w' & N & Bw' & Mw'). exists (v ++ w'). split; [destruct v; [exact N|discriminate]|]. split; [apply Forall_app; auto|constructor; assumption].
    + apply andb_prop in U. destruct U as [U1 U2]. apply orb_prop in H. destruct H as [H|H].
      * destruct (IHa U1 H) as (v & N & B & M). exists v. split; [exact N|]. split; [exact B|apply m_left, M].
      * destruct (IHb U2 H) as (v & N & B & M). exists v. split; [exact N|]. split; [exact B|apply m_right, M].
    + destruct (IHa U H) as (v & N & B & M). exists (v ++ []). rewrite app_nil_r. split; [exact N|]. split; [exact B|]. rewrite <- (app_nil_r v). constructor; [exact M|constructor].
  - intros (w & N & _ & M). clear U. induction M as [c rs Hc| |a b v w H1 IH1 H2 IH2|a b w H IH|a b w H IH| |a v w H1 IH1 H2 IH2]; cbn [more]; try congruence.
    + destruct v as [|x v]; [rewrite (IH2 N); apply orb_true_r|rewrite IH1 by discriminate; reflexivity].
    + rewrite IH by exact N. reflexivity.
    + rewrite IH by exact N. apply orb_true_r.
    + destruct v as [|x v]; [apply IH2, N|apply IH1; discriminate].
Qed.
Lemma usable_rseq a b : usable a = true -> usable b = true -> usable (rseq a b) = true.
Proof. intros H1 H2. destruct a; cbn [rseq usable] in *; rewrite ?H1, ?H2; reflexivity. Qed.
Lemma pd_usable c r : usable r = true -> forall x, In x (pd c r) -> usable x = true.
Proof.
  induction r as [rs| |a IHa b IHb|a IHa b IHb|a IHa]; cbn [usable pd]; intros U x H.
  - destruct (in_ranges c rs); [|destruct H]. destruct H as [<-|[]]. reflexivity.
  - destruct H.
  - apply andb_prop in U. destruct U as [U1 U2]. apply in_app_or in H. destruct H as [H|H].
    + apply in_map_iff in H. destruct H as (y & <- & Hy). apply usable_rseq; auto.
    + destruct (nullable a); [auto|destruct H].
  - apply andb_prop in U. destruct U as [U1 U2]. apply in_app_or in H. destruct H; auto.
  - apply in_map_iff in H. destruct H as (y & <- & Hy). apply usable_rseq; auto.
Qed.

(** ** Longest match with derivatives *)
Definition items := list (nat * re).
Fixpoint ranges_eqb (a b : list (Z * Z)) : bool :=
  match a, b with
  | [], [] => true
  | (x, y) :: a, (x', y') :: b => (x =? x')%Z && (y =? y')%Z && ranges_eqb a b
  | _, _ => false
  end.
Fixpoint re_eqb (a b : re) : bool :=
  match a, b with
  | RSet x, RSet y => ranges_eqb x y
  | REps, REps => true
  | RSeq x y, RSeq x' y' | RAlt x y, RAlt x' y' => re_eqb x x' && re_eqb y y'
  | RStar x, RStar y => re_eqb x y
  | _, _ => false
  end.
Lemma ranges_eqb_eq a : forall b, ranges_eqb a b = true -> a = b.
Proof.
  induction a as [|[x y] a IH]; intros [|[x' y'] b] H; cbn in H; try discriminate; [reflexivity|].
  apply andb_prop in H. destruct H as [H H3]. apply andb_prop in H. destruct H as [H1 H2]. rewrite (IH b H3). f_equal. f_equal; lia.
Qed.
Lemma re_eqb_eq a : forall b, re_eqb a b = true -> a = b.
Proof.
  induction a as [rs| |x IHx y IHy|x IHx y IHy|x IHx]; intros [ ] H; cbn in H; try discriminate; try reflexivity.
  - f_equal. apply ranges_eqb_eq, H.
  - apply andb_prop in H. destruct H as [H1 H2]. f_equal; auto.
  - apply andb_prop in H. destruct H as [H1 H2]. f_equal; auto.
  - f_equal; auto.
Qed.
Definition item_eqb (a b : nat * re) : bool := Nat.eqb (fst a) (fst b) && re_eqb (snd a) (snd b).
Lemma item_eqb_eq a b : item_eqb a b = true -> a = b.
Proof. destruct a, b. unfold item_eqb. cbn. intros H. apply andb_prop in H. destruct H as [H1 H2]. apply Nat.eqb_eq in H1. apply re_eqb_eq in H2. congruence. Qed.
Fixpoint dedupe (l : items) : items := match l with [] => [] | x :: l => let l := dedupe l in if existsb (item_eqb x) l then l else x :: l end.
Lemma dedupe_in l x : In x (dedupe l) <-> In x l.
Proof.
  induction l as [|y l IH]; [tauto|]. cbn [dedupe]. destruct (existsb (item_eqb y) (dedupe l)) eqn:E.
  - rewrite IH. cbn. split; [auto|]. intros [<-|H]; [|exact H]. rewrite existsb_exists in E. destruct E as (z & Hz & Ez). apply item_eqb_eq in Ez. subst z. apply IH, Hz.
  - cbn. rewrite IH. tauto.
Qed.
Definition derive (c : Z) (v : items) : items := dedupe (flat_map (fun p => map (pair (fst p)) (pd c (snd p))) v).
Definition accepting (v : items) : option nat :=
  fold_right (fun p o => if nullable (snd p) then Some (match o with Some j => Nat.min (fst p) j | None => fst p end) else o) None v.
Definition live (v : items) : bool := existsb (fun p => more (snd p)) v.
Definition stop (best : option (nat * nat)) : res (nat * nat) := match best with Some b => Ok b | None => NoFuel end.
Definition better (v : items) (pos : nat) (best : option (nat * nat)) : option (nat * nat) := match accepting v with Some k => Some (k, pos) | None => best end.
Fixpoint munch (v : items) (rest : list Z) (pos : nat) (best : option (nat * nat)) : res (nat * nat) :=
  let best := better v pos best in
  if live v then
    match rest with
    | [] => UB
    | c :: rest => match derive c v with [] => stop best | v => munch v rest (S pos) best end
    end
  else stop best.
Definition start_items (rules : list re) : items := combine (seq 0 (length rules)) rules.

Definition item_match (v : items) (k : nat) (w : list Z) : Prop := exists r, In (k, r) v /\ matches r w.
Lemma derive_match c v k w : item_match (derive c v) k w <-> item_match v k (c :: w).
Proof.
  unfold item_match, derive. split.
  - intros (r & H & M). apply dedupe_in, in_flat_map in H. destruct H as ([k' r'] & H1 & H2). cbn in H2. apply in_map_iff in H2. destruct H2 as (x & E & Hx). injection E as -> ->.
    exists r'. split; [exact H1|]. apply pd_iff. eauto.
  - intros (r & H & M). apply pd_iff in M. destruct M as (r' & Hr & M). exists r'. split; [|exact M]. apply dedupe_in, in_flat_map. exists (k, r). split; [exact H|]. cbn. apply in_map, Hr.
Qed.
Lemma accepting_spec v : match accepting v with
  | Some k => item_match v k [] /\ forall j, item_match v j [] -> k <= j
  | None => forall j, ~ item_match v j [] end.
Proof.
  induction v as [|[k r] v IH]; cbn [accepting fold_right fst snd].
  - intros j (r & [] & _).
  - fold (accepting v). destruct (nullable r) eqn:E.
    + apply nullable_iff in E. destruct (accepting v) as [j|]; (split; [|]).
      * destruct (Nat.min_dec k j) as [->| ->]; [exists r; split; [left; reflexivity|exact E]|]. destruct IH as [(r' & H1 & H2) _]. exists r'. split; [right; exact H1|exact H2].
      * intros i (r' & [H|H] & M); [injection H as <- _; lia|]. destruct IH as [_ IH]. specialize (IH i (ex_intro _ r' (conj H M))). lia.
      * exists r. split; [left; reflexivity|exact E].
      * intros i (r' & [H|H] & M); [injection H as <- _; lia|]. exfalso. apply (IH i). exists r'. auto.
    + assert (A : forall i, item_match ((k, r) :: v) i [] <-> item_match v i []).
      { intros i. split; intros (r' & H & M); [destruct H as [H|H]; [injection H as -> ->; apply nullable_iff in M; congruence|]|]; exists r'; (split; [|exact M]); [exact H|right; exact H]. }
      destruct (accepting v) as [j|]; [split; [apply A, IH|intros i H; apply IH, A, H]|intros i H; apply (IH i), A, H].
Qed.
Definition usable_items (v : items) : Prop := forall k r, In (k, r) v -> usable r = true.
Lemma live_spec v : usable_items v -> (live v = true <-> exists k w, w <> [] /\ bytes w /\ item_match v k w).
Proof.
  intros U. unfold live. rewrite existsb_exists. split.
  - intros ([k r] & H & M). cbn in M. apply (more_iff r (U k r H)) in M. destruct M as (w & N & B & M). exists k, w. split; [exact N|]. split; [exact B|]. exists r. auto.
  - intros (k & w & N & B & r & H & M). exists (k, r). split; [exact H|]. cbn. apply more_iff; [apply (U k), H|]. eauto.
Qed.
Lemma derive_usable c v : usable_items v -> usable_items (derive c v).
Proof.
  intros U k r H. apply dedupe_in, in_flat_map in H. destruct H as ([k' r'] & H1 & H2). cbn in H2. apply in_map_iff in H2. destruct H2 as (x & E & Hx). injection E as -> ->.
  eapply pd_usable; [|exact Hx]. eapply U, H1.
Qed.
Lemma start_match rules k w : item_match (start_items rules) k w <-> exists r, nth_error rules k = Some r /\ matches r w.
Proof.
  unfold item_match, start_items.
  assert (A : forall (rules : list re) s k r, In (k, r) (combine (seq s (length rules)) rules) <-> s <= k /\ nth_error rules (k - s) = Some r).
  { clear. induction rules as [|x rules IH]; intros s k r; cbn [combine seq length In].
    - split; [tauto|]. intros [_ H]. destruct (k - s); discriminate.
    - rewrite IH. split.
      + intros [E|[H1 H2]]; [injection E as -> ->; split; [lia|]; rewrite Nat.sub_diag; reflexivity|]. split; [lia|]. replace (k - s) with (S (k - S s)) by lia. exact H2.
      + intros [H1 H2]. destruct (Nat.eq_dec s k) as [->|N]; [left; rewrite Nat.sub_diag in H2; cbn in H2; congruence|]. right. split; [lia|]. replace (k - s) with (S (k - S s)) in H2 by lia. exact H2. }
  split; intros (r & H & M); exists r; (split; [|exact M]); [apply A in H; destruct H as [_ H]; rewrite Nat.sub_0_r in H; exact H|]. apply A. split; [lia|]. rewrite Nat.sub_0_r. exact H.
Qed.
(** The best match so far: of all prefixes shorter than [pos]. *)
Definition best_of (rules : list re) (mem : list Z) (bound : nat) (best : option (nat * nat)) : Prop :=
  match best with
  | None => forall j r m, m < bound -> nth_error rules j = Some r -> ~ matches r (firstn m mem)
  | Some (k, n) => n < bound /\ (exists r, nth_error rules k = Some r /\ matches r (firstn n mem)) /\
      forall j r m, m < bound -> nth_error rules j = Some r -> matches r (firstn m mem) -> m < n \/ (m = n /\ k <= j)
  end.
Lemma better_best rules v p rest best : (forall k w, item_match v k w <-> exists r, nth_error rules k = Some r /\ matches r (p ++ w)) ->
  best_of rules (p ++ rest) (length p) best -> best_of rules (p ++ rest) (S (length p)) (better v (length p) best).
Proof.
  intros V B. unfold better. pose proof (accepting_spec v) as A.
  assert (F : firstn (length p) (p ++ rest) = p) by (rewrite firstn_app, Nat.sub_diag, firstn_all, firstn_O, app_nil_r; reflexivity).
  destruct (accepting v) as [k|].
  - destruct A as [A1 A2]. apply V in A1. rewrite app_nil_r in A1. split; [lia|]. rewrite F. split; [exact A1|].
    intros j r m Hm Hn M. destruct (Nat.eq_dec m (length p)) as [->|N]; [right|left; lia]. split; [reflexivity|]. apply A2, V. rewrite app_nil_r, <- F. eauto.
  - assert (N : forall j r, nth_error rules j = Some r -> ~ matches r (firstn (length p) (p ++ rest))).
    { intros j r Hn M. rewrite F in M. apply (A j), V. rewrite app_nil_r. eauto. }
    destruct best as [[k n]|]; cbn [best_of] in *.
    + destruct B as (B1 & B2 & B3). split; [lia|]. split; [exact B2|]. intros j r m Hm Hn M. destruct (Nat.eq_dec m (length p)) as [->|Ne]; [exfalso; eapply N; eauto|]. eapply B3; eauto. lia.
    + intros j r m Hm Hn M. destruct (Nat.eq_dec m (length p)) as [->|Ne]; [eapply N; eauto|]. eapply B; eauto. lia.
Qed.
Lemma munch_spec rules : forall rest v p best, usable_items v ->
  (forall k w, item_match v k w <-> exists r, nth_error rules k = Some r /\ matches r (p ++ w)) -> bytes rest ->
  best_of rules (p ++ rest) (length p) best ->
  match munch v rest (length p) best with
  | UB => runs_out rules (p ++ rest)
  | Ok (k, n) => ~ runs_out rules (p ++ rest) /\ best_of rules (p ++ rest) (S (length (p ++ rest))) (Some (k, n))
  | NoFuel => ~ runs_out rules (p ++ rest) /\ best_of rules (p ++ rest) (S (length (p ++ rest))) None
  end.
Proof.
  assert (STOP : forall v p rest best, (forall k w, w <> [] -> bytes w -> ~ item_match v k w) ->
    (forall k w, item_match v k w <-> exists r, nth_error rules k = Some r /\ matches r (p ++ w)) -> bytes rest ->
    best_of rules (p ++ rest) (S (length p)) best ->
    match stop best with UB => False | Ok (k, n) => ~ runs_out rules (p ++ rest) /\ best_of rules (p ++ rest) (S (length (p ++ rest))) (Some (k, n))
    | NoFuel => ~ runs_out rules (p ++ rest) /\ best_of rules (p ++ rest) (S (length (p ++ rest))) None end).
  { intros v p rest best D V Br B.
    assert (NR : ~ runs_out rules (p ++ rest)).
    { intros (j & r & w & Hn & Nw & Bw & M). apply (D j (rest ++ w)); [destruct rest; [exact Nw|discriminate]|apply Forall_app; auto|]. apply V. rewrite app_assoc. eauto. }
    assert (L : forall j r m, length p < m -> m < S (length (p ++ rest)) -> nth_error rules j = Some r -> ~ matches r (firstn m (p ++ rest))).
    { intros j r m H1 H2 Hn M. rewrite firstn_app, firstn_all2 in M by lia. apply (D j (firstn (m - length p) rest)).
      - intros E. apply length_zero_iff_nil in E. rewrite firstn_length in E. rewrite app_length in H2. lia.
      - apply Forall_forall. intros x Hx. apply (proj1 (Forall_forall _ _) Br). rewrite <- (firstn_skipn (m - length p) rest). apply in_or_app. left. exact Hx.
      - apply V. eauto. }
    destruct best as [[k n]|]; cbn [stop best_of] in *; (split; [exact NR|]).
    - destruct B as (B1 & B2 & B3). split; [rewrite app_length; lia|]. split; [exact B2|]. intros j r m Hm Hn M.
      destruct (le_lt_dec m (length p)) as [Hl|Hl]; [apply (B3 j r); [lia|exact Hn|exact M]|]. exfalso. eapply L; eauto.
    - intros j r m Hm Hn M. destruct (le_lt_dec m (length p)) as [Hl|Hl]; [eapply B; [|exact Hn|exact M]; lia|eapply L; eauto]. }
  induction rest as [|c rest IH]; intros v p best U V Br B; cbn [munch]; pose proof (better_best rules v p _ best V B) as B'.
  - destruct (live v) eqn:E.
    + apply live_spec in E; [|exact U]. destruct E as (k & w & Nw & Bw & M). apply V in M. destruct M as (r & Hn & M). exists k, r, w. rewrite app_nil_r. auto.
    + assert (D : forall k w, w <> [] -> bytes w -> ~ item_match v k w).
      { intros k' w Nw Bw M. assert (live v = true) by (apply live_spec; [exact U|eauto]). congruence. }
      pose proof (STOP v p [] (better v (length p) best) D V Br B') as ST. destruct (stop _) as [[k n]| |]; [exact ST|destruct ST|exact ST].
  - inversion Br as [|? ? Bc Brest]; subst. destruct (live v) eqn:E.
    + destruct (derive c v) as [|i v'] eqn:Ed.
      * pose proof (STOP (derive c v) (p ++ [c]) rest (better v (length p) best)) as ST. rewrite <- app_assoc in ST. cbn [app] in ST.
        assert (V' : forall k w, item_match (derive c v) k w <-> exists r, nth_error rules k = Some r /\ matches r ((p ++ [c]) ++ w)).
        { intros k w. rewrite derive_match, V. rewrite <- app_assoc. cbn. reflexivity. }
        assert (D : forall k w, ~ item_match (derive c v) k w) by (intros k w (r & H & _); rewrite Ed in H; exact H).
        assert (Bx : best_of rules (p ++ c :: rest) (S (length (p ++ [c]))) (better v (length p) best)).
        { rewrite app_length. cbn [length]. rewrite Nat.add_1_r.
          assert (N : forall j r, nth_error rules j = Some r -> ~ matches r (firstn (S (length p)) (p ++ c :: rest))).
          { intros j r Hn M. apply (D j []). apply V'. rewrite app_nil_r. rewrite firstn_app, firstn_all2 in M by lia. replace (S (length p) - length p) with 1 in M by lia. cbn in M. eauto. }
          destruct (better v (length p) best) as [[k n]|]; cbn [best_of] in *.
          - destruct B' as (B1 & B2 & B3). split; [lia|]. split; [exact B2|]. intros j r m Hm Hn M. destruct (Nat.eq_dec m (S (length p))) as [->|Ne]; [exfalso; eapply N; eauto|]. apply (B3 j r); [lia|exact Hn|exact M].
          - intros j r m Hm Hn M. destruct (Nat.eq_dec m (S (length p))) as [->|Ne]; [eapply N; eauto|]. apply (B' j r m); [lia|exact Hn|exact M]. }
        specialize (ST (fun k w _ _ => D k w) V' Brest Bx). destruct (stop _) as [[k n]| |]; [exact ST|destruct ST|exact ST].
      * rewrite <- Ed. replace (S (length p)) with (length (p ++ [c])) by (rewrite app_length; cbn; lia). replace (p ++ c :: rest) with ((p ++ [c]) ++ rest) by (rewrite <- app_assoc; reflexivity).
        apply IH.
        -- apply derive_usable, U.
        -- intros k w. rewrite derive_match, V. rewrite <- app_assoc. cbn. reflexivity.
        -- exact Brest.
        -- rewrite <- app_assoc. cbn [app]. rewrite app_length. cbn [length]. rewrite Nat.add_1_r. exact B'.
    + assert (D : forall k w, w <> [] -> bytes w -> ~ item_match v k w).
      { intros k' w Nw Bw M. assert (live v = true) by (apply live_spec; [exact U|eauto]). congruence. }
      pose proof (STOP v p (c :: rest) (better v (length p) best) D V Br B') as S. destruct (stop _) as [[k n]| |]; [exact S|destruct S|exact S].
Qed.

(** ** The generated automaton follows the derivatives *)
Definition is_none (m : mode) : bool := match m with MNone => true | _ => false end.
Fixpoint settle (code : PositiveMap.t label_code) (hops : nat) (c : Z) (l : positive) : option positive :=
  match PositiveMap.find l code with
  | Some (Code MNone (TSwitch cases d)) => match hops with O => None | S h => settle code h c (switch c cases d) end
  | Some (Code MNone (TGoto l')) => match hops with O => None | S h => settle code h c l' end
  | Some _ => Some l
  | None => None
  end.
Definition plain_action (code : PositiveMap.t label_code) (l : positive) : option nat :=
  match PositiveMap.find l code with Some (Code MNone (TAct k)) => Some k | _ => None end.
(** The rule that the restore label goes to. *)
Definition restored (code : PositiveMap.t label_code) (rl : positive) (n : nat) : option nat :=
  match PositiveMap.find rl code with Some (Code MNone (TRestore cases d)) => plain_action code (select_accept n cases d) | _ => None end.
Definition nat_is (o : option nat) (k : nat) : bool := match o with Some j => Nat.eqb j k | None => false end.
Definition no_item (v : items) : bool := match v with [] => true | _ => false end.
Definition states := PositiveMap.t (list (items * bool)).
Fixpoint items_eqb (a b : items) : bool :=
  match a, b with [], [] => true | x :: a, y :: b => item_eqb x y && items_eqb a b | _, _ => false end.
Definition known (rel : states) (l : positive) (v : items) (m : bool) : bool :=
  match PositiveMap.find l rel with Some vs => existsb (fun q => items_eqb (fst q) v && Bool.eqb (snd q) m) vs | None => false end.
Definition target (code : PositiveMap.t label_code) (j : jump) (c : Z) : option positive :=
  match j with TSwitch cases d => settle code 2 c (switch c cases d) | TGoto l => settle code 2 c l | _ => None end.
Definition check_next code (rl : positive) (rel : states) (v : items) (m : bool) (j : jump) (c : Z) : bool :=
  match target code j c with
  | None => false
  | Some l =>
      match PositiveMap.find l code with
      | Some (Code MNone (TAct k)) => no_item (derive c v) && nat_is (accepting v) k
      | Some (Code MNone (TRestore _ _)) => no_item (derive c v) && Pos.eqb l rl && m
      | Some (Code MNone _) | Some (Code MRead _) | None => false
      | Some _ => negb (no_item (derive c v)) && known rel l (derive c v) m
      end
  end.
Definition byte_list : list Z := map Z.of_nat (seq 0 256).
Definition is_none_nat (o : option nat) : bool := match o with None => true | Some _ => false end.
Definition check_state code rl rel (l : positive) (v : items) (m : bool) : bool :=
  match PositiveMap.find l code with
  | Some (Code MInc (TAct k)) => negb (live v) && nat_is (accepting v) k
  | Some (Code MInc (TGoto l')) => negb (live v) && match plain_action code l' with Some k => nat_is (accepting v) k | None => false end
  | Some (Code MAdv j) => live v && forallb (check_next code rl rel v (m && is_none_nat (accepting v)) j) byte_list
  | Some (Code (MMark n) j) => live v && match restored code rl n with Some k => nat_is (accepting v) k | None => false end &&
                               forallb (check_next code rl rel v true j) byte_list
  | _ => false
  end.
Definition check_start code rl rel (v : items) : bool :=
  match PositiveMap.find 1%positive code with
  | Some (Code MRead j) => live v && is_none_nat (accepting v) && forallb (check_next code rl rel v false j) byte_list
  | _ => false
  end.
Definition check_all code rl rel (v0 : items) : bool :=
  check_start code rl rel v0 &&
  forallb (fun p => forallb (fun q => check_state code rl rel (fst p) (fst q) (snd q)) (snd p)) (PositiveMap.elements rel).

(** The relation, found by exploring. *)
Definition insert (rel : states) (l : positive) (v : items) (m : bool) : states :=
  PositiveMap.add l ((v, m) :: match PositiveMap.find l rel with Some vs => vs | None => [] end) rel.
Definition successors code (v : items) (m : bool) (j : jump) : list (positive * (items * bool)) :=
  flat_map (fun c => match target code j c with
    | Some l => match derive c v with [] => [] | v' => [(l, (v', m))] end
    | None => [] end) byte_list.
Definition successors_of code (l : positive) (v : items) (m : bool) : list (positive * (items * bool)) :=
  match PositiveMap.find l code with
  | Some (Code MAdv j) => successors code v (m && is_none_nat (accepting v)) j
  | Some (Code (MMark _) j) => successors code v true j
  | Some (Code MRead j) => successors code v false j
  | _ => []
  end.
Definition add_new (st : states * list (positive * (items * bool))) (s : positive * (items * bool)) : states * list (positive * (items * bool)) :=
  let '(rel, todo) := st in let '(l, (v, m)) := s in
  if known rel l v m then st else (insert rel l v m, s :: todo).
Definition explore_step code (st : states * list (positive * (items * bool))) : states * list (positive * (items * bool)) :=
  match snd st with
  | [] => st
  | (l, (v, m)) :: todo => fold_left add_new (successors_of code l v m) (fst st, todo)
  end.
Definition explore code (v0 : items) (n : nat) : states * list (positive * (items * bool)) :=
  Nat.iter n (explore_step code) (fold_left add_new (successors_of code 1%positive v0 false) (PositiveMap.empty _, [])).

Lemma items_eqb_eq a : forall b, items_eqb a b = true -> a = b.
Proof.
  induction a as [|x a IH]; intros [|y b] H; cbn in H; try discriminate; [reflexivity|]. apply andb_prop in H. destruct H as [H1 H2].
  apply item_eqb_eq in H1. apply IH in H2. congruence.
Qed.
Lemma settle_exec code mem x c : x_char x = Some c -> forall hops l l' fuel, settle code hops c l = Some l' -> hops <= fuel ->
  exists fuel', fuel - hops <= fuel' <= fuel /\ exec code fuel mem l x = exec code fuel' mem l' x.
Proof.
  intros Hc. induction hops as [|h IH]; intros l l' fuel H Hf; cbn [settle] in H.
  - exists fuel. split; [lia|]. f_equal. destruct (PositiveMap.find l code) as [[[ | | |n| ] [cases d|l0|k|cases d]]|]; try discriminate; congruence.
  - destruct fuel as [|fuel]; [lia|]. destruct (PositiveMap.find l code) as [[[ | | |n| ] [cases d|l0|k|cases d]]|] eqn:El; try discriminate;
      try (injection H as <-; exists (S fuel); split; [lia|reflexivity]).
    + destruct (IH _ _ fuel H ltac:(lia)) as (f' & Hf' & E). exists f'. split; [lia|]. cbn [exec]. rewrite El. cbn [bind]. rewrite Hc. exact E.
    + destruct (IH _ _ fuel H ltac:(lia)) as (f' & Hf' & E). exists f'. split; [lia|]. cbn [exec]. rewrite El. cbn [bind]. exact E.
Qed.
Lemma byte_in c : wf_byte c -> In c byte_list.
Proof. intros H. unfold wf_byte in H. unfold byte_list. apply in_map_iff. exists (Z.to_nat c). split; [lia|]. apply in_seq. lia. Qed.
Section Sim.
Variables (code : PositiveMap.t label_code) (rl : positive) (rel : states) (v0 : items).
Hypothesis Hall : check_all code rl rel v0 = true.
Definition marker_ok (x : vars) (best : option (nat * nat)) : Prop :=
  exists pm k, x_marker x = Some pm /\ restored code rl (x_accept x) = Some k /\ best = Some (k, pm).
Lemma nat_is_eq o k : nat_is o k = true -> o = Some k.
Proof. destruct o as [j|]; cbn; [|discriminate]. intros H. apply Nat.eqb_eq in H. congruence. Qed.
Lemma known_checked l v m : known rel l v m = true -> check_state code rl rel l v m = true.
Proof.
  unfold known. intros H. destruct (PositiveMap.find l rel) as [vs|] eqn:E; [|discriminate]. rewrite existsb_exists in H. destruct H as ([v' m'] & Hin & H). cbn in H.
  apply andb_prop in H. destruct H as [H1 H2]. apply items_eqb_eq in H1. apply Bool.eqb_prop in H2. subst v' m'.
  unfold check_all in Hall. apply andb_prop in Hall. destruct Hall as [_ A]. rewrite forallb_forall in A. specialize (A (l, vs) (PositiveMap.elements_correct _ _ E)).
  rewrite forallb_forall in A. exact (A (v, m) Hin).
Qed.
Definition go (fuel : nat) (mem : list Z) (j : jump) (x : vars) : res (nat * nat) :=
  match j with
  | TSwitch cases d => match x_char x with Some c => exec code fuel mem (switch c cases d) x | None => UB end
  | TGoto l => exec code fuel mem l x
  | TAct k => Ok (k, x_pos x)
  | TRestore cases d =>
      match x_marker x with
      | Some p => exec code fuel mem (select_accept (x_accept x) cases d) (Vars p (x_char x) (x_marker x) (x_accept x))
      | None => UB
      end
  end.
Lemma plain_action_exec l k : plain_action code l = Some k -> forall fuel mem x, exec code (S fuel) mem l x = Ok (k, x_pos x).
Proof.
  unfold plain_action. intros H fuel mem x. cbn [exec]. destruct (PositiveMap.find l code) as [[[ | | |n| ] [cases d|l0|k0|cases d]]|]; try discriminate. injection H as ->. reflexivity.
Qed.
Definition follows (rest : list Z) : Prop := forall p v m best l x fuel, known rel l v m = true -> S (x_pos x) = length p -> (m = true -> marker_ok x best) ->
  4 * length rest + 6 <= fuel -> exec code fuel (p ++ rest) l x = munch v rest (length p) best.
Lemma next_step rest p v m j c x best fuel : follows rest -> wf_byte c -> check_next code rl rel v m j c = true ->
  x_pos x = length p -> x_char x = Some c -> (m = true -> marker_ok x (better v (length p) best)) -> 4 * length rest + 9 <= fuel ->
  go fuel (p ++ c :: rest) j x = match derive c v with [] => stop (better v (length p) best) | v' => munch v' rest (S (length p)) (better v (length p) best) end.
Proof.
  intros F Bc H Hp Hc Hm Hf. unfold check_next in H. destruct (target code j c) as [l|] eqn:Et; [|discriminate].
  assert (T : exists fuel', fuel - 2 <= fuel' /\ go fuel (p ++ c :: rest) j x = exec code fuel' (p ++ c :: rest) l x).
  { unfold target in Et. destruct j as [cases d|l0| |]; try discriminate; cbn [go]; rewrite ?Hc;
      destruct (settle_exec code (p ++ c :: rest) x c Hc _ _ _ fuel Et ltac:(lia)) as (f' & Hf' & E); exists f'; (split; [lia|exact E]). }
  destruct T as (f' & Hf' & ->).
  assert (K : negb (no_item (derive c v)) && known rel l (derive c v) m = true ->
    exec code f' (p ++ c :: rest) l x = match derive c v with [] => stop (better v (length p) best) | v' => munch v' rest (S (length p)) (better v (length p) best) end).
  { intros K. apply andb_prop in K. destruct K as [K1 K2].
    replace (p ++ c :: rest) with ((p ++ [c]) ++ rest) by (rewrite <- app_assoc; reflexivity).
    rewrite (F (p ++ [c]) (derive c v) m (better v (length p) best) l x f' K2); [|rewrite app_length; cbn; lia|exact Hm|lia].
    rewrite app_length. cbn [length]. rewrite Nat.add_1_r. destruct (derive c v); [discriminate|reflexivity]. }
  destruct f' as [|[|f']]; [lia|lia|].
  destruct (PositiveMap.find l code) as [[[ | | |n| ] j']|] eqn:El; try discriminate; try exact (K H).
  destruct j' as [cases d|l0|k|cases d]; try discriminate.
  - apply andb_prop in H. destruct H as [H1 H2]. apply nat_is_eq in H2. cbn [exec]. rewrite El. cbn [bind]. destruct (derive c v); [|discriminate]. unfold better. rewrite H2, Hp. reflexivity.
  - apply andb_prop in H. destruct H as [H H3]. apply andb_prop in H. destruct H as [H1 H2]. apply Pos.eqb_eq in H2. subst l.
    destruct (Hm H3) as (pm & k & Em & Er & Eb). unfold restored in Er. rewrite El in Er.
    destruct (derive c v); [|discriminate]. rewrite Eb. cbn [exec]. rewrite El. cbn [bind]. rewrite Em. cbn [stop].
    change (exec code (S f') (p ++ c :: rest) (select_accept (x_accept x) cases d) (Vars pm (x_char x) (Some pm) (x_accept x)) = Ok (k, pm)).
    rewrite (plain_action_exec _ _ Er). reflexivity.
Qed.
Lemma read_here (p rest : list Z) : read (p ++ rest) (length p) = match rest with [] => UB | c :: _ => Ok c end.
Proof. unfold read. rewrite nth_error_app2 by lia. rewrite Nat.sub_diag. destruct rest; reflexivity. Qed.
Lemma sim rest : bytes rest -> follows rest.
Proof.
  induction rest as [|c rest IH]; intros Br p v m best l x fuel Hk Hp Hm Hf; pose proof (known_checked _ _ _ Hk) as C; unfold check_state in C;
    (destruct fuel as [|fuel]; [lia|]); destruct (PositiveMap.find l code) as [[[ | | |n| ] j]|] eqn:El; try discriminate; cbn [exec]; rewrite El; cbn [bind].
  - apply andb_prop in C. destruct C as [C1 C2]. rewrite Hp, read_here. cbn [bind munch]. rewrite C1. reflexivity.
  - apply andb_prop in C. destruct C as [C1 C2]. apply andb_prop in C1. destruct C1 as [C1 C3]. rewrite Hp, read_here. cbn [bind munch]. rewrite C1. reflexivity.
  - destruct j as [|l'|k|]; try discriminate; apply andb_prop in C; destruct C as [C1 C2]; cbn [munch]; unfold better.
    + destruct (plain_action code l') as [k|] eqn:Ep; [|discriminate]. apply nat_is_eq in C2. rewrite C2. destruct (live v); [discriminate|]. destruct fuel as [|fuel]; [lia|].
      rewrite (plain_action_exec _ _ Ep). cbn [x_pos stop]. rewrite Hp. reflexivity.
    + apply nat_is_eq in C2. rewrite C2. destruct (live v); [discriminate|]. cbn [x_pos stop]. rewrite Hp. reflexivity.
  - inversion Br as [|? ? Bc Br']; subst. apply andb_prop in C. destruct C as [C1 C2]. rewrite forallb_forall in C2. specialize (C2 c (byte_in c Bc)).
    rewrite Hp, read_here. cbn [bind munch]. rewrite C1. cbn [x_char x_pos x_marker x_accept].
    apply (next_step rest p v _ j c (Vars (length p) (Some c) (x_marker x) (x_accept x)) best fuel (IH Br') Bc C2); try reflexivity; [|cbn [length] in Hf; lia].
    intros H. apply andb_prop in H. destruct H as [H1 H2]. unfold better. destruct (accepting v); [discriminate|]. exact (Hm H1).
  - inversion Br as [|? ? Bc Br']; subst. apply andb_prop in C. destruct C as [C1 C2]. apply andb_prop in C1. destruct C1 as [C1 C3]. rewrite forallb_forall in C2. specialize (C2 c (byte_in c Bc)).
    rewrite Hp, read_here. cbn [bind munch]. rewrite C1. cbn [x_char x_pos x_marker x_accept].
    apply (next_step rest p v _ j c (Vars (length p) (Some c) (Some (length p)) n) best fuel (IH Br') Bc C2); try reflexivity; [|cbn [length] in Hf; lia].
    intros _. destruct (restored code rl n) as [k|] eqn:Er; [|discriminate]. apply nat_is_eq in C3. exists (length p), k. unfold better. rewrite C3. auto.
  - destruct j as [|l'|k|]; try discriminate; apply andb_prop in C; destruct C as [C1 C2]; cbn [munch]; unfold better.
    + destruct (plain_action code l') as [k|] eqn:Ep; [|discriminate]. apply nat_is_eq in C2. rewrite C2. destruct (live v); [discriminate|]. destruct fuel as [|fuel]; [lia|].
      rewrite (plain_action_exec _ _ Ep). cbn [x_pos stop]. rewrite Hp. reflexivity.
    + apply nat_is_eq in C2. rewrite C2. destruct (live v); [discriminate|]. cbn [x_pos stop]. rewrite Hp. reflexivity.
Qed.
Lemma scan_munch mem : bytes mem -> scan code mem = munch v0 mem 0 None.
Proof.
  intros B. unfold scan. pose proof Hall as C. unfold check_all in C. apply andb_prop in C. destruct C as [C _]. unfold check_start in C.
  destruct (PositiveMap.find 1%positive code) as [[[ | | |n| ] j]|] eqn:El; try discriminate. apply andb_prop in C. destruct C as [C1 C2]. apply andb_prop in C1. destruct C1 as [C1 C3].
  replace (4 * length mem + 8) with (S (4 * length mem + 7)) by lia. cbn [exec]. rewrite El. cbn [x_pos].
  destruct mem as [|c mem]; cbn [munch]; rewrite C1; [reflexivity|]. cbn [read nth_error bind]. inversion B as [|? ? Bc Br]; subst.
  rewrite forallb_forall in C2. specialize (C2 c (byte_in c Bc)). cbn [x_char x_pos x_marker x_accept].
  apply (next_step mem [] v0 false j c (Vars 0 (Some c) None 0) None _ (sim mem Br) Bc C2); try reflexivity; [discriminate|cbn [length]; lia].
Qed.
End Sim.
Definition yy_relation : states := fst (explore yy_map (start_items lexer_rules) 800).
Lemma yy_checked : check_all yy_map 101%positive yy_relation (start_items lexer_rules) = true.
Proof. vm_compute. reflexivity. Qed.
Lemma start_usable : usable_items (start_items lexer_rules).
Proof.
  assert (A : forallb (fun p => usable (snd p)) (start_items lexer_rules) = true) by (vm_compute; reflexivity).
  intros k r H. rewrite forallb_forall in A. exact (A (k, r) H).
Qed.
(** No rule matches the empty text; every octet is matched by one. *)
Lemma no_empty_rule : forall j r, nth_error lexer_rules j = Some r -> ~ matches r [].
Proof.
  assert (A : forallb (fun r => negb (nullable r)) lexer_rules = true) by (vm_compute; reflexivity).
  intros j r H M. rewrite forallb_forall in A. apply nth_error_In in H. specialize (A r H). apply nullable_iff in M. rewrite M in A. discriminate.
Qed.
Lemma every_octet c : wf_byte c -> exists j r, nth_error lexer_rules j = Some r /\ matches r [c].
Proof.
  intros H. assert (A : forallb (fun c => existsb (fun p => existsb nullable (pd c (snd p))) (start_items lexer_rules)) byte_list = true) by (vm_compute; reflexivity).
  rewrite forallb_forall in A. specialize (A c (byte_in c H)). rewrite existsb_exists in A. destruct A as ([j r] & Hin & A). cbn [fst snd] in A.
  rewrite existsb_exists in A. destruct A as (r' & Hr & Hn). apply nullable_iff in Hn.
  assert (M : item_match (start_items lexer_rules) j [c]) by (exists r; split; [exact Hin|]; apply pd_iff; eauto).
  apply start_match in M. destruct M as (r2 & H1 & H2). eauto.
Qed.
Theorem scan_spec mem : bytes mem ->
  match scan yy_map mem with
  | Ok (k, n) => longest_match lexer_rules mem k n /\ ~ runs_out lexer_rules mem
  | UB => runs_out lexer_rules mem
  | NoFuel => False
  end.
Proof.
  intros B. rewrite (scan_munch yy_map 101%positive yy_relation (start_items lexer_rules) yy_checked mem B).
  pose proof (munch_spec lexer_rules mem (start_items lexer_rules) [] None start_usable) as M. cbn [app length] in M.
  specialize (M (fun k w => start_match lexer_rules k w) B). cbn [best_of] in M. specialize (M ltac:(intros; lia)).
  destruct (munch _ _ _ _) as [[k n]| |].
  - destruct M as [NR (H1 & (r & Hr & Mr) & H3)]. split; [|exact NR]. split; [|split].
    + split; [|lia]. destruct n; [exfalso; eapply no_empty_rule; eauto|lia].
    + eauto.
    + intros j r' m Hn Hl Hm. eapply H3; eauto. lia.
  - exact M.
  - destruct M as [NR N]. destruct mem as [|c mem].
    + apply NR. exists 127, dot, [1%Z]. split; [reflexivity|]. split; [discriminate|]. split; [constructor; [unfold wf_byte; lia|constructor]|]. cbn. constructor. exists 0%Z, 9%Z. split; [left; reflexivity|lia].
    + inversion B; subst. destruct (every_octet c) as (j & r & Hn & Hm); [assumption|]. apply (N j r 1); [cbn; lia|exact Hn|exact Hm].
Qed.
