(** Proofs for C135. *)
From Coq Require Import List ZArith Bool Lia SpecFloat.
From Verif Require Import Base Ident View Prims RealModel Spec RealEq RealEqProofs PropertiesRealEq DecimalSpec RealDecimalProofs RealPrint RealPrintSpec.
Import ListNotations.
Local Open Scope Z_scope.

Lemma number_of_snoc l c : number_of (l ++ [c]) = 10 * number_of l + (c - 48).
Proof. unfold number_of. rewrite fold_left_app. reflexivity. Qed.
Lemma number_of_zero l : number_of (48 :: l) = number_of l.
Proof. reflexivity. Qed.
Lemma number_of_zeros n l : number_of (repeat 48 n ++ l) = number_of l.
Proof. induction n as [|n IH]; [reflexivity|]. cbn [repeat app]. rewrite number_of_zero. exact IH. Qed.
Lemma last_digits_spec n : forall q, 0 <= q -> digits (last_digits n q) /\ length (last_digits n q) = n /\ number_of (last_digits n q) = q mod 10 ^ Z.of_nat n.
Proof.
  induction n as [|n IH]; intros q Hq; [split; [constructor|]; split; [reflexivity|]; cbn [last_digits]; change (10 ^ Z.of_nat 0) with 1; rewrite Z.mod_1_r; reflexivity|].
  destruct (IH (q / 10)) as (D & L & V); [apply Z.div_pos; lia|]. cbn [last_digits]. split; [|split].
  - apply Forall_app. split; [exact D|]. constructor; [|constructor]. pose proof (Z.mod_pos_bound q 10). lia.
  - rewrite app_length, L. cbn. lia.
  - rewrite number_of_snoc, V, Nat2Z.inj_succ, Z.pow_succ_r by lia. rewrite Z.rem_mul_r by lia. lia.
Qed.
Lemma strip_spec l : exists n, l = strip_zeros l ++ repeat 48 n.
Proof.
  induction l as [|c l [n IH]]; [exists 0%nat; reflexivity|]. cbn [strip_zeros]. destruct (strip_zeros l) as [|a r] eqn:E.
  - cbn in IH. destruct (c =? 48) eqn:Ec.
    + apply Z.eqb_eq in Ec. subst c. exists (S n). cbn. now rewrite <- IH.
    + exists n. cbn. now rewrite <- IH.
  - exists n. cbn. cbn in IH. now rewrite <- IH.
Qed.
Lemma number_of_repeat_zero l n : number_of (l ++ repeat 48 n) = number_of l * 10 ^ Z.of_nat n.
Proof.
  induction n as [|n IH].
  - cbn [repeat]. rewrite app_nil_r. change (10 ^ Z.of_nat 0) with 1. lia.
  - replace (repeat 48 (S n)) with (repeat 48 n ++ [48]) by (symmetry; apply repeat_cons). rewrite app_assoc, number_of_snoc, IH, Nat2Z.inj_succ, Z.pow_succ_r by lia. lia.
Qed.
(** A sign, digits, a point with digits unless they are all zeros, an exponent. *)
Lemma assembled s ip fp exp x : digits ip -> (ip = [48] \/ exists c l, ip = c :: l /\ c <> 48) -> digits fp ->
  (exp = [] /\ x = 0 \/ exists c s neg' l, exp = c :: s ++ l /\ (c = 69 \/ c = 101) /\ signs s neg' /\ digits l /\ l <> [] /\ x = (if neg' then -1 else 1) * number_of l) ->
  exists N E, json_number (minus_sign s ++ ip ++ point fp ++ exp) s N E /\ x - zlen fp <= E /\ N * 10 ^ (E - (x - zlen fp)) = number_of (ip ++ fp).
Proof.
  intros Di Li Df He. destruct (strip_spec fp) as (n & Hn). exists (number_of (ip ++ strip_zeros fp)), (x - zlen (strip_zeros fp)).
  assert (Hl : zlen fp = zlen (strip_zeros fp) + Z.of_nat n) by (rewrite Hn at 1; unfold zlen; rewrite app_length, repeat_length; lia).
  assert (Ds : digits (strip_zeros fp)) by (rewrite Hn in Df; apply Forall_app in Df; tauto).
  split; [|split].
  - apply is_json_number; auto.
    + destruct s; auto.
    + unfold point. destruct (strip_zeros fp); [auto|right; split; [auto|discriminate]].
  - lia.
  - replace (x - zlen (strip_zeros fp) - (x - zlen fp)) with (Z.of_nat n) by lia. rewrite <- number_of_repeat_zero, <- app_assoc, <- Hn. reflexivity.
Qed.
Lemma digits_app a b : digits (a ++ b) <-> digits a /\ digits b.
Proof. apply Forall_app. Qed.
Lemma first_digit q : 10 ^ 5 <= q < 10 ^ 6 -> exists c l, last_digits 6 q = c :: l /\ c <> 48.
Proof.
  intros Hq. destruct (last_digits_spec 6 q ltac:(lia)) as (D & L & V). rewrite Z.mod_small in V by lia. destruct (last_digits 6 q) as [|c l] eqn:E; [discriminate|]. exists c, l. split; [reflexivity|]. intros ->.
  rewrite number_of_zero in V. cbn in L. injection L as L. destruct l as [|c1 [|c2 [|c3 [|c4 [|c5 [|]]]]]]; try discriminate. unfold number_of in V. cbn [fold_left] in V.
  inversion_clear D as [|? ? _ D']. repeat match goal with H : Forall _ (_ :: _) |- _ => inversion_clear H end. lia.
Qed.
Lemma general_spec s q x : 10 ^ 5 <= q < 10 ^ 6 -> -324 <= x <= 309 -> exists N E, json_number (minus_sign s ++ general q x) s N E /\ -400 <= E /\ N * 10 ^ (E + 400) = q * 10 ^ (x - 5 + 400).
Proof.
  intros Hq Hx. destruct (last_digits_spec 6 q ltac:(lia)) as (D & L & V). rewrite Z.mod_small in V by lia. destruct (first_digit q Hq) as (c & l & Hc & Hc0).
  assert (Fin : forall N E y lf, x - 5 = y - lf -> y - lf <= E -> N * 10 ^ (E - (y - lf)) = q -> -400 <= E /\ N * 10 ^ (E + 400) = q * 10 ^ (x - 5 + 400)).
  { intros N E y lf Hy He HN. split; [lia|]. rewrite <- HN, <- Z.mul_assoc, <- Z.pow_add_r by lia. do 2 f_equal. lia. }
  unfold general. destruct ((-4 <=? x) && (x <? 6)) eqn:Er.
  - apply andb_true_iff in Er as (E1 & E2). apply Z.leb_le in E1. apply Z.ltb_lt in E2. destruct (0 <=? x) eqn:Ex.
    + apply Z.leb_le in Ex. set (n := Z.to_nat (x + 1)). assert (Hn : (1 <= n <= 6)%nat) by (unfold n; lia). rewrite <- (firstn_skipn n (last_digits 6 q)) in D, V. apply digits_app in D as (D1 & D2).
      destruct (assembled s (firstn n (last_digits 6 q)) (skipn n (last_digits 6 q)) [] 0) as (N & E & HJ & HE & HN); auto.
      { right. rewrite Hc. destruct n; [lia|]. cbn. eauto. }
      rewrite app_nil_r in HJ. exists N, E. split; [exact HJ|]. rewrite V in HN. eapply Fin; [|exact HE|exact HN]. unfold zlen. rewrite skipn_length, L. unfold n. lia.
    + apply Z.leb_gt in Ex. set (n := Z.to_nat (- x - 1)). destruct (assembled s [48] (repeat 48 n ++ last_digits 6 q) [] 0) as (N & E & HJ & HE & HN); auto.
      { repeat constructor; lia. }
      { apply digits_app. split; [|exact D]. clear. induction n; cbn; constructor; [lia|auto]. }
      rewrite app_nil_r in HJ. exists N, E. split; [exact HJ|]. cbn [app] in HN. rewrite number_of_zero, number_of_zeros, V in HN. eapply Fin; [|exact HE|exact HN]. unfold zlen. rewrite app_length, repeat_length, L. unfold n. lia.
  - rewrite <- (firstn_skipn 1 (last_digits 6 q)) in D, V. apply digits_app in D as (D1 & D2).
    destruct (assembled s (firstn 1 (last_digits 6 q)) (skipn 1 (last_digits 6 q)) (exponent x) x) as (N & E & HJ & HE & HN); auto.
    { right. rewrite Hc. cbn. eauto. }
    { right. unfold exponent. set (n := if Z.abs x <? 100 then 2%nat else 3%nat). destruct (last_digits_spec n (Z.abs x) ltac:(lia)) as (Dx & Lx & Vx).
      exists 101, [if x <? 0 then 45 else 43], (x <? 0), (last_digits n (Z.abs x)). split; [reflexivity|]. split; [auto|]. split; [destruct (x <? 0); constructor|]. split; [exact Dx|]. split.
      - intros E0. rewrite E0 in Lx. unfold n in Lx. destruct (Z.abs x <? 100); discriminate.
      - rewrite Vx, Z.mod_small. { destruct (x <? 0) eqn:E0; [apply Z.ltb_lt in E0|apply Z.ltb_ge in E0]; lia. }
        unfold n. destruct (Z.abs x <? 100) eqn:E0; [apply Z.ltb_lt in E0; change (10 ^ Z.of_nat 2) with 100|change (10 ^ Z.of_nat 3) with 1000]; lia. }
    exists N, E. split; [exact HJ|]. rewrite V in HN. eapply Fin; [|exact HE|exact HN]. unfold zlen. rewrite skipn_length, L. lia.
Qed.

Lemma ten_pos k : 0 <= k -> 0 < 10 ^ k. Proof. intros. apply Z.pow_pos_nonneg; lia. Qed.
Lemma reaches_spec num den k : -400 <= k -> (reaches num den k = true <-> den * 10 ^ (k + 400) <= num * 10 ^ 400).
Proof.
  intros Hk. unfold reaches. rewrite Z.leb_le. set (c := 400 - Z.max (- k) 0). pose proof (ten_pos c ltac:(lia)) as Hc.
  replace (den * 10 ^ (k + 400)) with (den * 10 ^ Z.max k 0 * 10 ^ c). 2: { rewrite <- Z.mul_assoc, <- Z.pow_add_r by lia. do 2 f_equal. lia. }
  replace (num * 10 ^ 400) with (num * 10 ^ Z.max (- k) 0 * 10 ^ c). 2: { rewrite <- Z.mul_assoc, <- Z.pow_add_r by lia. do 2 f_equal. lia. }
  generalize (den * 10 ^ Z.max k 0) (num * 10 ^ Z.max (- k) 0) (10 ^ c) Hc. clear. intros a b p Hp. nia.
Qed.
Lemma decade_spec num den : forall fuel k, -400 <= k -> den * 10 ^ (k + 400) <= num * 10 ^ 400 -> num * 10 ^ 400 < den * 10 ^ (k + Z.of_nat fuel + 400) ->
  let j := decade fuel k num den in k <= j < k + Z.of_nat fuel /\ den * 10 ^ (j + 400) <= num * 10 ^ 400 < den * 10 ^ (j + 401).
Proof.
  induction fuel as [|fuel IH]; intros k Hk Hlo Hhi; [replace (k + Z.of_nat 0 + 400) with (k + 400) in Hhi by lia; lia|]. cbn [decade]. destruct (reaches num den (k + 1)) eqn:E.
  - apply reaches_spec in E; [|lia]. destruct (IH (k + 1)) as (A & B); [lia|exact E|replace (k + 1 + Z.of_nat fuel + 400) with (k + Z.of_nat (S fuel) + 400) by lia; exact Hhi|]. cbv zeta. split; [lia|exact B].
  - assert (E' : ~ den * 10 ^ (k + 1 + 400) <= num * 10 ^ 400) by (intros H; apply reaches_spec in H; [congruence|lia]). cbv zeta. split; [lia|]. split; [exact Hlo|]. replace (k + 401) with (k + 1 + 400) by lia. lia.
Qed.
Lemma round_even_spec a b : 0 < b -> let q := round_even a b in 2 * Z.abs (q * b - a) <= b /\ (2 * Z.abs (q * b - a) = b -> Z.even q = true).
Proof.
  intros Hb. unfold round_even. pose proof (Z.div_mod a b ltac:(lia)) as Hd. pose proof (Z.mod_pos_bound a b Hb) as Hm. cbv zeta. set (q := a / b) in *. set (r := a mod b) in *. clearbody q r. subst a.
  destruct (2 * r <? b) eqn:E1; [apply Z.ltb_lt in E1; split; [|intros]; lia|]. apply Z.ltb_ge in E1. destruct (b <? 2 * r) eqn:E2; [apply Z.ltb_lt in E2; split; [|intros]; nia|]. apply Z.ltb_ge in E2.
  destruct (Z.even q) eqn:E3; (split; [nia|]); intros _; [exact E3|]. now rewrite Z.even_add, E3.
Qed.
Lemma six_digits_spec num den : 0 < num -> 0 < den -> den * 10 ^ (-324 + 400) <= num * 10 ^ 400 -> num * 10 ^ 400 < den * 10 ^ (309 + 400) ->
  let (q', x) := six_digits num den in 10 ^ 5 <= q' < 10 ^ 6 /\ -324 <= x <= 309 /\ exists k q, -324 <= k <= 308 /\ q' * 10 ^ (x - 5 + 400) = q * 10 ^ (k - 5 + 400) /\
    den * 10 ^ (k + 400) <= num * 10 ^ 400 < den * 10 ^ (k + 401) /\
    2 * Z.abs (q * (den * 10 ^ (k - 5 + 400)) - num * 10 ^ 400) <= den * 10 ^ (k - 5 + 400) /\
    (2 * Z.abs (q * (den * 10 ^ (k - 5 + 400)) - num * 10 ^ 400) = den * 10 ^ (k - 5 + 400) -> Z.even q = true).
Proof.
  intros Hnum Hden Hlo Hhi. unfold six_digits.
  assert (Hd := decade_spec num den 700 (-324) ltac:(lia) Hlo). destruct Hd as (K1 & K2 & K3).
  { eapply Z.lt_le_trans; [exact Hhi|]. apply Z.mul_le_mono_nonneg_l; [lia|]. apply Z.pow_le_mono_r; lia. }
  set (k := decade 700 (-324) num den) in *.
  assert (K4 : k <= 308).
  { destruct (Z.le_gt_cases k 308) as [H | H]; [exact H|exfalso]. assert (10 ^ (309 + 400) <= 10 ^ (k + 400)) by (apply Z.pow_le_mono_r; lia).
    assert (den * 10 ^ (309 + 400) <= den * 10 ^ (k + 400)) by (apply Z.mul_le_mono_nonneg_l; lia). lia. }
  clearbody k. set (a := num * 10 ^ Z.max (5 - k) 0). set (b := den * 10 ^ Z.max (k - 5) 0).
  set (c := 400 - Z.max (5 - k) 0). pose proof (ten_pos c ltac:(lia)) as Hc.
  assert (Ea : num * 10 ^ 400 = a * 10 ^ c) by (unfold a; rewrite <- Z.mul_assoc, <- Z.pow_add_r by lia; do 2 f_equal; lia).
  assert (Eb : den * 10 ^ (k - 5 + 400) = b * 10 ^ c) by (unfold b; rewrite <- Z.mul_assoc, <- Z.pow_add_r by lia; do 2 f_equal; lia).
  assert (Hb : 0 < b) by (unfold b; apply Z.mul_pos_pos; [lia|apply ten_pos; lia]).
  destruct (round_even_spec a b Hb) as (R1 & R2). set (q := round_even a b) in *. clearbody q.
  assert (S1 : 2 * Z.abs (q * (den * 10 ^ (k - 5 + 400)) - num * 10 ^ 400) = 2 * Z.abs (q * b - a) * 10 ^ c).
  { rewrite Eb, Ea. replace (q * (b * 10 ^ c) - a * 10 ^ c) with ((q * b - a) * 10 ^ c) by ring. rewrite Z.abs_mul, (Z.abs_eq (10 ^ c)) by lia. ring. }
  assert (B1 : 10 ^ 5 * b <= a /\ a < 10 ^ 6 * b).
  { replace (den * 10 ^ (k + 400)) with (10 ^ 5 * b * 10 ^ c) in K2. 2: { rewrite <- Z.mul_assoc, <- Eb. replace (k + 400) with (5 + (k - 5 + 400)) by lia. rewrite (Z.pow_add_r 10 5) by lia. ring. }
    replace (den * 10 ^ (k + 401)) with (10 ^ 6 * b * 10 ^ c) in K3. 2: { rewrite <- Z.mul_assoc, <- Eb. replace (k + 401) with (6 + (k - 5 + 400)) by lia. rewrite (Z.pow_add_r 10 6) by lia. ring. }
    rewrite Ea in K2, K3. clear - K2 K3 Hc. split; [apply (Z.mul_le_mono_pos_r _ _ (10 ^ c)); assumption|apply (Z.mul_lt_mono_pos_r (10 ^ c)); assumption]. }
  assert (Q : 10 ^ 5 <= q <= 10 ^ 6).
  { clear - B1 R1 Hb. change (10 ^ 5) with 100000 in *. change (10 ^ 6) with 1000000 in *. destruct B1. clearbody a b. split.
    - destruct (Z.le_gt_cases 100000 q); [assumption|exfalso]. assert (q * b <= 99999 * b) by (apply Z.mul_le_mono_nonneg_r; lia). lia.
    - destruct (Z.le_gt_cases q 1000000); [assumption|exfalso]. assert (1000001 * b <= q * b) by (apply Z.mul_le_mono_nonneg_r; lia). lia. }
  assert (Main : forall q' x, q' * 10 ^ (x - 5 + 400) = q * 10 ^ (k - 5 + 400) -> 10 ^ 5 <= q' < 10 ^ 6 -> -324 <= x <= 309 ->
    10 ^ 5 <= q' < 10 ^ 6 /\ -324 <= x <= 309 /\ exists k q, -324 <= k <= 308 /\ q' * 10 ^ (x - 5 + 400) = q * 10 ^ (k - 5 + 400) /\
    den * 10 ^ (k + 400) <= num * 10 ^ 400 < den * 10 ^ (k + 401) /\
    2 * Z.abs (q * (den * 10 ^ (k - 5 + 400)) - num * 10 ^ 400) <= den * 10 ^ (k - 5 + 400) /\
    (2 * Z.abs (q * (den * 10 ^ (k - 5 + 400)) - num * 10 ^ 400) = den * 10 ^ (k - 5 + 400) -> Z.even q = true)).
  { intros q' x Hq' H1 H2. split; [exact H1|]. split; [exact H2|]. exists k, q. split; [lia|]. split; [exact Hq'|]. split; [split; assumption|]. rewrite S1, Eb. split.
    - apply Z.mul_le_mono_nonneg_r; [lia|exact R1].
    - intros HE. apply R2. apply Z.mul_reg_r in HE; [exact HE|lia]. }
  destruct (q =? 10 ^ 6) eqn:Eq.
  - apply Z.eqb_eq in Eq. apply Main; [|lia|lia]. rewrite Eq. replace (k + 1 - 5 + 400) with (1 + (k - 5 + 400)) by lia. rewrite (Z.pow_add_r 10 1) by lia. change (10 ^ 6) with (10 ^ 5 * 10 ^ 1). ring.
  - apply Z.eqb_neq in Eq. apply Main; [reflexivity|lia|lia].
Qed.
