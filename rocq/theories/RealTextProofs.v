(** The numbers that the compiler writes into headers (RealText.v): for C128. *)
From Coq Require Import List String Ascii ZArith Bool Lia SpecFloat.
From Verif Require Import Base Lexer RealModel Spec RealEq RealEqProofs PropertiesRealEq DecimalSpec RealDecimal RealDecimalProofs PropertiesRealDecimal RealPrint RealPrintProofs RealText.
Import ListNotations.
Local Open Scope list_scope.
Local Open Scope Z_scope.

(** ** Doubles and their neighbours *)
Lemma double_with P : 0 <= P < 2047 * 2^52 -> exists x, is_double x /\ dbl_sign x = 0 /\ pattern_of x = P /\ dbl_finite x.
Proof.
  intros H. destruct (octets_value 8 P) as (V & L & Y); [change (256 ^ Z.of_nat 8) with (2^64); lia|]. exists (octets_of 8 P).
  assert (Dx : is_double (octets_of 8 P)) by (split; [rewrite L; reflexivity|exact Y]). split; [exact Dx|]. destruct (double_fields _ Dx) as (B & Q & E & S & F & _). rewrite V in E, B.
  assert (S0 : dbl_sign (octets_of 8 P) = 0) by (destruct S as [S|S]; rewrite S in E; lia). rewrite S0 in E. split; [exact S0|]. split; [lia|]. unfold dbl_finite. rewrite F. replace (pattern_of (octets_of 8 P)) with P by lia. apply Z.div_lt_upper_bound; lia.
Qed.
(** The binary exponent of the distance to the next greater double. *)
Definition step (P : Z) : Z := Z.max 0 (P / 2^52 - 1).
Lemma magnitude_up P : 0 <= P -> magnitude (P + 1) = magnitude P + 2 ^ step P.
Proof.
  intros Hp. unfold magnitude, step. set (b := P / 2^52). set (r := P mod 2^52). assert (Hb : 0 <= b) by (apply Z.div_pos; lia). assert (Hr : 0 <= r < 2^52) by (apply Z.mod_pos_bound; lia).
  assert (Hd : P = 2^52 * b + r) by (apply Z.div_mod; lia). destruct (Z.eq_dec r (2^52 - 1)) as [E | E].
  - assert (E1 : (P + 1) / 2^52 = b + 1) by (symmetry; apply (Z.div_unique _ _ _ 0); lia). assert (E2 : (P + 1) mod 2^52 = 0) by (symmetry; apply (Z.mod_unique _ _ (b + 1)); lia). rewrite E1, E2, E. clearbody b r. clear E1 E2 Hd.
    replace (b + 1 =? 0) with false by lia. replace (b + 1 - 1) with b by lia. destruct (b =? 0) eqn:Eb; [apply Z.eqb_eq in Eb; rewrite Eb; reflexivity|apply Z.eqb_neq in Eb].
    rewrite Z.max_r by lia. replace (2 ^ b) with (2 * 2 ^ (b - 1)) by (rewrite <- Z.pow_succ_r by lia; f_equal; lia). lia.
  - assert (E1 : (P + 1) / 2^52 = b) by (symmetry; apply (Z.div_unique _ _ _ (r + 1)); lia). assert (E2 : (P + 1) mod 2^52 = r + 1) by (symmetry; apply (Z.mod_unique _ _ b); lia). rewrite E1, E2. clearbody b r. clear E1 E2 Hd.
    destruct (b =? 0) eqn:Eb; [apply Z.eqb_eq in Eb; rewrite Eb; cbn; lia|]. apply Z.eqb_neq in Eb. rewrite Z.max_r by lia. lia.
Qed.
Lemma magnitude_multiple P : 0 <= P -> exists c, magnitude P = c * 2 ^ step P.
Proof.
  intros Hp. unfold magnitude, step. assert (Hb : 0 <= P / 2^52) by (apply Z.div_pos; lia). destruct (P / 2^52 =? 0) eqn:Eb.
  - apply Z.eqb_eq in Eb. rewrite Eb. exists (P mod 2^52). cbn. lia.
  - apply Z.eqb_neq in Eb. rewrite Z.max_r by lia. eexists. reflexivity.
Qed.
(** The next smaller double is as far, but below powers of two. *)
Lemma magnitude_down P : 0 < P -> step (P - 1) = step P \/ (step (P - 1) = step P - 1 /\ magnitude P = 2 ^ (52 + step P)).
Proof.
  intros Hp. unfold magnitude, step. set (b := P / 2^52). set (r := P mod 2^52). assert (Hb : 0 <= b) by (apply Z.div_pos; lia). assert (Hr : 0 <= r < 2^52) by (apply Z.mod_pos_bound; lia).
  assert (Hd : P = 2^52 * b + r) by (apply Z.div_mod; lia). destruct (Z.eq_dec r 0) as [E | E].
  - assert (E1 : (P - 1) / 2^52 = b - 1) by (symmetry; apply (Z.div_unique _ _ _ (2^52 - 1)); lia). rewrite E1, E. clearbody b r. destruct (Z.le_gt_cases b 1) as [L|L]; [left; lia|]. right. split; [lia|].
    replace (b =? 0) with false by lia. rewrite Z.max_r by lia. rewrite Z.add_0_r, <- Z.pow_add_r by lia. reflexivity.
  - left. assert (E1 : (P - 1) / 2^52 = b) by (symmetry; apply (Z.div_unique _ _ _ (r - 1)); lia). rewrite E1. reflexivity.
Qed.
Lemma unit_split k : k <= 1074 -> 0 <= k -> 2^1074 = 2 ^ (1074 - k) * 2 ^ k.
Proof. intros H H0. rewrite <- Z.pow_add_r by lia. f_equal. lia. Qed.
Lemma exact_round D U S q : 0 < U -> 2 * Z.abs (q * U - D * S) <= U -> (exists c, D = c * U) -> q * U = D * S.
Proof.
  intros HU H (c & ->). assert (E : Z.abs (q * U - c * U * S) = Z.abs (q - c * S) * U) by (replace (q * U - c * U * S) with ((q - c * S) * U) by ring; rewrite Z.abs_mul, (Z.abs_eq U) by lia; reflexivity).
  rewrite E in H. assert (Z.abs (q - c * S) = 0) by (destruct (Z.eq_dec (Z.abs (q - c * S)) 0) as [h|h]; [exact h|exfalso; assert (1 <= Z.abs (q - c * S)) by lia; nia]). nia.
Qed.
(** A double that is nearest to a number of at most six places, rounded to six places: it is nearest to the result, too. *)
Lemma six_places_nearest N p d q : 0 <= N -> 0 <= p <= 6 -> nearest_double false N (- p) d -> dbl_finite d -> 0 <= q -> 2 * Z.abs (q * 2^1074 - in_units d * 10^6) <= 2^1074 ->
  nearest_double false q (-6) d.
Proof.
  intros HN Hp H Fin Hq R. destruct H as (Dd & Sd & HI & HF). cbv zeta in HI, HF. rewrite (Z.max_r (-p) 0), Z.opp_involutive, (Z.max_l p 0) in HI, HF by lia. rewrite Z.pow_0_r, Z.mul_1_r in HI, HF.
  assert (nG : ~ (2^54 - 1) * 2^970 * 10^p <= N). { intros G. destruct (HI G) as (I1 & _). unfold dbl_finite in Fin. lia. }
  destruct (HF nG) as (_ & F). clear HI HF. destruct (double_fields d Dd) as (_ & HP & _ & _ & He & Hfr).
  pose proof (in_units_magnitude d Dd) as HD. rewrite Sd in HD. cbn [Z.eqb] in HD. change (if false then -1 else 1) with 1 in HD. rewrite Z.mul_1_l in HD. set (P := pattern_of d) in *. set (D := magnitude P) in *.
  assert (PM : P < 2047 * 2^52) by (unfold dbl_finite in Fin; rewrite He in Fin; Z.div_mod_to_equations; lia).
  set (c := 10 ^ (6 - p)). set (M := N * c). assert (Hc : 0 < c) by (apply Z.pow_pos_nonneg; lia). assert (Es : 10^p * c = 10^6) by (unfold c; rewrite <- Z.pow_add_r by lia; f_equal; lia).
  set (S := 10^6) in *. set (U := 2^1074) in *. assert (HU : 0 < U) by (apply Z.pow_pos_nonneg; lia). assert (HS : S = 1000000) by reflexivity.
  assert (Scale : forall y, Z.abs (1 * N * U - y * 10^p) * c = Z.abs (M * U - y * S)).
  { intros y. rewrite <- (Z.abs_eq c) at 1 by lia. rewrite <- Z.abs_mul. f_equal. unfold M. rewrite <- Es. ring. }
  assert (F' : forall x, is_double x -> dbl_finite x -> Z.abs (M * U - D * S) <= Z.abs (M * U - in_units x * S) /\ (Z.abs (M * U - D * S) = Z.abs (M * U - in_units x * S) -> in_units x <> D -> Z.even (dbl_frac d) = true)).
  { intros x Dx Fx. destruct (F x Dx Fx) as (A & B). rewrite HD in A, B. rewrite <- !Scale. split; [apply Z.mul_le_mono_nonneg_r; [lia|exact A]|]. intros E. apply B. apply Z.mul_reg_r in E; [exact E|lia]. }
  clear F. rewrite HD in R.
  (* enough: the distances *)
  assert (Top : D <= (2^54 - 2) * 2^970 * U).
  { destruct (double_with (2047 * 2^52 - 1)) as (t & _); [lia|]. pose proof (magnitude_mono P (2047 * 2^52 - 1 - P) ltac:(lia) ltac:(lia)) as T. replace (P + (2047 * 2 ^ 52 - 1 - P)) with (2047 * 2^52 - 1) in T by lia.
    assert (E : magnitude (2047 * 2^52 - 1) = (2^54 - 2) * 2^970 * U) by (unfold U; vm_compute; reflexivity). fold D in T. lia. }
  split; [exact Dd|]. split; [exact Sd|]. cbv zeta. change (Z.max (-6) 0) with 0. change (Z.max (- -6) 0) with 6. rewrite Z.pow_0_r, Z.mul_1_r. fold S.
  assert (nT : ~ (2^54 - 1) * 2^970 * S <= q).
  { intros G. assert (G' : ((2^54 - 2) * 2^970 + 2^970) * S * U <= q * U) by (apply Z.mul_le_mono_nonneg_r; [lia|]; lia). set (X := (2^54 - 2) * 2^970) in *. assert (1 <= 2^970) by lia. clearbody X U D. clear -R Top G' H HS HU. set (Y := 2^970) in *. clearbody Y. assert (D * S <= X * U * S) by nia. assert (U <= Y * S * U) by nia. nia. }
  split; [intros G; contradiction|]. intros _. split; [exact Fin|]. fold U. rewrite HD. rewrite Z.mul_1_l.
  enough (Enough : forall x, is_double x -> dbl_finite x -> in_units x <> D -> Z.abs (q * U - D * S) < Z.abs (q * U - in_units x * S) \/ q = M).
  { intros x Dx Fx. destruct (Z.eq_dec (in_units x) D) as [Ex|Ex]; [rewrite Ex; split; [lia|intros _ X; contradiction]|]. destruct (Enough x Dx Fx Ex) as [h| ->]; [split; [lia|intros X; lia]|]. apply F'; assumption. }
  intros x Dx Fx Ex.
  (* q = M, or the number is half a millionth away *)
  destruct (Z.lt_ge_cases (2 * Z.abs (M * U - D * S)) U) as [A|B].
  { right. assert (A' : Z.abs ((q - M) * U) < U) by (replace ((q - M) * U) with ((q * U - D * S) - (M * U - D * S)) by ring; lia). rewrite Z.abs_mul, (Z.abs_eq U) in A' by lia. clear -A' HU. nia. }
  left. assert (Exact : q * U = D * S -> Z.abs (q * U - D * S) < Z.abs (q * U - in_units x * S)). { intros E. rewrite E, Z.sub_diag. cbn [Z.abs]. assert (D * S <> in_units x * S) by (intros h; apply Z.mul_reg_r in h; [congruence|lia]). lia. }
  set (k := step P). destruct (Z.le_gt_cases 1074 k) as [K|K].
  { apply Exact, (exact_round D U S q HU R). destruct (magnitude_multiple P ltac:(lia)) as (c0 & E0). fold D in E0. exists (c0 * 2 ^ (k - 1074)). rewrite E0. unfold U. rewrite <- Z.mul_assoc, <- Z.pow_add_r by lia. do 2 f_equal. fold k. lia. }
  assert (K0 : 0 <= k) by (unfold k, step; lia). assert (PB : P + 1 < 2047 * 2^52) by (unfold k, step in K; Z.div_mod_to_equations; lia).
  assert (Pk : 0 < 2^k) by (apply Z.pow_pos_nonneg; lia).
  (* the neighbours are near *)
  assert (Near : U <= 2^k * S).
  { destruct (Z.le_gt_cases (D * S) (M * U)) as [L|L].
    - destruct (double_with (P + 1)) as (y & Dy & Sy & Py & Fy); [lia|]. destruct (F' y Dy Fy) as (Y & _). rewrite (in_units_magnitude y Dy), Sy, Py, magnitude_up in Y by lia. cbn [Z.eqb] in Y. fold D k in Y. rewrite Z.mul_add_distr_l, Z.mul_add_distr_r, !Z.mul_1_l in Y. lia.
    - assert (P0 : 0 < P). { destruct (Z.eq_dec P 0) as [h|h]; [|lia]. exfalso. unfold D in L. rewrite h in L. change (magnitude 0) with 0 in L. assert (0 <= M * U) by (apply Z.mul_nonneg_nonneg; [unfold M; nia|lia]). lia. }
      destruct (double_with (P - 1)) as (y & Dy & Sy & Py & Fy); [lia|]. destruct (F' y Dy Fy) as (Y & _). rewrite (in_units_magnitude y Dy), Sy, Py in Y. cbn [Z.eqb] in Y. rewrite Z.mul_1_l in Y.
      pose proof (magnitude_up (P - 1) ltac:(lia)) as E1. rewrite Z.sub_add in E1. fold D in E1. replace (magnitude (P - 1)) with (D - 2 ^ step (P - 1)) in Y by lia. rewrite Z.mul_sub_distr_r in Y.
      assert (St : 2 ^ step (P - 1) <= 2 ^ k). { apply Z.pow_le_mono_r; [lia|]. unfold k. destruct (magnitude_down P P0) as [E|(E & _)]; rewrite E; lia. }
      assert (0 < 2 ^ step (P - 1)) by (apply Z.pow_pos_nonneg; unfold step; lia). assert (0 < 2 ^ step (P - 1) * S) by (apply Z.mul_pos_pos; lia). assert (2 ^ step (P - 1) * S <= 2^k * S) by (apply Z.mul_le_mono_nonneg_r; lia). lia. }
  assert (K1 : 1055 <= k).
  { destruct (Z.le_gt_cases 1055 k) as [h|h]; [exact h|exfalso]. assert (H : 2^k <= 2^1054) by (apply Z.pow_le_mono_r; lia). assert (E : U = 2^1054 * 2^20) by reflexivity. rewrite E, HS in Near. clear -Near H. assert (0 < 2^1054) by (apply Z.pow_pos_nonneg; lia). set (Y := 2^1054) in *. set (X := 2^k) in *. clearbody X Y. lia. }
  assert (Near' : U < 2^k * S). { assert (H : 2^1055 <= 2^k) by (apply Z.pow_le_mono_r; lia). assert (E : U = 2^1055 * 2^19) by reflexivity. rewrite E, HS. clear -H. assert (0 < 2^1055) by (apply Z.pow_pos_nonneg; lia). set (Y := 2^1055) in *. set (X := 2^k) in *. clearbody X Y. lia. }
  assert (P0 : 0 < P). { unfold k, step in K1. destruct (Z.eq_dec P 0) as [h|h]; [rewrite h in K1; cbn in K1; lia|lia]. }
  destruct (magnitude_down P P0) as [E|(_ & E)].
  2:{ apply Exact, (exact_round D U S q HU R). exists (2 ^ (52 + k - 1074)). fold D k in E. rewrite E. unfold U. rewrite <- Z.pow_add_r by lia. f_equal. lia. }
  pose proof (magnitude_up (P - 1) ltac:(lia)) as E1. rewrite Z.sub_add, E in E1. fold D k in E1. pose proof (magnitude_up P ltac:(lia)) as E2. fold D k in E2.
  assert (M0 : forall z, 0 <= z -> 0 <= magnitude z) by (intros z Hz; pose proof (magnitude_mono 0 z ltac:(lia) Hz) as h; change (magnitude 0) with 0 in h; rewrite Z.add_0_l in h; lia).
  assert (Far : 2^k <= Z.abs (D - in_units x)).
  { destruct (double_fields x Dx) as (_ & Px & _ & Sx & _). rewrite (in_units_magnitude x Dx) in *. pose proof (M0 (P - 1) ltac:(lia)) as M1. pose proof (M0 (pattern_of x) ltac:(lia)) as M2. destruct Sx as [Sx|Sx]; rewrite Sx in *; cbn [Z.eqb Pos.eqb] in *; [rewrite Z.mul_1_l in *|lia].
    destruct (Z.lt_trichotomy (pattern_of x) P) as [h|[h|h]].
    - pose proof (magnitude_mono (pattern_of x) (P - 1 - pattern_of x) ltac:(lia) ltac:(lia)) as m. replace (pattern_of x + (P - 1 - pattern_of x)) with (P - 1) in m by lia. lia.
    - rewrite h in Ex. contradiction.
    - pose proof (magnitude_mono (P + 1) (pattern_of x - (P + 1)) ltac:(lia) ltac:(lia)) as m. replace (P + 1 + (pattern_of x - (P + 1))) with (pattern_of x) in m by lia. lia. }
  assert (Far' : 2^k * S <= Z.abs ((D - in_units x) * S)) by (rewrite Z.abs_mul, (Z.abs_eq S) by lia; apply Z.mul_le_mono_nonneg_r; lia).
  rewrite Z.mul_sub_distr_r in Far'. lia.
Qed.

(** ** Texts *)
Lemma round_shape neg N E : 0 <= N -> match round_decimal neg N E with S754_zero s | S754_infinity s => s = neg | S754_nan => False | S754_finite s m e => s = neg /\ canonical (Zpos m) e /\ e <= 971 end.
Proof.
  intros HN. unfold round_decimal. set (num := N * 10 ^ Z.max E 0). set (den := 10 ^ Z.max (- E) 0). fold (cut num den).
  assert (Hd : 0 < den) by (apply Z.pow_pos_nonneg; lia). assert (Hn : 0 <= num) by (apply Z.mul_nonneg_nonneg; [exact HN|apply Z.pow_nonneg; lia]). destruct (cut num den =? 0) eqn:E0; [reflexivity|].
  assert (Np : 0 < num). { destruct (Z.eq_dec num 0) as [h|h]; [|lia]. exfalso. apply Z.eqb_neq in E0. apply E0. unfold cut. rewrite h, Z.mul_0_l, Z.div_0_l, Z.mod_0_l by lia. reflexivity. }
  pose proof (cut_pos num den ltac:(lia) Hd) as Cp. destruct (cut num den) as [|m|m] eqn:Em; try lia. destruct (rounded neg num den m ltac:(lia) Hd Em) as (X & ev & _ & R).
  destruct (binary_round_aux 53 1024 neg (Z.pos m) (-1201) loc_Exact) as [s'|s'| |s' m' e']; cbn in R; intuition.
Qed.
Lemma decimal_digits_spec fuel : forall q, 0 <= q < 10 ^ Z.of_nat fuel -> (0 < fuel)%nat -> digits (decimal_digits fuel q) /\ decimal_digits fuel q <> [] /\ number_of (decimal_digits fuel q) = q.
Proof.
  induction fuel as [|fuel IH]; [lia|]. intros q Hq _. cbn [decimal_digits]. destruct (q <? 10) eqn:E; [apply Z.ltb_lt in E|apply Z.ltb_ge in E].
  - split; [constructor; [lia|constructor]|]. split; [discriminate|]. unfold number_of. cbn [fold_left]. lia.
  - rewrite Nat2Z.inj_succ, Z.pow_succ_r in Hq by lia. assert (Hf : (0 < fuel)%nat) by (destruct fuel; [cbn in Hq; lia|lia]).
    destruct (IH (q / 10)) as (A & B & C); [split; [apply Z.div_pos; lia|apply Z.div_lt_upper_bound; lia]|exact Hf|]. split; [apply Forall_app; split; [exact A|constructor; [pose proof (Z.mod_pos_bound q 10); lia|constructor]]|].
    split; [intros X; apply app_eq_nil in X; destruct X; discriminate|]. rewrite number_of_snoc, C. pose proof (Z.div_mod q 10). lia.
Qed.
Lemma number_of_app a b : number_of (a ++ b) = number_of a * 10 ^ zlen b + number_of b.
Proof.
  induction b as [|c b IH] using rev_ind; [rewrite app_nil_r; cbn; lia|]. rewrite app_assoc, !number_of_snoc, IH. unfold zlen. rewrite app_length, Nat2Z.inj_add. cbn [List.length]. rewrite Z.pow_add_r by lia. change (10 ^ Z.of_nat 1) with 10. ring.
Qed.
Lemma fixed_spec q : 0 <= q < 10 ^ 316 -> exists ip fp, fixed q = ip ++ 46 :: fp /\ digits ip /\ digits fp /\ ip <> [] /\ zlen fp = 6 /\ number_of (ip ++ fp) = q.
Proof.
  intros Hq. assert (Hd : 0 <= q / 10^6 < 10 ^ Z.of_nat 310). { split; [apply Z.div_pos; lia|]. apply Z.div_lt_upper_bound; [lia|]. change (Z.of_nat 310) with 310. rewrite <- Z.pow_add_r by lia. exact (proj2 Hq). }
  destruct (decimal_digits_spec 310 (q / 10^6) Hd ltac:(lia)) as (A & B & C). pose proof (Z.mod_pos_bound q (10^6) ltac:(lia)) as M. destruct (last_digits_spec 6 (q mod 10^6) ltac:(lia)) as (D & L & V).
  exists (decimal_digits 310 (q / 10^6)), (last_digits 6 (q mod 10^6)). split; [reflexivity|]. split; [exact A|]. split; [exact D|]. split; [exact B|]. assert (L' : zlen (last_digits 6 (q mod 10^6)) = 6) by (unfold zlen; rewrite L; reflexivity). split; [exact L'|].
  rewrite number_of_app, L', C, V. change (Z.of_nat 6) with 6. rewrite Z.mod_mod by lia. pose proof (Z.div_mod q (10^6)). lia.
Qed.
Lemma characters_string u : Forall (fun c => 0 <= c < 256) u -> characters (string_of u) = u.
Proof.
  induction 1 as [|c u H F IH]; [reflexivity|]. unfold characters, string_of in *. cbn [fold_right list_ascii_of_string map]. rewrite IH. f_equal. rewrite N_ascii_embedding by lia. apply Z2N.id. lia.
Qed.
Lemma digits_octets u : digits u -> Forall (fun c => 0 <= c < 256) u.
Proof. intros H. eapply Forall_impl; [|exact H]. cbn. lia. Qed.
Lemma digits_no_comma u : digits u -> map comma_to_dot u = u.
Proof. induction 1 as [|c u H F IH]; [reflexivity|]. cbn [map]. rewrite IH. unfold comma_to_dot. destruct (c =? 44) eqn:E; [lia|reflexivity]. Qed.
Lemma number_of_nonneg u : digits u -> 0 <= number_of u.
Proof. intros H. induction u as [|c u IH] using rev_ind; [cbn; lia|]. apply Forall_app in H as (H1 & H2). inversion H2; subst. rewrite number_of_snoc. specialize (IH H1). lia. Qed.
(** What is written into the header for digits, a point and digits is six places of the nearest double. *)
Lemma stod_text ip fp f : digits ip -> digits fp -> ip ++ fp <> [] -> stod (ip ++ 46 :: fp) = Some f ->
  exists d q, nearest_double false (number_of (ip ++ fp)) (- zlen fp) d /\ dbl_finite d /\ to_string_double f = fixed q /\ 0 <= q < 10^316 /\ 2 * Z.abs (q * 2^1074 - in_units d * 10^6) <= 2^1074.
Proof.
  intros A B C E. assert (R : read_number (ip ++ 46 :: fp) = Some (false, number_of (ip ++ fp), - zlen fp)).
  { pose proof (read_iso (repeat 32 0 ++ [] ++ ip ++ 46 :: fp) false _ _ (form_2 0 [] false _ _ _ no_sign (is_marked ip 46 fp A B C (or_introl eq_refl)))) as R. cbn [repeat app] in R. rewrite map_app in R. cbn [map] in R. rewrite !digits_no_comma in R by assumption. exact R. }
  assert (HN : 0 <= number_of (ip ++ fp)) by (apply number_of_nonneg, Forall_app; split; assumption). unfold stod in E. rewrite R in E. set (N := number_of (ip ++ fp)) in *. set (p := - zlen fp) in *. clearbody N p.
  pose proof (round_decimal_nearest false N p HN) as Near. pose proof (round_shape false N p HN) as Sh. destruct (round_decimal false N p) as [s|s| |s m e]; try discriminate E.
  - subst s. destruct (N =? 0); [injection E as <-|discriminate E]. destruct (pattern_zero false) as (_ & _ & F & Un & _). eexists _, 0. split; [exact Near|]. split; [exact F|]. split; [reflexivity|]. split; [split; [lia|vm_compute; reflexivity]|]. rewrite Un. cbn. lia.
  - destruct Sh as (-> & Ca & He). destruct (Z.pos m <? 2^52); [discriminate E|injection E as <-]. destruct (pattern_finite false m e Ca He) as (_ & _ & F & Un & _). set (d := octets_of 8 (pattern (S754_finite false m e))) in *. clearbody d.
    exists d. destruct Ca as (C1 & C2 & C3). set (a := Z.pos m * 2 ^ Z.max e 0 * 10 ^ 6). set (b := 2 ^ Z.max (- e) 0). assert (Hb : 0 < b) by (apply Z.pow_pos_nonneg; lia). pose proof (round_even_spec a b Hb) as (Q & _). exists (round_even a b).
    split; [exact Near|]. split; [exact F|]. split; [reflexivity|]. set (c := 2 ^ (1074 - Z.max (- e) 0)). assert (Hc : 0 < c) by (apply Z.pow_pos_nonneg; lia).
    assert (E1 : b * c = 2^1074) by (unfold b, c; rewrite <- Z.pow_add_r by lia; f_equal; lia).
    assert (E2 : in_units d * 10^6 = a * c). { rewrite Un. unfold units, a, c. replace (e + 1074) with (Z.max e 0 + (1074 - Z.max (- e) 0)) by lia. rewrite Z.pow_add_r by lia. ring. }
    assert (Ha : 0 <= a) by (unfold a; apply Z.mul_nonneg_nonneg; [apply Z.mul_nonneg_nonneg; [lia|apply Z.pow_nonneg; lia]|lia]).
    assert (Hq : 0 <= round_even a b) by (unfold round_even; pose proof (Z.div_pos a b Ha Hb); destruct (_ <? _); [lia|destruct (_ <? _); [lia|destruct (Z.even _); lia]]).
    split; [split; [exact Hq|]|].
    + assert (Hm : a <= (2^53 * 2^971 * 10^6) * b). { unfold a, b. assert (P1 : 2 ^ Z.max e 0 <= 2^971) by (apply Z.pow_le_mono_r; lia). assert (P2 : 1 <= 2 ^ Z.max (- e) 0) by (change 1 with (2^0); apply Z.pow_le_mono_r; lia).
        assert (P3 : 0 < 2 ^ Z.max e 0) by (apply Z.pow_pos_nonneg; lia). apply Z.le_trans with (2^53 * 2^971 * 10^6 * 1); [rewrite Z.mul_1_r; apply Z.mul_le_mono_nonneg_r; [lia|apply Z.mul_le_mono_nonneg; lia]|apply Z.mul_le_mono_nonneg_l; [lia|exact P2]]. }
      assert (T : 2^53 * 2^971 * 10^6 + 1 < 10^316) by (vm_compute; reflexivity). set (Y := 2^53 * 2^971 * 10^6) in *. set (W := 10^316) in *. set (q := round_even a b) in *. clearbody Y W q a b. clear -Q Hm T Hb. nia.
    + rewrite E2, <- E1. replace (round_even a b * (b * c) - a * c) with ((round_even a b * b - a) * c) by ring. rewrite Z.abs_mul, (Z.abs_eq c) by lia. rewrite Z.mul_assoc. apply Z.mul_le_mono_nonneg_r; [lia|exact Q].
Qed.

(** The number that is written is a double, too. *)
Lemma six_places_finite d q : is_double d -> dbl_sign d = 0 -> dbl_finite d -> 0 <= q -> 2 * Z.abs (q * 2^1074 - in_units d * 10^6) <= 2^1074 -> exists d', nearest_double false q (-6) d' /\ dbl_finite d'.
Proof.
  intros Dd Sd Fin Hq R. destruct (double_fields d Dd) as (_ & HP & _ & _ & He & _). rewrite (in_units_magnitude d Dd), Sd in R. cbn [Z.eqb] in R. rewrite Z.mul_1_l in R. set (P := pattern_of d) in *.
  assert (PM : P < 2047 * 2^52) by (unfold dbl_finite in Fin; rewrite He in Fin; Z.div_mod_to_equations; lia).
  set (D := magnitude P) in *. set (S := 10^6) in *. set (U := 2^1074) in *. assert (HU : 0 < U) by (apply Z.pow_pos_nonneg; lia). assert (HS : S = 1000000) by reflexivity.
  assert (Top : D <= (2^54 - 2) * 2^970 * U).
  { pose proof (magnitude_mono P (2047 * 2^52 - 1 - P) ltac:(lia) ltac:(lia)) as T. replace (P + (2047 * 2 ^ 52 - 1 - P)) with (2047 * 2^52 - 1) in T by lia.
    assert (E : magnitude (2047 * 2^52 - 1) = (2^54 - 2) * 2^970 * U) by (unfold U; vm_compute; reflexivity). fold D in T. lia. }
  assert (nT : ~ (2^54 - 1) * 2^970 * S <= q).
  { intros G. assert (G' : ((2^54 - 2) * 2^970 + 2^970) * S * U <= q * U) by (apply Z.mul_le_mono_nonneg_r; [lia|]; lia). set (X := (2^54 - 2) * 2^970) in *. assert (1 <= 2^970) by lia. clearbody X U D. clear -R Top G' H HS HU. set (Y := 2^970) in *. clearbody Y. assert (D * S <= X * U * S) by nia. assert (U <= Y * S * U) by nia. nia. }
  pose proof (round_decimal_nearest false q (-6) Hq) as N. eexists. split; [exact N|]. destruct N as (_ & _ & _ & F). cbv zeta in F. change (Z.max (-6) 0) with 0 in F. change (Z.max (- -6) 0) with 6 in F. rewrite Z.pow_0_r, Z.mul_1_r in F. exact (proj1 (F nT)).
Qed.
