(** Printing reals (C135). *)
From Coq Require Import List ZArith Bool Lia SpecFloat.
From Verif Require Import Base Ident View Prims RealModel Spec RealProofs RealEq RealEqProofs PropertiesRealEq DecimalSpec RealPrint RealPrintSpec RealPrintProofs.
From Verif Require PrintSpec PrintJson.
From Coq Require Import String.
Local Close Scope string_scope.
Import ListNotations.
Local Open Scope Z_scope.

(** A finite double is printed as a JSON number, which is the double rounded to six significant digits. *)
Lemma print_double_finite d : is_double d -> dbl_finite d -> exists N E, json_number (print_double d) (dbl_sign d =? 1) N E /\ six_digits_of d N E.
Proof.
  intros [Hl Hd] Hf. unfold print_double, datum, dbl_finite in *. replace (dbl_exp d =? 2047) with false by (symmetry; apply Z.eqb_neq; lia). set (s := dbl_sign d =? 1).
  assert (Hu : Z.abs (in_units d) = dbl_mantissa d * 2 ^ (dbl_scale d + 1074) /\ 0 <= dbl_mantissa d < 2 ^ 53 /\ -1074 <= dbl_scale d <= 971).
  { assert (M : 0 <= dbl_mantissa d < 2 ^ 53) by (unfold dbl_mantissa, dbl_frac; pose proof (Z.mod_pos_bound (be_value d) (2 ^ 52)); destruct (dbl_exp d =? 0); lia).
    assert (Sc : -1074 <= dbl_scale d <= 971) by (unfold dbl_scale; assert (0 <= dbl_exp d) by (apply Z.mod_pos_bound; lia); destruct (dbl_exp d =? 0) eqn:E0; [|apply Z.eqb_neq in E0]; lia).
    split; [|split; assumption]. unfold in_units. assert (0 <= dbl_mantissa d * 2 ^ (dbl_scale d + 1074)) by (apply Z.mul_nonneg_nonneg; [lia|apply Z.pow_nonneg; lia]). destruct (dbl_sign d =? 1); lia. }
  destruct Hu as (Hu & Hm & He). destruct (dbl_mantissa d) as [|m|m] eqn:Em; [|  |lia].
  - exists 0, 0. split; [|left; lia]. replace 0 with (number_of ([48] ++ [])) at 1 by reflexivity. replace 0 with (0 - zlen (@nil Z)) by reflexivity.
    replace (minus_sign s ++ [48]) with (minus_sign s ++ [48] ++ [] ++ []) by reflexivity. apply is_json_number; auto; [destruct s; auto|repeat constructor; lia|constructor].
  - set (e := dbl_scale d) in *. clearbody e. set (num := Zpos m * 2 ^ Z.max e 0). set (den := 2 ^ Z.max (- e) 0).
    assert (Hden : 0 < den) by (apply Z.pow_pos_nonneg; lia). assert (Hnum : 0 < num) by (apply Z.mul_pos_pos; [lia|apply Z.pow_pos_nonneg; lia]).
    assert (Hv : Z.abs (in_units d) * den = num * 2 ^ 1074).
    { rewrite Hu. unfold num, den. rewrite <- !Z.mul_assoc, <- !Z.pow_add_r by lia. do 2 f_equal. lia. }
    remember (Z.abs (in_units d)) as u eqn:Eu.
    assert (Hlo : 1 <= u) by (rewrite Hu; assert (0 < 2 ^ (e + 1074)) by (apply Z.pow_pos_nonneg; lia); nia).
    assert (Hhi : u < 2 ^ (53 + 971 + 1074)).
    { rewrite Hu. replace (53 + 971 + 1074) with (53 + (971 + 1074)) by lia. rewrite (Z.pow_add_r 2 53) by lia. apply Z.lt_le_trans with (2 ^ 53 * 2 ^ (e + 1074)).
      - apply Z.mul_lt_mono_pos_r; [apply Z.pow_pos_nonneg; lia|lia].
      - apply Z.mul_le_mono_nonneg_l; [lia|]. apply Z.pow_le_mono_r; lia. }
    clear Hu. assert (Tu : 0 < 2 ^ 1074) by (apply Z.pow_pos_nonneg; lia).
    (** From num / den to u / 2^1074. *)
    assert (T : forall A B, den * A <= num * B <-> A * 2 ^ 1074 <= u * B).
    { intros A B. rewrite (Z.mul_le_mono_pos_l (A * 2 ^ 1074) (u * B) den) by exact Hden. rewrite (Z.mul_le_mono_pos_l (den * A) (num * B) (2 ^ 1074)) by exact Tu.
      replace (den * (u * B)) with (u * den * B) by ring. rewrite Hv. replace (2 ^ 1074 * (den * A)) with (den * (A * 2 ^ 1074)) by ring. replace (2 ^ 1074 * (num * B)) with (num * 2 ^ 1074 * B) by ring. reflexivity. }
    assert (T' : forall A B, num * B < den * A <-> u * B < A * 2 ^ 1074) by (intros A B; specialize (T A B); lia).
    assert (H1 : den * 10 ^ (-324 + 400) <= num * 10 ^ 400).
    { apply T. apply Z.le_trans with (1 * 10 ^ 400); [vm_compute; discriminate|]. apply Z.mul_le_mono_nonneg_r; [apply Z.pow_nonneg; lia|exact Hlo]. }
    assert (H2 : num * 10 ^ 400 < den * 10 ^ (309 + 400)).
    { apply T'. apply Z.lt_le_trans with (2 ^ (53 + 971 + 1074) * 10 ^ 400); [apply Z.mul_lt_mono_pos_r; [apply Z.pow_pos_nonneg; lia|exact Hhi]|]. vm_compute. discriminate. }
    pose proof (six_digits_spec num den Hnum Hden H1 H2) as HS. destruct (six_digits num den) as [q' x]. destruct HS as (Q & X & k & q & K & Eq & (L1 & L2) & R1 & R2).
    destruct (general_spec s q' x Q X) as (N & E & HJ & HE & HN). exists N, E. split; [exact HJ|]. right. exists k, q. split; [exact K|]. split; [exact HE|]. split; [congruence|]. cbv zeta. rewrite <- Eu. clear Eu.
    split; [split; [apply T; exact L1|apply T'; exact L2]|].
    assert (Ed : 2 * Z.abs (q * (10 ^ (k - 5 + 400) * 2 ^ 1074) - u * 10 ^ 400) * den = 2 * Z.abs (q * (den * 10 ^ (k - 5 + 400)) - num * 10 ^ 400) * 2 ^ 1074).
    { replace (2 * Z.abs (q * (10 ^ (k - 5 + 400) * 2 ^ 1074) - u * 10 ^ 400) * den) with (2 * (Z.abs (q * (10 ^ (k - 5 + 400) * 2 ^ 1074) - u * 10 ^ 400) * Z.abs den)) by (rewrite (Z.abs_eq den) by lia; ring).
      rewrite <- Z.abs_mul. replace ((q * (10 ^ (k - 5 + 400) * 2 ^ 1074) - u * 10 ^ 400) * den) with ((q * (den * 10 ^ (k - 5 + 400)) - num * 10 ^ 400) * 2 ^ 1074).
      - rewrite Z.abs_mul, (Z.abs_eq (2 ^ 1074)) by lia. ring.
      - rewrite !Z.mul_sub_distr_r. f_equal; [ring|]. replace (u * 10 ^ 400 * den) with (u * den * 10 ^ 400) by ring. rewrite Hv. ring. }
    split.
    + apply (Z.mul_le_mono_pos_r _ _ den Hden). rewrite Ed. replace (10 ^ (k - 5 + 400) * 2 ^ 1074 * den) with (den * 10 ^ (k - 5 + 400) * 2 ^ 1074) by ring. apply Z.mul_le_mono_nonneg_r; [lia|exact R1].
    + intros HE2. apply R2. apply (Z.mul_reg_r _ _ (2 ^ 1074)); [lia|]. rewrite <- Ed, HE2. ring.
Qed.

(** Such numbers are what the reader of PrintSpec.v takes for numbers. *)
Lemma digits_forallb l : digits l -> forallb PrintSpec.is_digit l = true.
Proof. intros H. apply forallb_forall. intros c Hc. unfold digits in H. rewrite Forall_forall in H. specialize (H c Hc). unfold PrintSpec.is_digit. lia. Qed.
Lemma exp_ok_spec exp : (exp = [] \/ exists c s neg' l, exp = c :: s ++ l /\ (c = 69 \/ c = 101) /\ signs s neg' /\ digits l /\ l <> []) -> PrintSpec.exp_ok exp = true /\ forallb PrintSpec.number_char exp = true /\
  match exp with [] => True | b :: _ => PrintSpec.is_digit b = false /\ b <> 46 end.
Proof.
  intros [-> | (c & s & neg' & l & -> & Hc & Hs & Hl & Hn)]; [auto|]. apply digits_forallb in Hl.
  assert (Hspan : PrintSpec.span PrintSpec.is_digit l = (l, [])) by (rewrite <- (app_nil_r l) at 1; apply PrintJson.span_all; auto). destruct l as [|d l]; [contradiction|].
  assert (Hd : 48 <= d <= 57) by (cbn in Hl; unfold PrintSpec.is_digit in Hl; lia).
  split; [|split].
  - unfold PrintSpec.exp_ok. replace ((c =? 101) || (c =? 69)) with true by lia. destruct Hs; cbn [app].
    + replace ((d =? 43) || (d =? 45)) with false by lia. rewrite Hspan. reflexivity.
    + cbn [Z.eqb Pos.eqb orb]. rewrite Hspan. reflexivity.
    + cbn [Z.eqb Pos.eqb orb]. rewrite Hspan. reflexivity.
  - cbn [forallb]. rewrite forallb_app, (PrintJson.digits_number _ Hl). destruct Hc as [-> | ->], Hs; reflexivity.
  - destruct Hc as [-> | ->]; split; [reflexivity|lia|reflexivity|lia].
Qed.
Lemma json_number_reads t neg N E : json_number t neg N E -> PrintJson.reads t (PrintSpec.JNum t).
Proof.
  intros H. destruct H as [m neg ip frac fp exp x Hm Dip Lip Dfp Hfrac Hexp].
  assert (He : exp = [] \/ exists c s neg' l, exp = c :: s ++ l /\ (c = 69 \/ c = 101) /\ signs s neg' /\ digits l /\ l <> []).
  { destruct Hexp as [(-> & _) | (c & s & neg' & l & A & B & C & D & F & _)]; [auto|right; eauto 10]. }
  destruct (exp_ok_spec exp He) as (Ex1 & Ex2 & Ex3). apply digits_forallb in Dip, Dfp.
  assert (F : PrintSpec.frac_ok (frac ++ exp) = true /\ forallb PrintSpec.number_char (frac ++ exp) = true /\ match frac ++ exp with [] => True | b :: _ => PrintSpec.is_digit b = false end).
  { destruct Hfrac as [(-> & ->) | (-> & Hne)].
    - cbn [app]. split; [|split; [exact Ex2|destruct exp; tauto]]. unfold PrintSpec.frac_ok. destruct exp as [|b r]; [reflexivity|]. replace (b =? 46) with false by (symmetry; apply Z.eqb_neq; tauto). exact Ex1.
    - split; [|split; [|reflexivity]].
      + cbn [app PrintSpec.frac_ok]. change (46 =? 46) with true. cbn match. rewrite PrintJson.span_all by (try exact Dfp; destruct exp; tauto). destruct fp; [contradiction|exact Ex1].
      + rewrite forallb_app. cbn [forallb]. rewrite (PrintJson.digits_number _ Dfp), Ex2. reflexivity. }
  destruct F as (F1 & F2 & F3). destruct ip as [|d l]; [destruct Lip as [Lip | (? & ? & Lip & _)]; discriminate|].
  assert (Hd : 48 <= d <= 57) by (cbn in Dip; unfold PrintSpec.is_digit in Dip; lia).
  assert (Hspan : PrintSpec.span PrintSpec.is_digit ((d :: l) ++ frac ++ exp) = (d :: l, frac ++ exp)) by (apply PrintJson.span_all; assumption).
  assert (Hz : l <> [] -> d =? 48 = false).
  { intros Hl. apply Z.eqb_neq. destruct Lip as [Lip | (c & r & Lip & Hc)]; [injection Lip as -> ->; contradiction|]. injection Lip as -> ->. exact Hc. }
  assert (Hnum : match PrintSpec.span PrintSpec.is_digit ((d :: l) ++ frac ++ exp) with ([], _) => false | ([_], r) => PrintSpec.frac_ok r | (d :: _, r) => negb (d =? 48) && PrintSpec.frac_ok r end = true).
  { rewrite Hspan. destruct l as [|c l]; [exact F1|]. rewrite Hz by discriminate. exact F1. }
  assert (Hch : forallb PrintSpec.number_char ((d :: l) ++ frac ++ exp) = true) by (rewrite forallb_app, (PrintJson.digits_number _ Dip); exact F2).
  assert (Hgo : forall b r, forallb PrintSpec.number_char (b :: r) = true -> b = 45 \/ PrintSpec.is_digit b = true -> PrintSpec.number_ok (b :: r) = true -> PrintJson.reads (b :: r) (PrintSpec.JNum (b :: r))).
  { intros b r A B C rest fuel Hr Hf. destruct fuel as [|fuel]; [lia|]. apply PrintJson.value_number; assumption. }
  destruct Hm as [(-> & _) | (-> & _)]; cbn [app] in *.
  - apply Hgo; [exact Hch|right; unfold PrintSpec.is_digit; lia|]. unfold PrintSpec.number_ok. cbv zeta. replace (d =? 45) with false by lia. exact Hnum.
  - apply Hgo; [|auto|exact Hnum]. cbn [forallb]. exact Hch.
Qed.

(** * C135 *)
(** An object with a finite value is printed as a number of JSON, which is that value rounded to six significant digits. *)
Theorem C135_printed : forall decimal fuel i data d, real_value decimal fuel i data = Ok d -> is_double d -> dbl_finite d ->
  exists text N E, print_real decimal fuel i data = Ok text /\ PrintSpec.json_of text = Some (PrintSpec.JNum text) /\ json_number text (dbl_sign d =? 1) N E /\ six_digits_of d N E.
Proof.
  intros decimal fuel i data d V Hd Hf. destruct (print_double_finite d Hd Hf) as (N & E & J & S). exists (print_double d), N, E. unfold print_real. rewrite V. cbn [bind]. split; [reflexivity|]. split; [eapply PrintJson.reads_json, json_number_reads, J|auto].
Qed.
(** A number N * 10^E of at most six digits is printed as itself: if the value of the object is exactly this, so is the value of the text. *)
Theorem C135_short_numbers_exact : forall decimal fuel i data d N E, real_value decimal fuel i data = Ok d -> is_double d -> dbl_finite d ->
  0 < N < 10 ^ 6 -> -300 <= E <= 300 -> Z.abs (in_units d) * 10 ^ 400 = N * 10 ^ (E + 400) * 2 ^ 1074 ->
  exists text N' E', print_real decimal fuel i data = Ok text /\ json_number text (dbl_sign d =? 1) N' E' /\ -400 <= E' /\ N' * 10 ^ (E' + 400) = N * 10 ^ (E + 400).
Proof.
  intros decimal fuel i data d N E V Hd Hf HN HE Hval. destruct (C135_printed decimal fuel i data d V Hd Hf) as (text & N' & E' & P & _ & J & S). exists text, N', E'. split; [exact P|]. split; [exact J|].
  assert (Tu : 0 < 2 ^ 1074) by (apply Z.pow_pos_nonneg; lia). assert (Te : 0 < 10 ^ (E + 400)) by (apply ten_pos; lia).
  destruct S as [(Z0 & _) | (k & q & K & HE' & Eq & B1 & B2 & _)].
  { exfalso. rewrite Z0 in Hval. change (Z.abs 0) with 0 in Hval. rewrite Z.mul_0_l in Hval. symmetry in Hval. apply Z.mul_eq_0 in Hval as [Hval | Hval]; [|lia]. apply Z.mul_eq_0 in Hval as [? | ?]; lia. }
  split; [exact HE'|]. rewrite Eq. cbv zeta in B1, B2. rewrite Hval in B1, B2. destruct B1 as (L1 & L2).
  replace (q * (10 ^ (k - 5 + 400) * 2 ^ 1074) - N * 10 ^ (E + 400) * 2 ^ 1074) with ((q * 10 ^ (k - 5 + 400) - N * 10 ^ (E + 400)) * 2 ^ 1074) in B2 by ring.
  rewrite Z.abs_mul, (Z.abs_eq (2 ^ 1074)) in B2 by lia. rewrite Z.mul_assoc in B2. apply Z.mul_le_mono_pos_r in B2; [|exact Tu]. apply Z.mul_le_mono_pos_r in L1; [|exact Tu]. apply Z.mul_lt_mono_pos_r in L2; [|exact Tu].
  (** The unit 10^(k-5) divides N * 10^E, as N has at most six digits. *)
  assert (Hk : k - 5 <= E).
  { destruct (Z.le_gt_cases (k - 5) E) as [H | H]; [exact H|exfalso]. assert (10 ^ (E + 400) * 10 ^ 6 <= 10 ^ (k + 400)) by (rewrite <- Z.pow_add_r by lia; apply Z.pow_le_mono_r; lia). nia. }
  assert (Hx : N * 10 ^ (E + 400) = N * 10 ^ (E - (k - 5)) * 10 ^ (k - 5 + 400)) by (rewrite <- Z.mul_assoc, <- Z.pow_add_r by lia; do 2 f_equal; lia).
  rewrite Hx in B2 |- *. assert (Tk : 0 < 10 ^ (k - 5 + 400)) by (apply ten_pos; lia). set (n := N * 10 ^ (E - (k - 5))) in *. replace (q * 10 ^ (k - 5 + 400) - n * 10 ^ (k - 5 + 400)) with ((q - n) * 10 ^ (k - 5 + 400)) in B2 by ring.
  rewrite Z.abs_mul, (Z.abs_eq (10 ^ (k - 5 + 400))) in B2 by lia. replace q with n; [reflexivity|]. clear - B2 Tk. nia.
Qed.
(** Infinities and NaN are not printed as JSON. *)
Theorem C135_infinite_refuted : forall decimal fuel i data d, real_value decimal fuel i data = Ok d -> is_double d -> dbl_inf d \/ dbl_nan d ->
  exists text, print_real decimal fuel i data = Ok text /\ PrintSpec.json_of text = None.
Proof.
  intros decimal fuel i data d V Hd H. exists (print_double d). unfold print_real. rewrite V. split; [reflexivity|]. unfold print_double, datum.
  assert (E : dbl_exp d = 2047) by (destruct H as [(E & _) | (E & _)]; exact E). rewrite E. cbn [Z.eqb Pos.eqb]. destruct (dbl_frac d =? 0); destruct (dbl_sign d =? 1); reflexivity.
Qed.
(** Different values are printed alike: 1234567 and 1234568, both as 1.23457e+06. *)
Definition printed (d : list Z) : res (list Z) := let* l := holds d in print_real (fun _ => None) 100 (Id universal 9) l.
Definition d_1234567 := [0x41; 0x32; 0xd6; 0x87; 0; 0; 0; 0].
Definition d_1234568 := [0x41; 0x32; 0xd6; 0x88; 0; 0; 0; 0].
Theorem C135_digits_refuted : in_units d_1234567 = 1234567 * 2 ^ 1074 /\ in_units d_1234568 = 1234568 * 2 ^ 1074 /\ printed d_1234567 = Ok (PrintSpec.lit "1.23457e+06") /\ printed d_1234568 = printed d_1234567.
Proof. repeat split; vm_compute; reflexivity. Qed.
(** The hypotheses are met: 0.5, 123456, -1e-05 (rounded), 0, 2. *)
Definition d_half := [0x3f; 0xe0; 0; 0; 0; 0; 0; 0].
Definition d_123456 := [0x40; 0xfe; 0x24; 0; 0; 0; 0; 0].
Definition d_small := [0xbe; 0xe4; 0xf8; 0xb5; 0x88; 0xe3; 0x68; 0xf1].
Example C135_example : is_double d_half /\ dbl_finite d_half /\ (exists l, holds d_half = Ok l /\ real_value (fun _ => None) 100 (Id universal 9) l = Ok d_half) /\
  Z.abs (in_units d_half) * 10 ^ 400 = 5 * 10 ^ (-1 + 400) * 2 ^ 1074 /\
  printed d_half = Ok (PrintSpec.lit "0.5") /\ printed d_123456 = Ok (PrintSpec.lit "123456") /\ printed d_small = Ok (PrintSpec.lit "-1e-05") /\ printed d_zero = Ok (PrintSpec.lit "0") /\
  printed d_two = Ok (PrintSpec.lit "2") /\ printed d_infinity = Ok (PrintSpec.lit "inf").
Proof.
  split; [split; [reflexivity|repeat constructor; unfold wf_byte; lia]|]. split; [vm_compute; reflexivity|]. split; [eexists; split; [vm_compute; reflexivity|]; vm_compute; reflexivity|]. repeat split; vm_compute; reflexivity.
Qed.
