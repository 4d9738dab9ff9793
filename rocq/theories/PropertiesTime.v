(** Property theorems C66: GeneralizedTime. *)
From Verif Require Import Base Ident Spec IdentProofs HeaderProofs View ViewProofs Prims PrimProofs ContProofs Schema SchemaSpec SchemaProofs SchemaDecode Time.

(** ** Specification: calendar fields as a number of seconds (proleptic Gregorian calendar, year 0 is the origin). *)
Definition days_before_month (y m : Z) : Z := sumz (map (fun k => month_length y (Z.of_nat k)) (seq 1 (Z.to_nat (m - 1)))).
Definition days_before_year (y : Z) : Z := 365 * y + (y + 3) / 4 - (y + 99) / 100 + (y + 399) / 400.
Definition seconds (t : civil) : Z :=
  ((days_before_year (c_year t) + days_before_month (c_year t) (c_month t) + c_day t - 1) * 24 + c_hour t) * 3600 + c_min t * 60 + c_sec t.
(** The moment in UTC that a GeneralizedTime "YYYYMMDDhhmmss+hhmm" (or "-hhmm") denotes: local time minus the
    difference between local time and UTC (X.680 46.3 c). *)
Definition x680_zone_seconds (s : list Z) : option Z :=
  match parse_civil (ztake 14 s), zdrop 14 s with
  | Some t, [sign; h1; h2; m1; m2] =>
      let off := ((h1 - 48) * 10 + (h2 - 48)) * 3600 + ((m1 - 48) * 10 + (m2 - 48)) * 60 in
      Some (if sign =? 45 then seconds t + off else seconds t - off)
  | _, _ => None
  end.

(** ** Proofs *)
Lemma undigit_digit n : undigit (digit n) = Some (n mod 10).
Proof. unfold undigit, digit. pose proof (Z.mod_pos_bound n 10). replace (_ && _) with true by lia. f_equal. lia. Qed.
Lemma format_parse t : civil_ok t = true ->
  parse_civil (format_civil t) = Some (Civil (c_year t) (c_month t) (c_day t) (c_hour t) (c_min t) (c_sec t) 0).
Proof.
  intros H. unfold civil_ok in H. rewrite !andb_true_iff in H.
  destruct H as (((((((((((((H1 & H2) & H3) & H4) & H5) & H6) & H7) & H8) & H9) & H10) & H11) & H12) & H13) & H14).
  assert (Hd : c_day t <= 31) by (unfold month_length in H6; repeat match type of H6 with context [if ?b then _ else _] => destruct b end; lia).
  unfold format_civil, two_digits. cbn [app parse_civil]. rewrite !undigit_digit.
  assert (A : forall n, 0 <= n < 100 -> n / 10 mod 10 * 10 + n mod 10 = n).
  { intros n Hn. rewrite (Z.mod_small (n / 10)) by (split; [apply Z.div_pos|apply Z.div_lt_upper_bound]; lia). pose proof (Z.div_mod n 10). lia. }
  rewrite !A by lia.
  replace (c_year t / 100 / 10 mod 10 * 1000 + c_year t / 100 mod 10 * 100 + c_year t / 10 mod 10 * 10 + c_year t mod 10) with (c_year t).
  2:{ pose proof (Z.div_mod (c_year t) 100 ltac:(lia)) as E. pose proof (Z.mod_pos_bound (c_year t) 100 ltac:(lia)).
      assert (0 <= c_year t / 100 < 100) by (split; [apply Z.div_pos|apply Z.div_lt_upper_bound]; lia).
      pose proof (A (c_year t / 100) ltac:(lia)). pose proof (A (c_year t mod 100) ltac:(lia)) as B.
      assert (c_year t mod 100 / 10 mod 10 = c_year t / 10 mod 10 /\ c_year t mod 100 mod 10 = c_year t mod 10) as [C1 C2].
      { set (q := c_year t / 100) in *. set (r := c_year t mod 100) in *. rewrite E. split.
        - replace (100 * q + r) with (r + (10 * q) * 10) by ring. rewrite Z.div_add by lia.
          replace (r / 10 + 10 * q) with (r / 10 + q * 10) by ring. rewrite Z.mod_add by lia. reflexivity.
        - replace (100 * q + r) with (r + (10 * q) * 10) by ring. rewrite Z.mod_add by lia. reflexivity. }
      rewrite C1, C2 in B. lia. }
  unfold civil_ok. cbn [c_year c_month c_day c_hour c_min c_sec c_ns].
  rewrite H1, H2, H3, H4, H5, H6, H7, H8, H9, H10, H11, H12. reflexivity.
Qed.
Lemma format_len t : zlen (format_civil t) = 14. Proof. reflexivity. Qed.
Lemma read_at_app x y n : n = zlen x -> 1 <= zlen y -> read_at (x ++ y) n = Ok (hd 0 y).
Proof.
  intros -> Hy. unfold read_at. pose proof (zlen_nonneg x). rewrite mem_read_ok by (rewrite ?zlen_app; lia). rewrite zdrop_app_exact by lia.
  destruct y as [|b y]; [cbn in Hy; lia|]. cbn [bind]. do 2 f_equal.
Qed.

(** ** set_time and time *)
(** The times meant by [civil_ok] are those of the Gregorian calendar: the lengths of the months; February has the days that the year has left, and
    a year has 365 days and one more for each multiple of 4 that is not one of 100 unless it is one of 400. *)
Theorem C66_calendar : forall y m, 1 <= m <= 12 ->
  month_length y m = nth (Z.to_nat (m - 1)) [31; days_before_year (y + 1) - days_before_year y - 337; 31; 30; 31; 30; 31; 31; 30; 31; 30; 31] 0.
Proof.
  intros y m Hm. assert (L : days_before_year (y + 1) - days_before_year y - 337 = if is_leap y then 29 else 28).
  { unfold days_before_year, is_leap. Z.div_mod_to_equations. destruct (_ && _) eqn:E; [rewrite andb_true_iff, orb_true_iff, negb_true_iff in E|rewrite andb_false_iff, orb_false_iff, negb_false_iff in E]; lia. }
  rewrite L. assert (C : m = 1 \/ m = 2 \/ m = 3 \/ m = 4 \/ m = 5 \/ m = 6 \/ m = 7 \/ m = 8 \/ m = 9 \/ m = 10 \/ m = 11 \/ m = 12) by lia.
  repeat (destruct C as [-> | C]; [reflexivity|]). rewrite C. reflexivity.
Qed.
(** The time set is the time read back, down to the second, whatever the object held before. *)
Theorem C66_set_time_round_trip_partial : forall i f t, wf_ident i -> civil_ok t = true ->
  exists f', set_time i f t = Ok f' /\ time_format_of f' = Ok universal_format /\
    time_value f' = Ok (Some (Civil (c_year t) (c_month t) (c_day t) (c_hour t) (c_min t) (c_sec t) 0)) /\
    (exists x, fixed_rep i f' x /\ content_ok KTime x).
Proof.
  intros i f t Hi Ht. destruct (fixed_assign_rep i f (format_civil t ++ [90]) Hi ltac:(rewrite zlen_app, format_len; cbn; lia)) as (f' & E & Hr).
  exists f'. split; [exact E|]. pose proof (fixed_content_rep _ _ _ Hr) as Ec.
  assert (F : time_format_of f' = Ok universal_format).
  { unfold time_format_of. rewrite Ec. cbn [bind]. rewrite read_at_app; [reflexivity|rewrite zlen_app, format_len; reflexivity|reflexivity || (cbn; lia)]. }
  split; [exact F|]. split.
  - unfold time_value. rewrite F, Ec. cbn [bind]. rewrite ztake_app_exact by (rewrite zlen_app, format_len; reflexivity). rewrite format_parse by auto. reflexivity.
  - exists (format_civil t ++ [90]). split; [exact Hr|]. split; [|rewrite zlen_app, format_len; cbn; lia].
    unfold bytes, format_civil, two_digits. cbn [app].
    assert (D : forall n, wf_byte (digit n)) by (intros n; unfold wf_byte, digit; pose proof (Z.mod_pos_bound n 10); lia).
    repeat (constructor; [apply D|]). constructor; [unfold wf_byte; lia|constructor].
Qed.
Example C66_example : let t := Civil 2024 2 29 23 59 58 0 in civil_ok t = true /\
  (let* f := set_time (Id universal 24) (fixed_init (Id universal 24)) t in time_value f) = Ok (Some t).
Proof. cbv zeta. split; [reflexivity|vm_compute; reflexivity]. Qed.
(** Missing: fractions of a second are lost (so an object compares unequal to the time it was set from). *)
Theorem C66_subsecond_refuted : exists t f, civil_ok t = true /\ set_time (Id universal 24) (fixed_init (Id universal 24)) t = Ok f /\
  forall t', time_value f = Ok (Some t') -> t' <> t.
Proof.
  exists (Civil 2024 1 1 0 0 0 500000000). eexists. split; [reflexivity|]. split; [vm_compute; reflexivity|].
  intros t' H. vm_compute in H. injection H as <-. discriminate.
Qed.
(** With a time zone the same time is read back too, for every offset of less than 100 hours. *)
Lemma print_22_len n : 0 <= n < 100 -> zlen (print_22 n) = 2.
Proof.
  intros Hn. unfold print_22. destruct (Z.ltb_spec n 10); [reflexivity|]. cbn [decimal].
  replace (n <? 10) with false by lia. replace (n / 10 <? 10) with true by (assert (n / 10 < 10) by (apply Z.div_lt_upper_bound; lia); lia). reflexivity.
Qed.
Theorem C66_set_time_zone_round_trip_partial : forall i f t offset, wf_ident i -> civil_ok t = true -> Z.abs offset < 6000 ->
  exists f', set_time_zone i f t offset = Ok f' /\ time_format_of f' = Ok zone_format /\
    time_value f' = Ok (Some (Civil (c_year t) (c_month t) (c_day t) (c_hour t) (c_min t) (c_sec t) 0)).
Proof.
  intros i f t offset Hi Ht Ho. unfold set_time_zone. replace (offset =? - 2^31) with false by lia. cbv zeta.
  set (h := Z.abs offset / 60). set (m := Z.abs offset mod 60).
  assert (Hh : 0 <= h < 100) by (unfold h; split; [apply Z.div_pos|apply Z.div_lt_upper_bound]; lia).
  assert (Hm : 0 <= m < 60) by (apply Z.mod_pos_bound; lia).
  set (sign := if offset >=? 0 then 43 else 45).
  pose proof (print_22_len h Hh) as L1. pose proof (print_22_len m ltac:(lia)) as L2.
  rewrite ztake_all by (rewrite !zlen_app, L1, L2; cbn; lia).
  set (y := print_22 h ++ print_22 m). set (ext := [sign] ++ y).
  assert (Hy : zlen y = 4) by (unfold y; rewrite zlen_app, L1, L2; reflexivity).
  assert (Hl : zlen ext = 5) by (unfold ext; rewrite zlen_app, Hy; reflexivity).
  destruct (fixed_assign_rep i f (format_civil t ++ ext) Hi ltac:(rewrite zlen_app, format_len, Hl; lia)) as (f' & E & Hr).
  exists f'. split; [exact E|]. pose proof (fixed_content_rep _ _ _ Hr) as Ec.
  assert (Hlast : exists b, read_at (format_civil t ++ ext) (zlen (format_civil t ++ ext) - 1) = Ok b /\ b <> 90).
  { assert (Hd : exists n, y = ztake 3 y ++ [digit n]).
    { unfold y. unfold print_22 at 2 4. destruct (m <? 10) eqn:Em.
      - exists m.
        change [48; digit m] with ([48] ++ [digit m]). rewrite app_assoc, ztake_app_exact by (rewrite zlen_app, L1; reflexivity). reflexivity.
      - exists m. cbn [decimal]. rewrite Em. replace (m / 10 <? 10) with true by (assert (m / 10 < 10) by (apply Z.div_lt_upper_bound; lia); lia).
        rewrite app_assoc, ztake_app_exact by (rewrite zlen_app, L1; reflexivity). reflexivity. }
    destruct Hd as (n & Hd). exists (digit n). split; [|unfold digit; pose proof (Z.mod_pos_bound n 10); lia].
    unfold ext. rewrite Hd, !app_assoc. rewrite read_at_app; [reflexivity| |cbn; lia].
    rewrite !zlen_app. rewrite zlen_ztake by lia. rewrite format_len. reflexivity. }
  destruct Hlast as (b & Hb & Hb90).
  assert (F : time_format_of f' = Ok zone_format).
  { unfold time_format_of. rewrite Ec. cbn [bind]. rewrite Hb. cbn [bind]. replace (b =? 90) with false by lia.
    rewrite read_at_app; [|rewrite zlen_app, format_len, Hl; reflexivity|lia]. cbn [bind ext app hd].
    unfold sign. destruct (offset >=? 0); reflexivity. }
  split; [exact F|]. unfold time_value. rewrite F, Ec. cbn [bind].
  rewrite ztake_app_exact by (rewrite zlen_app, format_len, Hl; reflexivity). rewrite format_parse by auto. reflexivity.
Qed.
(** But the content is wrong: the UTC time is written where X.680 wants the local time, so the octets denote another
    moment for everyone else (here 12:00 UTC is sent as 12:00+0100, which is 11:00 UTC). *)
Theorem C66_zone_meaning_refuted : exists t f x, civil_ok t = true /\
  set_time_zone (Id universal 24) (fixed_init (Id universal 24)) t 60 = Ok f /\ fixed_content f = Ok x /\
  x680_zone_seconds x = Some (seconds t - 3600).
Proof.
  exists (Civil 2024 6 1 12 0 0 0). eexists. eexists. split; [reflexivity|]. split; [vm_compute; reflexivity|].
  split; [vm_compute; reflexivity|]. vm_compute. reflexivity.
Qed.
(** A civil (local) time is read back as the same calendar fields in UTC, so as another moment unless the local zone
    is UTC. *)
Theorem C66_set_civil_partial : forall i f cs, wf_ident i -> civil_ok cs = true ->
  exists f', set_civil i f cs = Ok f' /\ time_format_of f' = Ok local_format /\
    time_value f' = Ok (Some (Civil (c_year cs) (c_month cs) (c_day cs) (c_hour cs) (c_min cs) (c_sec cs) 0)).
Proof.
  intros i f t Hi Ht. destruct (fixed_assign_rep i f (format_civil t) Hi ltac:(rewrite format_len; lia)) as (f' & E & Hr).
  exists f'. split; [exact E|]. pose proof (fixed_content_rep _ _ _ Hr) as Ec.
  assert (D : forall n, digit n <> 90 /\ digit n <> 45 /\ digit n <> 43) by (intros n; unfold digit; pose proof (Z.mod_pos_bound n 10); lia).
  assert (F : time_format_of f' = Ok local_format).
  { unfold time_format_of. rewrite Ec. cbn [bind]. rewrite format_len.
    assert (R1 : read_at (format_civil t) (14 - 1) = Ok (digit (c_sec t))) by reflexivity.
    assert (R2 : read_at (format_civil t) (14 - 5) = Ok (digit (c_hour t))) by reflexivity.
    rewrite R1. cbn [bind]. rewrite R2. cbn [bind].
    destruct (D (c_sec t)) as (D1 & _). destruct (D (c_hour t)) as (_ & D2 & D3).
    replace (digit (c_sec t) =? 90) with false by lia.
    replace (digit (c_hour t) =? 45) with false by lia. replace (digit (c_hour t) =? 43) with false by lia. reflexivity. }
  split; [exact F|]. unfold time_value. rewrite F, Ec. cbn [bind]. rewrite format_parse by auto. reflexivity.
Qed.

(** ** decode *)
(** A successful decode leaves a content of 10 to 23 octets. *)
Theorem C66_decode_length_partial : forall i f input v f', bytes input -> tame input -> v_make input = Ok v ->
  time_decode i f v = Ok (true, f') ->
  exists p x extra rest, input = p ++ rest /\ id_packet i primitive p x extra /\ f_len f' = zlen x /\ 10 <= zlen x <= 23.
Proof.
  intros i f input v f' Hb Ht Ev E. destruct (fixed_decode_spec i f input Hb Ht) as (w & Ew & H). assert (w = v) by congruence. subst w.
  unfold time_decode in E. destruct H as [(p & x & extra & rest & -> & Hp & E2)|[E2 _]]; rewrite E2 in E; cbn [bind f_len] in E.
  - injection E as E3 <-. exists p, x, extra, rest. split; [reflexivity|]. split; [exact Hp|]. cbn [f_len]. split; [reflexivity|].
    destruct ((zlen x <? 10) || (zlen x >? 23)) eqn:E4; [discriminate|]. lia.
  - destruct (_ || _); discriminate.
Qed.
Example C66_decode_example : exists v f', v_make ([24; 15] ++ epoch_text) = Ok v /\
  time_decode (Id universal 24) (fixed_init (Id universal 24)) v = Ok (true, f') /\ f_len f' = 15.
Proof. eexists. eexists. split; [vm_compute; reflexivity|]. split; [vm_compute; reflexivity|reflexivity]. Qed.
(** But a rejected decode has already replaced the content, and reading the time is then undefined behaviour. *)
Theorem C66_rejected_decode_refuted : exists v f f',
  v_make [24; 2; 0x41; 0x42] = Ok v /\ set_time (Id universal 24) (fixed_init (Id universal 24)) (Civil 2024 1 1 0 0 0 0) = Ok f /\
  time_decode (Id universal 24) f v = Ok (false, f') /\ f' <> f /\ time_format_of f' = UB /\ time_value f' = UB.
Proof.
  eexists. eexists. eexists. split; [vm_compute; reflexivity|]. split; [vm_compute; reflexivity|]. split; [vm_compute; reflexivity|].
  split; [discriminate|]. split; vm_compute; reflexivity.
Qed.
