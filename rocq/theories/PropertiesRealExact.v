(** C85-C87: Real's reader of binary encodings, for every input: which it accepts, which it loops on, what it returns. *)
From Verif Require Import Base Ident Spec IdentProofs HeaderProofs View ViewProofs Prims PrimProofs RealModel RealProofs RealExact PropertiesReal.
Ltac Zify.zify_post_hook ::= Z.div_mod_to_equations.

(** log2 of the bases 2, 8, 16 *)
Definition log_base (bb : Z) : Z := nth (Z.to_nat bb) [1; 3; 4] 0.
(** an exponent of two octets or more whose first nine bits are equal *)
Definition nine_equal (expo : list Z) : Prop := exists a b r, expo = a :: b :: r /\ (a = 0 /\ b < 128 \/ a = 255 /\ 128 <= b).
(** The binary encodings that are read, as (-1)^s * be_value mant * 2^e.  The exponent is taken from ONE octet in the form
    without a length octet and from TWO octets (possibly reaching into the mantissa) in the form with one, whatever the
    exponent's length is. *)
Inductive real_form : list Z -> Z -> Z -> list Z -> Prop :=
| rf_short s bb f expo mant : 0 <= s <= 1 -> 0 <= bb <= 2 -> 0 <= f <= 3 -> bytes expo -> bytes mant ->
    1 <= zlen expo <= 3 -> 3 <= zlen expo + zlen mant -> be_value mant <> 0 -> ~ nine_equal expo ->
    real_form ((128 + 64 * s + 16 * bb + 4 * f + (zlen expo - 1)) :: expo ++ mant) s (twos_value [hd 0 expo] * log_base bb + f) mant
| rf_long s bb f expo mant : 0 <= s <= 1 -> 0 <= bb <= 2 -> 0 <= f <= 3 -> bytes expo -> bytes mant ->
    1 <= zlen expo <= 4 -> be_value mant <> 0 -> ~ nine_equal expo ->
    real_form ((128 + 64 * s + 16 * bb + 4 * f + 3) :: zlen expo :: expo ++ mant) s (twos_value (ztake 2 (expo ++ mant)) * log_base bb + f) mant.
(** the numbers the reader never finishes on *)
Definition real_loops (N e : Z) : Prop := Z.log2 N mod 8 < 4 /\ 0 < e + 8 * (Z.log2 N / 8) + 1027.

Lemma log_base_eq bb : 0 <= bb <= 2 -> base_log (nth (Z.to_nat bb) [2; 8; 16] 0) = log_base bb /\ 1 <= log_base bb <= 4.
Proof. intros H. assert (bb = 0 \/ bb = 1 \/ bb = 2) as [->|[->| ->]] by lia; (split; [reflexivity|]); split; vm_compute; discriminate. Qed.
Lemma nine_bits_false expo : bytes expo -> ~ nine_equal expo <-> nine_bits expo = false.
Proof.
  intros Hb. destruct expo as [|a [|b r]]; [split; [reflexivity|]; intros _ (x & y & z & E & _); discriminate..|].
  assert (wf_byte b) by (apply bytes_cons in Hb as [_ Hb]; apply bytes_cons in Hb; tauto).
  cbn [nine_bits]. split.
  - intros H0. destruct ((a =? 255) && (128 <=? b) || (a =? 0) && (b <? 128)) eqn:E; [|reflexivity].
    exfalso. apply H0. exists a, b, r. split; [reflexivity|]. lia.
  - intros H0 (x & y & z & E & H1). injection E as -> -> ->. lia.
Qed.
Lemma twos_value_2 x y : wf_byte x -> wf_byte y -> twos_value [x; y] = (if x <? 128 then 0 else -1) * 65536 + x * 256 + y.
Proof. intros [? ?] [? ?]. unfold twos_value, be_value. cbn [fold_left]. change (256 ^ zlen [x; y]) with 65536. destruct (x <? 128); lia. Qed.

Lemma drb_long s bb f expo mant : 0 <= s <= 1 -> 0 <= bb <= 2 -> 0 <= f <= 3 -> bytes expo -> 1 <= zlen expo <= 4 -> bytes mant ->
  be_value mant <> 0 -> nine_bits expo = false ->
  forall fuel, decode_real_binary fuel (ctrl s bb f 3 :: zlen expo :: expo ++ mant) =
    let* d := assemble fuel s (twos_value (ztake 2 (expo ++ mant)) * log_base bb + f) mant in Ok (Some d).
Proof.
  intros Hs Hbb Hf He Hl Hm Hn H9 fuel. destruct (ctrl_fields s bb f 3) as (C0 & C1 & C2 & C3 & C4 & C5); try lia.
  set (c := ctrl s bb f 3) in *. clearbody c.
  set (n := zlen expo) in *.
  set (input := c :: n :: expo ++ mant).
  assert (Hb : bytes input) by (unfold input; constructor; [exact C0|]; constructor; [split; lia|apply bytes_app; auto]).
  assert (Hmz : 1 <= zlen mant).
  { destruct mant; [exfalso; apply Hn; reflexivity|]. rewrite zlen_cons. pose proof (zlen_nonneg mant). lia. }
  assert (Hzl : zlen input = 2 + n + zlen mant) by (unfold input; rewrite !zlen_cons, zlen_app; lia).
  assert (E0 : zget input 0 = Ok c) by apply zget_cons_0. assert (E1 : zget input 1 = Ok n) by apply zget_cons_1.
  destruct (ctrl_bits c C0) as (L1 & L2 & _).
  assert (Eel : exp_len_off input = Ok (n, 2)).
  { unfold exp_len_off. rewrite E0. cbn [bind]. rewrite L1, C1. cbn [Z.add Z.eqb Pos.add Pos.eqb Pos.succ]. rewrite E1. reflexivity. }
  assert (Hd : zdrop (n + 2) input = mant).
  { unfold input. change (c :: n :: expo ++ mant) with ((c :: n :: expo) ++ mant). apply zdrop_app_exact. rewrite !zlen_cons. lia. }
  assert (Hck : check_real_binary input = Ok true).
  { unfold check_real_binary. replace (zlen input >? 3) with true by lia. cbn [negb]. rewrite E0. cbn [bind]. rewrite L2, C3.
    replace (bb =? 3) with false by lia. rewrite Eel. cbn [bind]. replace (n =? 0) with false by lia.
    replace (n + 2 >=? zlen input) with false by lia. cbn [orb].
    rewrite Hd, mantissa_nonzero_spec by auto. replace (be_value mant =? 0) with false by (symmetry; apply Z.eqb_neq; auto). cbn [negb].
    destruct (Z.gtb_spec n 1); [|reflexivity].
    destruct expo as [|x [|y expo]]; [unfold n in *; rewrite ?zlen_nil, ?zlen_1 in *; lia..|].
    assert (Hy : wf_byte y) by (apply bytes_cons in He as [_ He]; apply bytes_cons in He; tauto).
    unfold input. cbn [app]. rewrite (nine_identical_spec [c; n] x y (expo ++ mant) Hy : nine_identical (c :: n :: x :: y :: expo ++ mant) 2 = _).
    cbn [bind]. change (nine_bits (x :: y :: expo ++ mant)) with (nine_bits (x :: y :: expo)). rewrite H9. reflexivity. }
  assert (Hem : exists x y r, expo ++ mant = x :: y :: r /\ wf_byte x /\ wf_byte y).
  { assert (Hbm : bytes (expo ++ mant)) by (apply bytes_app; auto). assert (Hlm : 2 <= zlen (expo ++ mant)) by (rewrite zlen_app; fold n; lia).
    destruct (expo ++ mant) as [|x [|y r]]; [rewrite ?zlen_nil, ?zlen_1 in *; lia..|].
    apply bytes_cons in Hbm as [Hx Hbm]. apply bytes_cons in Hbm as [Hy _]. eauto 6. }
  destruct Hem as (x & y & r & Exy & Hx & Hy).
  assert (E2 : zget input 2 = Ok x) by (unfold input; rewrite Exy; apply zget_cons_2).
  assert (E3 : zget input (2 + 1) = Ok y) by (unfold input; rewrite Exy; apply zget_cons_3).
  rewrite (drb_unfold input c n 2 x Hb Hck E0 C0 ltac:(lia) Eel ltac:(lia) E2 Hx ltac:(lia)).
  unfold drb_tail. replace (n >? 4) with false by lia. change (Z.to_nat 2) with 2%nat. cbn [read_exponent]. rewrite E2. cbn [bind]. rewrite E3. cbn [bind].
  rewrite !lor_256 by (destruct Hx, Hy; lia). rewrite C2, C3, C4, Hd. rewrite Exy.
  change (ztake 2 (x :: y :: r)) with [x; y]. rewrite twos_value_2 by assumption. destruct (log_base_eq bb Hbb) as [-> _].
  replace (((if x <? 128 then 0 else -1) * 256 + x) * 256 + y) with ((if x <? 128 then 0 else -1) * 65536 + x * 256 + y) by lia. reflexivity.
Qed.

Lemma drb_form x : bytes x -> 128 <= hd 0 x ->
  (forall fuel, decode_real_binary fuel x = Ok None) \/ exists s e mant, real_form x s e mant.
Proof.
  intros Hb Hc. destruct x as [|c rest]; [cbn [hd] in Hc; lia|]. cbn [hd] in Hc.
  set (input := c :: rest) in *. assert (Hcw : wf_byte c) by (apply bytes_cons in Hb; tauto).
  assert (E0 : zget input 0 = Ok c) by apply zget_cons_0.
  destruct (ctrl_bits c Hcw) as (L1 & L2 & _).
  assert (Hnone : check_real_binary input = Ok false -> forall fuel, decode_real_binary fuel input = Ok None).
  { intros E fuel. unfold decode_real_binary. rewrite E. reflexivity. }
  destruct (Z.gtb_spec (zlen input) 3) as [Hz|Hz].
  2: { left. apply Hnone. unfold check_real_binary. replace (zlen input >? 3) with false by lia. reflexivity. }
  destruct (Z.eqb_spec ((c / 16) mod 4) 3) as [Hbb|Hbb].
  { left. apply Hnone. unfold check_real_binary. replace (zlen input >? 3) with true by lia. cbn [negb]. rewrite E0. cbn [bind].
    rewrite L2. reflexivity. }
  destruct rest as [|r0 rest]; [unfold input in Hz; rewrite zlen_1 in Hz; lia|].
  assert (E1 : zget input 1 = Ok r0) by apply zget_cons_1.
  assert (Hr0 : wf_byte r0) by (apply bytes_cons in Hb as [_ Hb]; apply bytes_cons in Hb; tauto).
  assert (Hel : exists n off, exp_len_off input = Ok (n, off) /\ ((off = 1 /\ n = c mod 4 + 1 /\ c mod 4 < 3) \/ (off = 2 /\ n = r0 /\ c mod 4 = 3))).
  { unfold exp_len_off. rewrite E0. cbn [bind]. rewrite L1. destruct (Z.eqb_spec (c mod 4 + 1) 4).
    - rewrite E1. cbn [bind]. exists r0, 2. split; [reflexivity|]. right. lia.
    - exists (c mod 4 + 1), 1. split; [reflexivity|]. left. lia. }
  destruct Hel as (n & off & Eel & Hel).
  assert (Hn : 0 <= n) by (destruct Hr0; lia).
  destruct ((n =? 0) || (n + off >=? zlen input)) eqn:Eg.
  { left. apply Hnone. unfold check_real_binary. replace (zlen input >? 3) with true by lia. cbn [negb]. rewrite E0. cbn [bind].
    rewrite L2. rewrite Eel. cbn [bind]. rewrite Eg. reflexivity. }
  apply orb_false_iff in Eg as [Eg1 Eg2].
  assert (Hnine : exists bad, (if n >? 1 then nine_identical input off else Ok false) = Ok bad).
  { destruct (Z.gtb_spec n 1); [|eauto]. apply nine_identical_ok; lia. }
  destruct Hnine as [bad Eb].
  assert (Eck : check_real_binary input = Ok (if bad then false else mantissa_nonzero (zdrop (n + off) input))).
  { unfold check_real_binary. replace (zlen input >? 3) with true by lia. cbn [negb]. rewrite E0. cbn [bind]. rewrite L2.
    rewrite Eel. cbn [bind]. rewrite Eg1, Eg2. cbn [orb]. rewrite Eb. cbn [bind].
    destruct bad; reflexivity. }
  destruct bad; [left; apply Hnone; exact Eck|].
  destruct (mantissa_nonzero (zdrop (n + off) input)) eqn:Em; [|left; apply Hnone; exact Eck].
  set (mant := zdrop (n + off) input) in *. assert (Hmb : bytes mant) by (apply bytes_zdrop; auto).
  rewrite mantissa_nonzero_spec in Em by auto. apply negb_true_iff, Z.eqb_neq in Em.
  destruct (zget_ok input off) as (e0 & Ee0 & Hw0); [lia|]. specialize (Hw0 Hb).
  assert (Hdrb := drb_unfold input c n off e0 Hb Eck E0 Hcw Hbb Eel ltac:(lia) Ee0 Hw0 ltac:(lia)).
  destruct (Z.gtb_spec n 4) as [Hn4|Hn4].
  { left. intros fuel. rewrite Hdrb. unfold drb_tail. replace (n >? 4) with true by lia. reflexivity. }
  right.
  set (expo := ztake n (zdrop off input)).
  assert (Hexpo : bytes expo) by (apply bytes_ztake, bytes_zdrop; auto).
  assert (Hexl : zlen expo = n) by (apply zlen_ztake; rewrite zlen_zdrop by lia; lia).
  assert (Hsplit : zdrop off input = expo ++ mant).
  { unfold expo, mant. rewrite <- (ztake_zdrop n (zdrop off input)) at 1. f_equal. rewrite zdrop_zdrop by lia. f_equal. lia. }
  assert (Hcc : c = ctrl ((c / 64) mod 2) ((c / 16) mod 4) ((c / 4) mod 4) (c mod 4)) by (apply ctrl_of; destruct Hcw; lia).
  assert (H9 : ~ nine_equal expo).
  { apply nine_bits_false; [exact Hexpo|]. destruct (Z.gtb_spec n 1) as [Hn1|Hn1].
    - destruct expo as [|a [|b r]]; [rewrite ?zlen_nil, ?zlen_1 in *; lia..|].
      assert (Hbw : wf_byte b) by (apply bytes_cons in Hexpo as [_ Hexpo]; apply bytes_cons in Hexpo; tauto).
      assert (Ep : input = ztake off input ++ a :: b :: r ++ mant) by (rewrite <- (ztake_zdrop off input) at 1; rewrite Hsplit; reflexivity).
      assert (Epl : zlen (ztake off input) = off) by (apply zlen_ztake; lia).
      rewrite Ep in Eb. pose proof (nine_identical_spec (ztake off input) a b (r ++ mant) Hbw) as K. rewrite Epl in K.
      rewrite K in Eb. injection Eb as Eb. exact Eb.
    - destruct expo as [|a [|b r]]; [reflexivity..|]. rewrite !zlen_cons in Hexl. pose proof (zlen_nonneg r). lia. }
  assert (Hmz : 1 <= zlen mant).
  { clear -Em. destruct mant; [exfalso; apply Em; reflexivity|]. rewrite zlen_cons. pose proof (zlen_nonneg mant). lia. }
  assert (Hil : zlen input = off + zlen expo + zlen mant).
  { rewrite <- (ztake_zdrop off input), Hsplit, !zlen_app. rewrite zlen_ztake by lia. lia. }
  destruct Hel as [(-> & -> & Hlt)|(-> & -> & Heq)].
  - assert (Ei : input = c :: expo ++ mant) by (rewrite <- Hsplit; reflexivity).
    exists ((c / 64) mod 2), (twos_value [hd 0 expo] * log_base ((c / 16) mod 4) + (c / 4) mod 4), mant.
    rewrite Ei. rewrite Hcc at 1. unfold ctrl.
    replace (c mod 4) with (zlen expo - 1) at 1 by lia. apply rf_short; auto; lia.
  - assert (Ei : input = c :: r0 :: expo ++ mant) by (rewrite <- Hsplit; reflexivity).
    exists ((c / 64) mod 2), (twos_value (ztake 2 (expo ++ mant)) * log_base ((c / 16) mod 4) + (c / 4) mod 4), mant.
    rewrite Ei. rewrite Hcc at 1. unfold ctrl. rewrite Heq. rewrite <- Hexl. apply rf_long; auto; lia.
Qed.
Lemma twos_value_small l : bytes l -> 1 <= zlen l <= 2 -> -32768 <= twos_value l < 65536.
Proof.
  intros Hb Hl. destruct l as [|a [|b [|c l]]]; rewrite ?zlen_nil, ?zlen_cons in Hl; pose proof (zlen_nonneg (@nil Z)); try lia.
  - apply bytes_cons in Hb as [Ha _]. rewrite twos_value_1 by exact Ha. destruct Ha. destruct (a <? 128) eqn:?; lia.
  - apply bytes_cons in Hb as [Ha Hb]. apply bytes_cons in Hb as [Hb _]. rewrite twos_value_2 by assumption. destruct Ha, Hb. destruct (a <? 128) eqn:?; lia.
  - pose proof (zlen_nonneg l). lia.
Qed.
Lemma real_form_inv x s e mant : real_form x s e mant -> (s = 0 \/ s = 1) /\ bytes mant /\ be_value mant <> 0 /\ zlen mant <= zlen x /\ Z.abs e < 2^20 /\
  forall fuel, decode_real_binary fuel x = let* d := assemble fuel s e mant in Ok (Some d).
Proof.
  intros H. destruct H as [s bb f expo mant Hs Hbb Hf He Hm Hl Hz Hn H9|s bb f expo mant Hs Hbb Hf He Hm Hl Hn H9].
  - split; [lia|]. split; [exact Hm|]. split; [exact Hn|]. split; [rewrite zlen_cons, zlen_app; pose proof (zlen_nonneg expo); lia|]. split.
    + destruct (log_base_eq bb Hbb) as [_ Hlb]. pose proof (twos_value_small [hd 0 expo]) as K.
      destruct expo; [rewrite zlen_nil in Hl; lia|]. cbn [hd] in *. rewrite zlen_1 in K.
      specialize (K ltac:(constructor; [apply bytes_cons in He; tauto|constructor]) ltac:(lia)). nia.
    + intros fuel. pose proof (drb_short s bb f expo mant Hs Hbb Hf He Hl Hm Hn Hz (proj1 (nine_bits_false _ He) H9) fuel) as K.
      unfold ctrl in K. rewrite (proj1 (log_base_eq bb Hbb)) in K. exact K.
  - split; [lia|]. split; [exact Hm|]. split; [exact Hn|]. split; [rewrite !zlen_cons, zlen_app; pose proof (zlen_nonneg expo); lia|]. split.
    + destruct (log_base_eq bb Hbb) as [_ Hlb]. pose proof (twos_value_small (ztake 2 (expo ++ mant))) as K.
      assert (Hmz : 1 <= zlen mant).
      { destruct mant; [exfalso; apply Hn; reflexivity|]. rewrite zlen_cons. pose proof (zlen_nonneg mant). lia. }
      specialize (K ltac:(apply bytes_ztake, bytes_app; auto)). rewrite zlen_ztake in K by (rewrite zlen_app; lia). specialize (K ltac:(lia)). nia.
    + intros fuel. apply (drb_long s bb f expo mant Hs Hbb Hf He Hl Hm Hn (proj1 (nine_bits_false _ He) H9) fuel).
Qed.

(** C85.  For every binary encoding (first octet 128 or above): the inputs of [real_form], and no others, are accepted;
    the reader then loops for ever exactly when [real_loops], and otherwise returns the number truncated towards zero. *)
Theorem C85_real_binary_exact : forall x, bytes x -> zlen x < 2^27 -> 128 <= hd 0 x ->
  (forall s e mant, real_form x s e mant ->
     (real_loops (be_value mant) e -> forall fuel, decode_real_binary fuel x = NoFuel) /\
     (~ real_loops (be_value mant) e -> exists d, trunc_double s (be_value mant) e d /\ forall fuel, decode_real_binary fuel x = Ok (Some d))) /\
  ((forall s e mant, ~ real_form x s e mant) -> forall fuel, decode_real_binary fuel x = Ok None).
Proof.
  intros x Hb Hz Hc. split.
  - intros s e mant Hf. destruct (real_form_inv _ _ _ _ Hf) as (Hs & Hm & Hn & Hl & He & Hdec).
    destruct (assemble_exact s e mant (be_value mant) Hs Hm eq_refl Hn ltac:(lia) He) as [(H1 & H2 & H3)|(H1 & d & H2 & H3)].
    + split; [|intros K; exfalso; apply K; split; assumption]. intros _ fuel. rewrite Hdec, H3. reflexivity.
    + split; [intros K; exfalso; apply H1, K|]. intros _. exists d. split; [exact H3|]. intros fuel. rewrite Hdec, H2. reflexivity.
  - intros Hno. destruct (drb_form x Hb Hc) as [K|(s & e & mant & K)]; [exact K|]. destruct (Hno _ _ _ K).
Qed.
Example C85_example : real_form [0x83; 1; 2; 0x10; 7] 0 528 [0x10; 7] /\ ~ real_loops (be_value [0x10; 7]) 528 /\
  (exists d, decode_real_binary 0 [0x83; 1; 2; 0x10; 7] = Ok (Some d)) /\
  real_form [0x80; 0; 0; 1] 0 0 [0; 1] /\ real_loops (be_value [0; 1]) 0.
Proof.
  split; [apply (rf_long 0 0 0 [2] [16; 7]); try lia; try bytes_lit; [vm_compute; split; discriminate|vm_compute; discriminate|intros (a & b & r & E & _); discriminate]|].
  split; [intros [H _]; vm_compute in H; discriminate|]. split; [eexists; vm_compute; reflexivity|].
  split; [|split; vm_compute; reflexivity].
  apply (rf_short 0 0 0 [0] [0; 1]); try lia; try bytes_lit; [vm_compute; split; discriminate|vm_compute; discriminate|vm_compute; discriminate|intros (a & b & r & E & _); discriminate].
Qed.

(** C86.  value() of a Real in any state it can reach, from its contents octets: every case. *)
Theorem C86_real_value_exact : forall i data x decimal, real_reachable i data -> small_content i data = Ok x ->
  (x = [] -> forall fuel, real_value decimal fuel i data = Ok plus_zero) /\
  (hd 0 x < 64 -> x <> [] -> forall fuel, real_value decimal fuel i data = Ok (match decimal x with Some d => d | None => plus_zero end)) /\
  (64 <= hd 0 x < 128 -> forall fuel, real_value decimal fuel i data =
     Ok (if list_eq_dec Z.eq_dec x [0x40] then plus_inf else if list_eq_dec Z.eq_dec x [0x41] then minus_inf
         else if list_eq_dec Z.eq_dec x [0x42] then quiet_nan else if list_eq_dec Z.eq_dec x [0x43] then minus_zero else plus_zero)) /\
  (128 <= hd 0 x ->
     (forall s e mant, real_form x s e mant ->
        (real_loops (be_value mant) e -> forall fuel, real_value decimal fuel i data = NoFuel) /\
        (~ real_loops (be_value mant) e -> exists d, trunc_double s (be_value mant) e d /\ forall fuel, real_value decimal fuel i data = Ok d)) /\
     ((forall s e mant, ~ real_form x s e mant) -> forall fuel, real_value decimal fuel i data = Ok plus_zero)).
Proof.
  intros i data x decimal Hr Hx. destruct (real_reachable_rep _ _ Hr) as (Hi & y & Hrep & Hb).
  pose proof (small_content_rep _ _ _ _ (small_real_ok i Hi) Hrep) as Hc. assert (y = x) by congruence. subst y.
  destruct (small_rep_len _ _ _ _ (small_real_ok i Hi) Hrep) as [_ Hxl].
  assert (Hv : forall fuel, real_value decimal fuel i data = let* o := decode_real decimal fuel x in Ok (match o with Some d => d | None => plus_zero end))
    by (intros; apply real_value_rep; auto).
  split; [intros -> fuel; rewrite Hv; reflexivity|].
  assert (Hh : forall c r, x = c :: r -> wf_byte c) by (intros c r ->; apply bytes_cons in Hb; tauto).
  split; [|split].
  - intros H64 Hne fuel. rewrite Hv. destruct x as [|c r]; [congruence|]. cbn [hd] in H64. pose proof (Hh _ _ eq_refl) as Hcw.
    unfold decode_real. destruct (ctrl_bits c Hcw) as (_ & _ & _ & _ & _ & ->). replace (128 <=? c) with false by lia. cbv iota.
    assert (Ez : Z.shiftr (Z.land c 192) 6 = 0).
    { destruct Hcw as [Hc0 _]. clear -Hc0 H64. apply Z.bits_inj'. intros n Hn. rewrite Z.shiftr_spec, Z.land_spec, Z.bits_0 by lia.
      rewrite (Z.bits_above_log2 c (n + 6)); [reflexivity|lia|]. destruct (Z.eq_dec c 0); [subst; cbn [Z.log2]; lia|].
      apply Z.log2_lt_pow2; [lia|]. apply Z.lt_le_trans with (2^6); [lia|]. apply Z.pow_le_mono_r; lia. }
    rewrite Ez. reflexivity.
  - intros H64 fuel. rewrite Hv. destruct x as [|c r]; [cbn [hd] in H64; lia|]. cbn [hd] in H64. pose proof (Hh _ _ eq_refl) as Hcw.
    unfold decode_real. destruct (ctrl_bits c Hcw) as (_ & _ & _ & _ & _ & ->). replace (128 <=? c) with false by lia. cbv iota.
    assert (Ez : Z.shiftr (Z.land c 192) 6 = 1).
    { clear -H64. assert (E : c = 64 + (c - 64)) by lia. assert (El : 64 + (c - 64) = Z.lor (1 * 2^6) (c - 64)) by (rewrite lor_mul by lia; lia).
      rewrite E, El, Z.land_lor_distr_l, Z.shiftr_lor. change (Z.shiftr (Z.land (1 * 2^6) 192) 6) with 1.
      assert (E0 : Z.shiftr (Z.land (c - 64) 192) 6 = 0).
      { apply Z.bits_inj'. intros n Hn. rewrite Z.shiftr_spec, Z.land_spec, Z.bits_0 by lia.
        rewrite (Z.bits_above_log2 (c - 64) (n + 6)); [reflexivity|lia|]. destruct (Z.eq_dec (c - 64) 0) as [->|]; [cbn [Z.log2]; lia|].
        apply Z.log2_lt_pow2; [lia|]. apply Z.lt_le_trans with (2^6); [lia|]. apply Z.pow_le_mono_r; lia. }
      rewrite E0. reflexivity. }
    rewrite Ez. cbn [Z.eqb Pos.eqb bind]. destruct r as [|r0 r].
    + cbn [decode_real_special]. destruct (Z.eqb_spec c 0x40) as [->|N1]; [reflexivity|]. destruct (Z.eqb_spec c 0x41) as [->|N2]; [reflexivity|].
      destruct (Z.eqb_spec c 0x42) as [->|N3]; [reflexivity|]. destruct (Z.eqb_spec c 0x43) as [->|N4]; [reflexivity|].
      repeat (destruct (list_eq_dec Z.eq_dec _ _); [congruence|]). reflexivity.
    + cbn [decode_real_special]. repeat (destruct (list_eq_dec Z.eq_dec _ _); [congruence|]). reflexivity.
  - intros H128. assert (Hd : forall fuel, decode_real decimal fuel x = decode_real_binary fuel x).
    { intros fuel. destruct x as [|c r]; [cbn [hd] in H128; lia|]. apply decode_real_bin. destruct (Hh _ _ eq_refl). cbn [hd] in H128. lia. }
    destruct (C85_real_binary_exact x Hb ltac:(unfold real_max in Hxl; lia) H128) as [K1 K2]. split.
    + intros s e mant Hf. destruct (K1 s e mant Hf) as [K3 K4]. split.
      * intros HL fuel. rewrite Hv, Hd, K3 by exact HL. reflexivity.
      * intros HL. destruct (K4 HL) as (d & Ht & Ed). exists d. split; [exact Ht|]. intros fuel. rewrite Hv, Hd, Ed. reflexivity.
    + intros Hno fuel. rewrite Hv, Hd, K2 by exact Hno. reflexivity.
Qed.
Example C86_example : exists data, real_reachable (Id universal 9) data /\ small_content (Id universal 9) data = Ok [0x80; 0xCC; 0x18; 0; 0; 0; 0; 0; 0] /\
  real_value (fun _ => None) 0 (Id universal 9) data = Ok dbl_1_5.
Proof.
  destruct (real_assign (Id universal 9) (real_init (Id universal 9)) dbl_1_5) as [data| |] eqn:E; [|vm_compute in E; discriminate..].
  exists data. split; [apply (rr_assign (Id universal 9) (real_init (Id universal 9)) dbl_1_5); [apply rr_default; vm_compute; intuition discriminate|split; [reflexivity|bytes_lit]|exact E]|].
  vm_compute in E. injection E as <-. split; vm_compute; reflexivity.
Qed.

(** C87.  What value() gives after assigning a double: the same double exactly when [real_exact]; otherwise it never
    returns (denormals whose doubled fraction has a leading octet below 16) or returns mantissa * 2^(floor(scale / 256)):
    only the first of the exponent's two octets is read. *)
Theorem C87_real_round_trip_exact : forall i data d decimal, real_reachable i data -> is_double d ->
  exists data', real_assign i data d = Ok data' /\
  ((exists d', same_double d d' /\ forall fuel, real_value decimal fuel i data' = Ok d') <-> real_exact d) /\
  ((forall fuel, real_value decimal fuel i data' = NoFuel) <-> dbl_exp d = 0 /\ dbl_frac d <> 0 /\ Z.log2 (2 * dbl_frac d) mod 8 < 4) /\
  (dbl_exp d = 0 -> dbl_frac d <> 0 -> 4 <= Z.log2 (2 * dbl_frac d) mod 8 -> exists d', trunc_double (dbl_sign d) (2 * dbl_frac d) (-5) d' /\
     forall fuel, real_value decimal fuel i data' = Ok d') /\
  (0 < dbl_exp d < 2047 -> ~ real_exact d -> exists d', trunc_double (dbl_sign d) (2^52 + dbl_frac d) ((dbl_exp d - 1075) / 256) d' /\
     forall fuel, real_value decimal fuel i data' = Ok d').
Proof.
  intros i data d decimal Hr Hd. destruct (real_reachable_rep _ _ Hr) as (Hi & y & Hrep & _).
  destruct (real_assign_rep i data y d Hi Hrep Hd) as (data' & E & Hrep'). exists data'. split; [exact E|].
  assert (Hv : forall fuel, real_value decimal fuel i data' = let* o := decode_real decimal fuel (encode_real d) in Ok (match o with Some d => d | None => plus_zero end))
    by (intros; apply real_value_rep; auto).
  destruct (dbl_split d Hd) as [_ Hs]. pose proof (dbl_frac_range d) as Hf. pose proof (dbl_exp_range d) as Hx.
  assert (Hex : real_exact d \/ ~ real_exact d).
  { unfold real_exact, dbl_zero, dbl_inf, dbl_nan. lia. }
  (* the three cases *)
  assert (Hden : dbl_exp d = 0 -> dbl_frac d <> 0 -> (Z.log2 (2 * dbl_frac d) mod 8 < 4 /\ forall fuel, real_value decimal fuel i data' = NoFuel) \/
     (4 <= Z.log2 (2 * dbl_frac d) mod 8 /\ exists d', trunc_double (dbl_sign d) (2 * dbl_frac d) (-5) d' /\ forall fuel, real_value decimal fuel i data' = Ok d')).
  { intros E0 E1. destruct (encode_real_spec d Hd) as [([H H'] & _)|[([H H'] & _)|[([H H'] & _)|[(H0 & H & m & H1 & H2 & H3 & H4 & Ee)|(H & _)]]]]; try lia.
    assert (Hn : be_value m <> 0) by lia. rewrite <- H3.
    assert (Hdec : forall fuel, decode_real decimal fuel (encode_real d) = let* d := assemble fuel (dbl_sign d) (-5) m in Ok (Some d)).
    { intros fuel. rewrite Ee, decode_real_binary_form by (auto; lia). reflexivity. }
    pose proof (Z.log2_nonneg (be_value m)) as Hlg.
    destruct (assemble_exact (dbl_sign d) (-5) m (be_value m)) as [(K1 & K2 & K3)|(K1 & d' & K2 & K3)]; auto; try lia.
    - left. split; [exact K1|]. intros fuel. rewrite Hv, Hdec, K3. reflexivity.
    - right. split; [lia|]. exists d'. split; [exact K3|]. intros fuel. rewrite Hv, Hdec, K2. reflexivity. }
  assert (Hnor : 0 < dbl_exp d < 2047 -> ~ real_exact d -> exists d', trunc_double (dbl_sign d) (2^52 + dbl_frac d) ((dbl_exp d - 1075) / 256) d' /\
     forall fuel, real_value decimal fuel i data' = Ok d').
  { intros E0 Hne. destruct (encode_real_spec d Hd) as [([H H'] & _)|[([H H'] & _)|[([H H'] & _)|[(H0 & _)|(H & m & H1 & H2 & H3 & H4 & Ee)]]]]; try lia.
    assert (Hn : be_value m <> 0) by lia. unfold real_exact in Hne. rewrite <- H3.
    assert (Hdec : forall fuel, decode_real decimal fuel (encode_real d) = let* d' := assemble fuel (dbl_sign d) ((dbl_exp d - 1075) / 256) m in Ok (Some d')).
    { intros fuel. rewrite Ee, decode_real_binary_form by (auto; lia). replace ((-128 <=? dbl_exp d - 1075) && (dbl_exp d - 1075 <=? 127)) with false by lia. reflexivity. }
    assert (Hl : Z.log2 (be_value m) = 52) by (rewrite H3; apply log2_hidden; exact Hf).
    destruct (assemble_exact (dbl_sign d) ((dbl_exp d - 1075) / 256) m (be_value m)) as [(K1 & K2 & K3)|(K1 & d' & K2 & K3)]; auto; try lia.
    exists d'. split; [exact K3|]. intros fuel. rewrite Hv, Hdec, K2. reflexivity. }
  assert (Hdefd : real_exact d -> exists d', same_double d d' /\ forall fuel, real_value decimal fuel i data' = Ok d').
  { intros He. destruct (decode_encode_exact decimal 0 d Hd He) as (d0 & Ed0 & Hsame). exists d0. split; [exact Hsame|].
    intros fuel. rewrite Hv. destruct (decode_encode_exact decimal fuel d Hd He) as (d1 & Ed1 & Hsame1). rewrite Ed1. cbn [bind].
    (* independent of the fuel *)
    destruct (encode_real_spec d Hd) as [(H & Ee)|[(H & Ee)|[(H & Ee)|[(H0 & H & _)|(H & m & H1 & H2 & H3 & H4 & Ee)]]]].
    - destruct Hsame1 as [_ [[[N1 _] _]| ->]]; [destruct H; lia|]. destruct Hsame as [_ [[[N1 _] _]| ->]]; [destruct H; lia|reflexivity].
    - destruct Hsame1 as [_ [[[N1 N2] _]| ->]]; [destruct H; lia|]. destruct Hsame as [_ [[[N1 N2] _]| ->]]; [destruct H; lia|reflexivity].
    - rewrite Ee in Ed0, Ed1. change (Ok (Some quiet_nan) = Ok (Some d0)) in Ed0. change (Ok (Some quiet_nan) = Ok (Some d1)) in Ed1. congruence.
    - unfold real_exact, dbl_zero, dbl_inf, dbl_nan in He. lia.
    - destruct Hsame1 as [_ [[[N1 N2] _]| ->]]; [lia|]. destruct Hsame as [_ [[[N1 N2] _]| ->]]; [lia|reflexivity]. }
  split; [split; [|exact Hdefd]|].
  { intros (d' & Hs' & Hd'). destruct Hex as [Hex|Hex]; [exact Hex|]. exfalso.
    destruct (C36_real_round_trip_refuted i data d decimal 0%nat Hr Hd Hex) as (dd & Edd & Hbad). assert (dd = data') by congruence. subst dd.
    exact (Hbad d' Hs' (Hd' 0%nat)). }
  split; [split|].
  - intros HL. assert (Hne : ~ real_exact d). { intros He. destruct (Hdefd He) as (d' & _ & K). specialize (K 0%nat). rewrite HL in K. discriminate. }
    destruct (Z.eq_dec (dbl_exp d) 0) as [E0|E0].
    + split; [exact E0|]. assert (dbl_frac d <> 0) by (unfold real_exact, dbl_zero in Hne; lia). split; [assumption|].
      destruct (Hden E0 ltac:(assumption)) as [[K _]|(_ & d' & _ & K)]; [exact K|]. specialize (K 0%nat). rewrite HL in K. discriminate.
    + destruct (Hnor) as (d' & _ & K); [|exact Hne|specialize (K 0%nat); rewrite HL in K; discriminate]. unfold real_exact, dbl_inf, dbl_nan in Hne. lia.
  - intros (E0 & E1 & E2). destruct (Hden E0 E1) as [[_ K]|(K & _)]; [exact K|lia].
  - split; [|exact Hnor]. intros E0 E1 E2. destruct (Hden E0 E1) as [[K _]|(_ & K)]; [lia|exact K].
Qed.
Example C87_example : real_exact dbl_1_5 /\ ~ real_exact dbl_1e100 /\ is_double [0; 0; 0; 0; 0; 0; 0; 1] /\
  Z.log2 (2 * dbl_frac [0; 0; 0; 0; 0; 0; 0; 1]) mod 8 < 4.
Proof.
  destruct C36_examples as (_ & _ & H1 & _ & H2). split; [exact H1|]. split; [exact H2|]. split; [split; [reflexivity|bytes_lit]|vm_compute; reflexivity].
Qed.
