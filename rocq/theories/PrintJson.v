(** The texts the printing operators produce, as JSON. *)
From Coq Require Import String Ascii.
From Verif Require Import Base Ident View Prims Schema Oid Time Spec Print PrintSpec.
Close Scope string_scope.

Definition stops (rest : list Z) : Prop := match rest with [] => True | b :: _ => number_char b = false end.
Definition reads (s : list Z) (j : json) : Prop :=
  forall rest fuel, stops rest -> (List.length s < fuel)%nat -> value fuel (s ++ rest) = Some (j, rest).
Definition mreads (s : list Z) (kj : list Z * json) : Prop :=
  forall rest fuel, stops rest -> (List.length s < fuel)%nat -> member (value fuel) (s ++ rest) = Some (kj, rest).
Definition plain_char (b : Z) : Prop := 32 <= b /\ b <> 34 /\ b <> 92.
Definition blank (l : list Z) : Prop := Forall (fun b => is_ws b = true) l.

Lemma txt_lit s : txt s = lit s. Proof. reflexivity. Qed.
Lemma skip_blank w s : blank w -> skip_ws (w ++ s) = skip_ws s.
Proof. induction 1 as [|b w Hb _ IH]; [reflexivity|]. cbn [app skip_ws]. rewrite Hb. exact IH. Qed.
Lemma skip_stay b s : is_ws b = false -> skip_ws (b :: s) = b :: s.
Proof. intros H. cbn [skip_ws]. rewrite H. reflexivity. Qed.
Lemma value_blank w s fuel : blank w -> value fuel (w ++ s) = value fuel s.
Proof. intros H. destruct fuel as [|fuel]; [reflexivity|]. cbn [value]. rewrite skip_blank by auto. reflexivity. Qed.
Lemma string_rest_plain x rest : Forall plain_char x -> string_rest (x ++ 34 :: rest) = Some (x, rest).
Proof.
  induction 1 as [|b x (H1 & H2 & H3) _ IH]; [reflexivity|]. cbn [app string_rest].
  destruct (Z.eqb_spec b 34); [lia|]. destruct (Z.eqb_spec b 92); [lia|]. destruct (Z.ltb_spec b 32); [lia|].
  rewrite IH. reflexivity.
Qed.
Lemma reads_string x : Forall plain_char x -> reads ([34] ++ x ++ [34]) (JStr x).
Proof.
  intros Hx rest fuel _ Hf. destruct fuel as [|fuel]; [lia|].
  replace (([34] ++ x ++ [34]) ++ rest) with (34 :: x ++ 34 :: rest) by (cbn [app]; rewrite <- app_assoc; reflexivity).
  cbn [value]. rewrite skip_stay by reflexivity. change (34 =? 34) with true. cbn match. rewrite string_rest_plain by auto. reflexivity.
Qed.
Lemma reads_null : reads (txt "null") JNull.
Proof. intros rest fuel _ Hf. destruct fuel as [|fuel]; [lia|]. reflexivity. Qed.
Lemma reads_bool (b : bool) : reads (if b then txt "true" else txt "false") (JBool b).
Proof. intros rest fuel _ Hf. destruct fuel as [|fuel]; [lia|]. destruct b; reflexivity. Qed.

(** *** Numbers *)
Lemma span_all p l rest : forallb p l = true -> match rest with [] => True | b :: _ => p b = false end -> span p (l ++ rest) = (l, rest).
Proof.
  induction l as [|b l IH]; intros H Hr.
  - destruct rest as [|b rest]; [reflexivity|]. cbn. rewrite Hr. reflexivity.
  - cbn [forallb] in H. apply andb_prop in H as [H1 H2]. cbn [app span]. rewrite H1, IH by auto. reflexivity.
Qed.
Lemma digit_is n : is_digit (digit n) = true.
Proof. unfold is_digit, digit. pose proof (Z.mod_pos_bound n 10 ltac:(lia)). lia. Qed.
Lemma decimal_spec fuel : forall n, 0 <= n < 10 ^ Z.of_nat fuel -> (0 < fuel)%nat ->
  forallb is_digit (decimal fuel n) = true /\ digits_value (decimal fuel n) = n /\
  (exists d l, decimal fuel n = d :: l /\ (d = 48 -> l = [])).
Proof.
  induction fuel as [|fuel IH]; intros n Hn Hf; [lia|]. cbn [decimal]. destruct (Z.ltb_spec n 10) as [H|H].
  - split; [cbn [forallb]; rewrite digit_is; reflexivity|]. split.
    + unfold digits_value, digit; cbn [fold_left]. rewrite Z.mod_small by lia. lia.
    + eexists _, _. split; [reflexivity|]. auto.
  - assert (Hpow : 10 ^ Z.of_nat (S fuel) = 10 * 10 ^ Z.of_nat fuel) by (rewrite Nat2Z.inj_succ, Z.pow_succ_r by lia; reflexivity).
    assert (Hd : 0 <= n / 10 < 10 ^ Z.of_nat fuel).
    { split; [apply Z.div_pos; lia|]. apply Z.div_lt_upper_bound; lia. }
    assert (Hf' : (0 < fuel)%nat).
    { destruct fuel; [|lia]. cbn in Hn. lia. }
    destruct (IH _ Hd Hf') as (A & B & d & l & E & C). split; [|split].
    + rewrite forallb_app, A. cbn [forallb]. rewrite digit_is. reflexivity.
    + unfold digits_value in *. rewrite fold_left_app, B. cbn [fold_left]. unfold digit.
      pose proof (Z.div_mod n 10 ltac:(lia)). lia.
    + rewrite E. exists d, (l ++ [digit n]). split; [reflexivity|]. intros Hd0. specialize (C Hd0). subst. exfalso.
      rewrite E in B. unfold digits_value in B. cbn in B. assert (1 <= n / 10) by (apply Z.div_le_lower_bound; lia). lia.
Qed.
Lemma digit_number b : is_digit b = true -> number_char b = true.
Proof. unfold number_char. intros ->. reflexivity. Qed.
Lemma digits_number l : forallb is_digit l = true -> forallb number_char l = true.
Proof. intros H. rewrite forallb_forall in *. auto using digit_number. Qed.
Lemma number_ok_digits d l : forallb is_digit (d :: l) = true -> (d = 48 -> l = []) -> number_ok (d :: l) = true /\ number_ok (45 :: d :: l) = true.
Proof.
  intros H Hz. assert (Hd : is_digit d = true) by (cbn in H; apply andb_prop in H; tauto).
  assert (Hs : span is_digit (d :: l) = (d :: l, [])) by (rewrite <- (app_nil_r (d :: l)) at 1; apply span_all; auto).
  assert (Hm : d =? 45 = false) by (unfold is_digit in Hd; lia).
  unfold number_ok. cbn match. rewrite Hm. change (45 =? 45) with true. cbn match. rewrite Hs.
  destruct l as [|c l]; [split; reflexivity|]. assert (Hn : d =? 48 = false) by (destruct (Z.eqb_spec d 48); [specialize (Hz e); discriminate|reflexivity]).
  rewrite Hn. split; reflexivity.
Qed.
Lemma value_number b l rest fuel : forallb number_char (b :: l) = true -> (b = 45 \/ is_digit b = true) -> number_ok (b :: l) = true -> stops rest ->
  value (S fuel) ((b :: l) ++ rest) = Some (JNum (b :: l), rest).
Proof.
  intros H Hb Hok Hr. assert (Hb' : b = 45 \/ 48 <= b <= 57) by (unfold is_digit in Hb; lia).
  change ((b :: l) ++ rest) with (b :: l ++ rest). cbn [value].
  rewrite skip_stay by (unfold is_ws; lia). change (b :: l ++ rest) with ((b :: l) ++ rest) at 4.
  replace (b =? 34) with false by lia. replace (b =? 91) with false by lia. replace (b =? 123) with false by lia.
  cbn [lit list_ascii_of_string map strip].
  change (Z.of_N (N_of_ascii "t")) with 116. change (Z.of_N (N_of_ascii "f")) with 102. change (Z.of_N (N_of_ascii "n")) with 110.
  replace (116 =? b) with false by lia. replace (102 =? b) with false by lia. replace (110 =? b) with false by lia.
  rewrite (span_all number_char (b :: l) rest) by auto. rewrite Hok. reflexivity.
Qed.
Lemma reads_int n : - 10^19 < n < 10^20 -> exists j, reads (show_int n) j /\ is_int j n.
Proof.
  intros Hn. unfold show_int. destruct (Z.ltb_spec n 0) as [H|H].
  - destruct (decimal_spec 20 (- n)) as (A & B & d & l & E & C); [change (10 ^ Z.of_nat 20) with (10^20); lia|lia|].
    exists (JNum (45 :: decimal 20 (- n))). split.
    + intros rest fuel Hr Hf. destruct fuel as [|fuel]; [lia|]. rewrite E in *. apply value_number; auto.
      * change (forallb number_char (45 :: d :: l)) with (forallb number_char (d :: l)). apply digits_number; auto.
      * apply number_ok_digits; auto.
    + exists (decimal 20 (- n)). split; [right; auto|]. split; [rewrite E; discriminate|]. split; [exact A|]. lia.
  - destruct (decimal_spec 20 n) as (A & B & d & l & E & C); [change (10 ^ Z.of_nat 20) with (10^20); lia|lia|].
    exists (JNum (decimal 20 n)). split.
    + intros rest fuel Hr Hf. destruct fuel as [|fuel]; [lia|]. rewrite E in *. apply value_number; auto.
      * apply digits_number; auto.
      * right. cbn in A. apply andb_prop in A; tauto.
      * apply number_ok_digits; auto.
    + exists (decimal 20 n). split; [left; auto|]. split; [rewrite E; discriminate|]. split; [exact A|]. lia.
Qed.

(** *** Arrays *)
Lemma value_close fuel b s : (b = 93 \/ b = 44 \/ b = 125 \/ b = 58) -> value fuel (b :: s) = None.
Proof. intros H. destruct fuel as [|fuel]; [reflexivity|]. destruct H as [->|[->|[->| ->]]]; reflexivity. Qed.
Lemma elements_blank pv n w s : pv (w ++ s) = pv s -> elements pv n (w ++ s) = elements pv n s.
Proof. intros H. destruct n; [reflexivity|]. cbn [elements]. rewrite H. reflexivity. Qed.
Lemma joined_cons s t l : joined (s :: t :: l) = s ++ txt ", " ++ joined (t :: l). Proof. reflexivity. Qed.
Lemma joined_length l : (List.length l <= S (List.length (joined l)))%nat.
Proof.
  induction l as [|s [|t l] IH]; [cbn; lia|cbn; lia|]. rewrite joined_cons, !app_length.
  change (List.length (txt ", ")) with 2%nat. cbn [List.length] in *. lia.
Qed.
Lemma elements_joined ss js : Forall2 reads ss js -> ss <> [] -> forall f n rest, (List.length (joined ss) < f)%nat -> (List.length ss <= n)%nat ->
  elements (value f) n (joined ss ++ 93 :: rest) = Some (js, rest).
Proof.
  induction 1 as [|s j ss js Hs Hss IH]; [congruence|]. intros _ f n rest Hf Hn. destruct n as [|n]; [cbn in Hn; lia|].
  destruct Hss as [|t k ss js Ht Hss].
  - cbn [joined] in *. cbn [elements]. rewrite Hs by (auto; reflexivity). rewrite skip_stay by reflexivity. reflexivity.
  - rewrite joined_cons in *. rewrite !app_length in Hf. change (List.length (txt ", ")) with 2%nat in Hf.
    rewrite <- !app_assoc. cbn [elements]. rewrite Hs by (try reflexivity; lia).
    change (txt ", " ++ joined (t :: ss) ++ 93 :: rest) with (44 :: ([32] ++ joined (t :: ss) ++ 93 :: rest)).
    rewrite skip_stay by reflexivity. change (44 =? 44) with true. cbn match.
    rewrite elements_blank by (apply value_blank; repeat constructor).
    rewrite IH; [reflexivity|discriminate|lia|cbn [List.length] in *; lia].
Qed.
Lemma skip_ws_decomp s : exists w, s = w ++ skip_ws s /\ blank w.
Proof.
  induction s as [|b s (w & E & Hw)]; [exists []; split; [reflexivity|constructor]|]. cbn [skip_ws].
  destruct (is_ws b) eqn:Eb; [|exists []; split; [reflexivity|constructor]].
  exists (b :: w). split; [cbn [app]; congruence|constructor; auto].
Qed.
Lemma reads_array ss js : Forall2 reads ss js -> reads (txt "[" ++ joined ss ++ txt "]") (JArr js).
Proof.
  intros H rest fuel Hr Hf. destruct fuel as [|fuel]; [lia|]. rewrite !app_length in Hf. change (List.length (txt "[")) with 1%nat in Hf. change (List.length (txt "]")) with 1%nat in Hf.
  rewrite <- !app_assoc. change (txt "[" ++ joined ss ++ txt "]" ++ rest) with (91 :: joined ss ++ 93 :: rest).
  cbn [value]. rewrite skip_stay by reflexivity. change (91 =? 34) with false. change (91 =? 91) with true. cbn match.
  destruct H as [|s j ss js Hs Hss].
  - cbn [joined app]. rewrite skip_stay by reflexivity. reflexivity.
  - assert (H2 : Forall2 reads (s :: ss) (j :: js)) by (constructor; auto).
    assert (Hel := elements_joined (s :: ss) (j :: js) H2 ltac:(discriminate) fuel fuel rest ltac:(lia)). pose proof (joined_length (s :: ss)). specialize (Hel ltac:(lia)).
    destruct (skip_ws (joined (s :: ss) ++ 93 :: rest)) as [|b r] eqn:E.
    + exfalso. destruct fuel; [lia|]. destruct (skip_ws_decomp (joined (s :: ss) ++ 93 :: rest)) as (w & Ew & Hw). rewrite Ew, E in Hel.
      cbn [elements] in Hel. rewrite value_blank in Hel by auto. discriminate.
    + destruct (Z.eqb_spec b 93) as [->|_]; [|rewrite Hel; reflexivity].
      exfalso. destruct (skip_ws_decomp (joined (s :: ss) ++ 93 :: rest)) as (w & Ew & Hw). rewrite Ew, E in Hel.
      destruct fuel; [lia|]. cbn [elements] in Hel. rewrite value_blank in Hel by auto. rewrite value_close in Hel by auto. discriminate.
Qed.

(** *** Objects *)
Lemma member_reads k w1 w2 s j : Forall plain_char k -> blank w1 -> blank w2 -> reads s j ->
  mreads ([34] ++ k ++ [34] ++ w1 ++ [58] ++ w2 ++ s) (k, j).
Proof.
  intros Hk H1 H2 Hs rest fuel Hr Hf. rewrite !app_length in Hf.
  replace (([34] ++ k ++ [34] ++ w1 ++ [58] ++ w2 ++ s) ++ rest) with (34 :: k ++ 34 :: (w1 ++ 58 :: (w2 ++ s ++ rest))) by (rewrite <- !app_assoc; reflexivity).
  unfold member. rewrite skip_stay by reflexivity. change (34 =? 34) with true. cbn match. rewrite string_rest_plain by auto.
  rewrite skip_blank, skip_stay by (auto; reflexivity). change (58 =? 58) with true. cbn match. rewrite value_blank by auto.
  rewrite Hs by (auto; lia). reflexivity.
Qed.
Lemma member_blank pv w s : blank w -> member pv (w ++ s) = member pv s.
Proof. intros H. unfold member. rewrite skip_blank by auto. reflexivity. Qed.
Lemma members_blank pv n w s : blank w -> members pv n (w ++ s) = members pv n s.
Proof. intros H. destruct n; [reflexivity|]. cbn [members]. rewrite member_blank by auto. reflexivity. Qed.
Lemma members_joined post ss js : blank post -> Forall2 mreads ss js -> ss <> [] -> forall f n rest, (List.length (joined ss) < f)%nat -> (List.length ss <= n)%nat ->
  members (value f) n (joined ss ++ post ++ 125 :: rest) = Some (js, rest).
Proof.
  intros Hp. assert (Hst : forall rest, stops (post ++ 125 :: rest)).
  { intros rest. destruct Hp as [|b post Hb _]; [reflexivity|]. cbn. unfold is_ws, number_char, is_digit in *. lia. }
  induction 1 as [|s j ss js Hs Hss IH]; [congruence|]. intros _ f n rest Hf Hn. destruct n as [|n]; [cbn in Hn; lia|].
  destruct Hss as [|t k ss js Ht Hss].
  - cbn [joined] in *. cbn [members]. rewrite Hs by auto. rewrite skip_blank, skip_stay by (auto; reflexivity). reflexivity.
  - rewrite joined_cons in *. rewrite !app_length in Hf. change (List.length (txt ", ")) with 2%nat in Hf.
    rewrite <- !app_assoc. cbn [members]. rewrite Hs by (try reflexivity; lia).
    change (txt ", " ++ joined (t :: ss) ++ post ++ 125 :: rest) with (44 :: ([32] ++ joined (t :: ss) ++ post ++ 125 :: rest)).
    rewrite skip_stay by reflexivity. change (44 =? 44) with true. cbn match.
    rewrite members_blank by (repeat constructor).
    rewrite IH; [reflexivity|discriminate|lia|cbn [List.length] in *; lia].
Qed.
Lemma reads_object pre post ss js : blank pre -> blank post -> Forall2 mreads ss js -> reads ([123] ++ pre ++ joined ss ++ post ++ [125]) (JObj js).
Proof.
  intros Hpre Hpost H rest fuel Hr Hf. destruct fuel as [|fuel]; [lia|]. rewrite !app_length in Hf.
  replace (([123] ++ pre ++ joined ss ++ post ++ [125]) ++ rest) with (123 :: pre ++ joined ss ++ post ++ 125 :: rest) by (rewrite <- !app_assoc; reflexivity).
  cbn [value]. rewrite skip_stay by reflexivity. change (123 =? 34) with false. change (123 =? 91) with false. change (123 =? 123) with true. cbn match.
  rewrite skip_blank by auto. destruct H as [|s j ss js Hs Hss].
  - cbn [joined app]. rewrite skip_blank, skip_stay by (auto; reflexivity). reflexivity.
  - assert (H2 : Forall2 mreads (s :: ss) (j :: js)) by (constructor; auto).
    pose proof (joined_length (s :: ss)).
    assert (Hel := members_joined post (s :: ss) (j :: js) Hpost H2 ltac:(discriminate) fuel fuel rest ltac:(cbn [List.length] in *; lia) ltac:(cbn [List.length] in *; lia)).
    rewrite members_blank by auto.
    destruct (skip_ws (joined (s :: ss) ++ post ++ 125 :: rest)) as [|b r] eqn:E.
    + exfalso. destruct fuel; [cbn [List.length] in *; lia|]. cbn [members] in Hel. unfold member in Hel. rewrite E in Hel. discriminate.
    + destruct (Z.eqb_spec b 125) as [->|_]; [|rewrite Hel; reflexivity].
      exfalso. destruct fuel; [cbn [List.length] in *; lia|]. cbn [members] in Hel. unfold member in Hel. rewrite E in Hel. discriminate.
Qed.
Lemma reads_json s j : reads s j -> json_of s = Some j.
Proof. intros H. unfold json_of. rewrite <- (app_nil_r s) at 2. rewrite H by (cbn; auto; lia). reflexivity. Qed.
