(** Property theorems C75-C77: exactly when C67, C07 and C11 fail. *)
From Verif Require Import Base Ident Spec IdentProofs HeaderProofs View ViewProofs PropertiesView.

(** The header at the front of [l]: identifier octets with a tag below 2^63, a definite length field of at most nine octets;
    [h] is the number of header octets and [n] the value of the length field. *)
Definition header_at (l : list Z) (h n : Z) : Prop :=
  exists id len rest c con t, l = id ++ len ++ rest /\ x690_ident id c con t /\ t < 2^63 /\
    x690_length len n /\ zlen len <= 9 /\ h = zlen id + zlen len.
(** The tag number in front of [l], in the multi-octet form, does not fit in 63 bits however it goes on: its leading
    octets, all with bit 8 set, already have a value of 2^56 or more. *)
Definition huge_tag (l : list Z) : Prop :=
  exists b ds rest, l = b :: ds ++ rest /\ b mod 32 = 31 /\ Forall (fun d => 128 <= d) ds /\ 2^56 <= b128_value ds.

Lemma b128_value_snoc ds b : b128_value (ds ++ [b]) = b128_value ds * 128 + b mod 128.
Proof. unfold b128_value. rewrite fold_left_app. reflexivity. Qed.
Lemma b128_value_nonneg ds : 0 <= b128_value ds.
Proof.
  induction ds as [|b ds IH] using rev_ind; [cbn; lia|]. rewrite b128_value_snoc.
  pose proof (Z.mod_pos_bound b 128). lia.
Qed.
Lemma b128_value_app_le ds es : b128_value ds <= b128_value (ds ++ es).
Proof.
  induction es as [|e es IH] using rev_ind; [rewrite app_nil_r; lia|].
  rewrite app_assoc, b128_value_snoc. pose proof (b128_value_nonneg (ds ++ es)). pose proof (Z.mod_pos_bound e 128). lia.
Qed.
Lemma tag_loop_ub l : forall done i, bytes l -> Forall (fun d => 128 <= d) done -> b128_value done < 2^56 ->
  (extract_tag_loop l i (b128_value done * 128) = UB <->
   exists ds rest, l = ds ++ rest /\ Forall (fun d => 128 <= d) ds /\ 2^56 <= b128_value (done ++ ds)).
Proof.
  induction l as [|b l IH]; intros done i Hb Hd Hv; cbn [extract_tag_loop].
  { split; [discriminate|]. intros (ds & rest & E & _ & H). symmetry in E. apply app_eq_nil in E. destruct E as [-> ->].
    rewrite app_nil_r in H. lia. }
  apply bytes_cons in Hb. destruct Hb as [Hbb Hb]. unfold wf_byte in Hbb.
  rewrite land_7F, land_80 by (unfold wf_byte; lia).
  pose proof (b128_value_nonneg done). pose proof (Z.mod_pos_bound b 128 ltac:(lia)).
  rewrite (in_i64b_true (b128_value done * 128 + b mod 128)) by (unfold in_i64; lia). cbn [negb].
  rewrite <- b128_value_snoc. destruct (Z.ltb_spec b 128) as [Hlt|Hge].
  { split; [discriminate|]. intros (ds & rest & E & Hds & H2). destruct ds as [|d ds].
    - rewrite app_nil_r in H2. lia.
    - inversion E; subst. apply Forall_cons_iff in Hds. lia. }
  destruct (Z.ltb_spec (b128_value (done ++ [b])) (2^56)) as [Hsm|Hbig].
  - pose proof (b128_value_nonneg (done ++ [b])).
    rewrite in_i64b_true by (unfold in_i64; lia). cbn [negb].
    rewrite IH; auto.
    2:{ apply Forall_app; auto. }
    split.
    + intros (ds & rest & -> & Hds & H2). exists (b :: ds), rest. rewrite <- app_assoc in H2. cbn in *. auto.
    + intros (ds & rest & E & Hds & H2). destruct ds as [|d ds]; [rewrite app_nil_r in H2; lia|].
      inversion E; subst. apply Forall_cons_iff in Hds. exists ds, rest. rewrite <- app_assoc. cbn. intuition.
  - assert (Hf : in_i64b (b128_value (done ++ [b]) * 128) = false) by (unfold in_i64b; lia). rewrite Hf. cbn [negb].
    split; [|reflexivity]. intros _. exists [b], l. cbn. split; auto.
Qed.
Lemma tag_loop_fuel l : forall i t, extract_tag_loop l i t <> NoFuel.
Proof.
  induction l as [|b l IH]; intros i t; cbn [extract_tag_loop]; [discriminate|].
  destruct (negb _); [discriminate|]. destruct (_ =? _); [discriminate|]. destruct (negb _); [discriminate|]. apply IH.
Qed.
Lemma v_assign_fuel t0 l : v_assign t0 l <> NoFuel.
Proof.
  unfold v_assign. destruct (extract_tag l t0) as [[a b]| |] eqn:E; cbn [bind]; try discriminate.
  - destruct (extract_length l 0 a). destruct (_ || _ || _); discriminate.
  - destruct l; cbn [extract_tag] in E; [discriminate|]. destruct (negb _); [discriminate|].
    exfalso. eapply tag_loop_fuel; eauto.
Qed.
Lemma v_assign_ub t0 l : bytes l -> v_assign t0 l = UB <-> huge_tag l.
Proof.
  intros Hb. unfold v_assign. split.
  - destruct (extract_tag l t0) as [[a b]| |] eqn:E; cbn [bind]; try discriminate.
    { destruct (extract_length l 0 a). destruct (_ || _ || _); discriminate. }
    intros _. destruct l as [|b0 l]; [discriminate|]. cbn [extract_tag] in E. apply bytes_cons in Hb.
    rewrite land_1F in E. destruct (Z.eqb_spec (b0 mod 32) 31) as [Hm|Hm]; cbn [negb] in E; [|discriminate].
    apply (tag_loop_ub l [] 1) in E; auto; [|apply Hb | cbn; lia].
    destruct E as (ds & rest & -> & Hds & H). exists b0, ds, rest. cbn in H. auto.
  - intros (b0 & ds & rest & -> & Hm & Hds & H). cbn [extract_tag]. rewrite land_1F. rewrite Hm. cbn [negb Z.eqb Pos.eqb].
    apply bytes_cons in Hb. destruct Hb as [_ Hb].
    assert (E : extract_tag_loop (ds ++ rest) 1 (b128_value [] * 128) = UB).
    { apply tag_loop_ub; auto; [cbn; lia|]. exists ds, rest. auto. }
    change (b128_value [] * 128) with 0 in E. rewrite E. reflexivity.
Qed.

(** C75.  Building a view (or moving an iterator) is undefined exactly when the input starts with a multi-octet tag whose
    leading octets have a value of at least 2^56; otherwise it gives a view, valid or not. *)
Theorem C75_view_construction_undefined_exactly : forall input,
  bytes input -> (v_make input = UB <-> huge_tag input) /\ (~ huge_tag input -> exists v, v_make input = Ok v).
Proof.
  intros input Hb. unfold v_make. split; [apply v_assign_ub; auto|].
  intros H. rewrite <- (v_assign_ub 0) in H by auto. pose proof (v_assign_fuel 0 input).
  destruct (v_assign 0 input); [eauto | congruence | congruence].
Qed.
(** Ten octets of tag number are too many exactly when the first of them carries more than its padding. *)
Example C75_example : huge_tag ([0x1F] ++ zrep 9 0xFF ++ [1; 0]) /\
  ~ huge_tag [0x1F; 0x80; 0x80; 0x80; 0x81; 1; 0] /\ exists v, v_make [0x1F; 0x80; 0x80; 0x80; 0x81; 1; 0] = Ok v /\ is_valid v = true.
Proof.
  split; [|split].
  - exists 0x1F, (zrep 9 0xFF), [1; 0]. split; [reflexivity|]. split; [reflexivity|]. split; [repeat constructor; lia|]. vm_compute. discriminate.
  - rewrite <- (v_assign_ub 0); [vm_compute; discriminate | bytes_lit].
  - eexists; split; vm_compute; reflexivity.
Qed.

Lemma view_header input v : bytes input -> zlen input < 2^63 -> v_make input = Ok v ->
  (is_valid v = true <-> exists h n, header_at input h n /\ (h + n) mod 2^64 <= zlen input) /\
  (is_valid v = true -> header_at input (v_hl v) (v_cl v)) /\
  (is_valid v = true -> forall h n, header_at input h n -> v_hl v = h /\ v_cl v = n).
Proof.
  intros Hb Hz E.
  assert (Hub : extract_tag input 0 <> UB) by (intros H; unfold v_make, v_assign in E; rewrite H in E; discriminate).
  destruct (C10_valid_iff_well_formed_header input Hb Hz Hub v E) as [H1 H2].
  split; [|split].
  - rewrite H1. split.
    + intros (id & len & rest & c & con & t & n & ? & ? & ? & ? & ? & ?). exists (zlen id + zlen len), n. split; [|auto].
      exists id, len, rest, c, con, t. auto 10.
    + intros (h & n & (id & len & rest & c & con & t & ? & ? & ? & ? & ? & ->) & ?). exists id, len, rest, c, con, t, n. auto 10.
  - intros Hv. pose proof Hv as Hv'. apply H1 in Hv. destruct Hv as (id & len & rest & c & con & t & n & He & Hi & Ht & Hl & Hl9 & Hf).
    destruct (H2 Hv' _ _ _ _ _ _ _ He Hi Hl) as (_ & -> & ->). exists id, len, rest, c, con, t. auto 10.
  - intros Hv h n (id & len & rest & c & con & t & He & Hi & Ht & Hl & Hl9 & ->).
    destruct (H2 Hv _ _ _ _ _ _ _ He Hi Hl) as (_ & -> & ->). auto.
Qed.
Lemma header_at_range l h n : header_at l h n -> 2 <= h <= zlen l /\ 0 <= n < 2^64.
Proof.
  intros (id & len & rest & c & con & t & -> & Hi & Ht & Hl & Hl9 & ->).
  pose proof (x690_ident_len _ _ _ _ Hi). pose proof (x690_length_len _ _ Hl). pose proof (zlen_nonneg rest).
  rewrite !zlen_app. split; [lia|]. destruct Hl as [n Hn|ds Hds Hn]; [lia|].
  rewrite zlen_cons in *. pose proof (be_value_bound ds Hds) as Hbv.
  assert (256 ^ zlen ds <= 256 ^ 8) by (apply Z.pow_le_mono_r; lia). change (256 ^ 8) with (2^64) in *. lia.
Qed.

(** C76.  What a view reports as valid leaves the buffer exactly when header length and length field add up to 2^64 or more;
    then content() is out of bounds for every buffer. *)
Theorem C76_valid_view_out_of_bounds_exactly : forall input v,
  bytes input -> zlen input < 2^63 -> v_make input = Ok v -> is_valid v = true ->
  (v_hl v + v_cl v <= zlen input /\ v_content v = Ok (ztake (v_cl v) (zdrop (v_hl v) input)) \/
   2^64 <= v_hl v + v_cl v < 2^64 + v_hl v /\ v_content v = UB).
Proof.
  intros input v Hb Hz E Hv. destruct (view_header input v Hb Hz E) as (_ & H2 & _). specialize (H2 Hv).
  pose proof (header_at_range _ _ _ H2) as [Hh Hn].
  destruct (C07_out_of_bounds_only_by_wrap_partial input v Hb Hz E Hv) as [H|H].
  - left. split; [exact H|]. eapply C07_valid_view_in_bounds_partial; eauto. lia.
  - right. split; [lia|]. unfold v_content. rewrite (v_assign_valid_mem 0 input v E Hv).
    unfold mem_read. replace (v_hl v + v_cl v <=? zlen input) with false by lia. rewrite andb_false_r. reflexivity.
Qed.
Example C76_example : exists v, v_make [4; 0x88; 255; 255; 255; 255; 255; 255; 255; 250] = Ok v /\ is_valid v = true /\
   v_hl v + v_cl v = 2^64 + 4 /\ v_content v = UB.
Proof. eexists. split; [vm_compute; reflexivity|]. split; [reflexivity|]. split; vm_compute; reflexivity. Qed.

(** C13 for the views that are not valid: such a view, default constructed or made from any octets (also by an iterator, over any tag left from
    before), is empty, and encode() of it reports success, with nothing written. *)
Theorem C13_invalid_view : forall v, (v = empty_view \/ exists tag0 input, v_assign tag0 input = Ok v) -> is_valid v = false ->
  v_content v = Ok [] /\ v_ber v = Ok [] /\ v_ber_length v = 0 /\ forall buf, v_encode v buf = Ok (EncResult buf true 0).
Proof.
  intros v Hv Hi. assert (A : v_mem v = None /\ v_hl v = 0 /\ v_cl v = 0).
  { destruct Hv as [-> | (tag0 & input & E)]; [cbn; auto|]. unfold v_assign in E. destruct (extract_tag input tag0) as [[tl tag]| |]; cbn [bind] in E; try discriminate.
    destruct (extract_length input 0 tl) as [ll cl]. destruct ((tl =? 0) || (ll =? 0) || _); injection E as <-; [cbn; auto|discriminate]. }
  destruct v as [m t h c]. cbn in A. destruct A as (-> & -> & ->). split; [reflexivity|]. split; [reflexivity|]. split; [reflexivity|]. intros buf. unfold v_encode, v_ber, v_ber_length. cbn [v_mem v_hl v_cl].
  change (u64 (0 + 0)) with 0. assert (0 <= zlen buf) by apply zlen_nonneg. replace (0 >? zlen buf) with false by lia. cbn [Z.eqb bind]. rewrite mem_write_ok by (cbn; lia). cbn [bind]. reflexivity.
Qed.
(** The tag of a default constructed view is 0. *)
Theorem C13_default_view : is_valid empty_view = false /\ v_tag empty_view = 0.
Proof. split; reflexivity. Qed.

(** The octets an iterator stands on, from [l]: it skips header and content, modulo 2^64. *)
Inductive reaches : list Z -> list Z -> Prop :=
| reaches_here l : reaches l l
| reaches_next l h n m : header_at l h n -> (h + n) mod 2^64 <= zlen l -> reaches (zdrop ((h + n) mod 2^64) l) m -> reaches l m.

Lemma header_at_det l h n h' n' : bytes l -> zlen l < 2^63 -> header_at l h n -> header_at l h' n' -> h = h' /\ n = n'.
Proof.
  intros Hb Hz (id & len & rest & c & con & t & -> & Hi & Ht & Hl & Hl9 & ->) (id' & len' & rest' & c' & con' & t' & Eq & Hi' & Ht' & Hl' & Hl9' & ->).
  destruct (x690_ident_det _ _ _ _ _ _ _ _ _ _ Hi Hi' Eq) as (-> & -> & -> & -> & Eq').
  destruct (x690_length_det _ _ _ _ _ _ Hl Hl' Eq') as (-> & -> & ->). auto.
Qed.
Lemma bytes_zdrop k l : bytes l -> bytes (zdrop k l).
Proof. intros H. rewrite <- (ztake_zdrop k l) in H. apply bytes_app in H. apply H. Qed.
Lemma it_loop_exact n : forall l t0, (length l <= n)%nat -> bytes l -> zlen l < 2^63 ->
  (exists m, reaches l m /\ huge_tag m) /\ (v_assign t0 l = UB \/ exists v fuel, v_assign t0 l = Ok v /\ it_loop fuel (Iter l v) = UB) \/
  (exists m h k, reaches l m /\ header_at m h k /\ h + k = 2^64) /\ (exists v, v_assign t0 l = Ok v /\ forall fuel, it_loop fuel (Iter l v) = NoFuel) \/
  ~ (exists m, reaches l m /\ huge_tag m) /\ ~ (exists m h k, reaches l m /\ header_at m h k /\ h + k = 2^64) /\
    exists v, v_assign t0 l = Ok v /\ exists r, it_loop (S (length l)) (Iter l v) = Ok r.
Proof.
  induction n as [n IH] using (well_founded_induction lt_wf). intros l t0 Hn Hb Hz.
  destruct (v_assign t0 l) as [v| |] eqn:E.
  2:{ left. split; auto. exists l. split; [constructor | apply (v_assign_ub t0); auto]. }
  2:{ exfalso; eapply v_assign_fuel; eauto. }
  assert (Hnh : ~ huge_tag l) by (rewrite <- (v_assign_ub t0) by auto; rewrite E; discriminate).
  destruct (is_valid v) eqn:Hv.
  2:{ right; right.
      assert (Hno : forall h k, header_at l h k -> (h + k) mod 2^64 <= zlen l -> False).
      { intros h k Hh Hk. destruct l as [|b l].
        - destruct (header_at_range _ _ _ Hh). unfold zlen in *; cbn in *; lia.
        - assert (E' : v_make (b :: l) = Ok v) by exact E.
          destruct (view_header _ v Hb Hz E') as (H1 & _). assert (is_valid v = true) by (apply H1; eauto). congruence. }
      split; [|split].
      - intros (m & Hr & Hm). inversion Hr; subst; [contradiction | eapply Hno; eauto].
      - intros (m & h & k & Hr & Hm & Hk). inversion Hr; subst; [|eapply Hno; eauto].
        eapply Hno; [exact Hm|]. rewrite Hk. cbn. apply zlen_nonneg.
      - exists v. split; auto. cbn [it_loop]. unfold it_at_end. cbn [it_view]. rewrite Hv. cbn [negb]. eauto. }
  destruct l as [|b l].
  { exfalso. unfold v_assign in E. cbn in E. inversion E; subst. discriminate. }
  assert (E' : v_make (b :: l) = Ok v) by exact E.
  destruct (view_header _ v Hb Hz E') as (H1 & H2 & H3). specialize (H2 Hv).
  pose proof (proj1 H1 Hv) as (h & k & Hh & Hk).
  destruct (H3 Hv h k Hh) as [Eh Ek]. pose proof (header_at_range _ _ _ Hh) as [Rh Rk].
  set (len := (h + k) mod 2^64) in *.
  assert (Hlen : v_ber_length v = len) by (unfold v_ber_length, u64, len; congruence).
  assert (Rlen : 0 <= len < 2^64) by (apply Z.mod_pos_bound; lia).
  assert (Hnext : it_next (Iter (b :: l) v) =
    let* w := v_assign (v_tag v) (zdrop len (b :: l)) in Ok (Iter (zdrop len (b :: l)) w)).
  { unfold it_next. cbn [it_view it_buf]. rewrite Hlen. replace (len >? zlen (b :: l)) with false by lia. reflexivity. }
  assert (Hstep : forall fuel, it_loop (S fuel) (Iter (b :: l) v) =
    let* it' := it_next (Iter (b :: l) v) in let* (vs, rest) := it_loop fuel it' in Ok (v :: vs, rest)).
  { intros fuel. cbn [it_loop]. unfold it_at_end. cbn [it_view]. rewrite Hv. reflexivity. }
  destruct (Z.eq_dec len 0) as [E0|E0].
  { right; left. split.
    - exists (b :: l), h, k. split; [constructor|]. split; [auto|]. unfold len in E0.
      apply Z.mod_divide in E0; [|lia]. destruct E0 as [q Hq].
      assert (zlen (b :: l) < 2^64) by lia. assert (0 < h + k < 2 * 2^64) by lia. nia.
    - exists v. split; auto. rewrite E0 in Hnext. rewrite zdrop_0 in Hnext.
      change (v_assign (v_tag v) (b :: l)) with (v_make (b :: l)) in Hnext. rewrite E' in Hnext. cbn [bind] in Hnext.
      induction fuel as [|fuel IHf]; [reflexivity|]. rewrite Hstep, Hnext. cbn [bind]. rewrite IHf. reflexivity. }
  assert (Hlt : (length (zdrop len (b :: l)) < length (b :: l))%nat).
  { unfold zdrop. rewrite skipn_length. assert (Z.to_nat len <> 0)%nat by lia. cbn [length]. lia. }
  assert (Hreach : forall m, reaches (b :: l) m <-> m = b :: l \/ reaches (zdrop len (b :: l)) m).
  { intros m. split.
    - intros Hr. inversion Hr as [|? h' k' ? Hh' Hk' Hr']; subst; auto.
      right. destruct (header_at_det _ _ _ _ _ Hb Hz Hh' Hh) as [E1 E2]. rewrite E1, E2 in Hr'. exact Hr'.
    - intros [->|Hr]; [constructor|]. eapply reaches_next; eauto. }
  assert (Hz' : zlen (zdrop len (b :: l)) < 2^63) by (rewrite zlen_zdrop by lia; lia).
  assert (Hne : forall h' k', header_at (b :: l) h' k' -> h' + k' = 2^64 -> False).
  { intros h' k' Hh' He. destruct (header_at_det _ _ _ _ _ Hb Hz Hh' Hh) as [E1 E2]. rewrite E1, E2 in He. apply E0. unfold len. rewrite He. reflexivity. }
  destruct (IH (length (zdrop len (b :: l))) ltac:(lia) (zdrop len (b :: l)) (v_tag v) (le_n _) (bytes_zdrop _ _ Hb) Hz')
    as [[(m & Hr & Hm) Hu]|[[(m & h' & k' & Hr & Hm & He) (w & Hw & Hl)]|(Hn1 & Hn2 & w & Hw & r & Hl)]].
  - left. split; [exists m; rewrite Hreach; auto|]. right. exists v. destruct Hu as [Hu|(w & fuel & Hw & Hu)].
    + exists 1%nat. split; auto. rewrite Hstep, Hnext, Hu. reflexivity.
    + exists (S fuel). split; auto. rewrite Hstep, Hnext, Hw. cbn [bind]. rewrite Hu. reflexivity.
  - right; left. split; [exists m, h', k'; rewrite Hreach; auto|]. exists v. split; auto.
    intros [|fuel]; [reflexivity|]. rewrite Hstep, Hnext, Hw. cbn [bind]. rewrite Hl. reflexivity.
  - right; right. split; [|split].
    + intros (m & Hr & Hm). apply Hreach in Hr. destruct Hr as [->|Hr]; [contradiction | eauto].
    + intros (m & h' & k' & Hr & Hm & He). apply Hreach in Hr. destruct Hr as [->|Hr]; [eauto | eauto 10].
    + exists v. split; auto. rewrite Hstep, Hnext, Hw. cbn [bind].
      assert (Hmono : forall f g it r, (f <= g)%nat -> it_loop f it = Ok r -> it_loop g it = Ok r).
      { clear. induction f as [|f IHf]; intros g it r Hg H; [discriminate|]. destruct g as [|g]; [lia|].
        cbn [it_loop] in *. destruct (it_at_end it); auto. destruct (it_next it) as [it'| |]; cbn [bind] in *; try discriminate.
        destruct (it_loop f it') as [p| |] eqn:Ef; cbn [bind] in *; try discriminate. rewrite (IHf g it' p) by (auto; lia). auto. }
      rewrite (Hmono (S (length (zdrop len (b :: l)))) (length (b :: l)) _ _ ltac:(lia) Hl). destruct r. cbn [bind]. eauto.
Qed.

(** C77.  A loop over the children of a view, for any content: it never ends exactly when it comes to a child whose header
    length and length field add up to 2^64; it is undefined exactly when it comes to a tag as in C75; otherwise it
    ends after at most as many rounds as there are octets, plus one. *)
Theorem C77_iteration_outcome_exactly : forall content v,
  v_content v = Ok content -> bytes content -> zlen content < 2^63 ->
  ((forall fuel, children fuel v = NoFuel) <-> exists m h n, reaches content m /\ header_at m h n /\ h + n = 2^64) /\
  ((exists fuel, children fuel v = UB) <-> exists m, reaches content m /\ huge_tag m) /\
  (~ (exists m h n, reaches content m /\ header_at m h n /\ h + n = 2^64) -> ~ (exists m, reaches content m /\ huge_tag m) ->
   exists vs tail, children (S (length content)) v = Ok (vs, tail)).
Proof.
  intros content v Ec Hb Hz.
  assert (Hch : forall fuel, children fuel v = let* w := v_assign 0 content in it_loop fuel (Iter content w)).
  { intros fuel. unfold children, v_begin. rewrite Ec. cbn [bind]. unfold it_make, v_make. destruct (v_assign 0 content); reflexivity. }
  assert (Hone : forall f it a, it_loop f it = Ok a -> forall g, it_loop g it <> UB).
  { induction f as [|f IH]; intros it a H g; [discriminate|]. destruct g as [|g]; [discriminate|]. cbn [it_loop] in *.
    destruct (it_at_end it); [discriminate|]. destruct (it_next it) as [it'| |]; cbn [bind] in *; try discriminate.
    destruct (it_loop f it') as [p| |] eqn:Ef; cbn [bind] in *; try discriminate.
    pose proof (IH _ _ Ef g). destruct (it_loop g it') as [q| |]; cbn [bind]; try congruence. destruct q; discriminate. }
  destruct (it_loop_exact (length content) content 0 (le_n _) Hb Hz)
    as [[Hh Hu]|[[Hw (w & Ew & Hl)]|(Hn1 & Hn2 & w & Ew & r & Hl)]].
  - assert (HU : exists fuel, children fuel v = UB).
    { destruct Hu as [Hu|(w & fuel & Ew & Hu)]; [exists 1%nat | exists fuel]; rewrite Hch.
      - rewrite Hu; reflexivity.
      - rewrite Ew; exact Hu. }
    split; [|split; [tauto | tauto]]. split.
    + intros H. destruct HU as [fuel HU]. rewrite H in HU. discriminate.
    + intros (m & h & k & Hr & Hm & He). exfalso. destruct Hh as (m' & Hr' & Hm').
      clear Hu HU Hch Hone Ec. revert Hb Hz h k Hm He m' Hr' Hm'. induction Hr as [l|l h0 k0 m Hl Hle Hr IH]; intros Hb Hz h k Hm He m' Hr' Hm'.
      * remember l as l0 eqn:El0. revert El0. induction Hr' as [l'|l' h' k' m' Hl' Hle' Hr' IH']; intros El0; subst.
        -- apply (v_assign_ub 0) in Hm'; auto.
           unfold v_assign in Hm'. destruct Hm as (id & len & rest & c & con & t & -> & Hi & Ht & Hln & Hl9 & ->).
           rewrite (extract_tag_x690 id c con t) in Hm' by auto. cbn [bind] in Hm'.
           destruct (extract_length _ _ _). destruct (_ || _ || _); discriminate.
        -- destruct (header_at_det _ _ _ _ _ Hb Hz Hm Hl') as [<- <-]. rewrite He in *.
           change (2 ^ 64 mod 2 ^ 64) with 0 in *. rewrite zdrop_0 in *. apply IH'; auto.
      * assert (Hz' : zlen (zdrop ((h0 + k0) mod 2^64) l) < 2^63).
        { rewrite zlen_zdrop; pose proof (Z.mod_pos_bound (h0 + k0) (2^64)); lia. }
        inversion Hr' as [|? h1 k1 ? Hl1 Hle1 Hr1]; subst.
        -- apply (v_assign_ub 0) in Hm'; auto.
           unfold v_assign in Hm'. destruct Hl as (id & len & rest & c & con & t & -> & Hi & Ht & Hln & Hl9 & ->).
           rewrite (extract_tag_x690 id c con t) in Hm' by auto. cbn [bind] in Hm'.
           destruct (extract_length _ _ _). destruct (_ || _ || _); discriminate.
        -- destruct (header_at_det _ _ _ _ _ Hb Hz Hl Hl1) as [<- <-].
           eapply IH; eauto using bytes_zdrop.
  - assert (HL : forall fuel, children fuel v = NoFuel) by (intros fuel; rewrite Hch, Ew; apply Hl).
    split; [tauto|]. split; [|tauto]. split; [intros [fuel H]; rewrite HL in H; discriminate|].
    intros (m & Hr & Hm). exfalso. destruct Hw as (m' & h & k & Hr' & Hm' & He).
    clear Hl HL Hch Hone Ec Ew w. revert Hb Hz h k Hm' He m Hr Hm. induction Hr' as [l|l h0 k0 m' Hl Hle Hr IH]; intros Hb Hz h k Hm' He m Hr' Hm.
    + remember l as l0 eqn:El0. revert El0. induction Hr' as [l'|l' h' k' m Hl' Hle' Hr' IH']; intros El0; subst.
      * apply (v_assign_ub 0) in Hm; auto.
        unfold v_assign in Hm. destruct Hm' as (id & len & rest & c & con & t & -> & Hi & Ht & Hln & Hl9 & ->).
        rewrite (extract_tag_x690 id c con t) in Hm by auto. cbn [bind] in Hm.
        destruct (extract_length _ _ _). destruct (_ || _ || _); discriminate.
      * destruct (header_at_det _ _ _ _ _ Hb Hz Hm' Hl') as [<- <-]. rewrite He in *.
        change (2 ^ 64 mod 2 ^ 64) with 0 in *. rewrite zdrop_0 in *. apply IH'; auto.
    + assert (Hz' : zlen (zdrop ((h0 + k0) mod 2^64) l) < 2^63).
      { rewrite zlen_zdrop; pose proof (Z.mod_pos_bound (h0 + k0) (2^64)); lia. }
      inversion Hr' as [|? h1 k1 ? Hl1 Hle1 Hr1]; subst.
      * apply (v_assign_ub 0) in Hm; auto.
        unfold v_assign in Hm. destruct Hl as (id & len & rest & c & con & t & -> & Hi & Ht & Hln & Hl9 & ->).
        rewrite (extract_tag_x690 id c con t) in Hm by auto. cbn [bind] in Hm.
        destruct (extract_length _ _ _). destruct (_ || _ || _); discriminate.
      * destruct (header_at_det _ _ _ _ _ Hb Hz Hl Hl1) as [<- <-].
        eapply IH; eauto using bytes_zdrop.
  - split; [|split].
    + split; [|tauto]. intros H. specialize (H (S (length content))). rewrite Hch, Ew in H. cbn [bind] in H. congruence.
    + split; [|tauto]. intros [fuel H]. rewrite Hch, Ew in H. cbn [bind] in H. exfalso. eapply Hone; eauto.
    + intros _ _. destruct r as [vs tail]. exists vs, tail. rewrite Hch, Ew. exact Hl.
Qed.
Example C77_example :
  let content := [2; 1; 5; 4; 0x88; 255; 255; 255; 255; 255; 255; 255; 0xF6] in
  exists m, reaches content m /\ header_at m 10 (2^64 - 10) /\
    children 50 (View (Some content) 16 0 13) = NoFuel.
Proof.
  exists [4; 0x88; 255; 255; 255; 255; 255; 255; 255; 0xF6]. split; [|split].
  - eapply (reaches_next _ 2 1); [|vm_compute; discriminate | apply reaches_here].
    exists [2], [1], ([5; 4; 0x88] ++ zrep 7 255 ++ [0xF6]), universal, primitive, 2.
    split; [reflexivity|]. split; [apply (x690_low universal primitive 2); lia|]. split; [reflexivity|]. split; [apply (x690_short 1); lia|].
    split; [vm_compute; discriminate | reflexivity].
  - exists [4], (0x88 :: zrep 7 255 ++ [0xF6]), [], universal, primitive, 4.
    split; [reflexivity|]. split; [apply (x690_low universal primitive 4); lia|]. split; [reflexivity|].
    split; [apply (x690_long (zrep 7 255 ++ [0xF6])); [bytes_lit | split; vm_compute; discriminate]|]. split; [vm_compute; discriminate | reflexivity].
  - vm_compute. reflexivity.
Qed.
Print Assumptions C77_iteration_outcome_exactly.
