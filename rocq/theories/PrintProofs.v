(** Proofs about the printing of views and objects. *)
From Coq Require Import String Ascii.
From Verif Require Import Base Ident View Prims Schema Oid Time Spec IdentProofs HeaderProofs ViewProofs PrimProofs IntProofs ContProofs OidProofs Print PrintSpec PrintJson.
From Verif Require Import PropertiesView PropertiesViewExact PropertiesOid PropertiesOidExact.
Close Scope string_scope.

(** std::isprint as in glibc: a negative argument is not printable. *)
Definition glibc (e : env) : Prop := forall b, 128 <= b < 256 -> high_octet e b = Ok false.

Lemma plain_check l : forallb (fun b => (32 <=? b) && negb (b =? 34) && negb (b =? 92)) l = true -> Forall plain_char l.
Proof. intros H. rewrite forallb_forall in H. apply Forall_forall. intros b Hb. specialize (H b Hb). unfold plain_char. lia. Qed.

Lemma all_print_spec e x : glibc e -> bytes x ->
  (Forall printable x /\ all_print e x = Ok true) \/ (~ Forall printable x /\ all_print e x = Ok false).
Proof.
  intros He. induction 1 as [|b x Hb _ IH]; [left; split; [constructor|reflexivity]|]. cbn [all_print].
  assert (Hp : printable b /\ is_print e b = Ok true \/ ~ printable b /\ is_print e b = Ok false).
  { unfold is_print, printable. unfold wf_byte in Hb. destruct (Z.ltb_spec b 128).
    - destruct (Z.leb_spec 32 b), (Z.leb_spec b 126); cbn [andb]; try (right; split; [lia|reflexivity]). left; split; [lia|reflexivity].
    - right. split; [lia|]. apply He. lia. }
  destruct Hp as [[Hp ->]|[Hp ->]]; cbn [bind].
  - destruct IH as [[H1 H2]|[H1 H2]]; [left|right]; (split; [|exact H2]); [constructor; auto|]. intros H. inversion H; auto.
  - right. split; [|reflexivity]. intros H. inversion H; auto.
Qed.
Lemma print_octets_reads e x : glibc e -> bytes x -> exists s, print_octets e x = Ok s /\
  ((Forall printable x -> ~ In 34 x /\ ~ In 92 x) -> exists j, reads s j /\ octets_shown x j).
Proof.
  intros He Hb. unfold print_octets, octets_shown. destruct (all_print_spec e x He Hb) as [[H ->]|[H ->]]; cbn [bind].
  - eexists. split; [reflexivity|]. intros Hq. exists (JStr x). split; [|left; auto]. apply reads_string. destruct (Hq H) as [H1 H2].
    rewrite Forall_forall in *. intros b Hin. specialize (H b Hin). unfold printable in H. unfold plain_char.
    split; [lia|]. split; intros ->; auto.
  - eexists. split; [reflexivity|]. intros _. exists (JStr (lit "binary data")). split; [|right; auto].
    change (txt """binary data""") with ([34] ++ lit "binary data" ++ [34]). apply reads_string. apply plain_check. reflexivity.
Qed.

(** ** Primitive packets *)
Section Leaf.
Context (e : env) (He : glibc e) (p x rest : list Z) (c : class) (t : Z).
Context (Hp : ber_packet p c primitive t x) (Hb : bytes x) (Hz : zlen (p ++ rest) < 2^62).

Lemma leaf_zlen : zlen x < 2^62.
Proof.
  destruct (packet_content_sub _ _ _ _ _ Hp) as (h & E & _). rewrite E, !zlen_app in Hz.
  pose proof (zlen_nonneg h). pose proof (zlen_nonneg rest). lia.
Qed.
Lemma leaf_make : v_make (p ++ rest) = Ok (pview p t x rest).
Proof. apply (v_assign_packet p c primitive); [exact Hp | lia]. Qed.
Definition good (s : list Z) : Prop := texty c t x -> exists j, reads s j /\ (faithful c t x -> content_shown c t x j).

Lemma print_content_spec : exists s, print_content_octets e (pview p t x rest) = Ok s /\
  ((Forall printable x -> ~ In 34 x /\ ~ In 92 x) -> exists j, reads s j /\ octets_shown x j).
Proof.
  unfold print_content_octets. rewrite (pview_content _ _ _ _ _ rest Hp). cbn [bind]. unfold octet_string_of.
  destruct (fixed_assign_rep (Id universal 4) (fixed_init (Id universal 4)) x ltac:(cbn; lia) leaf_zlen) as (f & -> & Hf).
  cbn [bind]. unfold print_string. rewrite (fixed_content_rep _ _ _ Hf). cbn [bind]. apply print_octets_reads; assumption.
Qed.
Lemma leaf_id : id_packet (Id c t) primitive p x [].
Proof. split; [exact Hp|reflexivity]. Qed.
Lemma leaf_fixed f : fixed_decode (Id c t) f (pview p t x rest) = Ok (true, Fixed (vec_assign p) (zlen x)) /\ fixed_content (Fixed (vec_assign p) (zlen x)) = Ok x.
Proof.
  destruct (fixed_decode_packet (Id c t) f p x [] rest leaf_id ltac:(lia)) as (v & Ev & Hd). rewrite leaf_make in Ev. inversion Ev; subst v.
  split; [exact Hd|]. destruct (packet_content_sub _ _ _ _ _ Hp) as (h & E & _). apply (fixed_content_suffix _ h); [exact E|reflexivity].
Qed.
End Leaf.
Lemma last_read x : x <> [] -> read_at x (zlen x - 1) = Ok (last x 0).
Proof.
  intros Hx. destruct (exists_last Hx) as (l & b & ->). rewrite last_last, zlen_app, zlen_1. pose proof (zlen_nonneg l).
  unfold read_at. rewrite mem_read_ok by (rewrite ?zlen_app, ?zlen_1; lia). cbn [bind]. rewrite zdrop_app_exact by lia. reflexivity.
Qed.
Lemma time_value_short f x : fixed_content f = Ok x ->
  (x = [] \/ zlen x < 5 /\ last x 0 <> 90) /\ time_value f = UB \/ ~ (x = [] \/ zlen x < 5 /\ last x 0 <> 90) /\ exists r, time_value f = Ok r.
Proof.
  intros E. unfold time_value, time_format_of. rewrite E. cbn [bind].
  destruct (list_eq_dec Z.eq_dec x []) as [->|Hx]; [left; split; [auto|reflexivity]|].
  rewrite last_read by auto. cbn [bind]. destruct (Z.eqb_spec (last x 0) 90) as [Hl|Hl]; cbn [bind].
  { right. split; [tauto|]. eauto. }
  destruct (Z.ltb_spec (zlen x) 5) as [H5|H5].
  - left. split; [tauto|]. unfold read_at, mem_read. replace (0 <=? zlen x - 5) with false by lia. reflexivity.
  - right. split; [intros [H|[H _]]; [auto|lia]|].
    assert (Hr : exists c, read_at x (zlen x - 5) = Ok c) by (unfold read_at; rewrite mem_read_ok by lia; eexists; reflexivity).
    destruct Hr as (c & ->). cbn [bind]. destruct ((c =? 45) || (c =? 43)); cbn [bind]; eauto.
Qed.

Definition body (e : env) (c : class) (v : view) : res (list Z) :=
  if class_eqb c universal then print_universal e v else print_content_octets e v.
Lemma body_spec e p c t x rest : glibc e -> ber_packet p c primitive t x -> bytes x -> zlen (p ++ rest) < 2^62 ->
  short_time c t x /\ body e c (pview p t x rest) = UB \/
  ~ short_time c t x /\ exists s, body e c (pview p t x rest) = Ok s /\ good x c t s.
Proof.
  intros He Hp Hb Hz. unfold body, good.
  destruct (print_content_spec e He p x rest c t Hp Hb Hz) as (s0 & E0 & H0).
  assert (Hplain : c <> universal \/ ~ In t [1; 2; 5; 6; 9; 10; 23; 24] ->
    ~ short_time c t x /\ exists s, print_content_octets e (pview p t x rest) = Ok s /\
      (texty c t x -> exists j, reads s j /\ (faithful c t x -> content_shown c t x j))).
  { intros Hn. split; [unfold short_time; cbn [In] in Hn; intros (-> & [-> | ->] & _); intuition|].
    exists s0. split; [exact E0|]. intros [_ Ht]. destruct H0 as (j & Hj & Hs).
    - apply Ht. intros ->. cbn [In] in *. destruct Hn as [Hn|Hn]; [congruence|]. intuition.
    - exists j. split; [exact Hj|]. intros _. unfold content_shown. destruct c; auto. destruct Hn as [Hn|Hn]; [congruence|].
      cbn [In] in Hn. repeat split; try (intros ->; intuition; fail). auto. }
  destruct c; cbn [class_eqb]; try (right; apply Hplain; left; discriminate).
  unfold print_universal. change (v_tag (pview p t x rest)) with t. cbv zeta.
  destruct (leaf_fixed p x rest universal t Hp Hz (fixed_init (Id universal t))) as [Hfd Hfc].
  pose proof (leaf_make p x rest universal t Hp Hz) as Hmk.
  destruct (Z.eqb_spec t 1) as [->|H1].
  { right. split; [unfold short_time; intuition lia|].
    destruct (bool_decode_packet (Id universal 1) _ 0 p x [] rest (leaf_id _ _ _ _ Hp) ltac:(lia) (bool_init_rep (Id universal 1) ltac:(cbn; lia)))
      as (v & Ev & HA & HB). rewrite Hmk in Ev. inversion Ev; subst v.
    destruct (Z.eq_dec (zlen x) 1) as [Hl|Hl].
    - destruct (zlen_1_inv x Hl) as (b & ->). destruct (HA b eq_refl) as (d & -> & Hd). cbn [of_view bind].
      eexists; split; [reflexivity|]. intros _. unfold print_bool. exists (JBool (bool_value d)). split; [apply reads_bool|].
      intros _. unfold bool_value. rewrite (bool_last _ _ _ Hd). split; [intros _ b' [= ->]; reflexivity|]. cbn [In]. intuition lia.
    - rewrite (HB Hl). cbn [of_view bind]. eexists; split; [reflexivity|]. intros _. eexists. split; [apply reads_bool|].
      intros _. split; [intros _ b ->; cbn in Hl; lia|]. cbn [In]. intuition lia. }
  destruct (Z.eqb_spec t 2) as [->|H2]; [|destruct (Z.eqb_spec t 10) as [->|H10]]; cbn [orb].
  { right. split; [unfold short_time; intuition lia|]. unfold int_decode.
    assert (Hok : small_ok (Id universal 2) int_max) by (split; [cbn; lia|]; split; cbn; unfold int_max; lia).
    pose proof (small_decode_refines _ _ _ _ (pview p 2 x rest) Hok (small_init_rep _ _ Hok)) as Hr.
    rewrite (small_decode_content_packet _ int_max p x [] rest _ (leaf_id _ _ _ _ Hp) ltac:(lia) Hmk) in Hr.
    unfold int_max at 1 in Hr. destruct (Z.leb_spec (zlen x) 8) as [Hl|Hl].
    - destruct Hr as (d & -> & Hd & _). cbn [of_view bind]. unfold print_integer, int_value. rewrite (small_content_rep _ _ _ _ Hok Hd). cbn [bind].
      rewrite decode_integer_eq by auto. eexists; split; [reflexivity|]. intros _.
      destruct (Z.leb_spec 1 (zlen x)) as [H1x|H1x]; cbn [andb snd]; [replace (zlen x <=? 8) with true by lia|]; cbn [snd].
      + assert (-2^63 <= twos_value x < 2^63) as Hr.
        { pose proof (twos_range x Hb ltac:(intros ->; cbn in H1x; lia)). assert (256 ^ zlen x <= 256 ^ 8) by (apply Z.pow_le_mono_r; lia).
          change (256 ^ 8) with (2 * 2^63) in *. lia. }
        destruct (reads_int (twos_value x)) as (j & Hj & Hi); [lia|]. exists j. split; [exact Hj|]. intros _. cbn [content_shown In]. intuition lia.
      + destruct (reads_int 0) as (j & Hj & Hi); [lia|]. exists j. split; [exact Hj|]. intros _. cbn [content_shown In]. intuition lia.
    - rewrite Hr. cbn [of_view bind]. unfold print_integer, int_value. rewrite (small_content_rep _ _ _ _ Hok (small_init_rep _ _ Hok)). cbn [bind].
      eexists; split; [reflexivity|]. intros _. destruct (reads_int 0) as (j & Hj & Hi); [lia|]. exists j. split; [exact Hj|]. intros _. cbn [content_shown In]. intuition lia. }
  { right. split; [unfold short_time; intuition lia|]. unfold int_decode.
    assert (Hok : small_ok (Id universal 2) int_max) by (split; [cbn; lia|]; split; cbn; unfold int_max; lia).
    assert (Hd : small_decode (Id universal 2) int_max (small_init (Id universal 2) int_max) (pview p 10 x rest) = Ok (false, small_init (Id universal 2) int_max)).
    { unfold small_decode, view_has_id, v_identifier. rewrite pview_valid. cbn [negb]. destruct (pview_byte0 _ _ _ _ _ rest Hp) as [A B]. rewrite A, B. reflexivity. }
    rewrite Hd. cbn [of_view bind]. unfold print_integer, int_value. rewrite (small_content_rep _ _ _ _ Hok (small_init_rep _ _ Hok)). cbn [bind].
    eexists; split; [reflexivity|]. intros _. destruct (reads_int 0) as (j & Hj & Hi); [lia|]. exists j. split; [exact Hj|].
    intros Hf. destruct (Hf eq_refl). congruence. }
  destruct (string_tag t) eqn:Hst.
  { right. split; [unfold short_time, string_tag in *; intuition lia|]. rewrite Hfd. cbn [of_view bind]. unfold print_string. rewrite Hfc. cbn [bind].
    destruct (print_octets_reads e x He Hb) as (s & Es & Hs). rewrite Es. exists s. split; [reflexivity|]. intros [_ Ht].
    unfold string_tag in Hst. destruct Hs as (j & Hj & Ho); [apply Ht; intros _; cbn [In]; intuition lia|]. exists j. split; [exact Hj|]. intros _.
    unfold content_shown. intuition lia. }
  destruct (Z.eqb_spec t 5) as [->|H5].
  { right. split; [unfold short_time; intuition lia|].
    destruct (null_decode_packet (Id universal 5) p x [] rest (leaf_id _ _ _ _ Hp) ltac:(lia)) as (v & Ev & Hn). rewrite Hmk in Ev. inversion Ev; subst v.
    rewrite Hn. cbn [bind]. eexists; split; [reflexivity|]. intros _. exists JNull. split; [apply reads_null|]. intros _. cbn [content_shown In]. intuition lia. }
  destruct (Z.eqb_spec t 6) as [->|H6].
  { right. split; [unfold short_time; intuition lia|]. unfold oid_decode. rewrite Hfd. cbn [of_view bind]. unfold print_oid, oid_value. rewrite Hfc. cbn [bind].
    eexists; split; [reflexivity|]. intros _.
    assert (Hr : Forall (fun n => - 2^63 <= n < 2^63) (snd (decode_object_id x))).
    { destruct (C82_oid_value_exact x Hb) as [[_ ->]|(b0 & gs & tl & Ex & _ & _ & ->)]; [constructor|]. cbn [snd].
      subst x. apply bytes_cons in Hb. destruct Hb as [Hb0 _]. unfold wf_byte in Hb0.
      constructor; [Z.div_mod_to_equations; lia|]. constructor; [Z.div_mod_to_equations; lia|]. apply Forall_map. apply Forall_forall. intros g _. unfold wrap_i64. lia. }
    assert (Hjs : exists js, Forall2 reads (map show_int (snd (decode_object_id x))) js /\ Forall2 is_int js (snd (decode_object_id x))).
    { clear - Hr. induction Hr as [|n l Hn _ (js & A & B)]; [exists []; split; constructor|].
      destruct (reads_int n) as (j & Hj & Hi); [lia|]. exists (j :: js). split; constructor; auto. }
    destruct Hjs as (js & Hjs & Hi). exists (JArr js). split; [apply reads_array; exact Hjs|]. intros Hf.
    destruct (Hf eq_refl) as [_ H120]. specialize (H120 eq_refl). split; [intros; lia|]. split; [intros; lia|]. split; [intros; lia|]. split; [intros; lia|].
    split; [|cbn [In]; intuition]. intros _ comps Ho Hc. exists js. split; [reflexivity|].
    pose proof Ho as Ho'. destruct Ho' as (g0 & gs & X & Y & Ex & [[pre [lst [Eg [Hpre Hlst]]]] _] & _ & HX & HY & HXY & Hv & ->).
    destruct pre as [|d pre]; [|exfalso; subst; inversion Hpre; subst; cbn [app hd] in H120; lia].
    subst g0. cbn [app] in Hv. assert (Hbv : b128_value [lst] = lst) by (cbn; rewrite Z.mod_small; lia). rewrite Hbv in Hv.
    subst x. cbn [app hd] in H120.
    inversion Hc as [|? ? _ Hc1]; subst. inversion Hc1 as [|? ? _ Hc2]; subst.
    rewrite (proj2 (C33_oid_decode_x690_partial _ _ _ _ Ho Hc2) ltac:(lia)) in Hi. exact Hi. }
  destruct (Z.eqb_spec t 9) as [->|H9].
  { right. split; [unfold short_time; intuition lia|]. eexists; split; [reflexivity|]. intros [Ht _]. destruct (Ht eq_refl). congruence. }
  destruct ((t =? 23) || (t =? 24)) eqn:Ht.
  { assert (Ht' : t = 23 \/ t = 24) by lia. unfold time_decode. rewrite Hfd. cbn [bind of_view]. unfold print_time.
    destruct (time_value_short _ x Hfc) as [[Hs ->]|[Hs [r ->]]]; cbn [bind]; [left; split; [unfold short_time; auto|reflexivity]|].
    right. split; [unfold short_time; tauto|].
    assert (Hbad : texty universal t x -> False) by (intros [Hq _]; destruct (Hq eq_refl) as (_ & ? & ?); lia).
    destruct r; [eexists; split; [reflexivity|]; intros Hq; destruct (Hbad Hq)|]. exists s0. split; [exact E0|]. intros Hq; destruct (Hbad Hq). }
  right. apply Hplain. right. cbn [In]. intuition lia.
Qed.

(** ** Trees of packets *)
Definition node_class (n : node) : class := match n with Leaf _ c _ _ => c | Branch _ c _ _ _ => c end.
Definition node_con (n : node) : construction := match n with Leaf _ _ _ _ => primitive | Branch _ _ _ _ _ => constructed end.
Definition node_tag (n : node) : Z := match n with Leaf _ _ t _ => t | Branch _ _ t _ _ => t end.
Definition node_content (n : node) : list Z := match n with Leaf _ _ _ x => x | Branch _ _ _ kids tail => concat (map octets kids) ++ tail end.
Lemma is_node_packet n : is_node n -> ber_packet (octets n) (node_class n) (node_con n) (node_tag n) (node_content n).
Proof. intros H. inversion H; subst; assumption. Qed.
Definition nview (n : node) (rest : list Z) : view := pview (octets n) (node_tag n) (node_content n) rest.
Lemma node_induction (P : node -> Prop) :
  (forall p c t x, P (Leaf p c t x)) -> (forall p c t kids tail, Forall P kids -> P (Branch p c t kids tail)) -> forall n, P n.
Proof.
  intros HL HB. fix IH 1. intros [p c t x|p c t kids tail]; [apply HL|]. apply HB. induction kids as [|k kids IHk]; constructor; [apply IH|apply IHk].
Qed.
Lemma packet_longer p c con t x : ber_packet p c con t x -> (2 + List.length x <= List.length p)%nat.
Proof.
  intros (id & len & Hi & _ & Hl & _ & ->). pose proof (x690_ident_len _ _ _ _ Hi). pose proof (x690_length_len _ _ Hl).
  rewrite !app_length. unfold zlen in *. lia.
Qed.
Lemma x690_length_bytes len n : x690_length len n -> zlen len <= 9 -> bytes len.
Proof.
  intros H H9. destruct H as [n Hn|ds Hds Hn].
  - apply bytes_cons. split; [unfold wf_byte; lia|apply bytes_nil].
  - apply bytes_cons. rewrite zlen_cons in H9. pose proof (zlen_nonneg ds). split; [unfold wf_byte; lia|exact Hds].
Qed.
Lemma is_node_bytes n : is_node n -> bytes (octets n).
Proof.
  induction n as [p c t x|p c t kids tail IH] using node_induction; intros H; inversion H as [p0 c0 t0 x0 Hp Hx|p0 c0 t0 k0 tl0 Hp Htl Hno Hov Hk]; subst; cbn [octets].
  - destruct Hp as (id & len & Hi & _ & Hl & Hl9 & ->). rewrite !bytes_app. split; [|split; [|exact Hx]].
    + eapply x690_ident_bytes; eauto.
    + eapply x690_length_bytes; eauto.
  - destruct Hp as (id & len & Hi & _ & Hl & Hl9 & ->). rewrite !bytes_app. split; [|split; [|split; [|exact Htl]]].
    + eapply x690_ident_bytes; eauto.
    + eapply x690_length_bytes; eauto.
    + clear -IH Hk. induction IH as [|k kids Hk1 _ IHk]; [apply bytes_nil|]. inversion Hk; subst. cbn [map concat]. rewrite bytes_app. auto.
Qed.
(** What is no packet gives an invalid view. *)
Lemma tail_invalid t0 tail : bytes tail -> zlen tail < 2^63 -> no_packet_at tail -> ~ overflowing tail ->
  exists v, v_assign t0 tail = Ok v /\ is_valid v = false.
Proof.
  intros Hb Hz Hno Hov. destruct (v_assign t0 tail) as [v| |] eqn:E.
  - exists v. split; [reflexivity|]. destruct (is_valid v) eqn:Hv; [exfalso|reflexivity].
    destruct (Z.ltb_spec (v_cl v) (2^63)) as [Hcl|Hcl].
    + destruct (v_assign_inv t0 tail v Hb Hz E Hv Hcl) as (p & c & con & t & x & rest & Et & HP & _). eapply Hno; eauto.
    + assert (E' : v_make tail = Ok v).
      { destruct tail; [|exact E]. unfold v_assign in E. cbn in E. inversion E; subst. discriminate. }
      destruct (view_header tail v Hb Hz E') as (H1 & _ & H3). destruct (proj1 H1 Hv) as (h & n & Hh & Hm).
      destruct (H3 Hv h n Hh) as [Eh En]. pose proof (header_at_range _ _ _ Hh) as [Rh Rn]. apply Hov. right. exists h, n. split; [exact Hh|].
      destruct (Z.ltb_spec (h + n) (2^64)); [|lia]. rewrite Z.mod_small in Hm by lia. lia.
  - exfalso. apply Hov. left. apply (v_assign_ub t0 tail Hb) in E. exact E.
  - exfalso. eapply v_assign_fuel; eauto.
Qed.
Lemma invalid_no_packet t0 l v : zlen l < 2^63 -> v_assign t0 l = Ok v -> is_valid v = false -> no_packet_at l.
Proof.
  intros Hz E Hv p c con t x rest HP ->. rewrite (v_assign_packet _ _ _ _ _ rest t0 HP Hz) in E. inversion E; subst. discriminate.
Qed.

Lemma tag_reads c t : 0 <= t < 2^63 -> exists j, reads (match c with universal => [34] ++ universal_text t ++ [34] | _ => show_int t end) j /\ tag_shown c t j.
Proof.
  intros Ht. destruct c; [|destruct (reads_int t ltac:(lia)) as (j & Hj & Hi); exists j; split; assumption..].
  exists (JStr (universal_text t)). split.
  - apply reads_string. apply plain_check. unfold universal_text.
    repeat match goal with |- context [?a =? ?b] => destruct (a =? b); [vm_compute; reflexivity|] end. vm_compute; reflexivity.
  - unfold tag_shown, universal_text.
    repeat match goal with |- context [t =? ?b] => destruct (Z.eqb_spec t b) as [->|?];
      [left; eexists; split; [|reflexivity]; unfold universal_names; repeat (left; reflexivity) || right; left; reflexivity|] end.
    right. split; [|reflexivity]. cbn [universal_names map fst In]. intuition lia.
Qed.
Definition wrapped (p : list Z) (c : class) (t : Z) (s : list Z) : list Z :=
  txt "{ ""length"": " ++ show_int (zlen p) ++ txt ", ""identifier"": " ++ print_identifier (c, t) ++ txt ", ""content"": " ++ s ++ txt " }".
Lemma wrapped_reads p c t s jx : zlen p < 2^63 -> 0 <= t < 2^63 -> reads s jx -> exists j, reads (wrapped p c t s) j /\ packet_shown p c t jx j.
Proof.
  intros Hp Ht Hs. pose proof (zlen_nonneg p). destruct (reads_int (zlen p) ltac:(lia)) as (jl & Hjl & Hil). destruct (tag_reads c t Ht) as (jt & Hjt & Hit).
  assert (Hid : reads (print_identifier (c, t)) (JObj [(lit "class", JStr (lit (class_name c))); (lit "tag", jt)])).
  { set (s2 := match c with universal => [34] ++ universal_text t ++ [34] | _ => show_int t end) in *.
    assert (E : print_identifier (c, t) = [123] ++ [32] ++ joined [[34] ++ lit "class" ++ [34] ++ [] ++ [58] ++ [32] ++ ([34] ++ class_text c ++ [34]); [34] ++ lit "tag" ++ [34] ++ [] ++ [58] ++ [32] ++ s2] ++ [32] ++ [125]).
    { unfold print_identifier, s2. cbn [fst snd joined]. destruct c; cbn [class_text]; rewrite <- ?app_assoc; reflexivity. }
    rewrite E. apply reads_object; [repeat constructor..|]. constructor; [|constructor; [|constructor]].
    - apply member_reads; [apply plain_check; reflexivity | constructor | repeat constructor |].
      replace (lit (class_name c)) with (class_text c) by (destruct c; reflexivity). apply reads_string. apply plain_check. destruct c; reflexivity.
    - apply member_reads; [apply plain_check; reflexivity | constructor | repeat constructor | exact Hjt]. }
  eexists. split; [|exists jl, jt; split; [exact Hil|]; split; [exact Hit|reflexivity]].
  assert (E : wrapped p c t s = [123] ++ [32] ++ joined [[34] ++ lit "length" ++ [34] ++ [] ++ [58] ++ [32] ++ show_int (zlen p);
     [34] ++ lit "identifier" ++ [34] ++ [] ++ [58] ++ [32] ++ print_identifier (c, t); [34] ++ lit "content" ++ [34] ++ [] ++ [58] ++ [32] ++ s] ++ [32] ++ [125]).
  { unfold wrapped. generalize (print_identifier (c, t)). intros i. cbn [joined]. rewrite <- !app_assoc. reflexivity. }
  rewrite E. apply reads_object; [repeat constructor..|]. repeat (constructor; [apply member_reads; [apply plain_check; reflexivity | constructor | repeat constructor | assumption]|]). constructor.
Qed.

Definition node_good (n : node) (s : list Z) : Prop :=
  leaves texty n -> exists j, reads s j /\ shown (fun c t x j => faithful c t x -> content_shown c t x j) n j.
Definition calm (c : class) (t : Z) (x : list Z) : Prop := ~ short_time c t x.
Definition prints (e : env) (n : node) : Prop := forall fuel rest, (List.length (octets n) < fuel)%nat -> zlen (octets n ++ rest) < 2^62 ->
  ~ leaves calm n /\ print_view e fuel (nview n rest) = UB \/
  leaves calm n /\ exists s, print_view e fuel (nview n rest) = Ok s /\ node_good n s.
Lemma children_spec e kids : Forall (fun n => is_node n /\ prints e n) kids -> forall tail n fuel first t0,
  bytes tail -> no_packet_at tail -> ~ overflowing tail -> zlen (concat (map octets kids) ++ tail) < 2^62 ->
  (List.length (concat (map octets kids)) < fuel)%nat -> (List.length kids < n)%nat ->
  exists v, v_assign t0 (concat (map octets kids) ++ tail) = Ok v /\
  (~ Forall (leaves calm) kids /\ print_children (print_view e fuel) n first (Iter (concat (map octets kids) ++ tail) v) = UB \/
   Forall (leaves calm) kids /\ exists ss, print_children (print_view e fuel) n first (Iter (concat (map octets kids) ++ tail) v) =
     Ok ((match kids with [] => [] | _ => if first then [] else txt ", " end) ++ joined ss) /\ Forall2 node_good kids ss).
Proof.
  induction 1 as [|k kids [Hk Hpr] _ IH]; intros tail n fuel first t0 Hb Hno Hov Hz Hf Hn.
  - cbn [map concat app] in *. destruct (tail_invalid t0 tail Hb ltac:(lia) Hno Hov) as (v & E & Hv). exists v. split; [exact E|].
    right. split; [constructor|]. exists []. split; [|constructor]. destruct n; [lia|]. cbn [print_children]. unfold it_at_end. cbn [it_view]. rewrite Hv. reflexivity.
  - cbn [map concat] in *. rewrite <- app_assoc in *. set (rest := concat (map octets kids) ++ tail) in *.
    pose proof (is_node_packet k Hk) as HP. rewrite app_length in Hf. pose proof Hz as Hz0. rewrite zlen_app in Hz0. pose proof (zlen_nonneg (octets k)).
    pose proof (packet_longer _ _ _ _ _ HP).
    rewrite (v_assign_packet _ _ _ _ _ rest t0 HP ltac:(lia)). eexists. split; [reflexivity|]. fold (pview (octets k) (node_tag k) (node_content k) rest).
    destruct n as [|n]; [lia|]. cbn [List.length] in Hn. cbn [print_children]. unfold it_at_end. cbn [it_view]. rewrite pview_valid. cbn [negb].
    fold (nview k rest). destruct (Hpr fuel rest ltac:(lia) Hz) as [[Hl ->]|[Hl (s & -> & Hs)]]; cbn [bind].
    { left. split; [|reflexivity]. intros H9. inversion H9; auto. }
    unfold nview. rewrite (it_next_packet _ _ _ _ _ rest HP ltac:(lia)).
    destruct (IH tail n fuel false (node_tag k) Hb Hno Hov ltac:(fold rest; lia) ltac:(lia) ltac:(lia)) as (w & Ew & Hr). fold rest in Ew, Hr. rewrite Ew. cbn [bind].
    destruct Hr as [[Hl2 ->]|[Hl2 (ss & -> & Hss)]]; cbn [bind].
    { left. split; [|reflexivity]. intros H9. inversion H9; auto. }
    right. split; [constructor; auto|]. exists (s :: ss). split; [|constructor; auto]. f_equal. f_equal.
    destruct kids as [|k2 kids]; inversion Hss; subst; [cbn [joined app]; apply app_nil_r|]. reflexivity.
Qed.
Lemma node_prints e : glibc e -> forall n, is_node n -> prints e n.
Proof.
  intros He. induction n as [p c t x|p c t kids tail IH] using node_induction; intros Hn fuel rest Hf Hz; pose proof (is_node_packet _ Hn) as HP; unfold nview; cbn [octets node_class node_con node_tag node_content] in *.
  all: assert (Ht : 0 <= t < 2^63) by (destruct HP as (id & len & Hi & Ht & _); split; [eapply x690_ident_nonneg; eauto | exact Ht]).
  all: pose proof (zlen_nonneg rest) as Hr0; pose proof Hz as Hz1; rewrite zlen_app in Hz1.
  all: destruct fuel as [|fuel]; [lia|]; cbn [print_view]; rewrite pview_valid; cbn [negb]; unfold v_identifier;
    destruct (pview_byte0 _ _ _ _ _ rest HP) as [-> ->]; cbn [bind fst]; rewrite (pview_ber_length _ _ _ _ _ rest HP) by lia;
    change (v_tag (pview p t _ rest)) with t.
  - inversion Hn as [p0 c0 t0 x0 _ Hx|]; subst. fold (body e c (pview p t x rest)).
    destruct (body_spec e p c t x rest He HP Hx Hz) as [[Hs ->]|[Hs (s & -> & Hg)]]; cbn [bind].
    { left. split; [|reflexivity]. intros H. inversion H; subst. auto. }
    right. split; [constructor; exact Hs|]. eexists. split; [reflexivity|]. intros Hl. inversion Hl; subst.
    destruct (Hg ltac:(assumption)) as (jx & Hjx & Hc). destruct (wrapped_reads p c t s jx ltac:(lia) Ht Hjx) as (j & Hj & Hsh).
    exists j. split; [exact Hj|]. econstructor; [|exact Hsh]. exact Hc.
  - inversion Hn as [|p0 c0 t0 k0 tl0 _ Htl Hno Hov Hk]; subst. unfold v_begin. rewrite (pview_content _ _ _ _ _ rest HP). cbn [bind]. unfold it_make, v_make.
    assert (Hall : Forall (fun n => is_node n /\ prints e n) kids).
    { clear -IH Hk. induction IH as [|k kids H1 _ IHk]; constructor; inversion Hk; subst; auto. }
    pose proof (packet_longer _ _ _ _ _ HP) as Hlong. rewrite app_length in Hlong.
    assert (Hzx : zlen (concat (map octets kids) ++ tail) < 2^62).
    { destruct (packet_content_sub _ _ _ _ _ HP) as (h & -> & _). rewrite zlen_app in Hz1. pose proof (zlen_nonneg h). lia. }
    assert (Hcount : (List.length kids <= List.length (concat (map octets kids)))%nat).
    { clear -Hk. induction Hk as [|k kids H1 _ IHk]; [cbn; lia|]. cbn [map concat List.length]. rewrite app_length.
      pose proof (packet_longer _ _ _ _ _ (is_node_packet _ H1)). lia. }
    destruct (children_spec e kids Hall tail fuel fuel true 0 Htl Hno Hov Hzx ltac:(lia) ltac:(lia)) as (v & -> & Hc). cbn [bind].
    destruct Hc as [[Hs ->]|[Hs (ss & -> & Hg)]]; cbn [bind].
    { left. split; [|reflexivity]. intros H. inversion H; subst. auto. }
    right. split; [constructor; exact Hs|]. eexists. split; [reflexivity|]. intros Hl. inversion Hl as [|p0 c0 t0 k0 tl0 Hlk]; subst.
    assert (Hjs : exists js, Forall2 reads ss js /\ Forall2 (shown (fun c t x j => faithful c t x -> content_shown c t x j)) kids js).
    { clear -Hg Hlk. induction Hg as [|k s kids ss H1 _ IHg]; [exists []; split; constructor|]. inversion Hlk; subst.
      destruct (H1 ltac:(assumption)) as (j & Hj & Hsh). destruct (IHg ltac:(assumption)) as (js & A & B). exists (j :: js). split; constructor; auto. }
    destruct Hjs as (js & Hjs & Hsh).
    assert (Harr : reads (txt "[" ++ (match kids with [] => [] | _ => [] end ++ joined ss) ++ txt "]") (JArr js)).
    { replace (match kids with [] => [] | _ => [] end) with (@nil Z) by (destruct kids; reflexivity). apply reads_array. exact Hjs. }
    destruct (wrapped_reads p c t _ _ ltac:(lia) Ht Harr) as (j & Hj & Hps). exists j. split; [exact Hj|]. econstructor; eauto.
Qed.

(** ** Every ordinary file is packets followed by what is no packet *)
Lemma ordinary_part a b c : ordinary (a ++ b ++ c) -> ordinary b.
Proof.
  intros H f g -> Ho. apply (H (a ++ f) (g ++ c)); [rewrite <- !app_assoc; reflexivity|].
  destruct Ho as [(x & ds & rest & -> & ? & ? & ?)|(h & n & (id & len & rest & cl & con & t & -> & ? & ? & ? & ? & ?) & ?)].
  - left. exists x, ds, (rest ++ c). split; [cbn; rewrite <- app_assoc; reflexivity|]. auto.
  - right. exists h, n. split; [|assumption]. exists id, len, (rest ++ c), cl, con, t. split; [rewrite <- !app_assoc; reflexivity|]. auto 10.
Qed.
Lemma ordinary_forest n : forall l, (List.length l <= n)%nat -> bytes l -> zlen l < 2^63 -> ordinary l ->
  exists kids tail, l = concat (map octets kids) ++ tail /\ Forall is_node kids /\ bytes tail /\ no_packet_at tail /\ ~ overflowing tail.
Proof.
  induction n as [n IH] using (well_founded_induction lt_wf). intros l Hn Hb Hz Ho.
  assert (Hov : ~ overflowing l) by (apply (Ho [] l); reflexivity).
  destruct (v_assign 0 l) as [v| |] eqn:E.
  2:{ exfalso. apply Hov. left. apply (v_assign_ub 0 l Hb) in E. exact E. }
  2:{ exfalso. eapply v_assign_fuel; eauto. }
  destruct (is_valid v) eqn:Hv.
  2:{ exists [], l. split; [reflexivity|]. split; [constructor|]. split; [exact Hb|]. split; [|exact Hov]. eapply invalid_no_packet; eauto. }
  assert (Hcl : v_cl v < 2^63).
  { destruct (view_header l v Hb Hz E) as (H1 & H2 & H3). specialize (H2 Hv). destruct (proj1 H1 Hv) as (h & k & Hh & Hm).
    destruct (H3 Hv h k Hh) as [Eh Ek]. pose proof (header_at_range _ _ _ Hh) as [Rh Rn].
    destruct (Z.ltb_spec (h + k) (2^64)); [rewrite Z.mod_small in Hm by lia; lia|]. exfalso. apply Hov. right. exists h, k. auto. }
  destruct (v_assign_inv 0 l v Hb Hz E Hv Hcl) as (p & c & con & t & x & rest & -> & HP & _).
  pose proof (packet_longer _ _ _ _ _ HP) as Hlong. rewrite app_length in Hn. rewrite zlen_app in Hz.
  pose proof (zlen_nonneg p). pose proof (zlen_nonneg rest). pose proof (bytes_content _ _ _ _ _ rest HP Hb) as Hbx.
  assert (Hnode : exists nd, is_node nd /\ octets nd = p).
  { destruct con; [exists (Leaf p c t x); split; [constructor; assumption|reflexivity]|].
    destruct (packet_content_sub _ _ _ _ _ HP) as (h & Eh & Hh).
    destruct (IH (List.length x)) with (l := x) as (kids & tail & Ex & Hk & Htl & Hno & Hovt); [lia|lia|exact Hbx| |..].
    - unfold zlen in *. lia.
    - apply (ordinary_part h x rest). rewrite Eh in Ho. rewrite <- app_assoc in Ho. exact Ho.
    - exists (Branch p c t kids tail). split; [|reflexivity]. constructor; auto. rewrite <- Ex. exact HP. }
  destruct Hnode as (nd & Hnd & Eo).
  destruct (IH (List.length rest)) with (l := rest) as (kids & tail & -> & Hk & Htl & Hno & Hovt).
  - lia.
  - lia.
  - apply bytes_app in Hb. apply Hb.
  - lia.
  - apply (ordinary_part p rest []). rewrite app_nil_r. exact Ho.
  - exists (nd :: kids), tail. split; [cbn [map concat]; rewrite Eo, <- app_assoc; reflexivity|]. split; [constructor; auto|]. auto.
Qed.
Lemma ordinary_file l : bytes l -> zlen l < 2^63 -> ordinary l -> no_packet_at l \/ exists n rest, is_node n /\ l = octets n ++ rest.
Proof.
  intros Hb Hz Ho. destruct (ordinary_forest _ l (le_n _) Hb Hz Ho) as (kids & tail & -> & Hk & _ & Hno & _). destruct Hk as [|k kids Hk _]; [left; exact Hno|].
  right. exists k, (concat (map octets kids) ++ tail). cbn [map concat]. rewrite <- app_assoc. auto.
Qed.
Lemma ber_view_node e n rest fuel : glibc e -> is_node n -> zlen (octets n ++ rest) < 2^62 -> (List.length (octets n) < fuel)%nat ->
  ~ leaves calm n /\ ber_view e fuel (octets n ++ rest) = UB \/
  leaves calm n /\ exists s, ber_view e fuel (octets n ++ rest) = Ok (s, 0) /\ node_good n s.
Proof.
  intros He Hn Hz Hf. unfold ber_view, v_make. rewrite (v_assign_packet _ _ _ _ _ rest 0 (is_node_packet n Hn)) by lia. cbn [bind].
  fold (pview (octets n) (node_tag n) (node_content n) rest). fold (nview n rest).
  destruct (node_prints e He n Hn fuel rest Hf Hz) as [[H ->]|[H (s & -> & Hs)]]; cbn [bind]; [left; auto|]. right. split; [exact H|]. exists s. auto.
Qed.
