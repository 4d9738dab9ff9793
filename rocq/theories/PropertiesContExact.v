(** Property theorems C78-C82: what Integer, string and BerContainer objects do exactly, including the corners where
    C17, C23, C26, C29 and C68 fail. *)
From Verif Require Import Base Ident Spec IdentProofs HeaderProofs View ViewProofs Prims PrimProofs IntProofs ContProofs
  PropertiesInt PropertiesCont.

(** C78.  Integer::decode succeeds exactly when the bytes start with a primitive packet of the right identifier(s) with at most
    eight content octets; the value is then the two's complement value of these octets (0 when there are none), and
    otherwise the object is unchanged. *)
Theorem C78_integer_decode_exact : forall i d v input, int_history i d v -> bytes input -> tame input ->
  exists view ok d' v', v_make input = Ok view /\ int_decode i d view = Ok (ok, d') /\ int_value i d' = Ok v' /\
    (ok = true <-> exists p x extra rest, input = p ++ rest /\ id_packet i primitive p x extra /\ zlen x <= 8) /\
    (forall p x extra rest, ok = true -> input = p ++ rest -> id_packet i primitive p x extra -> v' = twos_value x) /\
    (ok = false -> d' = d /\ v' = v).
Proof.
  intros i d v input Hh Hb Ht. destruct (C17_integer_decode_exact_partial i d v input Hh Hb Ht) as (view & Ev & [H|H]).
  - destruct H as (p & x & extra & rest & d' & E & Hp & Hx & Ed & Evv). exists view, true, d', (twos_value x).
    split; [exact Ev|]. split; [exact Ed|]. split; [exact Evv|]. split; [|split].
    + split; [|reflexivity]. intros _. exists p, x, extra, rest. auto.
    + intros p' x' e' r' _ E' Hp'. rewrite E in E'.
      destruct (id_packet_det _ _ _ _ _ _ _ _ _ _ _ Hp Hp' E') as (_ & -> & _). reflexivity.
    + discriminate.
  - destruct H as [Ed Hno]. exists view, false, d, v. split; [exact Ev|]. split; [exact Ed|].
    split; [apply (C18_integer_history i d v Hh)|]. split; [|split].
    + split; [discriminate|]. intros (p & x & e & r & E & Hp & Hx). pose proof (Hno _ _ _ _ Hp E). lia.
    + discriminate.
    + auto.
Qed.
Example C78_example : exists d view d', int_history (Id universal 2) d 77 /\ v_make [2; 2; 0xFF; 0x7F; 9] = Ok view /\
  tame [2; 2; 0xFF; 0x7F; 9] /\ int_decode (Id universal 2) d view = Ok (true, d') /\ int_value (Id universal 2) d' = Ok (-129).
Proof.
  eexists. eexists. eexists. split; [eapply ih_construct; [cbn; lia | unfold in_i64; lia | vm_compute; reflexivity]|].
  split; [vm_compute; reflexivity|]. split; [apply tame_check_sound; vm_compute; reflexivity|].
  split; [vm_compute; reflexivity|]. vm_compute; reflexivity.
Qed.

(** What a string object holds: nothing at all (after construction from a rejected view), or a packet whose (inner) content is
    [x], followed inside the outer packet by [extra] octets. *)
Inductive holding := HNone | HPacket (x extra : list Z).
(** The octets content() shows: the last |x| octets of the packet. *)
Definition shown (h : holding) : list Z :=
  match h with HNone => [] | HPacket x extra => zdrop (zlen extra) (x ++ extra) end.
(** Every way to make or change a string object, with no exclusions. *)
Inductive string_history : ident -> fixed -> holding -> Prop :=
| st_default i : wf_ident i -> string_history i (fixed_init i) (HPacket [] [])
| st_construct i f x : wf_ident i -> zlen x < 2^62 -> fixed_assign_content i fixed_empty x = Ok f -> string_history i f (HPacket x [])
| st_construct_view_rejected i input view f : wf_ident i -> bytes input -> tame input -> v_make input = Ok view ->
    fixed_decode i fixed_empty view = Ok (false, f) -> string_history i f HNone
| st_construct_view i p x extra rest view f : wf_ident i -> zlen (p ++ rest) < 2^62 -> id_packet i primitive p x extra ->
    v_make (p ++ rest) = Ok view -> fixed_decode i fixed_empty view = Ok (true, f) -> string_history i f (HPacket x extra)
| st_copy_construct i j e w f : wf_ident i -> string_history j e w -> fixed_copy_from i fixed_empty e = Ok f ->
    string_history i f (HPacket (shown w) [])
| st_assign i f h f' x : string_history i f h -> zlen x < 2^62 -> fixed_assign_content i f x = Ok f' ->
    string_history i f' (HPacket x [])
| st_copy i f h j e w f' : string_history i f h -> string_history j e w -> fixed_copy_from i f e = Ok f' ->
    string_history i f' (HPacket (shown w) [])
| st_resize i f h f' n y : string_history i f h -> 0 <= n < 2^62 -> fixed_resize i f n = Ok f' -> fixed_content f' = Ok y ->
    string_history i f' (HPacket y [])
| st_decode_rejected i f h f' input view : string_history i f h -> bytes input -> tame input -> v_make input = Ok view ->
    fixed_decode i f view = Ok (false, f') -> string_history i f' h
| st_decode i f h f' p x extra rest view : string_history i f h -> zlen (p ++ rest) < 2^62 -> id_packet i primitive p x extra ->
    v_make (p ++ rest) = Ok view -> fixed_decode i f view = Ok (true, f') -> string_history i f' (HPacket x extra).

Lemma id_packet_split i con p x extra : id_packet i con p x extra -> exists h, p = h ++ x ++ extra.
Proof.
  destruct i as [c t|oc ot ic it]; cbn [id_packet].
  - intros [H ->]. destruct (packet_content_sub _ _ _ _ _ H) as (h & E & _). exists h. rewrite app_nil_r. exact E.
  - intros (q & H1 & H2).
    destruct (packet_content_sub _ _ _ _ _ H1) as (h & E1 & _). destruct (packet_content_sub _ _ _ _ _ H2) as (h2 & E2 & _).
    exists (h ++ h2). rewrite E1, E2, <- !app_assoc. reflexivity.
Qed.
Definition string_inv (i : ident) (f : fixed) (h : holding) : Prop :=
  wf_ident i /\ zlen (f_data f) < 2^63 /\ zlen (shown h) < 2^62 /\ (exists pre, f_data f = pre ++ shown h) /\ f_len f = zlen (shown h) /\
  match h with HNone => f_data f = [] | HPacket x extra => id_packet i primitive (f_data f) x extra end.
Lemma shown_nil x : shown (HPacket x []) = x.
Proof. cbn [shown]. rewrite app_nil_r. reflexivity. Qed.
Lemma shown_len x extra : zlen (shown (HPacket x extra)) = zlen x.
Proof. cbn [shown]. pose proof (zlen_nonneg x). pose proof (zlen_nonneg extra). rewrite zlen_zdrop; rewrite zlen_app; lia. Qed.
Lemma string_inv_packet i f x extra : wf_ident i -> zlen (f_data f) < 2^63 -> zlen x < 2^62 -> f_len f = zlen x ->
  id_packet i primitive (f_data f) x extra -> string_inv i f (HPacket x extra).
Proof.
  intros Hi Hz Hx El Hp. split; [auto|]. split; [auto|]. split; [rewrite shown_len; auto|]. split.
  - destruct (id_packet_split _ _ _ _ _ Hp) as (h & E). exists (h ++ ztake (zlen extra) (x ++ extra)).
    rewrite <- app_assoc. cbn [shown]. rewrite ztake_zdrop. exact E.
  - split; [rewrite shown_len; auto|exact Hp].
Qed.
Lemma string_content i f h : string_inv i f h -> fixed_content f = Ok (shown h).
Proof. intros (_ & _ & _ & (pre & E) & El & _). eapply fixed_content_suffix; eauto. Qed.
Lemma string_history_inv i f h : string_history i f h -> string_inv i f h.
Proof.
  assert (Hassign : forall i f f' x, wf_ident i -> zlen x < 2^62 -> fixed_assign_content i f x = Ok f' -> string_inv i f' (HPacket x [])).
  { intros i0 f0 f' x Hi Hx E. destruct (fixed_assign_eq i0 f0 x Hi Hx) as (sp & E2).
    assert (f' = Fixed (Vec (hdr_of i0 (zlen x) primitive ++ x) sp) (zlen x)) by congruence. subst f'.
    apply string_inv_packet; [auto| |auto|reflexivity|apply hdr_of_packet; auto].
    cbn [f_data f_vec vd]. pose proof (zlen_nonneg x). rewrite zlen_app, hdr_of_len by (auto; lia).
    pose proof (ehl_range i0 (zlen x) Hi). lia. }
  assert (Hdec : forall i f f' p x extra rest view, wf_ident i -> zlen (p ++ rest) < 2^62 -> id_packet i primitive p x extra ->
            v_make (p ++ rest) = Ok view -> fixed_decode i f view = Ok (true, f') -> string_inv i f' (HPacket x extra)).
  { intros i0 f0 f' p x extra rest view Hi Hz Hp Ev E.
    destruct (fixed_decode_packet i0 f0 p x extra rest Hp ltac:(lia)) as (v2 & Ev2 & E2).
    assert (f' = Fixed (vec_assign p) (zlen x)) by congruence. subst f'.
    pose proof (id_packet_len _ _ _ _ _ Hp). rewrite zlen_app in Hz. pose proof (zlen_nonneg rest).
    apply string_inv_packet; [auto| |lia|reflexivity|exact Hp]. cbn [f_data f_vec vd vec_assign]. lia. }
  assert (Hrej : forall i f f' input view, bytes input -> tame input -> v_make input = Ok view ->
            fixed_decode i f view = Ok (false, f') -> f' = f)
    by (intros; eapply C25_string_failed_decode; eauto).
  induction 1 as [i Hi | i f x Hi Hx E | i input view f Hi Hb Ht Ev E | i p x extra rest view f Hi Hz Hp Ev E
    | i j e w f Hi _ IH E | i f h f' x _ IH Hx E | i f h j e w f' _ IH1 _ IH2 E | i f h f' n y _ IH Hn E Ey
    | i f h f' input view _ IH Hb Ht Ev E | i f h f' p x extra rest view _ IH Hz Hp Ev E].
  - destruct (fixed_history_rep _ _ _ (fh_default i Hi)) as (_ & [Hp El] & Hz & _).
    apply string_inv_packet; [auto|auto|reflexivity|auto|auto].
  - eapply Hassign; eauto.
  - rewrite (Hrej _ _ _ _ _ Hb Ht Ev E). split; [auto|]. split; [reflexivity|]. split; [reflexivity|].
    split; [exists []; reflexivity|]. split; reflexivity.
  - eapply Hdec; eauto.
  - pose proof IH as (_ & _ & Hx & _). unfold fixed_copy_from in E. rewrite (string_content _ _ _ IH) in E.
    eapply Hassign; eauto.
  - destruct IH as (Hi & _). eapply Hassign; eauto.
  - destruct IH1 as (Hi & _). pose proof IH2 as (_ & _ & Hx & _). unfold fixed_copy_from in E.
    rewrite (string_content _ _ _ IH2) in E. eapply Hassign; eauto.
  - destruct IH as (Hi & Hz & Hx & (pre & Ed) & El & _).
    destruct (fixed_resize_gen i f pre (shown h) n Hi Ed El Hz Hn) as (f2 & y2 & E2 & Ed2 & El2 & Hy & _).
    assert (f2 = f') by congruence; subst f2.
    assert (E3 : fixed_content f' = Ok y2) by (eapply fixed_content_suffix; [exact Ed2|lia]).
    assert (y2 = y) by congruence; subst y2.
    apply string_inv_packet; [auto| |lia|lia|rewrite Ed2, <- Hy; apply hdr_of_packet; auto; lia].
    rewrite Ed2, zlen_app, hdr_of_len by (auto; lia). pose proof (ehl_range i n Hi). lia.
  - rewrite (Hrej _ _ _ _ _ Hb Ht Ev E). exact IH.
  - destruct IH as (Hi & _). eapply Hdec; eauto.
Qed.

(** C79.  After any history, rejected constructions included: an object made from a rejected view and not changed since is empty and
    encodes to nothing; every other object holds exactly one packet of its type and encodes to it, and content() is the content
    of that packet, or, when [extra] octets stand behind the inner packet of an explicitly tagged one, the last |x| octets of the
    packet. *)
Theorem C79_string_history_exact : forall i f h, string_history i f h ->
  fixed_content f = Ok (shown h) /\ fixed_encoded_length f = zlen (fixed_ber f) /\
  writes (fun buf => Ok (fixed_encode f buf)) (fixed_ber f) /\
  match h with
  | HNone => fixed_ber f = [] /\ exists view, fixed_view f = Ok view /\ is_valid view = false
  | HPacket x extra => id_packet i primitive (fixed_ber f) x extra /\ (extra = [] -> shown h = x) /\
      exists view, fixed_view f = Ok view /\ is_valid view = true /\ has_correct_header view i primitive = Ok true
  end.
Proof.
  intros i f h H. pose proof (string_history_inv _ _ _ H) as Hinv. split; [eapply string_content; eauto|].
  split; [reflexivity|]. split; [apply copy_out_writes|]. destruct Hinv as (Hi & Hz & _ & _ & _ & Hh).
  destruct h as [|x extra].
  - split; [exact Hh|]. unfold fixed_view. rewrite Hh. eexists. split; [vm_compute; reflexivity|reflexivity].
  - split; [exact Hh|]. split; [intros ->; apply shown_nil|].
    destruct (header_packet i primitive _ x extra [] Hh ltac:(rewrite app_nil_r; auto)) as (v & Ev & Hv & Hc & _).
    rewrite app_nil_r in Ev. exists v. auto.
Qed.
(** Every operation is possible in every such state, resizing keeps the common prefix of content(), and decode accepts exactly the
    packets of the type. *)
Theorem C79_string_history_progress : forall i f h, string_history i f h ->
  (forall y, zlen y < 2^62 -> exists f', fixed_assign_content i f y = Ok f' /\ string_history i f' (HPacket y [])) /\
  (forall n, 0 <= n < 2^62 -> exists f' y, fixed_resize i f n = Ok f' /\ string_history i f' (HPacket y []) /\ zlen y = n /\
     ztake (Z.min (zlen (shown h)) n) y = ztake (Z.min (zlen (shown h)) n) (shown h)) /\
  (forall j e w, string_history j e w -> exists f', fixed_copy_from i f e = Ok f' /\ string_history i f' (HPacket (shown w) [])) /\
  (forall input, bytes input -> tame input -> zlen input < 2^62 -> exists view ok f', v_make input = Ok view /\
     fixed_decode i f view = Ok (ok, f') /\
     (ok = true <-> exists p x extra rest, input = p ++ rest /\ id_packet i primitive p x extra) /\
     (ok = false -> f' = f) /\
     (forall p x extra rest, input = p ++ rest -> id_packet i primitive p x extra ->
        string_history i f' (HPacket x extra) /\ fixed_ber f' = p)).
Proof.
  intros i f h H. pose proof (string_history_inv _ _ _ H) as (Hi & Hz & Hx & (pre & Ed) & El & Hh). split; [|split; [|split]].
  - intros y Hy. destruct (fixed_assign_rep i f y Hi Hy) as (f' & E & _). exists f'. split; auto. eapply st_assign; eauto.
  - intros n Hn. destruct (fixed_resize_gen i f pre (shown h) n Hi Ed El Hz Hn) as (f' & y & E & Ed2 & El2 & Hy & Hp).
    exists f', y. split; [auto|]. split; [eapply st_resize; eauto; eapply fixed_content_suffix; [exact Ed2|lia]|]. auto.
  - intros j e w He. pose proof (string_history_inv _ _ _ He) as Hj. pose proof Hj as (_ & _ & Hw & _).
    destruct (fixed_assign_rep i f (shown w) Hi Hw) as (f' & E & _). exists f'.
    assert (E2 : fixed_copy_from i f e = Ok f') by (unfold fixed_copy_from; rewrite (string_content _ _ _ Hj); exact E).
    split; auto. eapply st_copy; eauto.
  - intros input Hb Ht Hl. destruct (fixed_decode_spec i f input Hb Ht) as (v & Ev & [H1|[E Hno]]).
    + destruct H1 as (p & x & extra & rest & -> & Hp & E). exists v, true, (Fixed (vec_assign p) (zlen x)).
      split; [auto|]. split; [auto|]. split; [split; [eauto 8|reflexivity]|]. split; [discriminate|].
      intros p' x' e' r' Eq Hp'. destruct (id_packet_det _ _ _ _ _ _ _ _ _ _ _ Hp Hp' Eq) as (<- & <- & <- & <- & _).
      split; [|reflexivity]. eapply st_decode; eauto.
    + exists v, false, f. split; [auto|]. split; [auto|]. split.
      { split; [discriminate|]. intros (p & x & e & r & Eq & Hp). exfalso. eapply Hno; eauto. }
      split; [reflexivity|]. intros p x e r Eq Hp. exfalso. eapply Hno; eauto.
Qed.
Example C79_example : exists f g, string_history (Id universal 4) f HNone /\
  string_history (DoubleId context_specific 0 universal 4) g (HPacket [8; 9] [7]) /\ fixed_content g = Ok [9; 7].
Proof.
  eexists. eexists. split; [|split].
  - eapply (st_construct_view_rejected _ [2; 1; 5]); [cbn; lia | bytes_lit | apply tame_check_sound; vm_compute; reflexivity
      | vm_compute; reflexivity | vm_compute; reflexivity].
  - eapply (st_construct_view _ [0xA0; 5; 4; 2; 8; 9; 7] _ _ [3]).
    + cbn; lia.
    + vm_compute; reflexivity.
    + exists [4; 2; 8; 9]. split.
      * exists [0xA0], [5]. split; [apply (x690_low context_specific constructed 0); lia|]. split; [lia|].
        split; [apply (x690_short 5); lia|]. split; [cbn; lia|reflexivity].
      * exists [4], [2]. split; [apply (x690_low universal primitive 4); lia|]. split; [lia|].
        split; [apply (x690_short 2); lia|]. split; [cbn; lia|reflexivity].
    + vm_compute; reflexivity.
    + vm_compute; reflexivity.
  - vm_compute; reflexivity.
Qed.

(** C80.  The reads of resize_content: with a header of [hl] octets in front of the content, shrinking (or keeping) the content
    reads inside the vector's size() exactly when the new header is not shorter than the old one, and growing it exactly
    when the old octets all lie inside the new size. *)
Theorem C80_resize_reads_exact : forall i f x n, fixed_history i f x -> 0 <= n < 2^62 ->
  (n <= zlen x -> (fixed_resize_read_in_size i f n = true <-> zlen (fixed_ber f) - zlen x <= encoded_header_length n i)) /\
  (zlen x <= n -> (fixed_resize_read_in_size i f n = true <-> zlen (fixed_ber f) <= encoded_header_length n i + n)).
Proof.
  intros i f x n H Hn. destruct (fixed_history_rep _ _ _ H) as (Hi & [Hp El] & Hz & Hx).
  unfold fixed_resize_read_in_size, fixed_ber in *. rewrite El.
  destruct (id_packet_suffix _ _ _ _ Hp) as (h & E). assert (El2 : zlen (f_data f) = zlen h + zlen x) by (rewrite E, zlen_app; reflexivity). rewrite El2 in *.
  pose proof (ehl_range i n Hi). pose proof (zlen_nonneg h). pose proof (zlen_nonneg x).
  rewrite vec_resize_len by lia. rewrite u64_small by lia. rewrite Z.leb_le. lia.
Qed.
Example C80_example : exists f, fixed_history (Id universal 4) f (zrep 200 1) /\ fixed_resize_read_in_size (Id universal 4) f 10 = false
  /\ fixed_resize_read_in_size (Id universal 4) f 150 = true.
Proof.
  eexists. split; [eapply fh_construct; [cbn; lia | vm_compute; reflexivity | vm_compute; reflexivity]|].
  split; vm_compute; reflexivity.
Qed.

(** C28 for a default constructed container: it holds a packet (X.690's end-of-contents octets: class UNIVERSAL, tag 0, no content). *)
Theorem C28_default_container : is_valid (b_view berc_init) = true /\ v_class (b_view berc_init) = Ok universal /\ v_construction (b_view berc_init) = Ok primitive /\
  v_tag (b_view berc_init) = 0 /\ berc_content berc_init = Ok [] /\ berc_ber berc_init = Ok [0; 0] /\ writes (berc_encode berc_init) [0; 0].
Proof.
  split; [reflexivity|]. split; [reflexivity|]. split; [reflexivity|]. split; [reflexivity|]. split; [reflexivity|]. split; [reflexivity|].
  intros buf. unfold berc_encode, v_encode. change (v_ber_length (b_view berc_init)) with 2. change (v_ber (b_view berc_init)) with (Ok [0; 0]). change (zlen [0; 0]) with 2. cbn [bind].
  destruct (2 >? zlen buf) eqn:E.
  - replace (2 <=? zlen buf) with false by lia. reflexivity.
  - replace (2 <=? zlen buf) with true by lia. rewrite mem_write_ok by (cbn; lia). reflexivity.
Qed.
(** C81.  Copy assignment of BerContainers: the copy always claims to be valid; it shows the same packet as the original exactly
    when the original was valid; and for an original left by a failed decode, the copy's octets are empty and reading its
    class is undefined. *)
Theorem C81_bercontainer_copy_exact : forall b p, berc_holds b p ->
  (is_valid (b_view (berc_copy_assign b)) = true /\ berc_ber (berc_copy_assign b) = Ok p /\
   v_class (b_view (berc_copy_assign b)) = v_class (b_view b) /\ v_tag (b_view (berc_copy_assign b)) = v_tag (b_view b) /\
   berc_content (berc_copy_assign b) = berc_content b) /\
  forall view b', is_valid view = false -> berc_decode b view = Ok (false, b') ->
    is_valid (b_view b') = false /\ is_valid (b_view (berc_copy_assign b')) = true /\
    berc_ber (berc_copy_assign b') = Ok [] /\ v_class (b_view (berc_copy_assign b')) = UB.
Proof.
  intros b p H. destruct (C29_bercontainer_copy_partial b p H) as (Hv & Hb & Ev & Eb & _). split.
  - unfold berc_content. rewrite Ev. auto.
  - intros view b' Hinv E. unfold berc_decode in E. rewrite Hinv in E. cbn [negb] in E.
    assert (Ew : exists t, v_assign (b_tag b) [] = Ok (View None t 0 0)) by (eexists; reflexivity). destruct Ew as (t & Ew).
    rewrite Ew in E. cbn [bind is_valid v_mem v_tag v_hl v_cl] in E. inversion E; subst b'.
    split; [reflexivity|]. split; [reflexivity|]. split; reflexivity.
Qed.
Example C81_example : exists b view b', berc_holds b [0x44; 1; 5] /\ is_valid view = false /\ berc_decode b view = Ok (false, b').
Proof.
  eexists. exists empty_view. eexists. split.
  - eapply (bo_assign berc_init primitive application 4 [5]); [lia | cbn; lia | vm_compute; reflexivity | vm_compute; reflexivity].
  - split; [reflexivity|]. vm_compute. reflexivity.
Qed.

Print Assumptions C78_integer_decode_exact.
Print Assumptions C79_string_history_exact.
Print Assumptions C79_string_history_progress.
Print Assumptions C80_resize_reads_exact.
Print Assumptions C81_bercontainer_copy_exact.
