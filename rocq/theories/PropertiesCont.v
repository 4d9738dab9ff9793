(** Property theorems C19, C20, C22-C30 and C68: Boolean, Null, strings and containers. *)
From Verif Require Import Base Ident Spec IdentProofs HeaderProofs View ViewProofs Prims PrimProofs IntProofs PropertiesInt ContProofs.

(** * C19: Boolean *)
(** The Boolean objects a program can hold, with the value given by the last successful operation. *)
Inductive bool_history : ident -> list Z -> bool -> Prop :=
| bh_default i : wf_ident i -> bool_history i (bool_init i) false
| bh_assign i d v b : bool_history i d v -> bool_history i (bool_assign d b) b
| bh_copy i d v j e w : bool_history i d v -> bool_history j e w -> bool_history i (bool_copy d e) w
| bh_decode_failed i d v d' input view : bool_history i d v -> bytes input -> tame input -> v_make input = Ok view ->
    bool_decode i d view = Ok (false, d') -> bool_history i d' v
| bh_decode i d v d' p c extra rest view : bool_history i d v -> bytes (p ++ rest) -> tame (p ++ rest) ->
    id_packet i primitive p [c] extra -> v_make (p ++ rest) = Ok view ->
    bool_decode i d view = Ok (true, d') -> bool_history i d' (negb (c =? 0)).
Lemma bool_history_rep i d v : bool_history i d v -> wf_ident i /\ exists b, bool_rep i d b /\ v = negb (b =? 0).
Proof.
  induction 1 as [i Hi | i d v b _ IH | i d v j e w _ IH1 _ IH2 | i d v d' input view _ IH Hb Ht Ev E
    | i d v d' p c extra rest view _ IH Hb Ht Hp Ev E].
  - split; auto. exists 0. split; [apply bool_init_rep; auto | reflexivity].
  - destruct IH as (Hi & c & Hr & _). split; auto. exists (if b then 255 else 0). split; [eapply bool_set_rep; eauto|].
    destruct b; reflexivity.
  - destruct IH1 as (Hi & c & Hr & _). destruct IH2 as (Hj & c2 & Hr2 & Hv). split; auto. exists c2.
    split; [|auto]. unfold bool_copy. rewrite (bool_last _ _ _ Hr2). eapply bool_set_rep; eauto.
  - destruct IH as (Hi & c & Hr & Hv). split; auto. exists c. split; auto.
    destruct (bool_decode_spec i d c input Hb Ht Hr) as (v2 & Ev2 & [H|[E2 _]]);
      assert (v2 = view) by congruence; subst v2.
    + destruct H as (? & ? & ? & ? & ? & ? & ? & E2 & ?). congruence.
    + congruence.
  - destruct IH as (Hi & c0 & Hr & Hv). split; auto. exists c. split; auto.
    destruct (bool_decode_packet i d c0 p [c] extra rest Hp (proj1 Ht) Hr) as (v2 & Ev2 & H1 & _).
    destruct (H1 c eq_refl) as (d2 & E2 & Hr2). assert (v2 = view) by congruence; subst v2. congruence.
Qed.
(** Value, encoding and round trip, over any history. *)
Theorem C19_boolean_history : forall i d v, bool_history i d v ->
  bool_value d = v /\
  exists p c, id_packet i primitive p [c] [] /\ v = negb (c =? 0) /\
    writes (fun buf => Ok (bool_encode d buf)) p /\ bool_encoded_length i = zlen p /\
    forall e w rest, bool_history i e w -> zlen (p ++ rest) < 2^63 ->
      exists view e', v_make (p ++ rest) = Ok view /\ bool_decode i e view = Ok (true, e') /\ bool_value e' = v.
Proof.
  intros i d v H. destruct (bool_history_rep _ _ _ H) as (Hi & c & Hr & Hv).
  split; [unfold bool_value; rewrite (bool_last _ _ _ Hr); auto|].
  assert (Hp : id_packet i primitive (hdr_of i 1 primitive ++ [c]) [c] []) by (apply (hdr_of_packet i primitive [c]); auto; reflexivity).
  exists (hdr_of i 1 primitive ++ [c]), c. split; [exact Hp|]. split; [auto|]. split.
  { rewrite Hr. apply copy_out_writes. }
  split. { unfold bool_encoded_length. rewrite encoded_length_nowrap, zlen_app, hdr_of_len by (auto; lia). reflexivity. }
  intros e w rest He Hz. destruct (bool_history_rep _ _ _ He) as (_ & c0 & Hr0 & _).
  destruct (bool_decode_packet i e c0 _ [c] [] rest Hp Hz Hr0) as (view & Ev & H1 & _).
  destruct (H1 c eq_refl) as (e' & E & Hr'). exists view, e'. split; [auto|]. split; [auto|].
  unfold bool_value. rewrite (bool_last _ _ _ Hr'). auto.
Qed.
(** An assigned Boolean has the single content octet 00 or FF. *)
Theorem C19_boolean_canonical : forall i d v (b : bool), bool_history i d v ->
  exists p, id_packet i primitive p [if b then 0xFF else 0x00] [] /\ writes (fun buf => Ok (bool_encode (bool_assign d b) buf)) p.
Proof.
  intros i d v b H. destruct (bool_history_rep _ _ _ H) as (Hi & c & Hr & Hv).
  exists (hdr_of i 1 primitive ++ [if b then 0xFF else 0x00]).
  split; [apply (hdr_of_packet i primitive [if b then 0xFF else 0x00]); auto; reflexivity|].
  assert (Er : bool_assign d b = hdr_of i 1 primitive ++ [if b then 0xFF else 0x00]) by (eapply bool_set_rep; exact Hr).
  rewrite Er. apply copy_out_writes.
Qed.
(** Decode accepts exactly the packets with the right identifier, primitive form and one content octet. *)
Theorem C19_boolean_decode_exact : forall i d v input, bool_history i d v -> bytes input -> tame input ->
  exists view, v_make input = Ok view /\
    ((exists p c extra rest d', input = p ++ rest /\ id_packet i primitive p [c] extra /\
        bool_decode i d view = Ok (true, d') /\ bool_value d' = negb (c =? 0)) \/
     (bool_decode i d view = Ok (false, d) /\
        forall p c extra rest, id_packet i primitive p [c] extra -> input <> p ++ rest)).
Proof.
  intros i d v input H Hb Ht. destruct (bool_history_rep _ _ _ H) as (Hi & c0 & Hr & Hv).
  destruct (bool_decode_spec i d c0 input Hb Ht Hr) as (view & Ev & [H1|H1]); exists view; (split; [auto|]); [left|right; auto].
  destruct H1 as (p & c & extra & rest & d' & -> & Hp & E & Hr'). exists p, c, extra, rest, d'. repeat split; auto.
  unfold bool_value. rewrite (bool_last _ _ _ Hr'). reflexivity.
Qed.
Example C19_example : bool_history (DoubleId context_specific 40 universal 1)
   (bool_assign (bool_init (DoubleId context_specific 40 universal 1)) true) true /\
   bool_assign (bool_init (DoubleId context_specific 40 universal 1)) true = [0xBF; 40; 3; 1; 1; 255].
Proof. split; [eapply bh_assign, bh_default; cbn; lia | vm_compute; reflexivity]. Qed.

(** * C20: Null *)
Theorem C20_null_encoding : forall i, wf_ident i ->
  exists p, id_packet i primitive p [] [] /\ writes (fun buf => Ok (null_encode i buf)) p /\ null_encoded_length i = zlen p.
Proof.
  intros i Hi. exists (hdr_of i 0 primitive). split.
  { pose proof (hdr_of_packet i primitive [] Hi ltac:(reflexivity)) as H. rewrite app_nil_r in H. exact H. }
  split; [unfold null_encode; rewrite null_data_eq by auto; apply copy_out_writes|].
  unfold null_encoded_length. rewrite encoded_length_nowrap, hdr_of_len by (auto; lia). lia.
Qed.
Theorem C20_null_decode_exact : forall i input, bytes input -> tame input ->
  exists view ok, v_make input = Ok view /\ null_decode i view = Ok ok /\
    (ok = true <-> exists p extra rest, input = p ++ rest /\ id_packet i primitive p [] extra).
Proof.
  intros i input Hb Ht. destruct (header_spec i primitive input Hb Ht) as (v & Ev & [H|H]).
  - destruct H as (p & x & extra & rest & -> & Hp & _).
    destruct (null_decode_packet i p x extra rest Hp (proj1 Ht)) as (v' & Ev' & E). assert (v' = v) by congruence; subst v'.
    exists v, (zlen x =? 0). split; [auto|]. split; [auto|]. split.
    + intros Hx. assert (zlen x = 0) as Hx0 by lia. apply zlen_0_nil in Hx0. subst x. eauto 6.
    + intros (p' & e' & r' & Eq & Hp'). destruct (id_packet_det _ _ _ _ _ _ _ _ _ _ _ Hp Hp' Eq) as (_ & -> & _). reflexivity.
  - destruct H as [Hh Hno]. exists v, false. split; [auto|]. split; [unfold null_decode; rewrite Hh; reflexivity|].
    split; [discriminate|]. intros (p' & e' & r' & Eq & Hp'). exfalso. eapply Hno; eauto.
Qed.
(** Round trip, with anything behind the packet. *)
Theorem C20_null_round_trip : forall i rest, wf_ident i -> zlen (null_data i ++ rest) < 2^63 ->
  exists view, v_make (null_data i ++ rest) = Ok view /\ null_decode i view = Ok true.
Proof.
  intros i rest Hi Hz. rewrite null_data_eq in * by auto.
  pose proof (hdr_of_packet i primitive [] Hi ltac:(reflexivity)) as H. rewrite app_nil_r in H.
  destruct (null_decode_packet i _ [] [] rest H Hz) as (v & Ev & E). eauto.
Qed.
Example C20_example : null_data (DoubleId application 2 universal 5) = [0x62; 2; 5; 0] /\ tame [0x62; 3; 5; 1; 7].
Proof. split; [vm_compute; reflexivity | apply tame_check_sound; vm_compute; reflexivity]. Qed.

(** * C22-C24, C26: string types (FixedIdBerContainer) *)
(** The containers a program can hold, with the content given by the last successful operation.  Excluded: objects
    constructed from a rejected view (see C23_rejected_construction_refuted) and decodes of explicitly tagged packets
    with octets behind the inner packet (see C26). *)
Inductive fixed_history : ident -> fixed -> list Z -> Prop :=
| fh_default i : wf_ident i -> fixed_history i (fixed_init i) []
| fh_construct i f x : wf_ident i -> zlen x < 2^62 -> fixed_assign_content i fixed_empty x = Ok f -> fixed_history i f x
| fh_assign i f v f' x : fixed_history i f v -> zlen x < 2^62 -> fixed_assign_content i f x = Ok f' -> fixed_history i f' x
| fh_resize i f v f' n y : fixed_history i f v -> 0 <= n < 2^62 -> fixed_resize i f n = Ok f' ->
    fixed_content f' = Ok y -> fixed_history i f' y
| fh_copy i f v j e w f' : fixed_history i f v -> fixed_history j e w -> fixed_copy_from i f e = Ok f' -> fixed_history i f' w
| fh_copy_construct i j e w f' : wf_ident i -> fixed_history j e w -> fixed_copy_from i fixed_empty e = Ok f' -> fixed_history i f' w
| fh_decode_failed i f v f' input view : fixed_history i f v -> bytes input -> tame input -> v_make input = Ok view ->
    fixed_decode i f view = Ok (false, f') -> fixed_history i f' v
| fh_decode i f v f' p x rest view : fixed_history i f v -> zlen (p ++ rest) < 2^62 ->
    id_packet i primitive p x [] -> v_make (p ++ rest) = Ok view ->
    fixed_decode i f view = Ok (true, f') -> fixed_history i f' x
| fh_construct_decode i f' p x rest view : wf_ident i -> zlen (p ++ rest) < 2^62 ->
    id_packet i primitive p x [] -> v_make (p ++ rest) = Ok view ->
    fixed_decode i fixed_empty view = Ok (true, f') -> fixed_history i f' x.
Definition fixed_inv i f x := wf_ident i /\ fixed_rep i f x /\ zlen (f_data f) < 2^63 /\ zlen x < 2^62.
Lemma fixed_history_rep : forall i f x, fixed_history i f x -> fixed_inv i f x.
Proof.
  assert (Hassign : forall i f f' x, wf_ident i -> zlen x < 2^62 -> fixed_assign_content i f x = Ok f' -> fixed_inv i f' x).
  { intros i f f' x Hi Hx E. destruct (fixed_assign_eq i f x Hi Hx) as (sp & E2).
    assert (f' = Fixed (Vec (hdr_of i (zlen x) primitive ++ x) sp) (zlen x)) by congruence. subst f'.
    split; [auto|]. split; [split; [apply hdr_of_packet; auto|reflexivity]|]. split; [|exact Hx]. cbn [f_data f_vec vd].
    pose proof (zlen_nonneg x). rewrite zlen_app, hdr_of_len by (auto; lia). pose proof (ehl_range i (zlen x) Hi). lia. }
  assert (Hdec : forall i f f' p x rest view, wf_ident i -> zlen (p ++ rest) < 2^62 -> id_packet i primitive p x [] ->
            v_make (p ++ rest) = Ok view -> fixed_decode i f view = Ok (true, f') -> fixed_inv i f' x).
  { intros i f f' p x rest view Hi Hz Hp Ev E.
    destruct (fixed_decode_packet i f p x [] rest Hp ltac:(lia)) as (v2 & Ev2 & E2).
    assert (f' = Fixed (vec_assign p) (zlen x)) by congruence. subst f'.
    pose proof (id_packet_len _ _ _ _ _ Hp). rewrite zlen_app in Hz. pose proof (zlen_nonneg rest).
    split; [auto|]. split; [split; [exact Hp|reflexivity]|]. split; [cbn [f_data f_vec vd vec_assign]; lia|lia]. }
  induction 1 as [i Hi | i f x Hi Hx E | i f v f' x _ IH Hx E | i f v f' n y _ IH Hn E Ey | i f v j e w f' _ IH1 _ IH2 E
    | i j e w f' Hi _ IH E | i f v f' input view _ IH Hb Ht Ev E | i f v f' p x rest view _ IH Hz Hp Ev E
    | i f' p x rest view Hi Hz Hp Ev E].
  - assert (H : fixed_inv i (match fixed_assign_content i fixed_empty [] with Ok f => f | _ => fixed_empty end) []).
    { destruct (fixed_assign_eq i fixed_empty [] Hi ltac:(reflexivity)) as (sp & E). rewrite E.
      eapply Hassign; [auto|reflexivity|exact E]. }
    split; [auto|]. split; [apply fixed_init_rep; auto|]. split; [|reflexivity].
    unfold fixed_init. fold (encoded_header i 0). rewrite encoded_header_eq by (auto; lia). cbn [f_data f_vec vd vec_assign].
    rewrite zlen_app, hdr_of_len by (auto; lia). pose proof (ehl_range i 0 Hi). change (zlen (zrep 0 0)) with 0. lia.
  - eapply Hassign; eauto.
  - destruct IH as (Hi & _). eapply Hassign; eauto.
  - destruct IH as (Hi & Hr & Hz & _). destruct (fixed_resize_rep i f v n Hi Hr Hz Hn) as (f2 & y2 & E2 & Hr2 & Hl & _ & Hz2).
    assert (f2 = f') by congruence; subst f2. rewrite (fixed_content_rep _ _ _ Hr2) in Ey.
    assert (y2 = y) by congruence; subst y2. split; [auto|]. split; [auto|]. split; [auto|lia].
  - destruct IH1 as (Hi & _). destruct IH2 as (_ & Hr & _ & Hx). unfold fixed_copy_from in E.
    rewrite (fixed_content_rep _ _ _ Hr) in E. eapply Hassign; eauto.
  - destruct IH as (_ & Hr & _ & Hx). unfold fixed_copy_from in E.
    rewrite (fixed_content_rep _ _ _ Hr) in E. eapply Hassign; eauto.
  - destruct (fixed_decode_spec i f input Hb Ht) as (v2 & Ev2 & [H|[E2 _]]); assert (v2 = view) by congruence; subst v2.
    + destruct H as (? & ? & ? & ? & ? & ? & E2). congruence.
    + assert (f' = f) by congruence; subst; auto.
  - destruct IH as (Hi & _). eapply Hdec; eauto.
  - eapply Hdec; eauto.
Qed.

(** C22.  Round trip of every content, for every identifier, into any other container, whatever follows the packet. *)
Theorem C22_string_round_trip : forall i x, wf_ident i -> zlen x < 2^62 ->
  exists f p, fixed_assign_content i fixed_empty x = Ok f /\ fixed_content f = Ok x /\
    writes (fun buf => Ok (fixed_encode f buf)) p /\ fixed_encoded_length f = zlen p /\
    forall g rest, zlen (p ++ rest) < 2^63 ->
      exists view g', v_make (p ++ rest) = Ok view /\ fixed_decode i g view = Ok (true, g') /\ fixed_content g' = Ok x /\
        fixed_ber g' = p.
Proof.
  intros i x Hi Hx. destruct (fixed_assign_rep i fixed_empty x Hi Hx) as (f & E & Hr).
  exists f, (f_data f). split; [auto|]. split; [eapply fixed_content_rep; eauto|].
  split; [apply copy_out_writes|]. split; [reflexivity|]. intros g rest Hz. destruct Hr as [Hp El].
  destruct (fixed_decode_packet i g _ x [] rest Hp Hz) as (v & Ev & Ed). exists v. eexists. split; [auto|]. split; [exact Ed|].
  split; [|reflexivity]. apply (fixed_content_rep i). split; auto.
Qed.
Example C22_example : exists f, fixed_assign_content (DoubleId context_specific 0 universal 4) fixed_empty (zrep 126 7) = Ok f /\
  ztake 6 (fixed_ber f) = [0xA0; 0x81; 0x80; 4; 126; 7].
Proof. eexists. split; [vm_compute; reflexivity|]. vm_compute. reflexivity. Qed.

(** C23, refuted: constructing a string from a view it rejects gives an object that holds no packet at all: it
    encodes, successfully, to nothing. *)
Theorem C23_rejected_construction_refuted :
  exists view f, v_make [2; 1; 5] = Ok view /\ fixed_decode (Id universal 4) fixed_empty view = Ok (false, f) /\
    fixed_encode f (zrep 10 9) = EncResult (zrep 10 9) true 0 /\
    exists w, fixed_view f = Ok w /\ is_valid w = false.
Proof. eexists. eexists. split; [vm_compute; reflexivity|]. split; [vm_compute; reflexivity|].
  split; [vm_compute; reflexivity|]. eexists. split; [vm_compute; reflexivity|]. vm_compute; reflexivity. Qed.
(** C23, partial (all other histories): the container holds exactly one packet with its identifier, whose content is
    content(); the view of its octets is valid and passes the identifier check. *)
Theorem C23_string_history_partial : forall i f x, fixed_history i f x ->
  fixed_content f = Ok x /\ f_len f = zlen x /\
  id_packet i primitive (fixed_ber f) x [] /\
  writes (fun buf => Ok (fixed_encode f buf)) (fixed_ber f) /\ fixed_encoded_length f = zlen (fixed_ber f) /\
  exists view, fixed_view f = Ok view /\ is_valid view = true /\ has_correct_header view i primitive = Ok true /\
    v_ber view = Ok (fixed_ber f).
Proof.
  intros i f x H. destruct (fixed_history_rep _ _ _ H) as (Hi & Hr & Hz & Hx).
  split; [eapply fixed_content_rep; eauto|]. destruct Hr as [Hp El]. split; [auto|]. split; [exact Hp|].
  split; [apply copy_out_writes|]. split; [reflexivity|].
  destruct (header_packet i primitive _ x [] [] Hp ltac:(rewrite app_nil_r; auto)) as (v & Ev & Hv & Hh & Hb & _).
  rewrite app_nil_r in Ev. exists v. auto.
Qed.
(** No operation on a reachable container is undefined. *)
Theorem C23_string_history_progress : forall i f x, fixed_history i f x ->
  (forall y, zlen y < 2^62 -> exists f', fixed_assign_content i f y = Ok f' /\ fixed_history i f' y) /\
  (forall n, 0 <= n < 2^62 -> exists f' y, fixed_resize i f n = Ok f' /\ fixed_history i f' y) /\
  (forall j e w, fixed_history j e w -> exists f', fixed_copy_from i f e = Ok f' /\ fixed_history i f' w) /\
  (forall input, bytes input -> tame input -> exists view ok f', v_make input = Ok view /\ fixed_decode i f view = Ok (ok, f')).
Proof.
  intros i f x H. destruct (fixed_history_rep _ _ _ H) as (Hi & Hr & Hz & Hx). split; [|split; [|split]].
  - intros y Hy. destruct (fixed_assign_rep i f y Hi Hy) as (f' & E & _). exists f'. split; auto. eapply fh_assign; eauto.
  - intros n Hn. destruct (fixed_resize_rep i f x n Hi Hr Hz Hn) as (f' & y & E & Hr' & _).
    exists f', y. split; auto. eapply fh_resize; eauto. eapply fixed_content_rep; eauto.
  - intros j e w He. destruct (fixed_history_rep _ _ _ He) as (_ & Hre & _ & Hw).
    destruct (fixed_assign_rep i f w Hi Hw) as (f' & E & _). exists f'.
    assert (E2 : fixed_copy_from i f e = Ok f') by (unfold fixed_copy_from; rewrite (fixed_content_rep _ _ _ Hre); exact E).
    split; auto. eapply fh_copy; eauto.
  - intros input Hb Ht. destruct (fixed_decode_spec i f input Hb Ht) as (v & Ev & [H1|[E _]]); [|eauto].
    destruct H1 as (? & ? & ? & ? & ? & ? & E). eauto.
Qed.
Example C23_example : exists f, fixed_history (Id context_specific 31) f (zrep 5 1).
Proof.
  eexists. eapply (fh_resize _ _ (zrep 200 1) _ 5).
  - eapply fh_construct; [cbn; lia | vm_compute; reflexivity | vm_compute; reflexivity].
  - lia.
  - vm_compute; reflexivity.
  - vm_compute; reflexivity.
Qed.

(** C24.  Resizing keeps the common prefix and sets the length, whatever the header does. *)
Theorem C24_resize_keeps_prefix : forall i f x n, fixed_history i f x -> 0 <= n < 2^62 ->
  exists f' y, fixed_resize i f n = Ok f' /\ fixed_content f' = Ok y /\ zlen y = n /\
    ztake (Z.min (zlen x) n) y = ztake (Z.min (zlen x) n) x.
Proof.
  intros i f x n H Hn. destruct (fixed_history_rep _ _ _ H) as (Hi & Hr & Hz & Hx).
  destruct (fixed_resize_rep i f x n Hi Hr Hz Hn) as (f' & y & E & Hr' & Hl & Hp & _).
  exists f', y. split; auto. split; [eapply fixed_content_rep; eauto|]. auto.
Qed.
Example C24_example : exists f f', fixed_assign_content (Id universal 4) fixed_empty [1; 2; 3] = Ok f /\
  fixed_resize (Id universal 4) f 200 = Ok f' /\ ztake 6 (fixed_ber f') = [4; 0x81; 200; 1; 2; 3].
Proof. eexists. eexists. split; [vm_compute; reflexivity|]. split; [vm_compute; reflexivity|]. vm_compute; reflexivity. Qed.
(** C68, refuted: shrinking 200 content octets to 10 makes memmove read octets behind the vector's size(). *)
Theorem C68_resize_reads_in_size_refuted :
  exists f, fixed_assign_content (Id universal 4) fixed_empty (zrep 200 7) = Ok f /\
    fixed_resize_read_in_size (Id universal 4) f 10 = false.
Proof. eexists. split; [vm_compute; reflexivity|]. vm_compute; reflexivity. Qed.
(** C68, partial: whenever the header does not shrink, resize_content stays inside size(). *)
Theorem C68_resize_reads_in_size_partial : forall i f x n, fixed_history i f x -> 0 <= n < 2^62 ->
  zlen (fixed_ber f) - zlen x <= encoded_header_length n i -> fixed_resize_read_in_size i f n = true.
Proof.
  intros i f x n H Hn Hle. destruct (fixed_history_rep _ _ _ H) as (Hi & [Hp El] & Hz & Hx).
  unfold fixed_resize_read_in_size, fixed_ber in *. rewrite El.
  destruct (id_packet_suffix _ _ _ _ Hp) as (h & E). assert (El2 : zlen (f_data f) = zlen h + zlen x) by (rewrite E, zlen_app; reflexivity). rewrite El2 in *.
  pose proof (ehl_range i n Hi). pose proof (zlen_nonneg h). pose proof (zlen_nonneg x).
  rewrite vec_resize_len by lia. rewrite u64_small by lia. lia.
Qed.

(** C26, refuted: an explicitly tagged OCTET STRING with octets behind the inner packet is accepted, and content()
    is not the inner packet's content. *)
Theorem C26_explicit_string_content_refuted :
  exists view f, v_make [0xA0; 5; 4; 2; 8; 9; 7] = Ok view /\
    fixed_decode (DoubleId context_specific 0 universal 4) fixed_empty view = Ok (true, f) /\
    fixed_content f = Ok [9; 7] /\
    exists it, v_begin view = Ok it /\ v_content (it_view it) = Ok [8; 9].
Proof.
  eexists. eexists. split; [vm_compute; reflexivity|]. split; [vm_compute; reflexivity|]. split; [vm_compute; reflexivity|].
  eexists. split; [vm_compute; reflexivity|]. vm_compute; reflexivity.
Qed.
(** C26, partial: it holds whenever nothing follows the inner packet (always, for single tags); and a packet is
    accepted exactly when it is a packet with the right identifiers. *)
Theorem C26_explicit_string_content_partial : forall i f input, bytes input -> tame input ->
  exists view, v_make input = Ok view /\
    ((exists p x extra rest f', input = p ++ rest /\ id_packet i primitive p x extra /\
        fixed_decode i f view = Ok (true, f') /\ fixed_ber f' = p /\ (extra = [] -> fixed_content f' = Ok x)) \/
     (fixed_decode i f view = Ok (false, f) /\
        forall p x extra rest, id_packet i primitive p x extra -> input <> p ++ rest)).
Proof.
  intros i f input Hb Ht. destruct (fixed_decode_spec i f input Hb Ht) as (v & Ev & [H|H]); exists v; (split; [auto|]); [left|right; auto].
  destruct H as (p & x & extra & rest & -> & Hp & E). exists p, x, extra, rest. eexists. split; [auto|]. split; [exact Hp|].
  split; [exact E|]. split; [reflexivity|]. intros ->. apply (fixed_content_rep i). split; [exact Hp|reflexivity].
Qed.
Example C26_example : tame [0xA0; 4; 4; 2; 8; 9] /\ bytes [0xA0; 4; 4; 2; 8; 9].
Proof. split; [apply tame_check_sound; vm_compute; reflexivity | bytes_lit]. Qed.

(** * C25: failed decodes change nothing (for every object state and every view, not only those of tame inputs) *)
Theorem C25_integer_failed_decode : forall i d view d', int_decode i d view = Ok (false, d') -> d' = d.
Proof.
  intros i d v d'. unfold int_decode, small_decode. destruct (negb (is_valid v)); [congruence|].
  destruct (view_has_id v (id_class i) (id_tag i)) as [idm| |]; cbn [bind]; try discriminate.
  destruct (v_construction v) as [k| |]; cbn [bind]; try discriminate.
  destruct i as [c t|oc ot ic it].
  - destruct (negb _); [congruence|]. destruct (v_read_content _ _); cbn [bind]; try discriminate.
    destruct (mem_write _ _ _); cbn [bind]; try discriminate. destruct (small_set_length _ _ _); cbn [bind]; discriminate.
  - destruct (negb _); [congruence|]. destruct (v_begin v); cbn [bind]; try discriminate.
    destruct (negb _); [congruence|]. destruct (view_has_id _ _ _); cbn [bind]; try discriminate.
    destruct (v_construction _); cbn [bind]; try discriminate.
    destruct (negb _); [congruence|]. destruct (v_read_content _ _); cbn [bind]; try discriminate.
    destruct (mem_write _ _ _); cbn [bind]; try discriminate. destruct (small_set_length _ _ _); cbn [bind]; discriminate.
Qed.
Theorem C25_enumerated_failed_decode : forall i d view d', enum_decode i d view = Ok (false, d') -> d' = d.
Proof. exact C25_integer_failed_decode. Qed.
Theorem C25_boolean_failed_decode : forall i d view d', bool_decode i d view = Ok (false, d') -> d' = d.
Proof.
  intros i d v d'. unfold bool_decode. destruct (has_correct_header v i primitive) as [[|]| |]; cbn [bind negb]; try congruence.
  destruct (depth i =? 1).
  - destruct (v_cl v =? 1); [|congruence]. destruct (v_read_content _ _); cbn [bind]; discriminate.
  - destruct (v_begin v); cbn [bind]; try discriminate. destruct (_ =? 1); [|congruence].
    destruct (v_read_content _ _); cbn [bind]; discriminate.
Qed.
Theorem C25_string_failed_decode : forall i f view f', fixed_decode i f view = Ok (false, f') -> f' = f.
Proof.
  intros i f v f'. unfold fixed_decode. destruct (has_correct_header v i primitive) as [[|]| |]; cbn [bind negb]; try discriminate.
  - destruct (v_ber v); cbn [bind]; try discriminate. destruct i; [discriminate|]. destruct (v_begin v); cbn [bind]; discriminate.
  - destruct i; [congruence|]. destruct (is_valid v); [|congruence]. destruct (v_begin v); cbn [bind]; congruence.
Qed.
Example C25_example : exists d view d', int_of (Id universal 2) 9 = Ok d /\ v_make [2; 9; 1; 1; 1; 1; 1; 1; 1; 1; 1] = Ok view /\
  int_decode (Id universal 2) d view = Ok (false, d').
Proof. eexists. eexists. eexists. split; [vm_compute; reflexivity|]. split; [vm_compute; reflexivity|]. vm_compute; reflexivity. Qed.

(** * C27: small containers *)
Inductive small_history (i : ident) (max : Z) : list Z -> list Z -> Prop :=
| sh_default : small_history i max (small_init i max) []
| sh_assign d x d' y : small_history i max d x -> zlen y <= max -> small_assign_content i d y = Ok d' -> small_history i max d' y
| sh_resize d x d' n y : small_history i max d x -> 0 <= n <= max -> small_resize i d n = Ok d' ->
    zlen y = n -> ztake (Z.min (zlen x) n) y = ztake (Z.min (zlen x) n) x -> small_content i d' = Ok y -> small_history i max d' y
| sh_decode_failed d x d' input view : small_history i max d x -> bytes input -> tame input -> v_make input = Ok view ->
    small_decode i max d view = Ok (false, d') -> small_history i max d' x
| sh_decode d x d' p y extra rest view : small_history i max d x -> bytes (p ++ rest) -> tame (p ++ rest) ->
    id_packet i primitive p y extra -> v_make (p ++ rest) = Ok view ->
    small_decode i max d view = Ok (true, d') -> small_history i max d' y.
(** C27, refuted at the bound: a maximum of exactly 128 octets passes the static_assert, but a full container's
    octets are not a packet (the length octet is 0x80, the indefinite form), so its encoding cannot be decoded. *)
Theorem C27_small_container_refuted :
  exists d x out view, small_max_ok (Id universal 4) 128 = true /\ zlen x = 128 /\
    small_assign_content (Id universal 4) (small_init (Id universal 4) 128) x = Ok d /\
    small_encode (Id universal 4) d (zrep 200 0) = Ok out /\ er_ok out = true /\
    v_make (er_buf out) = Ok view /\ is_valid view = false.
Proof.
  eexists. exists (zrep 128 1). eexists. eexists. split; [reflexivity|]. split; [reflexivity|].
  split; [vm_compute; reflexivity|]. split; [vm_compute; reflexivity|]. repeat (split; [vm_compute; reflexivity|]). vm_compute; reflexivity.
Qed.
Lemma small_below_bound i max : wf_ident i -> 0 <= max -> small_max_ok i (max + 1) = true -> small_ok i max.
Proof.
  intros Hi Hm Hs. split; [auto|]. split; [auto|]. unfold small_max_ok in Hs.
  destruct i as [c t|oc ot ic it]; cbn [depth inner_identifier encoded_header_length small_fits] in *; [change (1 =? 2) with false in Hs|change (2 =? 2) with true in Hs]; cbn match in Hs; lia.
Qed.
Lemma small_resize_rep i max d x n : small_ok i max -> small_rep i max d x -> 0 <= n <= max ->
  exists d' y, small_resize i d n = Ok d' /\ small_rep i max d' y /\ zlen y = n /\
    ztake (Z.min (zlen x) n) y = ztake (Z.min (zlen x) n) x.
Proof.
  intros Hok (junk & -> & Hl) Hn. pose proof Hok as (Hi & Hm & Hf). pose proof (zlen_nonneg x). pose proof (zlen_nonneg junk).
  unfold small_resize.
  assert (Hfx : small_fits i (zlen x)) by (apply (small_fits_le _ _ _ Hf); lia).
  assert (Hfn : small_fits i n) by (apply (small_fits_le _ _ _ Hf); lia).
  rewrite small_set_length_ok by first [exact Hi | exact Hfx | exact Hfn | lia].
  assert (Hz : zlen (ztake n (x ++ junk)) = n) by (apply zlen_ztake; rewrite zlen_app; lia).
  exists (hdr_of i n primitive ++ x ++ junk), (ztake n (x ++ junk)). split; [reflexivity|]. split.
  - exists (zdrop n (x ++ junk)). rewrite Hz, ztake_zdrop. split; [reflexivity|]. rewrite zlen_zdrop; rewrite zlen_app; lia.
  - split; [exact Hz|]. rewrite ztake_ztake by lia. rewrite ztake_app_le by lia. reflexivity.
Qed.
Lemma small_history_rep i max d x : small_ok i max -> small_history i max d x -> small_rep i max d x.
Proof.
  intros Hok. induction 1 as [ | d x d' y _ IH Hy E | d x d' n y _ IH Hn E Hl Hp Ey | d x d' input view _ IH Hb Ht Ev E
    | d x d' p y extra rest view _ IH Hb Ht Hp Ev E].
  - apply small_init_rep; auto.
  - destruct (small_assign_rep i max d x y Hok IH Hy) as (d2 & E2 & Hr). congruence.
  - destruct (small_resize_rep i max d x n Hok IH Hn) as (d2 & y2 & E2 & Hr & _).
    assert (d2 = d') by congruence; subst d2. rewrite (small_content_rep _ _ _ _ Hok Hr) in Ey. congruence.
  - destruct (small_decode_spec i max d x input Hok IH Hb Ht) as (v2 & Ev2 & [H|[E2 _]]);
      assert (v2 = view) by congruence; subst v2; [|congruence].
    destruct H as (? & ? & ? & ? & ? & ? & ? & ? & E2 & ?). congruence.
  - destruct (small_decode_spec i max d x _ Hok IH Hb Ht) as (v2 & Ev2 & [H|[E2 _]]);
      assert (v2 = view) by congruence; subst v2; [|congruence].
    destruct H as (p2 & y2 & e2 & r2 & d2 & Eq & Hp2 & _ & E2 & Hr).
    destruct (id_packet_det _ _ _ _ _ _ _ _ _ _ _ Hp Hp2 Eq) as (_ & <- & _). congruence.
Qed.
(** C27, partial: for every maximum strictly below the static_assert's bound, after any history: never more than the
    maximum is stored, and the octets are one packet with the stored content. *)
Theorem C27_small_container_partial : forall i max d x, wf_ident i -> 0 <= max -> small_max_ok i (max + 1) = true ->
  small_history i max d x ->
  zlen x <= max /\ small_content i d = Ok x /\
  exists p, id_packet i primitive p x [] /\ writes (small_encode i d) p /\ small_ber_length i d = Ok (zlen p).
Proof.
  intros i max d x Hi Hm Hs H. pose proof (small_below_bound _ _ Hi Hm Hs) as Hok.
  pose proof (small_history_rep _ _ _ _ Hok H) as Hr. destruct (small_rep_len _ _ _ _ Hok Hr) as [_ Hl].
  split; [auto|]. split; [eapply small_content_rep; eauto|]. exists (hdr_of i (zlen x) primitive ++ x).
  pose proof (small_fits_127 _ _ Hi (proj2 (proj2 Hok))).
  split; [apply hdr_of_packet; auto; lia|]. split; [eapply small_encode_writes; eauto | eapply small_ber_length_rep; eauto].
Qed.
(** ... and no operation on it is undefined. *)
Theorem C27_small_container_progress_partial : forall i max d x, wf_ident i -> 0 <= max -> small_max_ok i (max + 1) = true ->
  small_history i max d x ->
  (forall y, zlen y <= max -> exists d', small_assign_content i d y = Ok d' /\ small_history i max d' y) /\
  (forall n, 0 <= n <= max -> exists d' y, small_resize i d n = Ok d' /\ small_history i max d' y) /\
  (forall input, bytes input -> tame input -> exists view ok d' y, v_make input = Ok view /\
     small_decode i max d view = Ok (ok, d') /\ small_history i max d' y).
Proof.
  intros i max d x Hi Hm Hs H. pose proof (small_below_bound _ _ Hi Hm Hs) as Hok.
  pose proof (small_history_rep _ _ _ _ Hok H) as Hr. split; [|split].
  - intros y Hy. destruct (small_assign_rep i max d x y Hok Hr Hy) as (d' & E & _). exists d'. split; auto. eapply sh_assign; eauto.
  - intros n Hn. destruct (small_resize_rep i max d x n Hok Hr Hn) as (d' & y & E & Hr' & Hl & Hp). exists d', y. split; auto.
    eapply sh_resize; eauto. eapply small_content_rep; eauto.
  - intros input Hb Ht. destruct (small_decode_spec i max d x input Hok Hr Hb Ht) as (v & Ev & [H1|[E _]]).
    + destruct H1 as (p & y & extra & rest & d' & -> & Hp & _ & E & _). exists v, true, d', y. split; auto. split; auto.
      eapply sh_decode; eauto.
    + exists v, false, d, x. split; auto.
Qed.
Example C27_example : small_max_ok (DoubleId application 3 universal 9) (40 + 1) = true /\
  exists d, small_history (DoubleId application 3 universal 9) 40 d [1; 2].
Proof.
  split; [reflexivity|]. eexists. eapply sh_assign; [apply sh_default | cbn; lia | vm_compute; reflexivity].
Qed.

(** * C28-C30: BerContainer *)
(** C28.  Decoding any packet and encoding again reproduces it, and the container reports what the packet holds. *)
Theorem C28_bercontainer_decode_encode : forall b p c con t x rest, ber_packet p c con t x -> zlen (p ++ rest) < 2^63 ->
  exists view b', v_make (p ++ rest) = Ok view /\ berc_decode b view = Ok (true, b') /\
    is_valid (b_view b') = true /\ v_class (b_view b') = Ok c /\ v_construction (b_view b') = Ok con /\
    v_tag (b_view b') = t /\ berc_content b' = Ok x /\ berc_ber b' = Ok p /\ writes (berc_encode b') p.
Proof.
  intros b p c con t x rest HP Hz. destruct (berc_decode_packet b p c con t x rest HP Hz) as (v & b' & Ev & E & Hr).
  assert (Hz2 := Hz). rewrite zlen_app in Hz2. pose proof (zlen_nonneg rest).
  exists v, b'. split; auto. split; auto. apply berc_view_facts; auto; lia.
Qed.
Theorem C28_bercontainer_assign : forall b con c t x, 0 <= t < 2^63 -> zlen x < 2^62 ->
  exists b' p, berc_assign b con c t x = Ok b' /\ ber_packet p c con t x /\
    is_valid (b_view b') = true /\ v_class (b_view b') = Ok c /\ v_construction (b_view b') = Ok con /\
    v_tag (b_view b') = t /\ berc_content b' = Ok x /\ berc_ber b' = Ok p /\ writes (berc_encode b') p.
Proof.
  intros b con c t x Ht Hx. destruct (berc_assign_rep b con c t x Ht Hx) as (b' & E & Hr).
  exists b', (hdr c con t (zlen x) ++ x). split; auto. split; [apply Hr|]. apply berc_view_facts; auto.
  rewrite zlen_app, hdr_len by auto. pose proof (ehl1_range t (zlen x) ltac:(lia)). lia.
Qed.
Theorem C28_bercontainer_assign_content : forall b x, zlen x < 2^62 ->
  exists b' p, berc_assign_content b x = Ok b' /\ ber_packet p universal primitive 0 x /\
    is_valid (b_view b') = true /\ berc_content b' = Ok x /\ berc_ber b' = Ok p /\ writes (berc_encode b') p.
Proof.
  intros b x Hx. destruct (berc_assign_content_rep b x Hx) as (b' & E & Hr).
  exists b', (hdr universal primitive 0 (zlen x) ++ x). split; auto. split; [apply Hr|].
  edestruct (berc_view_facts _ _ _ _ _ _ Hr) as (? & _ & _ & _ & ? & ? & ?); [|auto].
  rewrite zlen_app, hdr_len by lia. pose proof (ehl1_range 0 (zlen x) ltac:(lia)). lia.
Qed.
Example C28_example : exists b, berc_assign berc_init constructed application 1000 [1; 2] = Ok b /\
  berc_ber b = Ok [0x7F; 0x87; 0x68; 2; 1; 2].
Proof. eexists. split; [vm_compute; reflexivity|]. vm_compute; reflexivity. Qed.

(** C29, refuted: copy-assigning from a container that holds no valid packet (a failed decode leaves one) gives a
    container that claims to be valid. *)
Theorem C29_bercontainer_copy_refuted :
  exists view b, v_make [] = Ok view /\ berc_decode berc_init view = Ok (false, b) /\
    is_valid (b_view b) = false /\ is_valid (b_view (berc_copy_assign b)) = true.
Proof. eexists. eexists. split; [vm_compute; reflexivity|]. split; [vm_compute; reflexivity|]. split; [vm_compute; reflexivity|]. vm_compute; reflexivity. Qed.
(** C29, partial: copies (by assignment or construction) of every container holding a decoded or assigned packet are
    equivalent to the original. *)
Inductive berc_holds : berc -> list Z -> Prop :=
| bo_decode b p c con t x rest view b' : ber_packet p c con t x -> zlen (p ++ rest) < 2^63 -> v_make (p ++ rest) = Ok view ->
    berc_decode b view = Ok (true, b') -> berc_holds b' p
| bo_assign b con c t x b' p : 0 <= t < 2^63 -> zlen x < 2^62 -> berc_assign b con c t x = Ok b' -> berc_ber b' = Ok p -> berc_holds b' p
| bo_assign_content b x b' p : zlen x < 2^62 -> berc_assign_content b x = Ok b' -> berc_ber b' = Ok p -> berc_holds b' p
| bo_copy b p : berc_holds b p -> berc_holds (berc_copy_assign b) p
| bo_copy_construct b p b' : berc_holds b p -> berc_copy_construct b = Ok (true, b') -> berc_holds b' p.
Lemma berc_copy_assign_same b p c con t x : berc_rep b p c con t x -> b_view (berc_copy_assign b) = b_view b /\
  berc_rep (berc_copy_assign b) p c con t x.
Proof.
  intros (HP & Hd & Hv). assert (E : b_view (berc_copy_assign b) = b_view b).
  { unfold b_view, berc_copy_assign. cbn. unfold b_view, pview in Hv. destruct (b_valid b) eqn:Eb; [|discriminate].
    unfold b_data. cbn. reflexivity. }
  split; [exact E|]. split; [exact HP|]. split; [exact Hd|]. congruence.
Qed.
Lemma berc_copy_construct_same b p c con t x : berc_rep b p c con t x -> zlen p < 2^63 ->
  exists b', berc_copy_construct b = Ok (true, b') /\ b_view b' = b_view b /\ berc_rep b' p c con t x.
Proof.
  intros (HP & Hd & Hv) Hz. unfold berc_copy_construct, berc_decode. rewrite Hv, pview_valid. cbn [negb].
  rewrite (pview_ber _ _ _ _ _ [] HP Hz). cbn [bind]. eexists; split; [reflexivity|].
  assert (E : b_view {| b_vec := vec_assign p; b_valid := true; b_tag := v_tag (pview p t x []);
    b_hl := v_hl (pview p t x []); b_cl := v_cl (pview p t x []) |} = pview p t x []).
  { unfold b_view, pview. cbn. rewrite app_nil_r. reflexivity. }
  split; [exact E|]. split; [exact HP|]. split; [reflexivity|exact E].
Qed.
Lemma berc_holds_rep b p : berc_holds b p -> exists c con t x, berc_rep b p c con t x /\ zlen p < 2^63.
Proof.
  induction 1 as [b p c con t x rest view b' HP Hz Ev E | b con c t x b' p Ht Hx E Ep | b x b' p Hx E Ep | b p _ IH | b p b' _ IH E].
  - destruct (berc_decode_packet b p c con t x rest HP Hz) as (v2 & b2 & Ev2 & E2 & Hr).
    assert (v2 = view) by congruence; subst. assert (b2 = b') by congruence; subst. exists c, con, t, x. split; auto.
    rewrite zlen_app in Hz. pose proof (zlen_nonneg rest). lia.
  - destruct (berc_assign_rep b con c t x Ht Hx) as (b2 & E2 & Hr). assert (b2 = b') by congruence; subst.
    assert (Hz : zlen (hdr c con t (zlen x) ++ x) < 2^63)
      by (rewrite zlen_app, hdr_len by auto; pose proof (ehl1_range t (zlen x) ltac:(lia)); lia).
    destruct (berc_view_facts _ _ _ _ _ _ Hr Hz) as (_ & _ & _ & _ & _ & Eb & _).
    assert (p = hdr c con t (zlen x) ++ x) by congruence. subst p. eauto 8.
  - destruct (berc_assign_content_rep b x Hx) as (b2 & E2 & Hr). assert (b2 = b') by congruence; subst.
    assert (Hz : zlen (hdr universal primitive 0 (zlen x) ++ x) < 2^63)
      by (rewrite zlen_app, hdr_len by lia; pose proof (ehl1_range 0 (zlen x) ltac:(lia)); lia).
    destruct (berc_view_facts _ _ _ _ _ _ Hr Hz) as (_ & _ & _ & _ & _ & Eb & _).
    assert (p = hdr universal primitive 0 (zlen x) ++ x) by congruence. subst p. eauto 8.
  - destruct IH as (c & con & t & x & Hr & Hz). exists c, con, t, x. split; auto. eapply berc_copy_assign_same; eauto.
  - destruct IH as (c & con & t & x & Hr & Hz). exists c, con, t, x. split; auto.
    destruct (berc_copy_construct_same b p c con t x Hr Hz) as (b2 & E2 & _ & Hr2). congruence.
Qed.
Theorem C29_bercontainer_copy_partial : forall b p, berc_holds b p ->
  is_valid (b_view b) = true /\ berc_ber b = Ok p /\
  b_view (berc_copy_assign b) = b_view b /\ berc_ber (berc_copy_assign b) = Ok p /\
  exists b', berc_copy_construct b = Ok (true, b') /\ b_view b' = b_view b /\ berc_ber b' = Ok p.
Proof.
  intros b p H. destruct (berc_holds_rep _ _ H) as (c & con & t & x & Hr & Hz).
  destruct (berc_view_facts _ _ _ _ _ _ Hr Hz) as (Hv & _ & _ & _ & _ & Hb & _).
  destruct (berc_copy_assign_same _ _ _ _ _ _ Hr) as (Ev & Hr1).
  destruct (berc_view_facts _ _ _ _ _ _ Hr1 Hz) as (_ & _ & _ & _ & _ & Hb1 & _).
  destruct (berc_copy_construct_same _ _ _ _ _ _ Hr Hz) as (b' & E & Ev2 & Hr2).
  destruct (berc_view_facts _ _ _ _ _ _ Hr2 Hz) as (_ & _ & _ & _ & _ & Hb2 & _).
  split; auto. split; auto. split; auto. split; auto. exists b'. auto.
Qed.
Example C29_example : exists b, berc_holds (berc_copy_assign b) [0x44; 1; 5].
Proof.
  eexists. apply bo_copy. eapply (bo_assign berc_init primitive application 4 [5]);
    [lia | cbn; lia | vm_compute; reflexivity | vm_compute; reflexivity].
Qed.

(** C30, refuted: the container decoded from 1F 80 05 02 08 09 (tag 5 with a redundant leading identifier octet)
    changes its tag when its content is resized to the size it already has. *)
Theorem C30_bercontainer_resize_refuted :
  exists view b b', v_make [0x1F; 0x80; 5; 2; 8; 9] = Ok view /\ berc_decode berc_init view = Ok (true, b) /\
    v_tag (b_view b) = 5 /\ berc_resize b 2 = Ok b' /\ v_tag (b_view b') = 2.
Proof. eexists. eexists. eexists. split; [vm_compute; reflexivity|]. split; [vm_compute; reflexivity|]. split; [vm_compute; reflexivity|]. split; [vm_compute; reflexivity|]. vm_compute; reflexivity. Qed.
(** C30, partial: for packets whose identifier octets are the shortest ones (as every encoder here writes), resizing
    keeps class, construction, tag and the common content prefix. *)
Theorem C30_bercontainer_resize_partial : forall b id len c con t x rest view b1 n,
  x690_ident id c con t -> (forall id', x690_ident id' c con t -> zlen id <= zlen id') -> t < 2^63 ->
  x690_length len (zlen x) -> zlen len <= 9 -> zlen ((id ++ len ++ x) ++ rest) < 2^62 ->
  v_make ((id ++ len ++ x) ++ rest) = Ok view -> berc_decode b view = Ok (true, b1) -> 0 <= n < 2^62 ->
  exists b2 y, berc_resize b1 n = Ok b2 /\ is_valid (b_view b2) = true /\ v_class (b_view b2) = Ok c /\
    v_construction (b_view b2) = Ok con /\ v_tag (b_view b2) = t /\ berc_content b2 = Ok y /\ zlen y = n /\
    ztake (Z.min (zlen x) n) y = ztake (Z.min (zlen x) n) x /\
    exists p, ber_packet p c con t y /\ berc_ber b2 = Ok p.
Proof.
  intros b id len c con t x rest view b1 n Hid Hmin Ht Hlen Hl9 Hz Ev Ed Hn.
  assert (Ht0 : 0 <= t) by (eapply x690_ident_nonneg; eauto).
  assert (Hil : zlen id = encoded_tag_length t).
  { pose proof (x690_ident_min _ _ _ _ Hid ltac:(lia)).
    pose proof (Hmin _ (proj1 (id_octets_x690 c con t ltac:(lia)))). rewrite id_octets_len in * by lia. lia. }
  assert (HP : ber_packet (id ++ len ++ x) c con t x) by (exists id, len; auto 6).
  destruct (berc_decode_packet b _ c con t x rest HP ltac:(lia)) as (v2 & b2 & Ev2 & E2 & Hr).
  assert (v2 = view) by congruence; subst v2. assert (b2 = b1) by congruence; subst b2.
  assert (Hz2 := Hz). rewrite zlen_app in Hz2. pose proof (zlen_nonneg rest).
  destruct (berc_resize_rep b1 id len c con t x n Hid Ht Hil Hlen Hl9 Hr ltac:(lia) Hn) as (b3 & y & E3 & Hr3 & Hy & Hp).
  pose proof (etl_range t Ht0). pose proof (ell_range n). pose proof (len_octets_len n).
  destruct (berc_view_facts _ _ _ _ _ _ Hr3) as (F1 & F2 & F3 & F4 & F5 & F6 & _); [rewrite !zlen_app; lia|].
  exists b3, y. repeat split; auto. eexists; split; [|exact F6]. apply Hr3.
Qed.
Example C30_example : exists b b', berc_assign berc_init primitive context_specific 200 [1; 2; 3] = Ok b /\ berc_resize b 2 = Ok b' /\ berc_ber b' = Ok [0x9F; 0x81; 0x48; 2; 1; 2].
Proof. eexists. eexists. split; [vm_compute; reflexivity|]. split; [vm_compute; reflexivity|]. vm_compute; reflexivity. Qed.

Print Assumptions C19_boolean_history.
Print Assumptions C19_boolean_canonical.
Print Assumptions C19_boolean_decode_exact.
Print Assumptions C20_null_encoding.
Print Assumptions C20_null_decode_exact.
Print Assumptions C20_null_round_trip.
Print Assumptions C22_string_round_trip.
Print Assumptions C23_rejected_construction_refuted.
Print Assumptions C23_string_history_partial.
Print Assumptions C23_string_history_progress.
Print Assumptions C24_resize_keeps_prefix.
Print Assumptions C68_resize_reads_in_size_refuted.
Print Assumptions C68_resize_reads_in_size_partial.
Print Assumptions C26_explicit_string_content_refuted.
Print Assumptions C26_explicit_string_content_partial.
Print Assumptions C25_integer_failed_decode.
Print Assumptions C25_enumerated_failed_decode.
Print Assumptions C25_boolean_failed_decode.
Print Assumptions C25_string_failed_decode.
Print Assumptions C27_small_container_refuted.
Print Assumptions C27_small_container_partial.
Print Assumptions C27_small_container_progress_partial.
Print Assumptions C28_bercontainer_decode_encode.
Print Assumptions C28_bercontainer_assign.
Print Assumptions C28_bercontainer_assign_content.
Print Assumptions C29_bercontainer_copy_refuted.
Print Assumptions C29_bercontainer_copy_partial.
Print Assumptions C30_bercontainer_resize_refuted.
Print Assumptions C30_bercontainer_resize_partial.
