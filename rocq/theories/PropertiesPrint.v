(** Property theorems C116, C117: the ber_view tool. *)
From Coq Require Import String Ascii.
From Verif Require Import Base Ident View Prims Schema Oid Time Spec Print PrintSpec PrintJson PrintProofs PropertiesView.
Close Scope string_scope.

(** A platform on which std::isprint is false for every negative char, and one (as the C standard allows) on which that is
    undefined behaviour. *)
Definition linux : env := Env (fun _ => Ok false) (fun _ => lit "1970-01-01T00:00:00+00:00").
Definition strict_platform : env := Env (fun _ => UB) (fun _ => lit "1970-01-01T00:00:00+00:00").
Lemma linux_glibc : glibc linux. Proof. intros b _. reflexivity. Qed.

Lemma dumps_null e l fuel : bytes l -> zlen l < 2^63 -> no_packet_at l -> ~ overflowing l -> (0 < fuel)%nat -> ber_view e fuel l = Ok (lit "null", -1).
Proof.
  intros Hb Hz Hno Hov Hf. unfold ber_view, v_make. destruct (tail_invalid 0 l Hb Hz Hno Hov) as (v & -> & Hv). cbn [bind].
  destruct fuel; [lia|]. cbn [print_view]. rewrite Hv. reflexivity.
Qed.

(** C116.  For every file of ordinary octets the tool terminates: it prints null and returns -1 exactly when no packet is at
    the front; otherwise it returns 0, and has undefined behaviour exactly when a UTCTime or GeneralizedTime in the packet is
    empty or too short to look for a zone in.
    Missing: files with a header that overflows (see the refutation), files of 2^62 octets or more, and platforms where
    std::isprint of a negative char is undefined. *)
Theorem C116_view_tool_terminates_partial : forall e file fuel, glibc e ->
  bytes file -> zlen file < 2^62 -> ordinary file -> (List.length file < fuel)%nat ->
  no_packet_at file /\ ber_view e fuel file = Ok (lit "null", -1) \/
  exists n rest, is_node n /\ file = octets n ++ rest /\
    ((leaves (fun c t x => ~ short_time c t x) n /\ exists s, ber_view e fuel file = Ok (s, 0)) \/
     (~ leaves (fun c t x => ~ short_time c t x) n /\ ber_view e fuel file = UB)).
Proof.
  intros e file fuel He Hb Hz Ho Hf. destruct (ordinary_file file Hb ltac:(lia) Ho) as [Hno|(n & rest & Hn & ->)].
  - left. split; [exact Hno|]. apply dumps_null; auto; [lia| |lia]. apply (Ho [] file). reflexivity.
  - right. exists n, rest. split; [exact Hn|]. split; [reflexivity|]. rewrite app_length in Hf.
    destruct (ber_view_node e n rest fuel He Hn Hz ltac:(lia)) as [[H1 H2]|[H1 (s & H2 & _)]]; [right|left]; eauto.
Qed.
(** SEQUENCE { BOOLEAN TRUE, two octets that are no packet }, followed by another octet. *)
Definition sample_kid : node := Leaf [1; 1; 255] universal 1 [255].
Definition sample : node := Branch [48; 5; 1; 1; 255; 4; 9] universal 16 [sample_kid] [4; 9].
Lemma no_header_short l : bytes l -> zlen l < 2^63 -> (exists v, v_make l = Ok v /\ is_valid v = false) -> no_packet_at l.
Proof. intros Hb Hz (v & E & Hv). eapply invalid_no_packet; eauto. Qed.
(** Files of at most eight octets are ordinary. *)
Lemma short_ordinary l : bytes l -> zlen l <= 8 -> ordinary l.
Proof.
  intros Hb Hz front back -> Ho. apply bytes_app in Hb. destruct Hb as [_ Hb]. rewrite zlen_app in Hz. pose proof (zlen_nonneg front).
  destruct Ho as [(b & ds & rest & -> & _ & _ & Hv)|(h & n & Hh & Hn)].
  - destruct (HeaderProofs.b128_value_nonneg ds) as [_ Hu]. change (b :: ds ++ rest) with ([b] ++ ds ++ rest) in Hz. rewrite !zlen_app in Hz.
    change (zlen [b]) with 1 in Hz. pose proof (zlen_nonneg rest). pose proof (zlen_nonneg ds).
    assert (128 ^ zlen ds <= 128 ^ 7) by (apply Z.pow_le_mono_r; lia). change (128 ^ 7) with (2 ^ 49) in *. lia.
  - destruct Hh as (id & len & rest & c & con & t & -> & Hi & Ht & Hl & Hl9 & ->). rewrite !zlen_app in Hz. pose proof (zlen_nonneg rest).
    pose proof (zlen_nonneg id). destruct Hl as [k Hk|ds Hds Hk]; [change (zlen [k]) with 1 in *; lia|].
    rewrite zlen_cons in *. pose proof (IdentProofs.be_value_bound ds Hds) as Hv. assert (256 ^ zlen ds <= 256 ^ 7) by (apply Z.pow_le_mono_r; lia).
    change (256 ^ 7) with (2 ^ 56) in *. lia.
Qed.
Lemma short_length b len n : x690_length (b :: len) n -> b < 128 -> n = b /\ len = [].
Proof.
  intros H Hb. remember (b :: len) as l eqn:E. destruct H as [k Hk|ds Hds Hk].
  - pose proof (f_equal (hd 0) E) as E1. pose proof (f_equal (@tl Z) E) as E2. cbn [hd tl] in *. auto.
  - pose proof (f_equal (hd 0) E) as E1. cbn [hd] in E1. lia.
Qed.
Lemma sample_is_node : is_node sample.
Proof.
  constructor.
  - exists [48], [5]. split; [apply (x690_low universal constructed 16); lia|]. split; [lia|]. split; [apply (x690_short 5); lia|]. split; [cbn; lia|reflexivity].
  - bytes_lit.
  - apply no_header_short; [bytes_lit | cbn; lia |]. eexists; split; vm_compute; reflexivity.
  - intros [(b & ds & rest & E & Hm & _)|(h & n & (id & len & rest & c & con & t & E & Hi & _ & Hl & _ & ->) & Hn)].
    + injection E as <- _. discriminate.
    + destruct Hi as [c con t Ht|c con ds Hds]; injection E as E1 E2; [|destruct c, con; cbn in E1; lia].
      destruct len as [|b len]; [inversion Hl|]. assert (Eb : b = 9) by (injection E2; auto). destruct (short_length b len n Hl ltac:(lia)) as [-> ->].
      match type of Hn with _ <= zlen ?l + _ + _ => change (zlen l) with 1 in Hn end. change (zlen [b]) with 1 in Hn. lia.
  - constructor; [|constructor]. constructor; [|bytes_lit]. exists [1], [1]. split; [apply (x690_low universal primitive 1); lia|].
    split; [lia|]. split; [apply (x690_short 1); cbn; lia|]. split; [cbn; lia|reflexivity].
Qed.
Example C116_example : ordinary (octets sample ++ [7]) /\ is_node sample /\ leaves (fun c t x => ~ short_time c t x) sample /\
  ber_view linux 20 (octets sample ++ [7]) =
    Ok (lit "{ ""length"": 7, ""identifier"": { ""class"": ""Universal"", ""tag"": ""Sequence / Sequence Of"" }, ""content"": [{ ""length"": 3, ""identifier"": { ""class"": ""Universal"", ""tag"": ""Boolean"" }, ""content"": true }] }", 0).
Proof.
  split; [apply short_ordinary; [bytes_lit|cbn; lia]|]. split; [apply sample_is_node|]. split; [|vm_compute; reflexivity].
  constructor. constructor; [|constructor]. constructor. unfold short_time. lia.
Qed.
(** In general it neither terminates nor stays inside its input: an empty UTCTime; on a platform that takes the C standard at
    its word, an octet string with an octet above 127; a SEQUENCE around a REAL whose length field, with its header, adds up
    to 2^64: the loop over the components never advances. *)
Lemma stuck e t : forall n first fuel, print_children (print_view e fuel) n first (Iter [9; 0x88; 255; 255; 255; 255; 255; 255; 255; 246] (View (Some [9; 0x88; 255; 255; 255; 255; 255; 255; 255; 246]) t 10 (2^64 - 10))) = NoFuel \/ t <> 9.
Proof.
  intros n first fuel. destruct (Z.eq_dec t 9) as [->|Ht]; [left|right; exact Ht]. revert first.
  induction n as [|n IH]; intros first; cbn [print_children]; [reflexivity|]. unfold it_at_end. cbn [it_view is_valid v_mem negb].
  destruct fuel as [|fuel]; [reflexivity|]. cbn [print_view is_valid v_mem negb].
  match goal with |- context [v_identifier ?v] => set (w := v) in * end.
  replace (v_identifier w) with (Ok (universal, 9)) by (vm_compute; reflexivity). replace (v_construction w) with (Ok primitive) by (vm_compute; reflexivity).
  cbn [bind fst class_eqb]. replace (print_universal e w) with (@Ok (list Z) []) by reflexivity. cbn [bind].
  replace (it_next (Iter _ w)) with (Ok (Iter [9; 0x88; 255; 255; 255; 255; 255; 255; 255; 246] w)) by (vm_compute; reflexivity). cbn [bind].
  rewrite IH. reflexivity.
Qed.
Theorem C116_view_tool_terminates_refuted :
  (forall e fuel, ber_view e (S fuel) [23; 0] = UB) /\
  (forall fuel, ber_view strict_platform (S fuel) [4; 1; 200] = UB) /\
  (forall e fuel, ber_view e fuel [48; 10; 9; 0x88; 255; 255; 255; 255; 255; 255; 255; 246] = NoFuel).
Proof.
  split; [|split].
  - intros e fuel. vm_compute. reflexivity.
  - intros fuel. vm_compute. reflexivity.
  - intros e fuel. unfold ber_view. replace (v_make _) with (Ok (View (Some [48; 10; 9; 0x88; 255; 255; 255; 255; 255; 255; 255; 246]) 16 2 10)) by (vm_compute; reflexivity).
    cbn [bind]. destruct fuel as [|fuel]; [reflexivity|]. cbn [print_view is_valid v_mem negb].
    match goal with |- context [v_identifier ?v] => set (w := v) in * end.
    replace (v_identifier w) with (Ok (universal, 16)) by (vm_compute; reflexivity). replace (v_construction w) with (Ok constructed) by (vm_compute; reflexivity). cbn [bind].
    replace (v_begin w) with (Ok (Iter [9; 0x88; 255; 255; 255; 255; 255; 255; 255; 246] (View (Some [9; 0x88; 255; 255; 255; 255; 255; 255; 255; 246]) 9 10 (2^64 - 10)))) by (vm_compute; reflexivity).
    cbn [bind]. destruct (stuck e 9 fuel true fuel) as [->|H]; [reflexivity|congruence].
Qed.

(** C117.  What the tool prints is JSON: an object with the packet's length, its identifier and its content; the content of a
    constructed packet is the array of what is printed for the packets in it, in order; the content of a primitive packet is
    its value.
    Proved for packets without REAL, UTCTime and GeneralizedTime, and without quotation marks and backslashes in their
    strings; the value of ENUMERATED, and of object identifiers with a first octet of 120 or more, is left out. *)
Theorem C117_view_tool_json_partial : forall e n rest fuel, glibc e ->
  is_node n -> leaves texty n -> zlen (octets n ++ rest) < 2^62 -> (List.length (octets n) < fuel)%nat ->
  exists s j, ber_view e fuel (octets n ++ rest) = Ok (s, 0) /\ json_of s = Some j /\
    shown (fun c t x j => faithful c t x -> content_shown c t x j) n j.
Proof.
  intros e n rest fuel He Hn Ht Hz Hf. destruct (ber_view_node e n rest fuel He Hn Hz Hf) as [[H _]|[_ (s & Hs & Hg)]].
  - exfalso. apply H. clear -Ht. induction n as [p c t x|p c t kids tail IH] using node_induction; inversion Ht; subst; constructor.
    + unfold calm, short_time. intros (Hc & H & _). match goal with H : texty _ _ _ |- _ => destruct H as [H1 _] end. destruct (H1 Hc) as (_ & ? & ?). lia.
    + match goal with H : Forall _ kids |- _ => rename H into Hk end. clear -IH Hk. induction IH; inversion Hk; subst; constructor; auto.
  - destruct (Hg Ht) as (j & Hj & Hsh). exists s, j. split; [exact Hs|]. split; [apply reads_json; exact Hj|exact Hsh].
Qed.
Example C117_example : is_node sample /\ leaves texty sample /\ leaves faithful sample.
Proof.
  split; [apply sample_is_node|]. split; constructor; (constructor; [|constructor]); constructor.
  - split; [lia|]. intros H. exfalso. apply H; cbn; auto.
  - unfold faithful. lia.
Qed.
(** In general it is not JSON, or says something else: ENUMERATED 1 is shown as 0; the content of a REAL and a time are left
    out or not quoted; a quotation mark in a string is not escaped; the object identifier 2.999 is shown as 3.16.55; and 
    packets behind the first are dropped without a word. *)
Definition printed (file : list Z) : option json :=
  match ber_view linux 50 file with Ok (s, 0) => json_of s | _ => None end.
Definition content_of (j : json) : json :=
  match j with JObj [_; _; (_, x)] => x | _ => j end.
Theorem C117_view_tool_json_refuted :
  (option_map content_of (printed [10; 1; 1]) = Some (JNum (lit "0")) /\ ~ is_int (JNum (lit "0")) (twos_value [1])) /\
  (exists s, ber_view linux 50 [9; 1; 64] = Ok (s, 0) /\ json_of s = None) /\
  (exists s, ber_view linux 50 ([24; 15] ++ lit "19851106210627Z") = Ok (s, 0) /\ json_of s = None) /\
  (exists s, ber_view linux 50 [12; 1; 34] = Ok (s, 0) /\ json_of s = None) /\
  (x690_oid [0x88; 0x37] [2; 999] /\ option_map content_of (printed [6; 2; 0x88; 0x37]) = Some (JArr [JNum (lit "3"); JNum (lit "16"); JNum (lit "55")])) /\
  printed [5; 0; 5; 0] = printed [5; 0].
Proof.
  split; [|split; [|split; [|split; [|split]]]].
  - split; [vm_compute; reflexivity|]. intros (l & [[_ H]|[H _]] & _ & _ & Hv); [|vm_compute in H; discriminate].
    injection H as H. subst l. vm_compute in Hv. discriminate.
  - eexists. split; vm_compute; reflexivity.
  - eexists. split; vm_compute; reflexivity.
  - eexists. split; vm_compute; reflexivity.
  - split; [|vm_compute; reflexivity]. apply PropertiesOid.C33_oid_decode_x690_refuted.
  - vm_compute. reflexivity.
Qed.
