(** Independent specifications, in terms of ITU-T X.690 and plain arithmetic.  No model function is used here. *)
From Verif Require Import Base Ident.

(** Unsigned value of big-endian octets. *)
Definition be_value (l : list Z) : Z := fold_left (fun a b => a * 256 + b) l 0.
(** Two's complement value of big-endian octets. *)
Definition twos_value (l : list Z) : Z :=
  match l with [] => 0 | b :: _ => if b <? 128 then be_value l else be_value l - 256 ^ zlen l end.

(** X.690 8.1.3: the octets [l] are a definite-form length field denoting [n]. *)
Inductive x690_length : list Z -> Z -> Prop :=
| x690_short n : 0 <= n < 128 -> x690_length [n] n
| x690_long ds : bytes ds -> 1 <= zlen ds <= 126 -> x690_length ((128 + zlen ds) :: ds) (be_value ds).

(** X.690 8.1.2.4.2 / 8.19.2: base-128 digits, most significant first, bit 8 set on all but the last. *)
Definition b128_value (l : list Z) : Z := fold_left (fun a b => a * 128 + b mod 128) l 0.
Definition b128_octets (l : list Z) : Prop :=
  exists pre lst, l = pre ++ [lst] /\ Forall (fun b => 128 <= b < 256) pre /\ 0 <= lst < 128.

(** X.690 8.1.2: the octets [l] are identifier octets for class, construction and tag.  (8.1.2.2 and 8.1.2.4.2 c
    further ask for the low-tag form whenever the tag is at most 30 and for a non-zero leading digit; see
    [x690_ident_strict].) *)
Inductive x690_ident : list Z -> class -> construction -> Z -> Prop :=
| x690_low c con t : 0 <= t < 31 -> x690_ident [class_num c * 64 + construction_num con * 32 + t] c con t
| x690_high c con ds : b128_octets ds ->
    x690_ident ((class_num c * 64 + construction_num con * 32 + 31) :: ds) c con (b128_value ds).
Definition x690_ident_strict (l : list Z) c con t : Prop :=
  x690_ident l c con t /\ (t <= 30 -> zlen l = 1) /\ (forall b ds, l = b :: 128 :: ds -> False).

(** A complete definite-length packet (TLV): identifier octets, length octets, and that many content octets. *)
Definition tlv (packet : list Z) (c : class) (con : construction) (t : Z) (content : list Z) : Prop :=
  exists id len, x690_ident id c con t /\ x690_length len (zlen content) /\ packet = id ++ len ++ content.

(** A packet in the subset the library supports: at most 8 length octets after the initial one, tag below 2^63. *)
Definition ber_packet (packet : list Z) (c : class) (con : construction) (t : Z) (content : list Z) : Prop :=
  exists id len, x690_ident id c con t /\ t < 2^63 /\ x690_length len (zlen content) /\ zlen len <= 9 /\
                 packet = id ++ len ++ content.

Record pkt := Pkt { pk_ber : list Z; pk_class : class; pk_con : construction; pk_tag : Z; pk_content : list Z }.
Definition pkt_ok (k : pkt) : Prop := ber_packet (pk_ber k) (pk_class k) (pk_con k) (pk_tag k) (pk_content k).

(** The octets of a value whose type has identifier [i] and whose innermost content is [x]: one packet, or (explicit
    tagging) a constructed packet whose content is one packet followed by [extra] octets (none in a proper encoding). *)
Definition id_packet (i : ident) (con : construction) (p x extra : list Z) : Prop :=
  match i with
  | Id c t => ber_packet p c con t x /\ extra = []
  | DoubleId oc ot ic it => exists q, ber_packet p oc constructed ot (q ++ extra) /\ ber_packet q ic con it x
  end.

(** An encode function that writes exactly the octets [p]: with enough room they are written at the start of the
    buffer, nothing else changes and their number is returned; otherwise it fails and the buffer is unchanged. *)
Definition writes (enc : list Z -> res enc_result) (p : list Z) : Prop :=
  forall buf, enc buf = Ok (if zlen p <=? zlen buf then EncResult (p ++ zdrop (zlen p) buf) true (zlen p)
                            else EncResult buf false 0).

(** X.690 8.19.2: the octets of a subidentifier in their only allowed form: the first octet is not 0x80. *)
Definition b128_shortest (l : list Z) : Prop := b128_octets l /\ hd 0 l <> 128.
(** X.690 8.19: object identifiers.  The contents are base-128 subidentifiers; the first one is 40 * X + Y where X and
    Y are the first two components and X is at most 2 (Y is below 40 when X is 0 or 1). *)
Definition x690_oid (content comps : list Z) : Prop :=
  exists g0 gs X Y, content = g0 ++ concat gs /\ b128_shortest g0 /\ Forall b128_shortest gs /\
    0 <= X <= 2 /\ 0 <= Y /\ (X < 2 -> Y < 40) /\ b128_value g0 = 40 * X + Y /\
    comps = X :: Y :: map b128_value gs.
(** The component lists an ASN.1 tool may hand to ObjectIdentifier::assign and the class documents as valid. *)
Definition oid_valid (comps : list Z) : Prop :=
  exists a b cs, comps = a :: b :: cs /\ 0 <= a <= 2 /\ 0 <= b <= 39 /\ Forall (fun c => 0 <= c) cs.

(** IEEE 754 binary64: eight octets, most significant first: 1 sign bit, 11 exponent bits, 52 fraction bits. *)
Definition is_double (d : list Z) : Prop := zlen d = 8 /\ bytes d.
Definition dbl_sign (d : list Z) : Z := be_value d / 2^63.
Definition dbl_exp (d : list Z) : Z := (be_value d / 2^52) mod 2^11.
Definition dbl_frac (d : list Z) : Z := be_value d mod 2^52.
Definition dbl_zero (d : list Z) : Prop := dbl_exp d = 0 /\ dbl_frac d = 0.
Definition dbl_inf (d : list Z) : Prop := dbl_exp d = 2047 /\ dbl_frac d = 0.
Definition dbl_nan (d : list Z) : Prop := dbl_exp d = 2047 /\ dbl_frac d <> 0.
Definition dbl_finite (d : list Z) : Prop := dbl_exp d < 2047.
(** A finite double is (-1)^sign * mantissa * 2^scale. *)
Definition dbl_mantissa (d : list Z) : Z := if dbl_exp d =? 0 then dbl_frac d else 2^52 + dbl_frac d.
Definition dbl_scale (d : list Z) : Z := (if dbl_exp d =? 0 then 1 else dbl_exp d) - 1075.
(** m * 2^e = n * 2^f, for integer exponents of any sign. *)
Definition same_scaled (m e n f : Z) : Prop :=
  m * 2 ^ (e - Z.min e f) = n * 2 ^ (f - Z.min e f).

(** X.690 8.5.7: binary encoding of a real value: (-1)^s * n * 2^f * base^e with 0 <= f < 4, base 2, 8 or 16,
    exponent in two's complement (one, two or three octets, or a length octet and that many), mantissa unsigned. *)
Inductive x690_real_binary : list Z -> Z -> Z -> Z -> Z -> Z -> Prop :=
| x690_real_short s bb f expo mant :
    0 <= s <= 1 -> 0 <= bb <= 2 -> 0 <= f <= 3 -> bytes expo -> 1 <= zlen expo <= 3 -> bytes mant -> mant <> [] ->
    x690_real_binary ((128 + 64 * s + 16 * bb + 4 * f + (zlen expo - 1)) :: expo ++ mant)
      s (be_value mant) f (nth (Z.to_nat bb) [2; 8; 16] 0) (twos_value expo)
| x690_real_long s bb f expo mant :
    0 <= s <= 1 -> 0 <= bb <= 2 -> 0 <= f <= 3 -> bytes expo -> 1 <= zlen expo <= 255 -> bytes mant -> mant <> [] ->
    x690_real_binary ((128 + 64 * s + 16 * bb + 4 * f + 3) :: zlen expo :: expo ++ mant)
      s (be_value mant) f (nth (Z.to_nat bb) [2; 8; 16] 0) (twos_value expo).
