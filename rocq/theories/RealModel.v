(** Model of /repo/include/fast_ber/ber_types/Real.hpp.  A double is its 64-bit IEEE 754 pattern, as eight octets, most
    significant first (lines 426-429 and 441-444: memcpy plus std::reverse on a little-endian machine).
    decode_real_decimal (src/ber_types/Real.cpp: std::regex and absl::SimpleAtod) is the argument [decimal] below, so that what
    is proved about Real holds whatever it does; it is modelled in RealDecimal.v.  operator== is in RealEq.v. *)
From Verif Require Export Base Ident View Prims.

(** ** Encoding *)
Definition real_max : Z := 100. (* line 22: MaxEncodedLength *)
(** Lines 455, 478: std::all_of(buffer.begin() + 1, buffer.end(), == 0); buffer.back() is 0. *)
Definition all_zero (l : list Z) : bool := forallb (fun b => b =? 0) l.
(** Lines 495-499: one bit to the left; [b8] is the octet behind the last one (buffer.back() = 0). *)
Fixpoint shift_left_1 (l : list Z) : list Z :=
  match l with
  | [] => []
  | b :: l' => u8 (Z.shiftr (Z.lor (b * 256) (hd 0 l')) 7) :: shift_left_1 l'
  end.
(** Lines 435-552: encode_real; the octets it stores at output[0..]. [d] is the double's eight octets. *)
Definition encode_real (d : list Z) : list Z :=
  match d with
  | [b0; b1; b2; b3; b4; b5; b6; b7] =>
      let sign := Z.shiftr b0 7 in
      let exponent := Z.lor (Z.land b0 0x7F * 16) (Z.shiftr b1 4) in
      let m := [Z.land b1 0x0F; b2; b3; b4; b5; b6; b7] in
      let binary (exponent : Z) (m : list Z) :=
        if (-128 <=? exponent) && (exponent <=? 127)
        then [u8 (Z.lor 0x80 (sign * 64)); u8 exponent] ++ m
        else [u8 (Z.lor 0x81 (sign * 64)); u8 (Z.shiftr exponent 8); u8 (Z.land exponent 0xFF)] ++ m in
      if exponent =? 0x7FF
      then if all_zero m then (if sign =? 0 then [0x40] else [0x41]) else [0x42]
      else if exponent =? 0
           then if all_zero m then (if sign =? 0 then [] else [0x43])
                else binary (exponent - 1075) (shift_left_1 m)
           else binary (exponent - 1075) (Z.lor (Z.land b1 0x0F) 0x10 :: tl m)
  | _ => []
  end.

(** ** Decoding *)
(** Lines 113-117: whether some octet is not zero. *)
Definition mantissa_nonzero (l : list Z) : bool := existsb (fun b => negb (b =? 0)) l.
(** Lines 82-92, 214-222: the exponent's length and offset. *)
Definition exp_len_off (input : list Z) : res (Z * Z) :=
  let* b0 := zget input 0 in
  let n := Z.land b0 0x03 + 1 in
  if n =? 4 then let* b1 := zget input 1 in Ok (b1, 2) else Ok (n, 1).
(** Lines 100-110: the exponent starts with nine identical bits. *)
Definition nine_identical (input : list Z) (exponent_offset : Z) : res bool :=
  let* first_byte := zget input exponent_offset in
  let* second_byte := zget input (exponent_offset + 1) in
  Ok (((first_byte =? 0xFF) && negb (Z.land second_byte 0x80 =? 0)) ||
      ((first_byte =? 0x00) && (Z.land second_byte 0x80 =? 0))).
(** Lines 74-121: check_real_binary. *)
Definition check_real_binary (input : list Z) : res bool :=
  if negb (zlen input >? 3) then Ok false
  else let* b0 := zget input 0 in
       if Z.land b0 0x30 =? 0x30 then Ok false
       else let* (exponent_len, exponent_offset) := exp_len_off input in
            if (exponent_len =? 0) || (exponent_len + exponent_offset >=? zlen input) then Ok false
            else let* bad := if exponent_len >? 1 then nine_identical input exponent_offset else Ok false in
                 if (bad : bool) then Ok false
                 else Ok (mantissa_nonzero (zdrop (exponent_len + exponent_offset) input)).

Definition plus_zero := [0; 0; 0; 0; 0; 0; 0; 0].
Definition minus_zero := [0x80; 0; 0; 0; 0; 0; 0; 0].
Definition plus_inf := [0x7F; 0xF0; 0; 0; 0; 0; 0; 0].
Definition minus_inf := [0xFF; 0xF0; 0; 0; 0; 0; 0; 0].
Definition quiet_nan := [0x7F; 0xF8; 0; 0; 0; 0; 0; 0].

(** int from the size_t/int arithmetic of line 331. *)
Definition to_i32 (x : Z) : Z := let y := x mod 2^32 in if y <? 2^31 then y else y - 2^32.
(** Lines 311-315: the mantissa's octets without leading zeros (at least one is kept). *)
Fixpoint skip_leading (l : list Z) : list Z :=
  match l with 0 :: ((_ :: _) as l') => skip_leading l' | _ => l end.
(** Lines 243-246: the loop reading the exponent runs exponent_offset times (not exponent_len times).  Shifting a
    negative int to the left is taken as multiplication (C++20; undefined in C++11). *)
Fixpoint read_exponent (input : list Z) (k : Z) (n : nat) (e : Z) : res Z :=
  match n with O => Ok e | S n => let* b := zget input k in read_exponent input (k + 1) n (Z.lor (e * 256) b) end.
(** Lines 343-347: at most three rounds (first_byte is an octet). *)
Fixpoint right_shift_count (fuel : nat) (first_byte exponent shift : Z) : Z :=
  match fuel with
  | O => shift
  | S fuel => if negb (Z.land first_byte 0xE0 =? 0) && (exponent <? 0x7FF - shift)
              then right_shift_count fuel (Z.shiftr first_byte 1) exponent (shift + 1) else shift
  end.
(** Lines 351-355, 412-416: db[j] := ((db[j-1] << 8) | db[j]) >> shift for j = 7..1; [p] is db[j-1]. *)
Fixpoint shift_right_bits (p : Z) (l : list Z) (shift : Z) : list Z :=
  match l with [] => [] | b :: l => u8 (Z.shiftr (Z.lor (p * 256) b) shift) :: shift_right_bits b l shift end.
(** Lines 364-367: the loop changes neither first_byte nor shift, and exponent only by 8 - shift = 0. *)
Fixpoint left_shift_loop (fuel : nat) (first_byte exponent shift : Z) : res Z :=
  match fuel with
  | O => NoFuel
  | S fuel => if (Z.land first_byte 0xF0 =? 0) && (exponent >? 8 - shift)
              then left_shift_loop fuel first_byte (exponent - (8 - shift)) shift else Ok exponent
  end.
(** Lines 369-373: db[j] := ((db[j] << 8) | db[j+1]) >> 8 for j = 1..7. *)
Fixpoint shift_left_bits (l : list Z) (shift : Z) : list Z :=
  match l with [] => [] | b :: l => u8 (Z.shiftr (Z.lor (b * 256) (hd 0 l)) shift) :: shift_left_bits l shift end.

(** Lines 306-432, from the exponent in base 2 and the mantissa octets on.  Result: the eight octets of the double. *)
Definition assemble (fuel : nat) (mantissa_sign exponent : Z) (mantissa : list Z) : res (list Z) :=
  let m := skip_leading mantissa in
  let db := ztake 8 (m ++ zrep 8 0) in                                   (* double_bytes[1..8], lines 318-324 *)
  let exponent := to_i32 (exponent + (zlen m - 7) * 8 + 1075) in         (* line 331 *)
  let inf := if mantissa_sign =? 0 then plus_inf else minus_inf in
  let zero := if mantissa_sign =? 0 then plus_zero else minus_zero in
  let b1 := hd 0 db in
  let* (exponent, db) :=
     if negb (Z.land b1 0xE0 =? 0) && (exponent <? 0x7FF)
     then let shift := right_shift_count 8 b1 exponent 0 in
          Ok (exponent + shift, shift_right_bits 0 (ztake 7 db) shift)
     else if (Z.land b1 0xF0 =? 0) && (exponent >? 0)
          then let* exponent := left_shift_loop fuel b1 exponent 8 in
               Ok (exponent, ztake 7 (shift_left_bits db 8))
          else Ok (exponent, ztake 7 db) in
  if (exponent >=? 0x7FF) || (exponent <=? -55)
  then Ok (if exponent >=? 0 then inf else zero)
  else
    let '(exponent, db) :=
      if exponent <=? 0
      then let e := exponent - 1 in
           let shift := Z.shiftr (- e) 3 in
           let db := ztake 7 (zrep shift 0 ++ db) in
           (0, shift_right_bits 0 db (Z.land (- e) 0x07))
      else (exponent, db) in
    Ok (u8 (Z.lor (mantissa_sign * 128) (Z.shiftr exponent 4))
        :: u8 (Z.lor (exponent * 16) (Z.land (hd 0 db) 0x0F)) :: tl db).

(** Lines 207-433: decode_real_binary.  [None]: false is returned and the output is not changed. *)
Definition decode_real_binary (fuel : nat) (input : list Z) : res (option (list Z)) :=
  let* ok := check_real_binary input in
  if negb ok then Ok None
  else
    let* (exponent_len, exponent_offset) := exp_len_off input in
    if exponent_len >? 4 then Ok None
    else
      let* e0 := zget input exponent_offset in
      let* b0 := zget input 0 in
      let exponent := if negb (Z.land e0 0x80 =? 0) then -1 else 0 in
      let mantissa_sign := Z.land (Z.shiftr (Z.land b0 0x40) 6) 0x01 in
      let base := Z.shiftr (Z.land b0 0x30) 4 in
      let factor := Z.shiftr (Z.land b0 0x0C) 2 in
      let* exponent := read_exponent input exponent_offset (Z.to_nat exponent_offset) exponent in
      let int_max := 2^31 - 1 in let int_min := -(2^31) in
      let scale (k : Z) (e : Z) : option Z :=
        if (if e >? 0 then e <=? Z.quot int_max k else e >=? Z.quot int_min k) then Some (e * k) else None in
      match (if base =? 1 then scale 3 exponent else if base =? 2 then scale 4 exponent else Some exponent) with
      | None => Ok None
      | Some exponent =>
          if negb (exponent <=? int_max - factor) then Ok None
          else
            let exponent := exponent + factor in
            if (exponent <? -0xFFFFFF) || (exponent >? 0xFFFFFF)
            then Ok (Some (if exponent >=? 0 then (if mantissa_sign =? 0 then plus_inf else minus_inf)
                           else (if mantissa_sign =? 0 then plus_zero else minus_zero)))
            else let* d := assemble fuel mantissa_sign exponent (zdrop (exponent_len + exponent_offset) input) in Ok (Some d)
      end.

(** Lines 164-199: decode_real_special. *)
Definition decode_real_special (input : list Z) : option (list Z) :=
  match input with
  | [b] => if b =? 0x40 then Some plus_inf else if b =? 0x41 then Some minus_inf
           else if b =? 0x42 then Some quiet_nan else if b =? 0x43 then Some minus_zero else None
  | _ => None
  end.
(** Lines 129-156: decode_real. *)
Definition decode_real (decimal : list Z -> option (list Z)) (fuel : nat) (input : list Z) : res (option (list Z)) :=
  match input with
  | [] => Ok (Some plus_zero)
  | b0 :: _ =>
      if negb (Z.shiftr (Z.land b0 0x80) 7 =? 0) then decode_real_binary fuel input
      else if Z.shiftr (Z.land b0 0xC0) 6 =? 0 then Ok (decimal input)
      else if Z.shiftr (Z.land b0 0xC0) 6 =? 1 then Ok (decode_real_special input)
      else Ok None
  end.

(** ** The class: its state is a SmallFixedIdBerContainer of 100 octets (line 66) *)
(** Line 36: Real(). *)
Definition real_init (i : ident) : list Z := small_init i real_max.
(** Lines 560-566: value(): 0.0 when decoding fails. *)
Definition real_value (decimal : list Z -> option (list Z)) (fuel : nat) (i : ident) (data : list Z) : res (list Z) :=
  let* x := small_content i data in
  let* o := decode_real decimal fuel x in
  Ok (match o with Some d => d | None => plus_zero end).
(** Lines 583-588: assign(double). *)
Definition real_assign (i : ident) (data d : list Z) : res (list Z) :=
  let x := encode_real d in
  let* data := mem_write data (small_hl i) x in small_resize i data (zlen x).
(** Lines 625-641. *)
Definition real_encode (i : ident) (data buffer : list Z) : res enc_result := small_encode i data buffer.
Definition real_encoded_length (i : ident) (data : list Z) : res Z := small_ber_length i data.
Definition real_decode (i : ident) (data : list Z) (v : view) : dec_result (list Z) := small_decode i real_max data v.
