(** Model of the primitive types and their containers.
    Sources under /repo/include/fast_ber: util/SmallFixedIdBerContainer.hpp, util/FixedIdBerContainer.hpp,
    util/BerContainer.hpp, ber_types/Integer.hpp, ber_types/Enumerated.hpp, ber_types/Boolean.hpp, ber_types/Null.hpp,
    ber_types/StringImpl.hpp.  assert is modelled as a no-op (NDEBUG). *)
From Verif Require Export Base Ident View.

(** DecodeResult{success} together with the object after the call (util/DecodeHelpers.hpp 10-13). *)
Definition dec_result (A : Type) := res (bool * A).

(** RuntimeId == Id (ber_types/Identifier.hpp 53-69), on a view. *)
Definition view_has_id (v : view) (c : class) (t : Z) : res bool :=
  let* i := v_identifier v in Ok (id_eqb i (c, t)).

(** inner_identifier / outer_identifier (ber_types/Identifier.hpp 117-139). *)
Definition inner_identifier (i : ident) : ident := match i with Id c t => Id c t | DoubleId _ _ c t => Id c t end.
Definition outer_identifier (i : ident) : ident := match i with Id c t => Id c t | DoubleId c t _ _ => Id c t end.

(** memcpy of the n octets at content_data() of a view. *)
Definition v_read_content (v : view) (n : Z) : res (list Z) :=
  if n =? 0 then Ok []
  else match v_mem v with None => UB | Some m => mem_read m (v_hl v) n end.

(** * SmallFixedIdBerContainer<Identifier, max>: the state is the array m_data *)
(** util/SmallFixedIdBerContainer.hpp 77: m_header_length. *)
Definition small_hl (i : ident) : Z := encoded_header_length 0 i.
(** util/SmallFixedIdBerContainer.hpp 25-28: the static_assert on max_content_length. *)
Definition small_max_ok (i : ident) (max : Z) : bool :=
  max <=? (if depth i =? 2 then 128 - encoded_header_length 0 (inner_identifier i) else 128).
(** util/SmallFixedIdBerContainer.hpp 78-82: initial m_data. *)
Definition small_init (i : ident) (max : Z) : list Z :=
  er_buf (encode_header (zrep (small_hl i + max) 0) 0 i primitive).
(** util/SmallFixedIdBerContainer.hpp 190-204: set_content_length. *)
Definition small_set_length (i : ident) (data : list Z) (len : Z) : res (list Z) :=
  let* d := mem_write data (small_hl i - 1) [u8 len] in
  if depth i =? 2
  then mem_write d (encoded_header_length 0 (outer_identifier i) - 1) [u8 (encoded_length len (inner_identifier i))]
  else Ok d.
(** util/SmallFixedIdBerContainer.hpp 56, 60, 52-55: content_length, ber_length, content. *)
Definition small_content_length (i : ident) (data : list Z) : res Z := zget data (small_hl i - 1).
Definition small_ber_length (i : ident) (data : list Z) : res Z :=
  let* n := small_content_length i data in Ok (small_hl i + n).
Definition small_content (i : ident) (data : list Z) : res (list Z) :=
  let* n := small_content_length i data in mem_read data (small_hl i) n.
(** util/SmallFixedIdBerContainer.hpp 168-178: assign_content. *)
Definition small_assign_content (i : ident) (data content : list Z) : res (list Z) :=
  let* d := mem_write data (small_hl i) content in small_set_length i d (zlen content).
(** util/SmallFixedIdBerContainer.hpp 180-188: resize_content. *)
Definition small_resize (i : ident) (data : list Z) (size : Z) : res (list Z) := small_set_length i data size.
(** util/SmallFixedIdBerContainer.hpp 206-216: encode. *)
Definition small_encode (i : ident) (data buffer : list Z) : res enc_result :=
  let* n := small_ber_length i data in
  if zlen buffer <? n then Ok (EncResult buffer false 0)
  else let* src := mem_read data 0 n in
       let* out := mem_write buffer 0 src in Ok (EncResult out true n).
(** util/SmallFixedIdBerContainer.hpp 128-166 and 218-222: decode.  && evaluates left to right; the repeated calls of
    begin() are modelled as one. *)
Definition small_decode (i : ident) (max : Z) (data : list Z) (v : view) : dec_result (list Z) :=
  if negb (is_valid v) then Ok (false, data)
  else
    let* idm := view_has_id v (id_class i) (id_tag i) in
    let* k := v_construction v in
    match i with
    | Id _ _ =>
        if negb (idm && construction_eqb k primitive && (v_cl v <=? max)) then Ok (false, data)
        else let* x := v_read_content v (v_cl v) in
             let* d := mem_write data (small_hl i) x in
             let* d := small_set_length i d (v_cl v) in Ok (true, d)
    | DoubleId _ _ ic it =>
        if negb (idm && construction_eqb k constructed) then Ok (false, data)
        else let* it0 := v_begin v in
             let w := it_view it0 in
             if negb (is_valid w) then Ok (false, data)
             else let* widm := view_has_id w ic it in
                  let* wk := v_construction w in
                  if negb (widm && construction_eqb wk primitive && (v_cl w <=? max)) then Ok (false, data)
                  else let* x := v_read_content w (v_cl w) in
                       let* d := mem_write data (small_hl i) x in
                       let* d := small_set_length i d (v_cl w) in Ok (true, d)
    end.

(** * Integer *)
(** The eight bytes of an int64_t, most significant first: ber_types/Integer.hpp 105-107 (memcpy + reverse on a
    little-endian machine). *)
Definition i64_bytes (x : Z) : list Z :=
  let w := u64 x in
  [byte_at w 56; byte_at w 48; byte_at w 40; byte_at w 32; byte_at w 24; byte_at w 16; byte_at w 8; byte_at w 0].
(** The int64_t with the given eight bytes, most significant first (Integer.hpp 91-98, the inverse memcpy). *)
Definition i64_of_bytes (l : list Z) : Z :=
  let w := fold_left (fun a b => a * 256 + b) l 0 in if w <? 2^63 then w else w - 2^64.
(** ber_types/Integer.hpp 109-120: first loop. *)
Fixpoint skip_zeros (l : list Z) : Z :=
  match l with
  | a :: ((b :: _) as l') => if (a =? 0) && (Z.land b 0x80 =? 0) then 1 + skip_zeros l' else 0
  | _ => 0
  end.
(** ber_types/Integer.hpp 122-132: second loop. *)
Fixpoint skip_ones (l : list Z) : Z :=
  match l with
  | a :: ((b :: _) as l') => if (a =? 0xFF) && negb (Z.land b 0x80 =? 0) then 1 + skip_ones l' else 0
  | _ => 0
  end.
(** ber_types/Integer.hpp 103-142: encode_integer.  Result: (span after the call, returned length). *)
Definition encode_integer (output : list Z) (x : Z) : list Z * Z :=
  let buffer := i64_bytes x in
  let to_skip := skip_zeros buffer + skip_ones buffer in
  let encoded_len := 8 - to_skip in
  if zlen output <? encoded_len then (output, 0)
  else (poke output 0 (zdrop to_skip buffer), encoded_len).
(** ber_types/Integer.hpp 75-101: decode_integer.  [out0] is the reference argument before the call. *)
Definition decode_integer (input : list Z) (out0 : Z) : bool * Z :=
  match input with
  | [] => (false, out0)
  | b0 :: _ =>
      if zlen input >? 8 then (false, out0)
      else let fill := if negb (Z.land b0 0x80 =? 0) then 0xFF else 0x00 in
           (true, i64_of_bytes (zrep (8 - zlen input) fill ++ input))
  end.

(** ber_types/Integer.hpp 72: m_contents is a SmallFixedIdBerContainer of 8 octets. *)
Definition int_max : Z := 8.
(** ber_types/Integer.hpp 30: Integer(). *)
Definition int_init (i : ident) : res (list Z) := small_assign_content i (small_init i int_max) [0].
(** ber_types/Integer.hpp 150-156: value(). *)
Definition int_value (i : ident) (data : list Z) : res Z :=
  let* x := small_content i data in Ok (snd (decode_integer x 0)).
(** ber_types/Integer.hpp 173-177: assign(int64_t): encode into the 8 octets at content_data(), then resize. *)
Definition int_assign (i : ident) (data : list Z) (x : Z) : res (list Z) :=
  let* room := mem_read data (small_hl i) 8 in
  let '(room', n) := encode_integer room x in
  let* d := mem_write data (small_hl i) room' in
  small_resize i d n.
(** ber_types/Integer.hpp 31: Integer(int64_t). *)
Definition int_of (i : ident) (x : Z) : res (list Z) := int_assign i (small_init i int_max) x.
(** ber_types/Integer.hpp 144-148, 165-171, 179-184: copying from an Integer with identifier [j] (for the same
    identifier the implicit copy copies the array). *)
Definition int_copy (i j : ident) (data rhs : list Z) : res (list Z) :=
  let* x := small_content j rhs in small_assign_content i data x.
(** ber_types/Integer.hpp 64-66. *)
Definition int_encode (i : ident) (data buffer : list Z) : res enc_result := small_encode i data buffer.
Definition int_encoded_length (i : ident) (data : list Z) : res Z := small_ber_length i data.
Definition int_decode (i : ident) (data : list Z) (v : view) : dec_result (list Z) := small_decode i int_max data v.

(** * Enumerated (ber_types/Enumerated.hpp 27, 57, 69, 72-88): a wrapper around Integer.  [w] is the width in bits of the
    enumeration's underlying type: 32 for the enumerations the compiler generates (src/compiler/TypeAsString.cpp 399:
    an enum class without an underlying type has int), up to 64 for one written by the user.  27: value() casts the
    int64_t to the enumeration; a number that does not fit is taken modulo 2^w. *)
Definition enum_of := int_of.
Definition enum_cast (w n : Z) : Z := let m := n mod 2^w in if m <? 2^(w-1) then m else m - 2^w.
Definition enum_value (w : Z) (i : ident) (data : list Z) : res Z := let* n := int_value i data in Ok (enum_cast w n).
Definition enum_encode := int_encode.
Definition enum_decode := int_decode.
Definition enum_encoded_length := int_encoded_length.

(** * Boolean: the state is m_data (ber_types/Boolean.hpp 54) *)
Definition bool_init (i : ident) : list Z := encoded_header i 1.
Definition set_back (data : list Z) (b : Z) : list Z := ztake (zlen data - 1) data ++ [b].
(** ber_types/Boolean.hpp 33: value(). *)
Definition bool_value (data : list Z) : bool := negb (last data 0 =? 0).
(** ber_types/Boolean.hpp 79-83: assign(bool). *)
Definition bool_assign (data : list Z) (b : bool) : list Z := set_back data (if b then 0xFF else 0x00).
(** ber_types/Boolean.hpp 57-62, 71-77, 85-90: copying. *)
Definition bool_copy (data rhs : list Z) : list Z := set_back data (last rhs 0).
(** ber_types/Boolean.hpp 92-96: encoded_length. *)
Definition bool_encoded_length (i : ident) : Z := encoded_length 1 i.
(** ber_types/Boolean.hpp 98-108: encode. *)
Definition copy_out (src buffer : list Z) : enc_result :=
  if zlen buffer <? zlen src then EncResult buffer false 0 else EncResult (poke buffer 0 src) true (zlen src).
Definition bool_encode (data buffer : list Z) : enc_result := copy_out data buffer.
(** ber_types/Boolean.hpp 110-129: decode. *)
Definition bool_decode (i : ident) (data : list Z) (v : view) : dec_result (list Z) :=
  let* ok := has_correct_header v i primitive in
  if negb ok then Ok (false, data)
  else if depth i =? 1
       then if v_cl v =? 1 then let* x := v_read_content v 1 in Ok (true, set_back data (hd 0 x)) else Ok (false, data)
       else let* it := v_begin v in
            let w := it_view it in
            if v_cl w =? 1 then let* x := v_read_content w 1 in Ok (true, set_back data (hd 0 x)) else Ok (false, data).

(** * Null: m_data is constant (ber_types/Null.hpp 60) *)
Definition null_data (i : ident) : list Z := encoded_header i 0.
(** ber_types/Null.hpp 63-67: encoded_length; 69-79: encode. *)
Definition null_encoded_length (i : ident) : Z := encoded_length 0 i.
Definition null_encode (i : ident) (buffer : list Z) : enc_result := copy_out (null_data i) buffer.
(** ber_types/Null.hpp 81-98: decode. *)
Definition null_decode (i : ident) (v : view) : res bool :=
  let* ok := has_correct_header v i primitive in
  if negb ok then Ok false
  else if depth i =? 1 then Ok (v_cl v =? 0)
       else let* it := v_begin v in Ok (v_cl (it_view it) =? 0).

(** * absl::InlinedVector<uint8_t>: the elements, and the octets still standing behind them in the same storage (what a
    shrinking resize leaves there).  After growth nothing is assumed about the storage behind the elements. *)
Record vec := Vec { vd : list Z; vspare : list Z }.
(** resize(n): new elements are value-initialised to 0. *)
Definition vec_resize (v : vec) (n : Z) : vec :=
  if n <=? zlen (vd v) then Vec (ztake n (vd v)) (zdrop n (vd v) ++ vspare v)
  else Vec (vd v ++ zrep (n - zlen (vd v)) 0) [].
Definition vec_assign (l : list Z) : vec := Vec l [].
(** Reading [n] octets at [off] of the storage (elements and spare octets); beyond that it is UB. *)
Definition vec_read (v : vec) (off n : Z) : res (list Z) := mem_read (vd v ++ vspare v) off n.
Definition vec_write (v : vec) (off : Z) (bs : list Z) : res vec :=
  let* d := mem_write (vd v) off bs in Ok (Vec d (vspare v)).

(** * FixedIdBerContainer<Identifier>: util/FixedIdBerContainer.hpp 74-75 *)
Record fixed := Fixed { f_vec : vec; f_len : Z }.
Definition f_data (f : fixed) : list Z := vd (f_vec f).
(** util/FixedIdBerContainer.hpp 78-83: default constructor. *)
Definition fixed_init (i : ident) : fixed :=
  Fixed (vec_assign (er_buf (encode_header (zrep (encoded_length 0 i) 0) 0 i primitive))) 0.
(** The state before assign_content / decode in the other constructors (util/FixedIdBerContainer.hpp 29, 97-128):
    an empty vector. *)
Definition fixed_empty : fixed := Fixed (vec_assign []) 0.
(** util/FixedIdBerContainer.hpp 49-53: content(): the last m_content_length octets. *)
Definition fixed_content (f : fixed) : res (list Z) := mem_read (f_data f) (zlen (f_data f) - f_len f) (f_len f).
(** util/FixedIdBerContainer.hpp 55-57, 64: ber(), encoded_length(). *)
Definition fixed_ber (f : fixed) : list Z := f_data f.
Definition fixed_encoded_length (f : fixed) : Z := zlen (f_data f).
(** util/FixedIdBerContainer.hpp 62: view(). *)
Definition fixed_view (f : fixed) : res view := v_make (f_data f).
(** util/FixedIdBerContainer.hpp 210-222: assign_content. *)
Definition fixed_assign_content (i : ident) (f : fixed) (content : list Z) : res fixed :=
  let encoded_len := encoded_length (zlen content) i in
  let header_len := u64 (encoded_len - zlen content) in
  let* v := vec_write (vec_resize (f_vec f) encoded_len) header_len content in
  let d := er_buf (encode_header (vd v) (zlen content) i primitive) in
  Ok (Fixed (Vec d (vspare v)) (zlen content)).
(** util/FixedIdBerContainer.hpp 224-238: resize_content. *)
Definition fixed_resize (i : ident) (f : fixed) (size : Z) : res fixed :=
  let old_header_length := u64 (zlen (f_data f) - f_len f) in
  let new_header_length := encoded_header_length size i in
  let v := vec_resize (f_vec f) (new_header_length + size) in
  let* x := vec_read v old_header_length (Z.min (f_len f) size) in
  let* v := vec_write v new_header_length x in
  let d := er_buf (encode_header (vd v) size i primitive) in
  Ok (Fixed (Vec d (vspare v)) size).
(** util/FixedIdBerContainer.hpp 240-250: encode. *)
Definition fixed_encode (f : fixed) (buffer : list Z) : enc_result := copy_out (f_data f) buffer.
(** util/FixedIdBerContainer.hpp 164-208, 252-256: decode.  The error message of the two-tag version reads
    begin() even when the outer identifier differs. *)
Definition fixed_decode (i : ident) (f : fixed) (v : view) : dec_result fixed :=
  let* ok := has_correct_header v i primitive in
  if negb ok then
    match i with
    | Id _ _ => Ok (false, f)
    | DoubleId _ _ _ _ => if is_valid v then let* _ := v_begin v in Ok (false, f) else Ok (false, f)
    end
  else
    let* b := v_ber v in
    match i with
    | Id _ _ => Ok (true, Fixed (vec_assign b) (v_cl v))
    | DoubleId _ _ _ _ => let* it := v_begin v in Ok (true, Fixed (vec_assign b) (v_cl (it_view it)))
    end.
(** util/FixedIdBerContainer.hpp 123-128, 155-162: copying from a container with another identifier. *)
Definition fixed_copy_from (i : ident) (f rhs : fixed) : res fixed :=
  let* x := fixed_content rhs in fixed_assign_content i f x.

(** * BerContainer: util/BerContainer.hpp 69-70.  [b_view]'s memory, when present, is the vector's elements. *)
Record berc := Berc { b_vec : vec; b_valid : bool; b_tag : Z; b_hl : Z; b_cl : Z }.
Definition b_data (b : berc) : list Z := vd (b_vec b).
Definition b_view (b : berc) : view := View (if b_valid b then Some (b_data b) else None) (b_tag b) (b_hl b) (b_cl b).
(** util/BerContainer.hpp 73-76: default constructor. *)
Definition berc_init : berc := Berc (vec_assign [0; 0]) true 0 2 0.
(** The members before the body of the other constructors (29-31, 95-99). *)
Definition berc_empty : berc := Berc (vec_assign []) false 0 0 0.
(** util/BerContainer.hpp 165-180: decode. *)
Definition berc_decode (b : berc) (v : view) : dec_result berc :=
  if negb (is_valid v) then
    let* w := v_assign (b_tag b) [] in
    Ok (false, Berc (vec_assign []) (is_valid w) (v_tag w) (v_hl w) (v_cl w))
  else
    let* ber := v_ber v in
    Ok (true, Berc (vec_assign ber) true (v_tag v) (v_hl v) (v_cl v)).
(** util/BerContainer.hpp 30-31: copy and move construction. *)
Definition berc_copy_construct (rhs : berc) : dec_result berc := berc_decode berc_empty (b_view rhs).
(** util/BerContainer.hpp 101-106: copy assignment.  m_data.data() of an InlinedVector is never null. *)
Definition berc_copy_assign (rhs : berc) : berc :=
  Berc (vec_assign (b_data rhs)) true (b_tag rhs) (b_hl rhs) (b_cl rhs).
(** util/BerContainer.hpp 115-127: assign_content(content). *)
Definition berc_assign_content (b : berc) (content : list Z) : res berc :=
  let v := vec_resize (b_vec b) (15 + zlen content) in
  let* v := vec_write v 0 [0] in
  let '(rest, n) := encode_length (zdrop 1 (vd v)) (zlen content) in
  let v := Vec (ztake 1 (vd v) ++ rest) (vspare v) in
  let hl := 1 + n in
  let* v := vec_write (vec_resize v (hl + zlen content)) hl content in
  Ok (Berc v true 0 hl (zlen content)).
(** util/BerContainer.hpp 129-141: assign_content(construction, class, tag, content). *)
Definition berc_assign (b : berc) (con : construction) (c : class) (t : Z) (content : list Z) : res berc :=
  let v := vec_resize (b_vec b) (30 + zlen content) in
  let '(d, hl) := encode_header_raw (vd v) con c t (zlen content) in
  let* v := vec_write (vec_resize (Vec d (vspare v)) (hl + zlen content)) hl content in
  let* (_, tag) := extract_tag (vd v) (b_tag b) in
  Ok (Berc v true tag hl (zlen content)).
(** util/BerContainer.hpp 143-161: resize_content.  BerView.hpp 43: identifier_length(). *)
Definition berc_resize (b : berc) (size : Z) : res berc :=
  let new_length_offset := encoded_tag_length (b_tag b) in
  let '(lb, new_length_length) := encode_length (zrep 20 0) size in
  let new_header_length := new_length_offset + new_length_length in
  let v := vec_resize (b_vec b) (new_header_length + size) in
  let* x := vec_read v (b_hl b) (Z.min (b_cl b) size) in
  let* v := vec_write v new_header_length x in
  let* v := vec_write v new_length_offset (ztake new_length_length lb) in
  let* (_, tag) := extract_tag (vd v) (b_tag b) in
  Ok (Berc v true tag new_header_length size).
(** util/BerContainer.hpp 163: encode; 53-61: content(), ber(). *)
Definition berc_encode (b : berc) (buffer : list Z) : res enc_result := v_encode (b_view b) buffer.
Definition berc_content (b : berc) : res (list Z) := v_content (b_view b).
Definition berc_ber (b : berc) : res (list Z) := v_ber (b_view b).

(** What small_decode reads: the content that is stored on success, None on failure (same tests as
    util/SmallFixedIdBerContainer.hpp 133-135 and 151-155; the array update is left out). *)
Definition small_decode_content (i : ident) (max : Z) (v : view) : res (option (list Z)) :=
  if negb (is_valid v) then Ok None
  else
    let* idm := view_has_id v (id_class i) (id_tag i) in
    let* k := v_construction v in
    match i with
    | Id _ _ =>
        if negb (idm && construction_eqb k primitive && (v_cl v <=? max)) then Ok None
        else let* x := v_read_content v (v_cl v) in Ok (Some x)
    | DoubleId _ _ ic it =>
        if negb (idm && construction_eqb k constructed) then Ok None
        else let* it0 := v_begin v in
             let w := it_view it0 in
             if negb (is_valid w) then Ok None
             else let* widm := view_has_id w ic it in
                  let* wk := v_construction w in
                  if negb (widm && construction_eqb wk primitive && (v_cl w <=? max)) then Ok None
                  else let* x := v_read_content w (v_cl w) in Ok (Some x)
    end.

(** FixedIdBerContainer::resize_content and BerContainer::resize_content again, but with every read confined to the
    vector's size() (used only to state property C68). *)
Definition fixed_resize_read_in_size (i : ident) (f : fixed) (size : Z) : bool :=
  let v := vec_resize (f_vec f) (encoded_header_length size i + size) in
  (u64 (zlen (f_data f) - f_len f)) + Z.min (f_len f) size <=? zlen (vd v).
