(** Model of class / construction / tag / identifier octets and length octets.
    Sources (all under /repo/include/fast_ber): ber_types/Class.hpp, ber_types/Construction.hpp, ber_types/Tag.hpp,
    ber_types/Identifier.hpp, util/Extract.hpp, util/EncodeIdentifiers.hpp, util/EncodeHelpers.hpp. *)
From Verif Require Export Base.

(** ber_types/Class.hpp 9-15: enum class Class. *)
Inductive class := universal | application | context_specific | private_.
Definition class_num (c : class) : Z :=
  match c with universal => 0 | application => 1 | context_specific => 2 | private_ => 3 end.
Definition class_of_num (n : Z) : class :=
  if n =? 0 then universal else if n =? 1 then application else if n =? 2 then context_specific else private_.
Definition class_eqb (a b : class) : bool := class_num a =? class_num b.

(** ber_types/Construction.hpp 9-13: enum class Construction. *)
Inductive construction := primitive | constructed.
Definition construction_num (c : construction) : Z := match c with primitive => 0 | constructed => 1 end.
Definition construction_eqb (a b : construction) : bool := construction_num a =? construction_num b.

(** uint8_t conversion: static_cast<uint8_t>. *)
Definition u8 (x : Z) : Z := x mod 256.

(** ber_types/Class.hpp 20: get_class. *)
Definition get_class (b : Z) : class := class_of_num (Z.shiftr b 6).
(** ber_types/Class.hpp 22-25: add_class. *)
Definition add_class (b : Z) (c : class) : Z :=
  u8 (Z.lor (Z.shiftl (class_num c) 6) (Z.land b (Z.lnot 0xC0))).
(** ber_types/Construction.hpp 18-21: get_construction. *)
Definition get_construction (b : Z) : construction :=
  if Z.land b 0x20 =? 0 then primitive else constructed.
(** ber_types/Construction.hpp 23-28: add_construction. *)
Definition add_construction (b : Z) (c : construction) : Z :=
  u8 (Z.lor (Z.shiftl (construction_num c) 5) (Z.land b (Z.lnot 0x20))).

(** ber_types/Identifier.hpp 31-51: Id<class,tag> and DoubleId<Outer,Inner>, the compile-time identifiers.
    (DoubleId is only ever instantiated with two Id arguments: EncodeIdentifiers.hpp 328-336.)
    ber_types/Tag.hpp 9: Tag = int64_t. *)
Inductive ident :=
| Id (c : class) (t : Z)
| DoubleId (oc : class) (ot : Z) (ic : class) (it : Z).
(** Identifier.hpp 37 and 49: depth(). *)
Definition depth (i : ident) : Z := match i with Id _ _ => 1 | DoubleId _ _ _ _ => 2 end.
(** Identifier.hpp 34-35, 44-45: class_() and tag() (of the outer identifier). *)
Definition id_class (i : ident) : class := match i with Id c _ => c | DoubleId c _ _ _ => c end.
Definition id_tag (i : ident) : Z := match i with Id _ t => t | DoubleId _ t _ _ => t end.
(** Identifier.hpp 38 and 50: check_id_match. *)
Definition check_id_match (i : ident) (c : class) (t : Z) : bool := class_eqb c (id_class i) && (t =? id_tag i).

(** util/Extract.hpp 54-76: extract_tag_length. *)
Fixpoint extract_tag_length_loop (l : list Z) (i : Z) : Z :=
  match l with
  | [] => 0
  | b :: l' => if Z.land b 0x80 =? 0 then i + 1 else extract_tag_length_loop l' (i + 1)
  end.
Definition extract_tag_length (input : list Z) : Z :=
  match input with
  | [] => 0
  | b0 :: rest => if negb (Z.land b0 0x1F =? 0x1F) then 1 else extract_tag_length_loop rest 1
  end.

(** util/Extract.hpp 93-104: the multi-byte loop of extract_tag.  [tag] is an int64_t: leaving its range is undefined
    behaviour.  Result: (returned length, tag). *)
Fixpoint extract_tag_loop (l : list Z) (i : Z) (tag : Z) : res (Z * Z) :=
  match l with
  | [] => Ok (0, tag)
  | b :: l' =>
      let tag1 := tag + Z.land b 0x7F in
      if negb (in_i64b tag1) then UB
      else if Z.land b 0x80 =? 0 then Ok (i + 1, tag1)
      else let tag2 := tag1 * 0x80 in
           if negb (in_i64b tag2) then UB else extract_tag_loop l' (i + 1) tag2
  end.
(** util/Extract.hpp 78-106: extract_tag.  [tag0] is the value of the reference argument before the call; it survives
    only when the input is empty. *)
Definition extract_tag (input : list Z) (tag0 : Z) : res (Z * Z) :=
  match input with
  | [] => Ok (0, tag0)
  | b0 :: rest =>
      if negb (Z.land b0 0x1F =? 0x1F) then Ok (1, Z.land b0 0x1F)
      else extract_tag_loop rest 1 0
  end.

(** util/Extract.hpp 32-52: extract_construction, extract_class. *)
Definition extract_construction (input : list Z) : option construction :=
  match input with [] => None | b :: _ => Some (get_construction b) end.
Definition extract_class (input : list Z) : option class :=
  match input with [] => None | b :: _ => Some (get_class b) end.

(** util/Extract.hpp 129-133: the big-endian accumulation of extract_length, in size_t arithmetic. *)
Definition accumulate_length (l : list Z) : Z := fold_left (fun acc b => u64 (u64 (acc * 0x100) + b)) l 0.
(** util/Extract.hpp 108-135: extract_length.  [len0] is the reference argument before the call.
    Result: (returned length of the length field, content length). *)
Definition extract_length (input : list Z) (len0 : Z) (length_offset : Z) : Z * Z :=
  let input := zdrop length_offset input in
  match input with
  | [] => (0, len0)
  | b0 :: rest =>
      if Z.land b0 0x80 =? 0 then (1, b0)
      else
        let tag_length := Z.land b0 0x7F in
        if (tag_length >? 8) || (tag_length =? 0) || (tag_length + 1 >? zlen input) then (0, len0)
        else (tag_length + 1, accumulate_length (ztake tag_length rest))
  end.

(** util/EncodeIdentifiers.hpp 60-63: add_short_tag. *)
Definition add_short_tag (first_byte tag : Z) : Z := u8 (Z.lor (u8 tag) (Z.land first_byte 0xE0)).

(** util/EncodeIdentifiers.hpp 81-97: loop of encode_tag over output[1..].  [rest] is the part of the span not yet
    written, [done] the bytes written so far, latest first: which is the order std::reverse leaves them in.
    Result: (output[1..], returned length). *)
Fixpoint encode_tag_loop (done rest : list Z) (tag : Z) (i : Z) : list Z * Z :=
  match rest with
  | [] => (rev done, 0)
  | _ :: rest' =>
      let b := u8 (Z.rem tag 0x80) in
      let tag' := Z.quot tag 0x80 in
      let b := if negb (i =? 1) then Z.lor b 0x80 else b in
      if tag' =? 0 then ((b :: done) ++ rest', i + 1)
      else encode_tag_loop (b :: done) rest' tag' (i + 1)
  end.
(** util/EncodeIdentifiers.hpp 65-99: encode_tag.  Result: (span after the call, returned length). *)
Definition encode_tag (output : list Z) (tag : Z) : list Z * Z :=
  match output with
  | [] => (output, 0)
  | b0 :: rest =>
      if tag <? 0 then (output, 0)
      else if tag <=? 30 then (add_short_tag b0 tag :: rest, 1)
      else let '(rest', n) := encode_tag_loop [] rest tag 1 in (Z.lor b0 0x1F :: rest', n)
  end.

(** util/EncodeIdentifiers.hpp 104-117: encoded_tag_length. *)
Definition encoded_tag_length (tag : Z) : Z :=
  if tag <? 0 then 0
  else if tag <=? 30 then 1
  else if tag <? 128 then 2
  else if tag <? 16384 then 3
  else if tag <? 2097152 then 4
  else if tag <? 268435456 then 5
  else if tag <? 34359738368 then 6
  else if tag <? 4398046511104 then 7
  else if tag <? 562949953421312 then 8
  else if tag <? 72057594037927936 then 9
  else 10.

(** util/EncodeIdentifiers.hpp 121-124: encode_short_identifier. *)
Definition encode_short_identifier (con : construction) (c : class) (tag : Z) : Z :=
  add_short_tag (add_class (add_construction 0 con) c) tag.

(** util/EncodeIdentifiers.hpp 129-142: encode_identifier. *)
Definition encode_identifier (output : list Z) (con : construction) (c : class) (tag : Z) : list Z * Z :=
  match output with
  | [] => (output, 0)
  | _ :: rest => encode_tag (add_class (add_construction 0 con) c :: rest) tag
  end.

(** util/EncodeIdentifiers.hpp 148-151: encoded_identifier_length. *)
Definition encoded_identifier_length (tag : Z) : Z := encoded_tag_length tag.

(** Writing the bytes [bs] to the front of the span [out] (a sequence of output[k] = ... assignments). *)
Definition put (bs out : list Z) : list Z := bs ++ zdrop (zlen bs) out.
(** (length >> k) & 0xFF *)
Definition byte_at (len k : Z) : Z := Z.land (Z.shiftr len k) 0xFF.

(** util/EncodeIdentifiers.hpp 157-242: encode_length. *)
Definition encode_length (output : list Z) (len : Z) : list Z * Z :=
  let n := zlen output in
  if (len <? 0x80) && (n >? 0) then (put [byte_at len 0] output, 1)
  else if (len <=? 0xFF) && (n >? 1) then (put [0x81; byte_at len 0] output, 2)
  else if (len <=? 0xFFFF) && (n >? 2) then (put [0x82; byte_at len 8; byte_at len 0] output, 3)
  else if (len <=? 0xFFFFFF) && (n >? 3)
       then (put [0x83; byte_at len 16; byte_at len 8; byte_at len 0] output, 4)
  else if (len <=? 0xFFFFFFFF) && (n >? 4)
       then (put [0x84; byte_at len 24; byte_at len 16; byte_at len 8; byte_at len 0] output, 5)
  else if (len <=? 0xFFFFFFFFFF) && (n >? 5)
       then (put [0x85; byte_at len 32; byte_at len 24; byte_at len 16; byte_at len 8; byte_at len 0] output, 6)
  else if (len <=? 0xFFFFFFFFFFFF) && (n >? 6)
       then (put [0x86; byte_at len 40; byte_at len 32; byte_at len 24; byte_at len 16; byte_at len 8;
                  byte_at len 0] output, 7)
  else if (len <=? 0xFFFFFFFFFFFFFF) && (n >? 7)
       then (put [0x87; byte_at len 48; byte_at len 40; byte_at len 32; byte_at len 24; byte_at len 16;
                  byte_at len 8; byte_at len 0] output, 8)
  else if n >? 8
       then (put [0x88; byte_at len 56; byte_at len 48; byte_at len 40; byte_at len 32; byte_at len 24;
                  byte_at len 16; byte_at len 8; byte_at len 0] output, 9)
  else (output, 0).

(** util/EncodeIdentifiers.hpp 244-255: encoded_length_length. *)
Definition encoded_length_length (len : Z) : Z :=
  if len <? 0x80 then 1
  else if len <=? 0xFF then 2
  else if len <=? 0xFFFF then 3
  else if len <=? 0xFFFFFF then 4
  else if len <=? 0xFFFFFFFF then 5
  else if len <=? 0xFFFFFFFFFF then 6
  else if len <=? 0xFFFFFFFFFFFF then 7
  else if len <=? 0xFFFFFFFFFFFFFF then 8
  else 9.

(** util/EncodeIdentifiers.hpp 257-275: encode_header(span, construction, class, tag, length). *)
Definition encode_header_raw (output : list Z) (con : construction) (c : class) (tag len : Z) : list Z * Z :=
  if zlen output <? 2 then (output, 0)
  else
    let '(out1, id_length) := encode_identifier output con c tag in
    let '(rest, length_length) := encode_length (zdrop id_length out1) len in
    let out2 := ztake id_length out1 ++ rest in
    if (id_length =? 0) || (length_length =? 0) then (out2, 0)
    else (out2, id_length + length_length).

(** util/EncodeIdentifiers.hpp 281-295: encoded_header_length for a class/tag pair. *)
Definition encoded_header_length1 (tag len : Z) : Z := encoded_identifier_length tag + encoded_length_length len.
(** util/EncodeIdentifiers.hpp 310-314: encoded_length(content_length, Id). *)
Definition encoded_length1 (tag len : Z) : Z := u64 (encoded_header_length1 tag len + len).
(** util/EncodeIdentifiers.hpp 291-302: encoded_header_length(content_length, Id / DoubleId). *)
Definition encoded_header_length (len : Z) (i : ident) : Z :=
  match i with
  | Id _ t => encoded_header_length1 t len
  | DoubleId _ ot _ it => encoded_header_length1 ot (encoded_length1 it len) + encoded_header_length1 it len
  end.
(** util/EncodeIdentifiers.hpp 310-320: encoded_length(content_length, Id / DoubleId). *)
Definition encoded_length (len : Z) (i : ident) : Z :=
  match i with
  | Id _ t => encoded_length1 t len
  | DoubleId _ ot _ it => encoded_length1 ot (encoded_length1 it len)
  end.

(** util/EncodeHelpers.hpp 15-19: EncodeResult, together with the span after the call. *)
Record enc_result := EncResult { er_buf : list Z; er_ok : bool; er_len : Z }.

(** util/EncodeHelpers.hpp 21-30: encode_header(buffer, content_length, Id, construction). *)
Definition encode_header1 (buffer : list Z) (len : Z) (c : class) (tag : Z) (con : construction) : enc_result :=
  let '(out, header_length) := encode_header_raw buffer con c tag len in
  if header_length =? 0 then EncResult out false 0 else EncResult out true (u64 (header_length + len)).

(** util/EncodeHelpers.hpp 41-58: encode_header(buffer, content_length, DoubleId, construction), and 21-30 for Id. *)
Definition encode_header (buffer : list Z) (len : Z) (i : ident) (con : construction) : enc_result :=
  match i with
  | Id c t => encode_header1 buffer len c t con
  | DoubleId oc ot ic it =>
      let inner_header_length := encoded_header_length1 it len in
      let outer_header_length := encoded_header_length1 ot (u64 (inner_header_length + len)) in
      if zlen buffer <? u64 (outer_header_length + inner_header_length + len) then EncResult buffer false 0
      else
        let inner := er_buf (encode_header1 (zdrop outer_header_length buffer) len ic it con) in
        encode_header1 (ztake outer_header_length buffer ++ inner) (u64 (inner_header_length + len)) oc ot constructed
  end.

(** util/EncodeHelpers.hpp 32-39: encoded_header<Identifier, content_length>(): a zeroed array of
    encoded_length(content_length, Identifier) bytes with the header written into it. *)
Definition encoded_header (i : ident) (content_length : Z) : list Z :=
  er_buf (encode_header (zrep (encoded_length content_length i) 0) content_length i primitive).

(** util/EncodeHelpers.hpp 67-83: wrap_with_ber_header.  memmove out of bounds is UB; assert is not compiled in. *)
Definition wrap_with_ber_header (buffer : list Z) (content_length : Z) (i : ident) (content_offset : Z)
           (con : construction) : res enc_result :=
  let header_length := encoded_header_length content_length i in
  if u64 (header_length + content_length) >? zlen buffer then Ok (EncResult buffer false 0)
  else
    let* buffer :=
      if content_offset =? header_length then Ok buffer
      else let* src := mem_read buffer content_offset content_length in mem_write buffer header_length src in
    Ok (encode_header buffer content_length i con).
