(** Model of /repo/include/fast_ber/ber_types/ObjectIdentifier.hpp. *)
From Verif Require Export Base Ident View Prims.

(** Lines 73-78: the do-while loop counting the octets of one component (/ truncates towards zero).  An int64_t needs
    at most nine rounds; more fuel is never used. *)
Fixpoint oid_count (fuel : nat) (c : Z) : res Z :=
  match fuel with
  | O => NoFuel
  | S fuel => let c' := Z.quot c 128 in
              if c' >? 0 then let* n := oid_count fuel c' in Ok (1 + n) else Ok 1
  end.
Fixpoint oid_count_all (cs : list Z) : res Z :=
  match cs with [] => Ok 0 | c :: cs => let* n := oid_count 10 c in let* m := oid_count_all cs in Ok (n + m) end.
(** Lines 63-81: encoded_object_id_length. *)
Definition encoded_object_id_length (input : list Z) : res Z :=
  match input with _ :: _ :: cs => let* n := oid_count_all cs in Ok (1 + n) | _ => Ok 0 end.

(** Lines 107-122: the do-while loop writing one component backwards.  Result: the output and output_write_pos. *)
Fixpoint oid_write (fuel : nat) (out : list Z) (pos c : Z) (first : bool) : res (list Z * Z) :=
  match fuel with
  | O => NoFuel
  | S fuel =>
      let d := u8 (Z.rem c 128) in
      let* out := mem_write out pos [if first then d else Z.lor d 0x80] in
      let pos := u64 (pos - 1) in
      let c' := Z.quot c 128 in
      if c' >? 0 then oid_write fuel out pos c' false else Ok (out, pos)
  end.
(** Lines 99-123: the loop over the components, last first ([rcs] is the reversed list of components from index 2
    on).  Result: whether a negative component was met, and the output. *)
Fixpoint oid_write_all (fuel : nat) (out : list Z) (pos : Z) (rcs : list Z) : res (bool * list Z) :=
  match rcs with
  | [] => Ok (true, out)
  | c :: rcs =>
      if c <? 0 then Ok (false, out)
      else let* (out, pos) := oid_write fuel out pos c true in oid_write_all fuel out pos rcs
  end.
(** Lines 83-126: encode_object_id.  40 * input[0] + input[1] is int64_t arithmetic (overflow is UB). *)
Definition encode_object_id (output input : list Z) (encoded_length : Z) : res enc_result :=
  let* encoded_length := if encoded_length =? 0 then encoded_object_id_length input else Ok encoded_length in
  match input with
  | a :: b :: cs =>
      if (zlen output =? 0) || (zlen output <? encoded_length) || (a >? 2) || (b >? 39) then Ok (EncResult output false 0)
      else if negb (in_i64b (40 * a) && in_i64b (40 * a + b)) then UB
      else let* out := mem_write output 0 [u8 (40 * a + b)] in
           let* (ok, out) := oid_write_all 10 out (u64 (encoded_length - 1)) (rev cs) in
           if ok then Ok (EncResult out true encoded_length) else Ok (EncResult out false 0)
  | _ => Ok (EncResult output false 0)
  end.

(** int64_t from size_t (push_back(current_num)). *)
Definition to_i64 (x : Z) : Z := if x <? 2^63 then x else x - 2^64.
(** Lines 143-155: the loop of decode_object_id; current_num is a size_t. *)
Fixpoint oid_decode_loop (l : list Z) (current_num : Z) : list Z :=
  match l with
  | [] => []
  | b :: l =>
      let n := u64 (current_num + Z.land 0x7F b) in
      if negb (Z.land 0x80 b =? 0) then oid_decode_loop l (u64 (n * 0x80)) else to_i64 n :: oid_decode_loop l 0
  end.
(** Lines 128-158: decode_object_id. *)
Definition decode_object_id (input : list Z) : bool * list Z :=
  match input with
  | [] => (false, [])
  | b0 :: l => (true, b0 / 40 :: b0 mod 40 :: oid_decode_loop l 0)
  end.
(** Lines 176-192: the loop of get_component_number.  current_num is reset before it is returned. *)
Fixpoint oid_component_loop (l : list Z) (current_component wanted : Z) : Z :=
  match l with
  | [] => -1
  | b :: l =>
      if negb (Z.land 0x80 b =? 0) then oid_component_loop l current_component wanted
      else if current_component =? wanted then 0
      else oid_component_loop l (current_component + 1) wanted
  end.
(** Lines 160-195: get_component_number.  input[1] of a one-octet span is UB. *)
Definition get_component_number (input : list Z) (wanted : Z) : res Z :=
  match input with
  | [] => Ok (-1)
  | b0 :: l =>
      if wanted =? 0 then Ok (b0 / 40)
      else if wanted =? 1 then let* b1 := zget input 1 in Ok (b1 mod 40)
      else Ok (oid_component_loop l 2 wanted)
  end.
(** Lines 197-214: get_number_of_components. *)
Definition get_number_of_components (input : list Z) : Z :=
  match input with
  | [] => 0
  | _ :: l => 2 + zlen (filter (fun b => Z.land 0x80 b =? 0) l)
  end.

(** The class ObjectIdentifier: its state is a FixedIdBerContainer (line 60). *)
(** Lines 266-272: value(). *)
Definition oid_value (f : fixed) : res (list Z) := let* x := fixed_content f in Ok (snd (decode_object_id x)).
(** Lines 260-264, 254-258. *)
Definition oid_component_number (f : fixed) (n : Z) : res Z := let* x := fixed_content f in get_component_number x n.
Definition oid_number_of_components (f : fixed) : res Z := let* x := fixed_content f in Ok (get_number_of_components x).
(** Lines 274-285: assign: resize, then encode in place (the content span is the tail of the vector). *)
Definition oid_assign (i : ident) (f : fixed) (oid : list Z) : res (bool * fixed) :=
  let* n := encoded_object_id_length oid in
  let* f := fixed_resize i f n in
  let* x := fixed_content f in
  let* r := encode_object_id x oid n in
  let d := ztake (zlen (f_data f) - f_len f) (f_data f) ++ er_buf r in
  Ok (er_ok r, Fixed (Vec d (vspare (f_vec f))) (f_len f)).
(** Lines 293-303. *)
Definition oid_encode (f : fixed) (buffer : list Z) : enc_result := fixed_encode f buffer.
Definition oid_decode (i : ident) (f : fixed) (v : view) : dec_result fixed := fixed_decode i f v.
