(** Model of views and iterators: /repo/include/fast_ber/util/BerView.hpp and util/DecodeHelpers.hpp. *)
From Verif Require Export Base Ident.

(** util/BerView.hpp 59-62: the members of BerView.  [v_mem] is the memory readable from m_data on (m_data up to the
    end of the span the view was made from); [None] is m_data == nullptr. *)
Record view := View { v_mem : option (list Z); v_tag : Z; v_hl : Z; v_cl : Z }.
(** util/BerView.hpp 26 and 59-62: a default constructed view. *)
Definition empty_view : view := View None 0 0 0.

(** util/BerView.hpp 38: is_valid. *)
Definition is_valid (v : view) : bool := match v_mem v with Some _ => true | None => false end.

(** util/BerView.hpp 194-214: assign(span).  [tag0] is m_tag before the call.  m_tag is passed by reference to
    extract_tag, so it changes even when the view becomes invalid.  Sizes are added in size_t (may wrap). *)
Definition v_assign (tag0 : Z) (input : list Z) : res view :=
  let* (tag_length, tag) := extract_tag input tag0 in
  let '(len_length, content_length) := extract_length input 0 tag_length in
  let header_length := u64 (tag_length + len_length) in
  let complete_length := u64 (header_length + content_length) in
  if (tag_length =? 0) || (len_length =? 0) || (complete_length >? zlen input)
  then Ok (View None tag 0 0)
  else Ok (View (Some input) tag header_length content_length).
(** util/BerView.hpp 27: BerView(span). *)
Definition v_make (input : list Z) : res view := v_assign 0 input.

(** m_data[0]: null dereference and reading an empty span are UB. *)
Definition v_byte0 (v : view) : res Z :=
  match v_mem v with Some (b :: _) => Ok b | _ => UB end.
(** util/BerView.hpp 39, 41: construction(), class_(). *)
Definition v_construction (v : view) : res construction := let* b := v_byte0 v in Ok (get_construction b).
Definition v_class (v : view) : res class := let* b := v_byte0 v in Ok (get_class b).
(** util/BerView.hpp 40: identifier(). *)
Definition v_identifier (v : view) : res (class * Z) := let* c := v_class v in Ok (c, v_tag v).

(** util/BerView.hpp 46-47: content().  A span that leaves the view's memory counts as UB as soon as it is formed. *)
Definition v_content (v : view) : res (list Z) :=
  match v_mem v with
  | None => if (v_hl v =? 0) && (v_cl v =? 0) then Ok [] else UB
  | Some m => mem_read m (v_hl v) (v_cl v)
  end.
(** util/BerView.hpp 51: ber_length(), in size_t. *)
Definition v_ber_length (v : view) : Z := u64 (v_hl v + v_cl v).
(** util/BerView.hpp 49-50: ber(). *)
Definition v_ber (v : view) : res (list Z) :=
  match v_mem v with
  | None => if v_ber_length v =? 0 then Ok [] else UB
  | Some m => mem_read m 0 (v_ber_length v)
  end.

(** util/BerView.hpp 239-248: BerView::encode. *)
Definition v_encode (v : view) (buffer : list Z) : res enc_result :=
  if v_ber_length v >? zlen buffer then Ok (EncResult buffer false 0)
  else let* src := v_ber v in
       let* out := mem_write buffer 0 src in
       Ok (EncResult out true (v_ber_length v)).

(** util/BerView.hpp 87-131: BerViewIterator, its members 129-130. *)
Record iter := Iter { it_buf : list Z; it_view : view }.
(** util/BerView.hpp 90: BerViewIterator(span). *)
Definition it_make (buffer : list Z) : res iter := let* v := v_make buffer in Ok (Iter buffer v).
(** util/BerView.hpp 91: BerViewIterator(End). *)
Definition it_end : iter := Iter [] empty_view.
(** util/BerView.hpp 93-103: operator++.  remove_prefix of more than the span's size is UB. *)
Definition it_next (it : iter) : res iter :=
  let n := v_ber_length (it_view it) in
  if n >? zlen (it_buf it) then UB
  else let buf := zdrop n (it_buf it) in
       let* v := v_assign (v_tag (it_view it)) buf in Ok (Iter buf v).
(** util/BerView.hpp 108-120: comparison with end(): unequal exactly when the view is valid (a valid view has a
    non-null buffer, end() has a null one). *)
Definition it_at_end (it : iter) : bool := negb (is_valid (it_view it)).
(** util/BerView.hpp 232: begin(). *)
Definition v_begin (v : view) : res iter := let* c := v_content v in it_make c.

(** The loop "for (it = begin(); it != end(); ++it)": the views visited, and the part of the buffer left at the end. *)
Fixpoint it_loop (fuel : nat) (it : iter) : res (list view * list Z) :=
  match fuel with
  | O => NoFuel
  | S fuel =>
      if it_at_end it then Ok ([], it_buf it)
      else let* it' := it_next it in
           let* (vs, rest) := it_loop fuel it' in
           Ok (it_view it :: vs, rest)
  end.
Definition children (fuel : nat) (v : view) : res (list view * list Z) :=
  let* it := v_begin v in it_loop fuel it.

(** util/DecodeHelpers.hpp 35-47: has_correct_header, for Id and for DoubleId.  && evaluates left to right.
    The two calls of input.begin() in the DoubleId version are modelled as one. *)
Definition id_eqb (a b : class * Z) : bool := class_eqb (fst a) (fst b) && (snd a =? snd b).
Definition has_correct_header (v : view) (i : ident) (con : construction) : res bool :=
  if negb (is_valid v) then Ok false
  else
    let* c := v_class v in
    let* k := v_construction v in
    match i with
    | Id ic it => Ok (class_eqb c ic && (v_tag v =? it) && construction_eqb k con)
    | DoubleId oc ot ic it =>
        if negb (id_eqb (c, v_tag v) (oc, ot) && construction_eqb k constructed) then Ok false
        else
          let* inner := v_begin v in
          let w := it_view inner in
          if negb (is_valid w) then Ok false
          else
            let* wc := v_class w in
            let* wk := v_construction w in
            Ok (id_eqb (wc, v_tag w) (ic, it) && construction_eqb wk con)
    end.
