(** Model of the composite types: ber_types/Optional.hpp, Default.hpp, SequenceOf.hpp, Choice.hpp, and of the code that
    /repo/src/compiler/EncodeDecode.cpp generates for SEQUENCE, SET and CHOICE.  A type of generated code is a term of
    [ty]; [encode], [encoded_length_of] and [decode] are what the C++ templates and the generated functions do for it.
    Also GeneralizedTime's encode and decode (ber_types/GeneralizedTime.hpp 163-183). *)
From Verif Require Export Base Ident View Prims.

(** ** Schemas *)
(** The primitive types, by the way they store their content:
    [KBool] Boolean; [KNull] Null; [KSmall max x0] a SmallFixedIdBerContainer of [max] octets (Integer, Enumerated: 8
    octets, initially [0]; Real: 100 octets, initially none); [KFixed x0] a FixedIdBerContainer (strings, object
    identifiers, bit strings) with initial content x0; [KTime] GeneralizedTime. *)
Inductive lkind := KBool | KNull | KSmall (max : Z) (x0 : list Z) | KFixed (x0 : list Z) | KTime.
(** Mandatory, OPTIONAL (Optional<T>) or DEFAULT (Default<T, V>). *)
Inductive ckind := Mand | Opt | Def.
(** [CGen]: a CHOICE generated by the compiler (src/compiler/EncodeDecode.cpp 86-179, 427-520).
    [CLib]: the library's own Choice (ber_types/Choice.hpp 533-686, used by Any). *)
Inductive gen := CGen | CLib.
(** The identifier in a node is the one the type is encoded with where it stands: its own, or the Identifier_ argument
    of encode_with_id / decode_with_id (EncodeDecode.cpp 14-24).  A component (or alternative) carries the identifiers
    the compiler emits for it: the id check of an optional member (363-368), the case labels of a SET (232, 286) or
    CHOICE (474, 503). *)
Inductive ty :=
| TLeaf (k : lkind) (i : ident)
| TSeqOf (i : ident) (t : ty)                               (* SEQUENCE OF, SET OF *)
| TSeq (i : ident) (cs : comps)
| TSet (i : ident) (ext : bool) (cs : comps)                (* [ext]: allow_extensions *)
| TChoice (g : gen) (o : option ident) (cs : comps)         (* [None]: identified by its alternatives (ChoiceId) *)
with comps :=
| CNil
| CCons (k : ckind) (ids : list (class * Z)) (t : ty) (cs : comps).
Scheme ty_comps_ind := Induction for ty Sort Prop with comps_ty_ind := Induction for comps Sort Prop.
Combined Scheme ty_mutind from ty_comps_ind, comps_ty_ind.

(** ** Objects *)
Inductive lstate := LData (d : list Z) | LFixed (f : fixed) | LNull.
(** A SEQUENCE or SET: its members in order; [None] is an empty Optional or a Default without m_item. *)
Inductive st :=
| SLeaf (l : lstate)
| SList (l : list st)
| SRec (l : list (option st))
| SAlt (n : nat) (s : st).

(** *** Primitive types *)
Definition res_or {A} (r : res A) (d : A) : A := match r with Ok a => a | _ => d end.
(** "19700101000000Z": absl::FormatTime of absl::Time() (GeneralizedTime.hpp 38, 71-77). *)
Definition epoch_text : list Z := [49; 57; 55; 48; 48; 49; 48; 49; 48; 48; 48; 48; 48; 48; 90].
(** Default constructors: Boolean.hpp 24, Integer.hpp 30, Real.hpp 36, FixedIdBerContainer.hpp 78-83,
    GeneralizedTime.hpp 38. *)
Definition leaf_init (k : lkind) (i : ident) : lstate :=
  match k with
  | KBool => LData (bool_init i)
  | KNull => LNull
  | KSmall max x0 => LData (res_or (small_assign_content i (small_init i max) x0) [])
  | KFixed x0 => LFixed (res_or (fixed_assign_content i (fixed_init i) x0) fixed_empty)
  | KTime => LFixed (res_or (fixed_assign_content i (fixed_init i) epoch_text) fixed_empty)
  end.
Definition leaf_encode (k : lkind) (i : ident) (s : lstate) (buffer : list Z) : res enc_result :=
  match k, s with
  | KBool, LData d => Ok (bool_encode d buffer)
  | KNull, LNull => Ok (null_encode i buffer)
  | KSmall _ _, LData d => small_encode i d buffer
  | KFixed _, LFixed f | KTime, LFixed f => Ok (fixed_encode f buffer)
  | _, _ => UB
  end.
Definition leaf_encoded_length (k : lkind) (i : ident) (s : lstate) : res Z :=
  match k, s with
  | KBool, LData _ => Ok (bool_encoded_length i)
  | KNull, LNull => Ok (null_encoded_length i)
  | KSmall _ _, LData d => small_ber_length i d
  | KFixed _, LFixed f | KTime, LFixed f => Ok (fixed_encoded_length f)
  | _, _ => UB
  end.
(** ber_types/GeneralizedTime.hpp 175-183: the length test runs after the container was decoded. *)
Definition time_decode (i : ident) (f : fixed) (v : view) : dec_result fixed :=
  let* (ok, f') := fixed_decode i f v in
  Ok (if (f_len f' <? 10) || (f_len f' >? 23) then false else ok, f').
Definition leaf_decode (k : lkind) (i : ident) (s : lstate) (v : view) : dec_result lstate :=
  match k, s with
  | KBool, LData d => let* (ok, d') := bool_decode i d v in Ok (ok, LData d')
  | KNull, LNull => let* ok := null_decode i v in Ok (ok, LNull)
  | KSmall max _, LData d => let* (ok, d') := small_decode i max d v in Ok (ok, LData d')
  | KFixed _, LFixed f => let* (ok, f') := fixed_decode i f v in Ok (ok, LFixed f')
  | KTime, LFixed f => let* (ok, f') := time_decode i f v in Ok (ok, LFixed f')
  | _, _ => UB
  end.

(** ** Identifiers of a type *)
Definition outer_id (i : ident) : class * Z := (id_class i, id_tag i).
Definition has_id (ids : list (class * Z)) (c : class) (tag : Z) : bool := existsb (id_eqb (c, tag)) ids.
Fixpoint comps_ids (cs : comps) : list (class * Z) :=
  match cs with CNil => [] | CCons _ ids _ cs => ids ++ comps_ids cs end.
(** check_id_match of the type's identifier: ber_types/Identifier.hpp 33, 49 and Choice.hpp 19-31 (ChoiceId). *)
Definition type_ids (t : ty) : list (class * Z) :=
  match t with
  | TLeaf _ i | TSeqOf i _ | TSeq i _ | TSet i _ _ | TChoice _ (Some i) _ => [outer_id i]
  | TChoice _ None cs => comps_ids cs
  end.

(** ** Default construction *)
Fixpoint init (t : ty) : st :=
  match t with
  | TLeaf k i => SLeaf (leaf_init k i)
  | TSeqOf _ _ => SList []
  | TSeq _ cs | TSet _ _ cs => SRec (init_comps cs)
  | TChoice _ _ cs => SAlt 0 (match cs with CNil => SList [] | CCons _ _ t _ => init t end)
  end
with init_comps (cs : comps) : list (option st) :=
  match cs with
  | CNil => []
  | CCons Mand _ t cs => Some (init t) :: init_comps cs
  | CCons _ _ _ cs => None :: init_comps cs
  end.

(** ** Encoding *)
(** One element or member into the rest of the span, then the others: SequenceOf.hpp 108-117,
    EncodeDecode.cpp 52-63 (res.length octets are removed from the front of the span; more than its size is UB). *)
Definition enc_seq (r : res enc_result) (next : list Z -> res enc_result) : res enc_result :=
  let* r := r in
  if negb (er_ok r) then Ok (EncResult (er_buf r) false (er_len r))
  else if er_len r >? zlen (er_buf r) then UB
  else let* r2 := next (zdrop (er_len r) (er_buf r)) in
       Ok (EncResult (ztake (er_len r) (er_buf r) ++ er_buf r2) (er_ok r2)
             (if er_ok r2 then u64 (er_len r + er_len r2) else er_len r2)).
Fixpoint enc_list (enc : st -> list Z -> res enc_result) (l : list st) (buffer : list Z) : res enc_result :=
  match l with
  | [] => Ok (EncResult buffer true 0)
  | s :: l => enc_seq (enc s buffer) (enc_list enc l)
  end.
(** A constructed encoding: the contents behind a guessed header, then wrap_with_ber_header: SequenceOf.hpp 99-106, 119;
    EncodeDecode.cpp 36-50, 64 and 99-111, 126-137. *)
Definition enc_wrap (i : ident) (enc : list Z -> res enc_result) (buffer : list Z) : res enc_result :=
  let guess := encoded_length 0 i in
  if zlen buffer <? guess then Ok (EncResult buffer false 0)
  else let* r := enc (zdrop guess buffer) in
       let buffer := ztake guess buffer ++ er_buf r in
       if negb (er_ok r) then Ok (EncResult buffer false (er_len r))
       else wrap_with_ber_header buffer (er_len r) i guess constructed.
(** SequenceOf.hpp 97-120; Optional.hpp 98-108 and Default.hpp 138-148 (in [encode_comps]); EncodeDecode.cpp 26-66
    (SEQUENCE, SET), 86-143 (CHOICE; index out of range: assert(0), then an uninitialised result). *)
Fixpoint encode (t : ty) (s : st) (buffer : list Z) {struct t} : res enc_result :=
  match t, s with
  | TLeaf k i, SLeaf l => leaf_encode k i l buffer
  | TSeqOf i t, SList l => enc_wrap i (enc_list (encode t) l) buffer
  | TSeq i cs, SRec l => enc_wrap i (encode_comps cs l) buffer
  | TSet i _ cs, SRec l => enc_wrap i (encode_comps cs l) buffer
  | TChoice _ o cs, SAlt n s =>
      match o with
      | None => encode_alt cs n s buffer
      | Some i => enc_wrap i (encode_alt cs n s) buffer
      end
  | _, _ => UB
  end
with encode_comps (cs : comps) (l : list (option st)) (buffer : list Z) {struct cs} : res enc_result :=
  match cs, l with
  | CNil, [] => Ok (EncResult buffer true 0)
  | CCons k _ t cs, m :: l =>
      enc_seq (match k, m with
               | _, Some s => encode t s buffer
               | Mand, None => UB
               | _, None => Ok (EncResult buffer true 0)
               end) (encode_comps cs l)
  | _, _ => UB
  end
with encode_alt (cs : comps) (n : nat) (s : st) (buffer : list Z) {struct cs} : res enc_result :=
  match cs, n with
  | CCons _ _ t _, O => encode t s buffer
  | CCons _ _ _ cs, S n => encode_alt cs n s buffer
  | CNil, _ => UB
  end.

(** encoded_length: SequenceOf.hpp 89-94, Optional.hpp 85-95, Default.hpp 125-135, EncodeDecode.cpp 68-81, 147-175. *)
Fixpoint len_list (len : st -> res Z) (l : list st) : res Z :=
  match l with [] => Ok 0 | s :: l => let* a := len s in let* b := len_list len l in Ok (u64 (a + b)) end.
Fixpoint encoded_length_of (t : ty) (s : st) {struct t} : res Z :=
  match t, s with
  | TLeaf k i, SLeaf l => leaf_encoded_length k i l
  | TSeqOf i t, SList l => let* n := len_list (encoded_length_of t) l in Ok (encoded_length n i)
  | TSeq i cs, SRec l => let* n := length_comps cs l in Ok (encoded_length n i)
  | TSet i _ cs, SRec l => let* n := length_comps cs l in Ok (encoded_length n i)
  | TChoice _ o cs, SAlt n s =>
      let* m := length_alt cs n s in Ok (match o with None => m | Some i => encoded_length m i end)
  | _, _ => UB
  end
with length_comps (cs : comps) (l : list (option st)) {struct cs} : res Z :=
  match cs, l with
  | CNil, [] => Ok 0
  | CCons k _ t cs, m :: l =>
      let* a := match k, m with _, Some s => encoded_length_of t s | Mand, None => UB | _, None => Ok 0 end in
      let* b := length_comps cs l in Ok (u64 (a + b))
  | _, _ => UB
  end
with length_alt (cs : comps) (n : nat) (s : st) {struct cs} : res Z :=
  match cs, n with
  | CCons _ _ t _, O => encoded_length_of t s
  | CCons _ _ _ cs, S n => length_alt cs n s
  | CNil, _ => UB
  end.

(** ** Decoding *)
(** begin() of the content: EncodeDecode.cpp 208-209, 455-456; SequenceOf.hpp 131-132. *)
Definition content_iter (i : ident) (v : view) : res iter :=
  match i with
  | Id _ _ => v_begin v
  | DoubleId _ _ _ _ => let* it := v_begin v in v_begin (it_view it)
  end.
(** A loop over the packets of a span takes at most this many rounds, unless some round consumes nothing. *)
Definition rounds (it : iter) : nat := S (length (it_buf it)).
(** SequenceOf.hpp 132-140. *)
Fixpoint seqof_loop (dec : view -> res (bool * st)) (fuel : nat) (it : iter) : res (bool * list st) :=
  match fuel with
  | O => NoFuel
  | S fuel =>
      if it_at_end it then Ok (true, [])
      else let* (ok, s) := dec (it_view it) in
           if negb ok then Ok (false, [s])
           else let* it := it_next it in
                let* (ok, l) := seqof_loop dec fuel it in Ok (ok, s :: l)
  end.
(** Optional::decode and Default::decode (Optional.hpp 125-142 and 172-190, Default.hpp 150-167), or the type's own
    decode for a mandatory member.  [dec] is the decode function of the underlying type, [ids] its identifiers. *)
Definition member_decode (k : ckind) (ids : list (class * Z)) (new : st) (dec : st -> view -> res (bool * st))
           (m : option st) (v : view) : res (bool * option st) :=
  match k with
  | Mand => match m with Some s => let* (ok, s) := dec s v in Ok (ok, Some s) | None => UB end
  | Opt | Def =>
      if is_valid v then
        let* c := v_class v in
        if has_id ids c (v_tag v) then let* (ok, s) := dec new v in Ok (ok, Some s) else Ok (false, m)
      else Ok (true, None)
  end.
(** EncodeDecode.cpp 219-323: the loop over the members of a SET.  [disp] is the chain of "if (iterator->class_() == ...)
    switch (iterator->tag())": None when no label matches, else whether the member was decoded. *)
Fixpoint set_loop (disp : list (option st) -> list Z -> class -> Z -> view -> res (option (bool * (list (option st) * list Z))))
         (ext : bool) (fuel : nat) (it : iter) (ms : list (option st)) (counts : list Z) : res (bool * (list (option st) * list Z)) :=
  match fuel with
  | O => NoFuel
  | S fuel =>
      if it_at_end it then Ok (true, (ms, counts))
      else
        let* c := v_class (it_view it) in
        let* r := disp ms counts c (v_tag (it_view it)) (it_view it) in
        match r with
        | Some (false, s) => Ok (false, s)
        | Some (true, (ms, counts)) => let* it := it_next it in set_loop disp ext fuel it ms counts
        | None => if ext then let* it := it_next it in set_loop disp ext fuel it ms counts
                  else let* _ := v_identifier (it_view it) in Ok (false, (ms, counts))
        end
  end.
(** EncodeDecode.cpp 324-355: after the loop. *)
Fixpoint set_finish (cs : comps) (ms : list (option st)) (counts : list Z) : bool * list (option st) :=
  match cs, ms, counts with
  | CCons k _ _ cs, m :: ms, n :: counts =>
      if n =? 0
      then match k with
           | Mand => (false, m :: ms)
           | _ => let '(ok, ms) := set_finish cs ms counts in (ok, None :: ms)
           end
      else if n >? 1 then (false, m :: ms)
      else let '(ok, ms) := set_finish cs ms counts in (ok, m :: ms)
  | _, _, _ => (true, ms)
  end.
Fixpoint comps_length (cs : comps) : nat := match cs with CNil => O | CCons _ _ _ cs => S (comps_length cs) end.
(** The position of the first alternative with the given identifier. *)
Fixpoint find_label (cs : comps) (c : class) (tag : Z) : option nat :=
  match cs with
  | CNil => None
  | CCons _ ids _ cs => if has_id ids c tag then Some O else option_map S (find_label cs c tag)
  end.
(** EncodeDecode.cpp 467-513: a switch over the tag for each class in turn; the class of the packet is not looked at.
    Choice.hpp 625-648: the first alternative whose identifier has the packet's class and tag. *)
Definition select (g : gen) (cs : comps) (c : class) (tag : Z) : option nat :=
  match g with
  | CLib => find_label cs c tag
  | CGen => match find_label cs universal tag with
            | Some n => Some n
            | None => match find_label cs application tag with
                      | Some n => Some n
                      | None => match find_label cs context_specific tag with
                                | Some n => Some n
                                | None => find_label cs private_ tag
                                end
                      end
            end
  end.

Fixpoint decode (t : ty) (s : st) (v : view) {struct t} : res (bool * st) :=
  match t, s with
  | TLeaf k i, SLeaf l => let* (ok, l) := leaf_decode k i l v in Ok (ok, SLeaf l)
  | TSeqOf i t, SList _ =>                                            (* SequenceOf.hpp 123-142 *)
      let* ok := has_correct_header v i constructed in
      if negb ok then Ok (false, SList [])
      else let* it := content_iter i v in
           let* (ok, l) := seqof_loop (decode t (init t)) (rounds it) it in Ok (ok, SList l)
  | TSeq i cs, SRec ms =>                                             (* EncodeDecode.cpp 186-209, 357-421 *)
      if negb (is_valid v) then Ok (false, s)
      else let* ok := has_correct_header v i constructed in
           if negb ok then let* _ := v_identifier v in Ok (false, s)
           else if (comps_length cs =? 0)%nat then Ok (true, s)
           else let* it := content_iter i v in
                let* (ok, ms) := decode_seq cs ms it in Ok (ok, SRec ms)
  | TSet i ext cs, SRec ms =>                                         (* EncodeDecode.cpp 186-356 *)
      if negb (is_valid v) then Ok (false, s)
      else let* ok := has_correct_header v i constructed in
           if negb ok then let* _ := v_identifier v in Ok (false, s)
           else if (comps_length cs =? 0)%nat then Ok (true, s)
           else let* it := content_iter i v in
                let* (ok, st) := set_loop (decode_member cs) ext (rounds it) it ms (zrep (Z.of_nat (comps_length cs)) 0) in
                let '(ms, counts) := st in
                if negb ok then Ok (false, SRec ms)
                else let '(ok, ms) := set_finish cs ms counts in Ok (ok, SRec ms)
  | TChoice g o cs, SAlt _ _ =>
      (** EncodeDecode.cpp 432-465; Choice.hpp 650-680 *)
      let* content :=
        match o with
        | None => Ok (match g with CGen => Some v | CLib => if is_valid v then Some v else None end)
        | Some i => if negb (is_valid v) then Ok None
                    else let* ok := has_correct_header v i constructed in
                         if negb ok then Ok None
                         else let* it := content_iter i v in Ok (if is_valid (it_view it) then Some (it_view it) else None)
        end in
      match content with
      | None => Ok (false, s)
      | Some w =>
          (** 467-518; the generated switch statements read only the tag.  [select CGen] ignores the class, so any
              class will do for an invalid view. *)
          let* c := match g with CGen => Ok universal | CLib => v_class w end in
          match select g cs c (v_tag w) with
          | Some n => decode_alt cs n n w
          | None => let* _ := match g with CGen => v_identifier w | CLib => Ok (universal, 0) end in Ok (false, s)
          end
      end
  | _, _ => UB
  end
with decode_seq (cs : comps) (ms : list (option st)) (it : iter) {struct cs} : res (bool * list (option st)) :=
  match cs, ms with
  | CNil, [] => Ok (true, [])
  | CCons k ids t cs, m :: ms =>
      let v := it_view it in
      let* here := match k with
                   | Mand => Ok true
                   | _ => if is_valid v then let* c := v_class v in Ok (has_id ids c (v_tag v)) else Ok false
                   end in
      if (here : bool)
      then let* (ok, m) := member_decode k (type_ids t) (init t) (decode t) m v in
           if negb ok then Ok (false, m :: ms)
           else let* it := it_next it in
                let* (ok, ms) := decode_seq cs ms it in Ok (ok, m :: ms)
      else let* (ok, ms) := decode_seq cs ms it in Ok (ok, None :: ms)
  | _, _ => UB
  end
with decode_member (cs : comps) (ms : list (option st)) (counts : list Z) (c : class) (tag : Z) (v : view) {struct cs}
     : res (option (bool * (list (option st) * list Z))) :=
  match cs, ms, counts with
  | CNil, _, _ => Ok None
  | CCons k ids t cs, m :: ms, n :: counts =>
      if has_id ids c tag
      then let* (ok, m) := member_decode k (type_ids t) (init t) (decode t) m v in
           Ok (Some (ok, (m :: ms, (if ok then n + 1 else n) :: counts)))
      else let* r := decode_member cs ms counts c tag v in
           Ok (match r with
               | None => None
               | Some (ok, (ms, counts)) => Some (ok, (m :: ms, n :: counts))
               end)
  | _, _, _ => UB
  end
with decode_alt (cs : comps) (n k : nat) (v : view) {struct cs} : res (bool * st) :=
  match cs, n with
  | CCons _ _ t _, O => let* (ok, s) := decode t (init t) v in Ok (ok, SAlt k s)
  | CCons _ _ _ cs, S n => decode_alt cs n k v
  | CNil, _ => UB
  end.

(** ** Optional and Default as objects *)
(** Optional.hpp 98-108 and 154-164 (encode), 85-95 (encoded_length); Default.hpp 138-148, 125-135.  [enc] and [len] are
    the functions of the underlying type.  ([encode_comps] and [length_comps] have the same case distinction.) *)
Definition member_encode (k : ckind) (enc : st -> list Z -> res enc_result) (m : option st) (buffer : list Z) : res enc_result :=
  match m with
  | Some s => enc s buffer
  | None => match k with Mand => UB | _ => Ok (EncResult buffer true 0) end
  end.
Definition member_length (k : ckind) (len : st -> res Z) (m : option st) : res Z :=
  match m with
  | Some s => len s
  | None => match k with Mand => UB | _ => Ok 0 end
  end.
(** Default.hpp 86-112: operator=(val), with operator== of the underlying type as [eq] and the default value [def]. *)
Definition default_assign (eq : st -> st -> bool) (def val : st) : option st := if eq def val then None else Some val.
(** Default.hpp 43, 45, 46: get(), is_default(), set_to_default(). *)
Definition default_get (def : st) (m : option st) : st := match m with None => def | Some s => s end.
Definition is_default (m : option st) : bool := match m with None => true | Some _ => false end.
Definition set_to_default : option st := None.
(** Default.hpp 26 with 53-54: Default(const T& val).  Members are initialised in the order of their declarations:
    m_item, whose initialiser compares val with m_default, and only then m_default.  [None]: not yet initialised. *)
Definition default_construct (eq : st -> st -> bool) (def val : st) : res (option st * st) :=
  let m_default : option st := None in
  let* m_item := match m_default with Some d => Ok (default_assign eq d val) | None => UB end in
  let m_default := def in
  Ok (m_item, m_default).
(** Default.hpp 27-30: Default(const T2& val) compares with DefaultValue::get_value() instead. *)
Definition default_construct_from (eq : st -> st -> bool) (def val : st) : res (option st * st) :=
  Ok (default_assign eq def val, def).
