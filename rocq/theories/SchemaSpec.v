(** Independent specifications for the composite types: abstract values, their BER encodings (X.690 8.9-8.13),
    well-formed and unambiguous schemas, the objects a program can hold.  No encode/decode function is used here. *)
From Coq Require Export Permutation.
From Verif Require Import Base Ident View Spec HeaderProofs ViewProofs PrimProofs ContProofs.
From Verif Require Export Schema.

(** ** Abstract values *)
(** The content octets of a primitive value; the elements of a SEQUENCE OF; the members of a SEQUENCE or SET (None:
    absent); the chosen alternative. *)
Inductive val :=
| VPrim (x : list Z)
| VList (l : list val)
| VRec (l : list (option val))
| VAlt (n : nat) (v : val).

(** Contents a primitive type accepts. *)
Definition content_ok (k : lkind) (x : list Z) : Prop :=
  bytes x /\
  match k with
  | KBool => zlen x = 1
  | KNull => x = []
  | KSmall max _ => zlen x <= max
  | KFixed _ => True
  | KTime => 10 <= zlen x <= 23
  end.

(** [ber_of t v p]: the octets p are a BER encoding of value v of type t (definite lengths, at most 8 length octets;
    any number of leading zeros in lengths).  [ber_parts]: the encodings of the present members, in definition order. *)
Fixpoint ber_of (t : ty) (v : val) (p : list Z) {struct t} : Prop :=
  match t, v with
  | TLeaf k i, VPrim x => content_ok k x /\ id_packet i primitive p x []
  | TSeqOf i t, VList vs => exists ps, Forall2 (ber_of t) vs ps /\ id_packet i constructed p (concat ps) []
  | TSeq i cs, VRec vs => exists ps, ber_parts cs vs ps /\ id_packet i constructed p (concat ps) []
  | TSet i _ cs, VRec vs =>                                     (* 8.11: the members in any order *)
      exists ps qs, ber_parts cs vs ps /\ Permutation ps qs /\ id_packet i constructed p (concat qs) []
  | TChoice _ o cs, VAlt n v =>
      match o with
      | None => ber_alt cs n v p
      | Some i => exists q, ber_alt cs n v q /\ id_packet i constructed p q []
      end
  | _, _ => False
  end
with ber_parts (cs : comps) (vs : list (option val)) (ps : list (list Z)) {struct cs} : Prop :=
  match cs, vs with
  | CNil, [] => ps = []
  | CCons _ _ t cs, Some v :: vs => exists p ps', ps = p :: ps' /\ ber_of t v p /\ ber_parts cs vs ps'
  | CCons k _ _ cs, None :: vs => k <> Mand /\ ber_parts cs vs ps
  | _, _ => False
  end
with ber_alt (cs : comps) (n : nat) (v : val) (p : list Z) {struct cs} : Prop :=
  match cs, n with
  | CCons _ _ t _, O => ber_of t v p
  | CCons _ _ _ cs, S n => ber_alt cs n v p
  | CNil, _ => False
  end.

(** ** Well-formed schemas: identifiers in range, defaults that fit, every CHOICE has an alternative *)
Fixpoint wf_ty (t : ty) : Prop :=
  match t with
  | TLeaf k i =>
      wf_ident i /\
      match k with
      | KSmall max x0 => small_ok i max /\ zlen x0 <= max /\ bytes x0
      | KFixed x0 => zlen x0 < 2^62 /\ bytes x0
      | _ => True
      end
  | TSeqOf i t => wf_ident i /\ wf_ty t
  | TSeq i cs | TSet i _ cs => wf_ident i /\ wf_comps cs
  | TChoice _ o cs => match o with Some i => wf_ident i | None => True end /\ cs <> CNil /\ wf_comps cs
  end
with wf_comps (cs : comps) : Prop :=
  match cs with CNil => True | CCons _ _ t cs => wf_ty t /\ wf_comps cs end.

(** ** Unambiguous schemas (X.680 25.6, 27.3, 29.3) *)
Definition disjoint (a b : list (class * Z)) : Prop := forall x, In x a -> In x b -> False.
(** The identifiers that can follow: those of the next members up to and including the next mandatory one. *)
Fixpoint next_ids (cs : comps) : list (class * Z) :=
  match cs with
  | CNil => []
  | CCons Mand ids _ _ => ids
  | CCons _ ids _ cs => ids ++ next_ids cs
  end.
(** In the code generated for each component, the identifiers tested for are those of the component's type. *)
Fixpoint labelled (t : ty) : Prop :=
  match t with
  | TLeaf _ _ => True
  | TSeqOf _ t => labelled t
  | TSeq _ cs | TSet _ _ cs | TChoice _ _ cs => labelled_comps cs
  end
with labelled_comps (cs : comps) : Prop :=
  match cs with CNil => True | CCons _ ids t cs => ids = type_ids t /\ labelled t /\ labelled_comps cs end.
Fixpoint seq_distinct (cs : comps) : Prop :=
  match cs with
  | CNil => True
  | CCons k ids _ cs => (k = Mand \/ disjoint ids (next_ids cs)) /\ seq_distinct cs
  end.
Fixpoint all_distinct (cs : comps) : Prop :=
  match cs with CNil => True | CCons _ ids _ cs => disjoint ids (comps_ids cs) /\ all_distinct cs end.
(** No two alternatives differ in class only. *)
Definition tags_distinct (cs : comps) : Prop :=
  forall c1 c2 t, In (c1, t) (comps_ids cs) -> In (c2, t) (comps_ids cs) -> c1 = c2.
Fixpoint unambiguous (t : ty) : Prop :=
  match t with
  | TLeaf _ _ => True
  | TSeqOf _ t => unambiguous t
  | TSeq _ cs => seq_distinct cs /\ unambiguous_comps cs
  | TSet _ _ cs => all_distinct cs /\ unambiguous_comps cs
  | TChoice _ _ cs => all_distinct cs /\ unambiguous_comps cs
  end
with unambiguous_comps (cs : comps) : Prop :=
  match cs with CNil => True | CCons _ _ t cs => unambiguous t /\ unambiguous_comps cs end.
(** What the generated CHOICE decoder needs beyond unambiguity: tags that are distinct without their classes. *)
Fixpoint choices_by_tag (t : ty) : Prop :=
  match t with
  | TLeaf _ _ => True
  | TSeqOf _ t => choices_by_tag t
  | TSeq _ cs | TSet _ _ cs => choices_by_tag_comps cs
  | TChoice g _ cs => (g = CLib \/ tags_distinct cs) /\ choices_by_tag_comps cs
  end
with choices_by_tag_comps (cs : comps) : Prop :=
  match cs with CNil => True | CCons _ _ t cs => choices_by_tag t /\ choices_by_tag_comps cs end.

(** ** Objects *)
(** Objects of a type: what any sequence of API calls can leave behind.  (A FixedIdBerContainer may hold anything,
    also the result of decoding a packet with surplus octets inside an explicit tag.) *)
Definition leaf_inv (k : lkind) (i : ident) (l : lstate) : Prop :=
  match k, l with
  | KBool, LData d => exists b, bool_rep i d b
  | KNull, LNull => True
  | KSmall max _, LData d => exists x, small_rep i max d x
  | KFixed _, LFixed _ | KTime, LFixed _ => True
  | _, _ => False
  end.
Fixpoint obj (t : ty) (s : st) {struct t} : Prop :=
  match t, s with
  | TLeaf k i, SLeaf l => leaf_inv k i l
  | TSeqOf _ t, SList l => Forall (obj t) l
  | TSeq _ cs, SRec l | TSet _ _ cs, SRec l => obj_comps cs l
  | TChoice _ _ cs, SAlt n s => obj_alt cs n s
  | _, _ => False
  end
with obj_comps (cs : comps) (l : list (option st)) {struct cs} : Prop :=
  match cs, l with
  | CNil, [] => True
  | CCons k _ t cs, m :: l => match m with Some s => obj t s | None => k <> Mand end /\ obj_comps cs l
  | _, _ => False
  end
with obj_alt (cs : comps) (n : nat) (s : st) {struct cs} : Prop :=
  match cs, n with
  | CCons _ _ t _, O => obj t s
  | CCons _ _ _ cs, S n => obj_alt cs n s
  | CNil, _ => False
  end.

(** [rep t s v]: the object s holds the value v. *)
Definition leaf_rep (k : lkind) (i : ident) (l : lstate) (x : list Z) : Prop :=
  content_ok k x /\
  match k, l with
  | KBool, LData d => bool_rep i d (hd 0 x)
  | KNull, LNull => True
  | KSmall max _, LData d => small_rep i max d x
  | KFixed _, LFixed f | KTime, LFixed f => fixed_rep i f x
  | _, _ => False
  end.
Fixpoint rep (t : ty) (s : st) (v : val) {struct t} : Prop :=
  match t, s, v with
  | TLeaf k i, SLeaf l, VPrim x => leaf_rep k i l x
  | TSeqOf _ t, SList l, VList vs => Forall2 (rep t) l vs
  | TSeq _ cs, SRec l, VRec vs | TSet _ _ cs, SRec l, VRec vs => rep_comps cs l vs
  | TChoice _ _ cs, SAlt n s, VAlt m v => n = m /\ rep_alt cs n s v
  | _, _, _ => False
  end
with rep_comps (cs : comps) (l : list (option st)) (vs : list (option val)) {struct cs} : Prop :=
  match cs, l, vs with
  | CNil, [], [] => True
  | CCons k _ t cs, m :: l, v :: vs =>
      match m, v with Some s, Some v => rep t s v | None, None => k <> Mand | _, _ => False end /\ rep_comps cs l vs
  | _, _, _ => False
  end
with rep_alt (cs : comps) (n : nat) (s : st) (v : val) {struct cs} : Prop :=
  match cs, n with
  | CCons _ _ t _, O => rep t s v
  | CCons _ _ _ cs, S n => rep_alt cs n s v
  | CNil, _ => False
  end.

(** A bound on the memory an object occupies: its stored octets and 64 for every node. *)
Definition sumz (l : list Z) : Z := fold_right Z.add 0 l.
Definition leaf_weight (l : lstate) : Z :=
  match l with LData d => zlen d | LFixed f => zlen (f_data f) | LNull => 0 end.
Fixpoint weight (s : st) : Z :=
  64 + match s with
       | SLeaf l => leaf_weight l
       | SList l => sumz (map weight l)
       | SRec l => sumz (map (fun m => match m with Some s => weight s | None => 0 end) l)
       | SAlt _ s => weight s
       end.

(** An encode function that writes exactly the octets p if there is room, and otherwise fails, reports length 0 and
    keeps the size of the buffer. *)
Definition writes_exactly (enc : list Z -> res enc_result) (p : list Z) : Prop :=
  forall buf, zlen buf < 2^63 ->
    exists out, zlen out = zlen buf /\
      enc buf = Ok (if zlen p <=? zlen buf then EncResult (p ++ zdrop (zlen p) buf) true (zlen p)
                    else EncResult out false 0).

(** ** Views a decode function can be given *)
(** An invalid view, or a view of a packet at the start of some octets. *)
Definition invalid_view (v : view) : Prop := v_mem v = None /\ v_hl v = 0 /\ v_cl v = 0.
Definition view_of (v : view) (input : list Z) (c : class) (t : Z) : Prop :=
  exists p con x rest, input = p ++ rest /\ ber_packet p c con t x /\ v = pview p t x rest.

(** Types whose decode function tests the validity of its argument before anything else; only the CHOICE generated
    without a tag of its own does not. *)
Definition guarded (t : ty) : Prop := match t with TChoice CGen None _ => False | _ => True end.
Fixpoint guarded_comps (cs : comps) : Prop :=
  match cs with CNil => True | CCons k _ t cs => (k = Mand -> guarded t) /\ guarded_comps cs end.
Fixpoint safe (t : ty) : Prop :=
  match t with
  | TLeaf _ _ => True
  | TSeqOf _ t => safe t
  | TSeq _ cs => safe_comps cs /\ guarded_comps cs
  | TSet _ _ cs | TChoice _ _ cs => safe_comps cs
  end
with safe_comps (cs : comps) : Prop :=
  match cs with CNil => True | CCons _ _ t cs => safe t /\ safe_comps cs end.
(** The identifier of a type's own packet (an untagged CHOICE has none) and whether it is primitive or constructed. *)
Definition own_id (t : ty) : option ident :=
  match t with TLeaf _ i | TSeqOf i _ | TSeq i _ | TSet i _ _ => Some i | TChoice _ o _ => o end.
Definition own_con (t : ty) : construction := match t with TLeaf _ _ => primitive | _ => constructed end.

(** ** What decoding a SET has to do with the packets qs of its content, independently of their order *)
Definition pkt_view (q : pkt) : view := pview (pk_ber q) (pk_tag q) (pk_content q) [].
Definition pkt_has (ids : list (class * Z)) (q : pkt) : bool := has_id ids (pk_class q) (pk_tag q).
(** Every member: none, or exactly one packet with its identifier, which decodes; a mandatory member exactly one. *)
Fixpoint set_final (cs : comps) (ms : list (option st)) (qs : list pkt) (ms' : list (option st)) : Prop :=
  match cs, ms, ms' with
  | CNil, [], [] => True
  | CCons k ids t cs, m :: ms, m' :: ms' =>
      match filter (pkt_has ids) qs with
      | [] => k <> Mand /\ m' = None
      | [q] => member_decode k (type_ids t) (init t) (decode t) m (pkt_view q) = Ok (true, m')
      | _ => False
      end /\ set_final cs ms (filter (fun q => negb (pkt_has ids q)) qs) ms'
  | _, _, _ => False
  end.
(** The packets that belong to no member. *)
Definition unknown (cs : comps) (qs : list pkt) : list pkt := filter (fun q => negb (pkt_has (comps_ids cs) q)) qs.
(** The n-th component (or alternative) of a list. *)
Fixpoint nth_comp (cs : comps) (n : nat) : option (ckind * list (class * Z) * ty) :=
  match cs, n with
  | CNil, _ => None
  | CCons k ids t _, O => Some (k, ids, t)
  | CCons _ _ _ cs, S n => nth_comp cs n
  end.
(** Schemas for which the round trip holds: identifiers in range, the identifiers tested for are those of the types,
    unambiguous (X.680), and generated CHOICEs distinguishable by tag number alone. *)
Definition good_schema (t : ty) : Prop := wf_ty t /\ labelled t /\ unambiguous t /\ choices_by_tag t.
