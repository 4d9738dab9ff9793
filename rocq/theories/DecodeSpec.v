(** Which octets a decoder of generated code accepts, and as what value: a specification for all inputs, also for
    packets an encoder of this library never writes.  No encode or decode function is used here.
    [reads t v p]: the packet p (identifier, length, content) is taken for the value v of type t. *)
From Verif Require Import Base Ident View Spec Prims SchemaSpec.

(** Octets that do not begin with a packet. *)
Definition rubbish (tail : list Z) : Prop :=
  forall p c con t x rest, ber_packet p c con t x -> tail <> p ++ rest.
(** The content of a constructed packet: packets one behind the other, up to the end or to the first octets that are no
    packet; what follows is ignored. *)
Definition split_content (x : list Z) (qs : list pkt) : Prop :=
  exists tail, x = concat (map pk_ber qs) ++ tail /\ Forall pkt_ok qs /\ rubbish tail.

(** The last n octets. *)
Definition last_octets (n : Z) (x : list Z) : list Z := zdrop (zlen x - n) x.
(** Primitive types: a packet with the type's identifier(s) and a content of a size the type can hold.  Octets behind the
    inner packet of an explicit tag are tolerated; strings, object identifiers, bit strings and GeneralizedTime
    then hold the last octets of the outer packet, as many as the inner content has (C26). *)
Definition leaf_reads (k : lkind) (i : ident) (x p : list Z) : Prop :=
  exists y extra, id_packet i primitive p y extra /\ content_ok k y /\
    x = match k with KFixed _ | KTime => last_octets (zlen y) (y ++ extra) | _ => y end.

(** The alternative of a CHOICE: the first with the packet's class and tag number (library), or (generated code) the
    first with the tag number in class universal, else application, else context-specific, else private: the class of
    the packet does not matter. *)
Definition first_with (cs : comps) (c : class) (tag : Z) (n : nat) : Prop :=
  (exists k ids t, nth_comp cs n = Some (k, ids, t) /\ In (c, tag) ids) /\
  (forall m k ids t, (m < n)%nat -> nth_comp cs m = Some (k, ids, t) -> ~ In (c, tag) ids).
Definition none_with (cs : comps) (c : class) (tag : Z) : Prop := ~ In (c, tag) (comps_ids cs).
Definition picks (g : gen) (cs : comps) (c : class) (tag : Z) (n : nat) : Prop :=
  match g with
  | CLib => first_with cs c tag n
  | CGen => first_with cs universal tag n \/
            none_with cs universal tag /\
            (first_with cs application tag n \/
             none_with cs application tag /\
             (first_with cs context_specific tag n \/
              none_with cs context_specific tag /\ first_with cs private_ tag n))
  end.

Fixpoint reads (t : ty) (v : val) (p : list Z) {struct t} : Prop :=
  match t, v with
  | TLeaf k i, VPrim x => leaf_reads k i x p
  | TSeqOf i t, VList vs =>                                    (* every packet of the content is an element *)
      exists x extra qs, id_packet i constructed p x extra /\ split_content x qs /\
                         Forall2 (fun v q => reads t v (pk_ber q)) vs qs
  | TSeq i cs, VRec vs =>
      exists x extra qs, id_packet i constructed p x extra /\ split_content x qs /\ reads_seq cs vs qs
  | TSet i ext cs, VRec vs =>                                  (* packets of no member: only if extensible, or no members *)
      exists x extra qs, id_packet i constructed p x extra /\ split_content x qs /\ reads_set cs vs qs /\
                         (cs = CNil \/ ext = true \/ unknown cs qs = [])
  | TChoice g o cs, VAlt n v =>                                (* of a tagged CHOICE: the first packet of the content *)
      exists q, pkt_ok q /\
        match o with None => p = pk_ber q | Some i => exists extra rest, id_packet i constructed p (pk_ber q ++ rest) extra end /\
        picks g cs (pk_class q) (pk_tag q) n /\ reads_alt cs n v (pk_ber q)
  | _, _ => False
  end
with reads_seq (cs : comps) (vs : list (option val)) (qs : list pkt) {struct cs} : Prop :=
  (* the members take packets from the front, an optional or default one only if the packet has one of its identifiers;
     packets behind the last member are ignored *)
  match cs, vs with
  | CNil, [] => True
  | CCons k ids t cs, Some v :: vs =>
      exists q qs', qs = q :: qs' /\ (k = Mand \/ In (pk_class q, pk_tag q) ids) /\ reads t v (pk_ber q) /\ reads_seq cs vs qs'
  | CCons k ids t cs, None :: vs =>
      k <> Mand /\ (forall q qs', qs = q :: qs' -> ~ In (pk_class q, pk_tag q) ids) /\ reads_seq cs vs qs
  | _, _ => False
  end
with reads_set (cs : comps) (vs : list (option val)) (qs : list pkt) {struct cs} : Prop :=
  (* of the packets with one of a member's identifiers there is one, or none and the member is not mandatory *)
  match cs, vs with
  | CNil, [] => True
  | CCons k ids t cs, v :: vs =>
      match v with
      | Some v => exists q, filter (pkt_has ids) qs = [q] /\ reads t v (pk_ber q)
      | None => k <> Mand /\ filter (pkt_has ids) qs = []
      end /\ reads_set cs vs (filter (fun q => negb (pkt_has ids q)) qs)
  | _, _ => False
  end
with reads_alt (cs : comps) (n : nat) (v : val) (p : list Z) {struct cs} : Prop :=
  match cs, n with
  | CCons _ _ t _, O => reads t v p
  | CCons _ _ _ cs, S n => reads_alt cs n v p
  | CNil, _ => False
  end.

(** [seen t s v]: through the accessors of the API the object s shows the value v. *)
Definition leaf_seen (k : lkind) (i : ident) (l : lstate) (x : list Z) : Prop :=
  match k, l with
  | KBool, LData d => x = [last d 0] /\ bool_value d = negb (hd 0 x =? 0)
  | KNull, LNull => x = []
  | KSmall _ _, LData d => small_content i d = Ok x
  | KFixed _, LFixed f | KTime, LFixed f => fixed_content f = Ok x
  | _, _ => False
  end.
Fixpoint seen (t : ty) (s : st) (v : val) {struct t} : Prop :=
  match t, s, v with
  | TLeaf k i, SLeaf l, VPrim x => leaf_seen k i l x
  | TSeqOf _ t, SList l, VList vs => Forall2 (seen t) l vs
  | TSeq _ cs, SRec l, VRec vs | TSet _ _ cs, SRec l, VRec vs => seen_comps cs l vs
  | TChoice _ _ cs, SAlt n s, VAlt m v => n = m /\ seen_alt cs n s v
  | _, _, _ => False
  end
with seen_comps (cs : comps) (l : list (option st)) (vs : list (option val)) {struct cs} : Prop :=
  match cs, l, vs with
  | CNil, [], [] => True
  | CCons k _ t cs, m :: l, v :: vs =>
      match m, v with Some s, Some v => seen t s v | None, None => True | _, _ => False end /\ seen_comps cs l vs
  | _, _, _ => False
  end
with seen_alt (cs : comps) (n : nat) (s : st) (v : val) {struct cs} : Prop :=
  match cs, n with
  | CCons _ _ t _, O => seen t s v
  | CCons _ _ _ cs, S n => seen_alt cs n s v
  | CNil, _ => False
  end.

(** Contents that do not look like the beginning of a packet with an overlong tag: an octet with five low bits 1 and
    then nine octets with high bit 1. *)
Definition calm_content (x : list Z) : Prop :=
  ~ exists b bs, x = b :: bs /\ b mod 32 = 31 /\ 9 <= zlen bs /\ Forall (fun c => 128 <= c) (ztake 9 bs).
Inductive calm_value : val -> Prop :=
| calm_prim x : calm_content x -> calm_value (VPrim x)
| calm_list l : Forall calm_value l -> calm_value (VList l)
| calm_rec l : Forall (fun m => forall v, m = Some v -> calm_value v) l -> calm_value (VRec l)
| calm_alt n v : calm_value v -> calm_value (VAlt n v).
