(** Recursive types.  A set of ASN.1 definitions may refer to itself; the C++ types and functions generated for it do the same
    (a recursive member is a DynamicOptional, a DynamicVariant or an element of a SequenceOf: ReorderAssignments.cpp 132-321,
    whose encode and decode functions are those of Schema.v, /repo/include/fast_ber/ber_types/Optional.hpp 154-190,
    Choice.hpp 533-686).  A type of [Schema.ty] is finite; a recursive one is described here by its finite unfoldings. *)
From Verif Require Export Base Schema.

(** ** Types that refer to definitions by name (a number) *)
Inductive rty :=
| RLeaf (k : lkind) (i : ident)
| RSeqOf (i : ident) (r : rty)
| RSeq (i : ident) (cs : rcomps)
| RSet (i : ident) (ext : bool) (cs : rcomps)
| RChoice (g : gen) (o : option ident) (cs : rcomps)
| RName (o : option ident) (x : nat)   (* the type defined as x, encoded with its own or with another identifier *)
with rcomps :=
| RNil
| RCons (k : ckind) (ids : list (class * Z)) (r : rty) (cs : rcomps).
Scheme rty_rcomps_ind := Induction for rty Sort Prop with rcomps_rty_ind := Induction for rcomps Sort Prop.
(** The definitions. *)
Definition defs : Type := nat -> rty.

(** encode_with_id<Identifier_> / decode_with_id<Identifier_> (EncodeDecode.cpp 14-24): the type with another identifier. *)
Definition retag (o : option ident) (t : ty) : ty :=
  match o with
  | None => t
  | Some i =>
      match t with
      | TLeaf k _ => TLeaf k i
      | TSeqOf _ t => TSeqOf i t
      | TSeq _ cs => TSeq i cs
      | TSet _ ext cs => TSet i ext cs
      | TChoice g _ cs => TChoice g (Some i) cs
      end
  end.
(** The type with [f x] for every name x. *)
Fixpoint subst (f : nat -> ty) (r : rty) : ty :=
  match r with
  | RLeaf k i => TLeaf k i
  | RSeqOf i r => TSeqOf i (subst f r)
  | RSeq i cs => TSeq i (subst_comps f cs)
  | RSet i ext cs => TSet i ext (subst_comps f cs)
  | RChoice g o cs => TChoice g o (subst_comps f cs)
  | RName o x => retag o (f x)
  end
with subst_comps (f : nat -> ty) (cs : rcomps) : comps :=
  match cs with
  | RNil => CNil
  | RCons k ids r cs => CCons k ids (subst f r) (subst_comps f cs)
  end.
(** The definition x with names replaced [n] times by their definitions, and then by [b]. *)
Fixpoint level (env : defs) (b : nat -> ty) (n : nat) (x : nat) : ty :=
  match n with
  | O => b x
  | S n => subst (level env b n) (env x)
  end.
Definition unfolding (env : defs) (b : nat -> ty) (n : nat) (r : rty) : ty := subst (level env b n) r.

(** [eventually env r P]: P holds of every deep enough unfolding of r, whatever types [b] stand below.  The generated
    functions call each other as often as needed: they give a result exactly when the functions of all deep enough unfoldings
    give it, no matter what those would do below. *)
Definition eventually (env : defs) (r : rty) (P : ty -> Prop) : Prop :=
  exists n, forall m b, (n <= m)%nat -> P (unfolding env b m r).

(** ** Conditions on definitions *)
(** The names a type stands for, or has as alternatives, without a packet around them. *)
Fixpoint heads (r : rty) : list nat :=
  match r with
  | RName _ x => [x]
  | RChoice _ None cs => heads_comps cs
  | _ => []
  end
with heads_comps (cs : rcomps) : list nat :=
  match cs with RNil => [] | RCons _ _ r cs => heads r ++ heads_comps cs end.
(** The names that are default constructed when the type is: mandatory members and first alternatives. *)
Fixpoint inits (r : rty) : list nat :=
  match r with
  | RLeaf _ _ | RSeqOf _ _ => []
  | RSeq _ cs | RSet _ _ cs => inits_comps cs
  | RChoice _ _ cs => match cs with RNil => [] | RCons _ _ r _ => inits r end
  | RName _ x => [x]
  end
with inits_comps (cs : rcomps) : list nat :=
  match cs with
  | RNil => []
  | RCons k _ r cs => (match k with Mand => inits r | _ => [] end) ++ inits_comps cs
  end.
(** Definitions that are never finished are excluded: no name stands for itself without a packet around it, and no value
    contains itself.  [rank]: a numbering of the names that shows this. *)
Definition well_founded_defs (env : defs) (K : nat) : Prop :=
  (exists rank, forall x, (rank x <= K)%nat /\ forall y, In y (heads (env x)) -> (rank y < rank x)%nat) /\
  (exists rank, forall x, (rank x <= K)%nat /\ forall y, In y (inits (env x)) -> (rank y < rank x)%nat).
