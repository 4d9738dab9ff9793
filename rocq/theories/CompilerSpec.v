(** Specifications for the compiler: the tags X.680 gives a type, and when X.680 calls a type unambiguous.  Nothing here
    uses the functions of Compiler.v, only its syntax of ASN.1 types. *)
From Verif Require Export Spec SchemaSpec Compiler.

(** X.680 31.2.7: without a keyword a tag is explicit only under EXPLICIT TAGS. *)
Definition x680_explicit (m kw : mode) : bool :=
  match kw, m with
  | explicit_, _ => true
  | implicit_, _ => false
  | automatic, explicit_ => true
  | automatic, _ => false
  end.
(** The tags of the encodings of a type, outermost first; [] for an untagged CHOICE, which has no tag of its own (then
    implicit tagging is replaced by explicit tagging: 31.2.7 c). *)
Fixpoint x680_tags (m : mode) (t : aty) : list (class * Z) :=
  match t with
  | APrim _ u => [(universal, u)]
  | ASeqOf set _ => [(universal, if set then 17 else 16)]
  | ASeq _ => [(universal, 16)]
  | ASet _ _ => [(universal, 17)]
  | AChoice _ => []
  | ATagged kw c n t =>
      let tags := x680_tags m t in
      (c, n) :: (if x680_explicit m kw then tags else tl tags)
  | ADef m' t => x680_tags m' t
  end.
(** The tags a run-time identifier stands for. *)
Definition id_tags (i : ident) : list (class * Z) :=
  match i with Id c t => [(c, t)] | DoubleId oc ot ic it => [(oc, ot); (ic, it)] end.

(** The outermost tags an encoding of a type can have (no AUTOMATIC TAGS). *)
Fixpoint first_tags (t : aty) : list (class * Z) :=
  match t with
  | APrim _ u => [(universal, u)]
  | ASeqOf set _ => [(universal, if set then 17 else 16)]
  | ASeq _ => [(universal, 16)]
  | ASet _ _ => [(universal, 17)]
  | AChoice cs => all_first cs
  | ATagged _ c n _ => [(c, n)]
  | ADef _ t => first_tags t
  end
with all_first (cs : acomps) : list (class * Z) :=
  match cs with ANil => [] | ACons _ t cs => first_tags t ++ all_first cs end.
(** The tags that can come next: those of the components up to and including the first mandatory one. *)
Fixpoint follow (cs : acomps) : list (class * Z) :=
  match cs with
  | ANil => []
  | ACons Mand t _ => first_tags t
  | ACons _ t cs => first_tags t ++ follow cs
  end.
(** X.680 25.6: an optional component's tags differ from those of every component that can come next. *)
Fixpoint seq_valid (cs : acomps) : Prop :=
  match cs with
  | ANil => True
  | ACons k t cs => (k = Mand \/ disjoint (first_tags t) (follow cs)) /\ seq_valid cs
  end.

(** A condition on every node of a type, where [m] is the tagging default in force there. *)
Fixpoint everywhere (P : mode -> aty -> Prop) (m : mode) (t : aty) : Prop :=
  P m t /\
  match t with
  | APrim _ _ => True
  | ASeqOf _ t | ATagged _ _ _ t => everywhere P m t
  | ASeq cs | ASet _ cs | AChoice cs => everywhere_comps P m cs
  | ADef m' t => everywhere P m' t
  end
with everywhere_comps (P : mode -> aty -> Prop) (m : mode) (cs : acomps) : Prop :=
  match cs with ANil => True | ACons _ t cs => everywhere P m t /\ everywhere_comps P m cs end.

(** X.680 25.6 (SEQUENCE), 27.3 (SET), 29.3 (CHOICE). *)
Definition valid_seqs (m : mode) (t : aty) : Prop := match t with ASeq cs => seq_valid cs | _ => True end.
Definition distinct_members (m : mode) (t : aty) : Prop :=
  match t with ASet _ cs | AChoice cs => NoDup (all_first cs) | _ => True end.
(** Alternatives differ in their tag numbers, not only in the classes of their tags. *)
Definition choice_numbers (m : mode) (t : aty) : Prop :=
  match t with
  | AChoice cs => forall c1 c2 n, In (c1, n) (all_first cs) -> In (c2, n) (all_first cs) -> c1 = c2
  | _ => True
  end.
(** The schemas the theorems are about: no AUTOMATIC TAGS; no UNIVERSAL class in tags, and no empty CHOICE (X.680 31.2.2,
    29.1 rule both out); numbers in range; no reference to a definition "X ::= [a] [b] ..." with two tags written in a row. *)
Definition kind_ok (k : lkind) : Prop :=
  match k with
  | KSmall max x0 => zlen x0 <= max <= 100 /\ bytes x0
  | KFixed x0 => zlen x0 < 2^62 /\ bytes x0
  | _ => True
  end.
Definition plain (m : mode) (t : aty) : Prop :=
  m <> automatic /\
  match t with
  | APrim k u => kind_ok k /\ 0 <= u < 2^63
  | ATagged _ c n _ => c <> universal /\ 0 <= n < 2^63
  | AChoice cs => cs <> ANil
  | ADef _ (ATagged _ _ _ (ATagged _ _ _ _)) => False
  | _ => True
  end.

(** Octets p with the given tags, outermost first: all but the last constructed, the last as [con] says, content x. *)
Fixpoint tagged_octets (tags : list (class * Z)) (con : construction) (p x : list Z) : Prop :=
  match tags with
  | [] => False
  | [(c, n)] => ber_packet p c con n x
  | (c, n) :: tags => exists q, ber_packet p c constructed n q /\ tagged_octets tags con q x
  end.
(** What the compiler gets right about tags: a keyword on every tag or a module default other than AUTOMATIC, and
    explicit tags only on types with exactly one tag. *)
Fixpoint one_explicit (m : mode) (t : aty) : Prop :=
  match t with
  | ATagged kw _ _ t =>
      (kw = automatic -> m <> automatic) /\ (x680_explicit m kw = true -> length (x680_tags m t) = 1%nat) /\ one_explicit m t
  | ADef m' t => one_explicit m' t
  | _ => True
  end.
(** The simple part of AUTOMATIC TAGS: only mandatory members in SEQUENCEs; members of SETs and alternatives of CHOICEs
    untagged, and not references to SEQUENCE, SET or CHOICE types.  [base]: the type behind references and tags. *)
Fixpoint base (t : aty) : aty := match t with ATagged _ _ _ t | ADef _ t => base t | _ => t end.
Definition structured (t : aty) : Prop := match base t with ASeq _ | ASet _ _ | AChoice _ => True | _ => False end.
Fixpoint acomps_length (cs : acomps) : nat := match cs with ANil => O | ACons _ _ cs => S (acomps_length cs) end.
Fixpoint all_comps (P : ckind -> aty -> Prop) (cs : acomps) : Prop :=
  match cs with ANil => True | ACons k t cs => P k t /\ all_comps P cs end.
Definition auto_simple (m : mode) (t : aty) : Prop :=
  m = automatic /\
  match t with
  | APrim k u => kind_ok k /\ 0 <= u < 2^63
  | ATagged _ _ n _ => 0 <= n < 2^63
  | ASeq cs => Z.of_nat (acomps_length cs) < 2^31 /\ all_comps (fun k _ => k = Mand) cs
  | ASet _ cs => Z.of_nat (acomps_length cs) < 2^31 /\
      all_comps (fun _ t => match t with ATagged _ _ _ _ => False | ADef _ _ => ~ structured t | _ => True end) cs
  | AChoice cs => Z.of_nat (acomps_length cs) < 2^31 /\ cs <> ANil /\
      all_comps (fun _ t => match t with ATagged _ _ _ _ => False | ADef _ _ => ~ structured t | _ => True end) cs
  | ADef _ (ATagged _ _ _ (ATagged _ _ _ _)) => False
  | _ => True
  end.
