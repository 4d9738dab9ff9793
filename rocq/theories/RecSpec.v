(** Conditions on recursive definitions: as for schemas (SchemaSpec.v: good_schema, safe), name by name. *)
From Verif Require Import Base Ident Spec HeaderProofs Schema SchemaSpec.
From Verif Require Export RecTypes.

(** A definition that is a SEQUENCE, SET, SEQUENCE OF, SET OF or CHOICE (names of other types can be replaced by them). *)
Definition structured (r : rty) : Prop := match r with RLeaf _ _ | RName _ _ => False | _ => True end.
(** Members with their identifiers; what stands for the types is irrelevant where this is used. *)
Definition skeleton (cs : rcomps) : comps := subst_comps (fun _ => TLeaf KNull (Id universal 5)) cs.
(** The identifiers of a type. *)
Definition node_ids (r : rty) : list (class * Z) :=
  match r with
  | RLeaf _ i | RSeqOf i _ | RSeq i _ | RSet i _ _ | RChoice _ (Some i) _ | RName (Some i) _ => [outer_id i]
  | RChoice _ None cs => comps_ids (skeleton cs)
  | RName None _ => []
  end.
Definition rids (env : defs) (r : rty) : list (class * Z) :=
  match r with RName None x => node_ids (env x) | _ => node_ids r end.
(** wf_ty, labelled, unambiguous, choices_by_tag. *)
Fixpoint rgood (env : defs) (r : rty) : Prop :=
  match r with
  | RLeaf k i => wf_ty (TLeaf k i)
  | RSeqOf i r => wf_ident i /\ rgood env r
  | RSeq i cs => wf_ident i /\ seq_distinct (skeleton cs) /\ rgood_comps env cs
  | RSet i _ cs => wf_ident i /\ all_distinct (skeleton cs) /\ rgood_comps env cs
  | RChoice g o cs =>
      match o with Some i => wf_ident i | None => True end /\
      (let ids := comps_ids (skeleton cs) in ids <> [] /\ NoDup ids /\ forall c t, In (c, t) ids -> wf_ident (Id c t)) /\
      (g = CLib \/ tags_distinct (skeleton cs)) /\ rgood_comps env cs
  | RName o x => match o with Some i => wf_ident i | None => True end
  end
with rgood_comps (env : defs) (cs : rcomps) : Prop :=
  match cs with
  | RNil => True
  | RCons _ ids r cs => ids = rids env r /\ rgood env r /\ rgood_comps env cs
  end.
Record good_defs (env : defs) (K : nat) : Prop := {
  gd_ends : well_founded_defs env K;
  gd_structured : forall x, structured (env x);
  gd_good : forall x, rgood env (env x) }.
(** No mandatory member of a SEQUENCE is a generated CHOICE without a tag (cf. [safe]). *)
Definition node_guarded (r : rty) : Prop := match r with RChoice CGen None _ => False | _ => True end.
Definition rguarded (env : defs) (r : rty) : Prop := match r with RName None x => node_guarded (env x) | _ => node_guarded r end.
Fixpoint rsafe (env : defs) (r : rty) : Prop :=
  match r with
  | RLeaf _ _ | RName _ _ => True
  | RSeqOf _ r => rsafe env r
  | RSeq _ cs => rsafe_comps env true cs
  | RSet _ _ cs | RChoice _ _ cs => rsafe_comps env false cs
  end
with rsafe_comps (env : defs) (seq : bool) (cs : rcomps) : Prop :=
  match cs with
  | RNil => True
  | RCons k _ r cs => (seq = true -> k = Mand -> rguarded env r) /\ rsafe env r /\ rsafe_comps env seq cs
  end.
