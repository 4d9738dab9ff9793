(** COMPONENTS OF (X.680 25.4), written out: what modules with COMPONENTS OF stand for, as modules without it.  Uses the notation of
    ParserSource.v; nothing of the parser or of the model of the compiler. *)
From Coq Require Import List String ZArith Bool.
From Verif Require Import ParserTree ParserSource.
Import ListNotations.
Local Open Scope string_scope.
Local Open Scope list_scope.

(** The SEQUENCEs X ::= SEQUENCE { ... } of a module without an extension marker, as (X, components). *)
Definition sequences (s : source) : list (string * list comp) :=
  flat_map (fun d => match d with DType x [] (YRecord false root None) => [(x, root)] | _ => [] end) (s_decls s).
Definition sequence (ts : list (string * list comp)) (x : string) : option (list comp) :=
  option_map snd (find (fun e => String.eqb (fst e) x) ts).
(** The type with the components of X for every COMPONENTS OF X in a SEQUENCE. *)
Fixpoint filled (ts : list (string * list comp)) (t : ty) : ty :=
  match t with
  | YSimple _ | YBits _ | YInteger _ | YEnumerated _ _ | YRef _ _ | YApply _ _ | YField _ _ => t
  | YChoice root more =>
      let alt (e : string * ty) := (fst e, filled ts (snd e)) in YChoice (map alt root) (option_map (map alt) more)
  | YRecord set root more =>
      YRecord set (flat_map (filled_comp ts set) root)
        (option_map (fun m => (flat_map (filled_comp ts set) (fst m), option_map (flat_map (filled_comp ts set)) (snd m))) more)
  | YListOf set size name t => YListOf set size name (filled ts t)
  | YTagged c n kw t => YTagged c n kw (filled ts t)
  | YWith t c => YWith (filled ts t) c
  end
with filled_comp (ts : list (string * list comp)) (set : bool) (c : comp) : list comp :=
  match c with
  | CNamed x t d => [CNamed x (filled ts t) d]
  | CAnonymous t d => [CAnonymous (filled ts t) d]
  | COf (YRef None r) => if set then [c] else match sequence ts r with Some cs => cs | None => [c] end
  | COf _ => [c]
  end.
Definition filled_source (s : source) : source :=
  Source (s_name s) (s_oid s) (s_tags s) (s_implied s) (s_exports s) (s_imports s)
    (map (fun d => match d with DType x ps t => DType x ps (filled (sequences s) t) | DValue _ _ _ | DClass _ _ => d end) (s_decls s)).

(** ** Conditions *)
(** No structure and no ENUMERATED under a tag or SEQUENCE OF, so that none gets a made-up name; no COMPONENTS OF; no components without a name. *)
Fixpoint needs_name (t : ty) : bool := match t with YEnumerated _ _ | YChoice _ _ | YRecord _ _ _ => true | YWith t _ => needs_name t | _ => false end.
Fixpoint level (t : ty) : bool :=
  match t with
  | YSimple _ | YBits _ | YInteger _ | YEnumerated _ _ | YRef _ _ | YField _ _ => true
  | YChoice root more => forallb (fun e => level (snd e)) root && match more with Some l => forallb (fun e => level (snd e)) l | None => true end
  | YRecord _ root more => forallb level_comp root && match more with
      | None => true
      | Some (l, None) => forallb level_comp l
      | Some (l, Some l2) => forallb level_comp l && forallb level_comp l2
      end
  | YListOf _ _ _ t | YTagged _ _ _ t => negb (needs_name t) && level t
  | YWith t _ => level t
  | YApply _ _ => false
  end
with level_comp (c : comp) : bool := match c with CNamed _ t _ => level t | COf _ | CAnonymous _ _ => false end.
(** COMPONENTS OF X only where X is a level SEQUENCE of the same module, and only in SEQUENCEs that are the type of a definition, or stand right behind
    a tag or OF ([here]). *)
Fixpoint well_filled (ts : list (string * list comp)) (here : bool) (t : ty) : bool :=
  match t with
  | YSimple _ | YBits _ | YInteger _ | YEnumerated _ _ | YRef _ _ | YApply _ _ | YField _ _ => true
  | YChoice root more => forallb (fun e => well_filled ts false (snd e)) root && match more with Some l => forallb (fun e => well_filled ts false (snd e)) l | None => true end
  | YRecord set root more => forallb (well_filled_comp ts (here && negb set)) root && match more with
      | None => true
      | Some (l, None) => forallb (well_filled_comp ts (here && negb set)) l
      | Some (l, Some l2) => forallb (well_filled_comp ts (here && negb set)) l && forallb (well_filled_comp ts (here && negb set)) l2
      end
  | YListOf _ _ _ t | YTagged _ _ _ t => well_filled ts true t
  | YWith t _ => well_filled ts here t
  end
with well_filled_comp (ts : list (string * list comp)) (here : bool) (c : comp) : bool :=
  match c with
  | CNamed _ t _ | CAnonymous t _ => well_filled ts false t
  | COf (YRef None r) => here && match sequence ts r with Some cs => forallb level_comp cs | None => false end
  | COf _ => false
  end.
Definition well_filled_source (s : source) : bool :=
  forallb (fun d => match d with DType _ [] t => well_filled (sequences s) true t | DType _ (_ :: _) _ => false | DValue _ _ _ | DClass _ _ => true end) (s_decls s).
