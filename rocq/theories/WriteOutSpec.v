(** Parameterized types (X.683), written out: what modules with templates stand for, as modules without them.  Uses the notation of
    ParserSource.v; nothing of the parser or of the model of the compiler. *)
From Coq Require Import List String ZArith Bool.
From Verif Require Import ParserTree ParserSource.
Import ListNotations.
Local Open Scope string_scope.
Local Open Scope list_scope.

(** The type with [arg] in the place of the name [p]. *)
Fixpoint replaced (p : string) (arg t : ty) : ty :=
  match t with
  | YRef None x => if String.eqb x p then arg else t
  | YSimple _ | YBits _ | YInteger _ | YEnumerated _ _ | YRef (Some _) _ | YField _ _ => t
  | YChoice root more =>
      let alt (e : string * ty) := (fst e, replaced p arg (snd e)) in YChoice (map alt root) (option_map (map alt) more)
  | YRecord set root more =>
      YRecord set (map (replaced_comp p arg) root)
        (option_map (fun m => (map (replaced_comp p arg) (fst m), option_map (map (replaced_comp p arg)) (snd m))) more)
  | YListOf set size name t => YListOf set size name (replaced p arg t)
  | YTagged c n kw t => YTagged c n kw (replaced p arg t)
  | YApply x t => YApply x (replaced p arg t)
  | YWith t c => YWith (replaced p arg t) c
  end
with replaced_comp (p : string) (arg : ty) (c : comp) : comp :=
  match c with
  | CNamed x t d => CNamed x (replaced p arg t) d
  | CAnonymous t d => CAnonymous (replaced p arg t) d
  | COf t => COf (replaced p arg t)
  end.

(** The templates X { P } ::= body of a module, as (X, (P, body)). *)
Definition templates (s : source) : list (string * (string * ty)) :=
  flat_map (fun d => match d with DType x [PPlain p] t => [(x, (p, t))] | _ => [] end) (s_decls s).
Definition template (ts : list (string * (string * ty))) (x : string) : option (string * ty) :=
  option_map snd (find (fun e => String.eqb (fst e) x) ts).
(** The type with every X { arg } written out. *)
Fixpoint written_out (ts : list (string * (string * ty))) (t : ty) : ty :=
  match t with
  | YApply x arg => match template ts x with Some (p, body) => replaced p arg body | None => t end
  | YSimple _ | YBits _ | YInteger _ | YEnumerated _ _ | YRef _ _ | YField _ _ => t
  | YChoice root more =>
      let alt (e : string * ty) := (fst e, written_out ts (snd e)) in YChoice (map alt root) (option_map (map alt) more)
  | YRecord set root more =>
      YRecord set (map (written_out_comp ts) root)
        (option_map (fun m => (map (written_out_comp ts) (fst m), option_map (map (written_out_comp ts)) (snd m))) more)
  | YListOf set size name t => YListOf set size name (written_out ts t)
  | YTagged c n kw t => YTagged c n kw (written_out ts t)
  | YWith t c => YWith (written_out ts t) c
  end
with written_out_comp (ts : list (string * (string * ty))) (c : comp) : comp :=
  match c with
  | CNamed x t d => CNamed x (written_out ts t) d
  | CAnonymous t d => CAnonymous (written_out ts t) d
  | COf t => COf t
  end.
(** The module without its templates, their uses written out. *)
Definition written_out_decl (ts : list (string * (string * ty))) (d : decl) : list decl :=
  match d with
  | DType x [] t => [DType x [] (written_out ts t)]
  | DType _ (_ :: _) _ => []
  | DValue _ _ _ | DClass _ _ => [d]
  end.
Definition written_out_source (s : source) : source :=
  Source (s_name s) (s_oid s) (s_tags s) (s_implied s) (s_exports s) (s_imports s) (flat_map (written_out_decl (templates s)) (s_decls s)).

(** ** Conditions *)
(** No components without a name. *)
Fixpoint all_named (t : ty) : bool :=
  match t with
  | YSimple _ | YBits _ | YInteger _ | YEnumerated _ _ | YRef _ _ | YField _ _ => true
  | YChoice root more => forallb (fun e => all_named (snd e)) root && match more with Some l => forallb (fun e => all_named (snd e)) l | None => true end
  | YRecord _ root more => forallb all_named_comp root && match more with
      | None => true
      | Some (l, None) => forallb all_named_comp l
      | Some (l, Some l2) => forallb all_named_comp l && forallb all_named_comp l2
      end
  | YListOf _ _ _ t | YTagged _ _ _ t | YApply _ t | YWith t _ => all_named t
  end
with all_named_comp (c : comp) : bool := match c with CNamed _ t _ | COf t => all_named t | CAnonymous _ _ => false end.
(** No parameterized types, no COMPONENTS OF, no components without a name. *)
Fixpoint unparameterized (t : ty) : bool :=
  match t with
  | YSimple _ | YBits _ | YInteger _ | YEnumerated _ _ | YRef _ _ | YField _ _ => true
  | YChoice root more => forallb (fun e => unparameterized (snd e)) root && match more with Some l => forallb (fun e => unparameterized (snd e)) l | None => true end
  | YRecord _ root more => forallb unparameterized_comp root && match more with
      | None => true
      | Some (l, None) => forallb unparameterized_comp l
      | Some (l, Some l2) => forallb unparameterized_comp l && forallb unparameterized_comp l2
      end
  | YListOf _ _ _ t | YTagged _ _ _ t | YWith t _ => unparameterized t
  | YApply _ _ => false
  end
with unparameterized_comp (c : comp) : bool := match c with CNamed _ t _ => unparameterized t | COf _ | CAnonymous _ _ => false end.
(** Every X { arg } is of a template of the module with one parameter, and neither the argument nor the body is itself parameterized. *)
Fixpoint well_applied (ts : list (string * (string * ty))) (t : ty) : bool :=
  match t with
  | YSimple _ | YBits _ | YInteger _ | YEnumerated _ _ | YRef _ _ | YField _ _ => true
  | YChoice root more => forallb (fun e => well_applied ts (snd e)) root && match more with Some l => forallb (fun e => well_applied ts (snd e)) l | None => true end
  | YRecord _ root more => forallb (well_applied_comp ts) root && match more with
      | None => true
      | Some (l, None) => forallb (well_applied_comp ts) l
      | Some (l, Some l2) => forallb (well_applied_comp ts) l && forallb (well_applied_comp ts) l2
      end
  | YListOf _ _ _ t | YTagged _ _ _ t | YWith t _ => well_applied ts t
  | YApply x arg => unparameterized arg && match template ts x with Some (_, body) => unparameterized body | None => false end
  end
with well_applied_comp (ts : list (string * (string * ty))) (c : comp) : bool :=
  match c with CNamed _ t _ | CAnonymous t _ => well_applied ts t | COf _ => true end.
Definition named_param (p : param) : bool := match p with PPlain _ => true | PGoverned t _ => all_named t end.
Definition well_parameterized (s : source) : bool :=
  forallb (fun d => match d with
                    | DType _ [] t => well_applied (templates s) t
                    | DType _ ((_ :: _) as ps) t => forallb named_param ps && all_named t
                    | DValue _ _ _ | DClass _ _ => true
                    end) (s_decls s).
(** Somewhere in the type, but not in an argument, something is written X { A }. *)
Inductive applies (X : string) : ParserSource.ty -> Prop :=
| ap_here a : applies X (YApply X a)
| ap_alternative x t root more : In (x, t) (root ++ match more with Some l => l | None => [] end) -> applies X t -> applies X (YChoice root more)
| ap_component c x t p set root more : (c = CNamed x t p \/ c = CAnonymous t p) -> In c (root ++ match more with Some (l, r) => l ++ match r with Some l => l | None => [] end | None => [] end) ->
    applies X t -> applies X (YRecord set root more)
| ap_element set size name t : applies X t -> applies X (YListOf set size name t)
| ap_tagged c n mode t : applies X t -> applies X (YTagged c n mode t)
| ap_with t c : applies X t -> applies X (YWith t c).
