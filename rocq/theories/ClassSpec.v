(** Fields of object classes (X.681 14), written out: what modules with classes stand for, as modules without them.  Uses the notation of
    ParserSource.v and conditions of IncludeSpec.v; nothing of the parser or of the model of the compiler. *)
From Coq Require Import List String ZArith Bool.
From Verif Require Import ParserTree ParserSource WriteOutSpec IncludeSpec.
Import ListNotations.
Local Open Scope string_scope.
Local Open Scope list_scope.

(** The classes of a module, and the types of their value fields (&id INTEGER). *)
Definition class_decls (s : source) : list (string * list field) := flat_map (fun d => match d with DClass x fs => [(x, fs)] | _ => [] end) (s_decls s).
Definition field_called (f : field) : string := match f with FType x _ | FValue x _ _ _ => x end.
Definition field_ty (cs : list (string * list field)) (c f : string) : option ty :=
  match find (fun e => String.eqb (fst e) c) cs with
  | Some (_, fs) => match find (fun x => String.eqb (field_called x) f) fs with Some (FValue _ t _ _) => Some t | _ => None end
  | None => None
  end.
(** The type with the type of the field for every CLASS.&field. *)
Fixpoint fields_out (cs : list (string * list field)) (t : ty) : ty :=
  match t with
  | YField c [(_, f)] => match field_ty cs c f with Some u => u | None => t end
  | YSimple _ | YBits _ | YInteger _ | YEnumerated _ _ | YRef _ _ | YApply _ _ | YField _ _ => t
  | YChoice root more =>
      let alt (e : string * ty) := (fst e, fields_out cs (snd e)) in YChoice (map alt root) (option_map (map alt) more)
  | YRecord set root more =>
      YRecord set (map (fields_out_comp cs) root)
        (option_map (fun m => (map (fields_out_comp cs) (fst m), option_map (map (fields_out_comp cs)) (snd m))) more)
  | YListOf set size name t => YListOf set size name (fields_out cs t)
  | YTagged c n kw t => YTagged c n kw (fields_out cs t)
  | YWith t c => YWith (fields_out cs t) c
  end
with fields_out_comp (cs : list (string * list field)) (c : comp) : comp :=
  match c with
  | CNamed x t d => CNamed x (fields_out cs t) d
  | CAnonymous t d => CAnonymous (fields_out cs t) d
  | COf t => COf t
  end.
(** The module without its classes, their fields written out. *)
Definition classless_decl (cs : list (string * list field)) (d : decl) : list decl :=
  match d with DType x ps t => [DType x ps (fields_out cs t)] | DValue _ _ _ => [d] | DClass _ _ => [] end.
Definition classless_source (s : source) : source :=
  Source (s_name s) (s_oid s) (s_tags s) (s_implied s) (s_exports s) (s_imports s) (flat_map (classless_decl (class_decls s)) (s_decls s)).

(** ** Conditions *)
(** Every CLASS.&field is [known]; no COMPONENTS OF. *)
Fixpoint fields_in (known : string -> string -> bool) (t : ty) : bool :=
  match t with
  | YField c [(_, f)] => known c f
  | YField _ _ => false
  | YSimple _ | YBits _ | YInteger _ | YEnumerated _ _ | YRef _ _ | YApply _ _ => true
  | YChoice root more => forallb (fun e => fields_in known (snd e)) root && match more with Some l => forallb (fun e => fields_in known (snd e)) l | None => true end
  | YRecord _ root more => forallb (fields_in_comp known) root && match more with
      | None => true
      | Some (l, None) => forallb (fields_in_comp known) l
      | Some (l, Some l2) => forallb (fields_in_comp known) l && forallb (fields_in_comp known) l2
      end
  | YListOf _ _ _ t | YTagged _ _ _ t | YWith t _ => fields_in known t
  end
with fields_in_comp (known : string -> string -> bool) (c : comp) : bool := match c with CNamed _ t _ | CAnonymous t _ => fields_in known t | COf _ => false end.
(** The types of fields that are used are no structures, have none under a tag or SEQUENCE OF, and are not made from other classes. *)
Definition plain_field (u : ty) : bool := level u && negb (needs_name u) && fields_in (fun _ _ => false) u.
Definition known_field (cs : list (string * list field)) (c f : string) : bool := match field_ty cs c f with Some u => plain_field u | None => false end.
(** X ::= CLASS.&field only for fields whose type is no reference; the components in the types of fields have names. *)
Fixpoint reference (t : ty) : option (option string * string) := match t with YRef m x => Some (m, x) | YApply x _ => Some (None, x) | YWith t _ => reference t | _ => None end.
Definition same_reference (cs : list (string * list field)) (t : ty) : bool :=
  match reference t, reference (fields_out cs t) with None, Some _ => false | _, _ => true end.
Definition well_classed (s : source) : bool :=
  forallb (fun d => match d with
                    | DType _ [] t => fields_in (known_field (class_decls s)) t && same_reference (class_decls s) t
                    | DType _ (_ :: _) _ => false
                    | DValue _ _ _ => true
                    | DClass _ fs => forallb (fun f => match f with FType _ _ => true | FValue _ t _ _ => all_named t end) fs
                    end) (s_decls s).
(** No definition, value or import is of a class (by full names, M.C). *)
Definition full (m x : string) : string := (m ++ "." ++ x)%string.
Definition full_class_names (l : list source) : list string := flat_map (fun s => map (fun c => full (s_name s) (fst c)) (class_decls s)) l.
Definition referred (s : source) : list string :=
  let both (r : option (option string * string)) := match r with Some (m, x) => [full (match m with Some m => m | None => s_name s end) x; full (s_name s) x] | None => [] end in
  flat_map (fun d => match d with DType _ _ t | DValue _ t _ => both (reference t) | DClass _ _ => [] end) (s_decls s) ++
  flat_map (fun i => let '(names, m, _) := i in flat_map (fun x => both (Some (Some m, snd x))) (filter fst names)) (match s_imports s with Some l => l | None => [] end).
Definition no_class_references (l : list source) : bool := forallb (fun s => forallb (fun x => negb (existsb (String.eqb x) (full_class_names l))) (referred s)) l.
