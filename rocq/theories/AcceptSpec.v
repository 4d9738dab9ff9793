(** Modules that a compiler has to accept: everything in them is defined.  Uses the notation of ParserSource.v and ElabSpec.v only. *)
From Coq Require Import List String ZArith Bool.
From Verif Require Import Base ParserTree Compiler CompilerSpec ParserSource ElabSpec.
Import ListNotations.
Local Open Scope string_scope.
Local Open Scope list_scope.

(** The modules a module imports from. *)
Definition imported_modules (s : source) : list string := map (fun i => snd (fst i)) (additions (s_imports s)).
(** They are all there, and none imports from itself through others. *)
Definition imports_exist (l : list source) : Prop := forall s M, In s l -> In M (imported_modules s) -> In M (map s_name l).
Definition no_import_cycle (l : list source) : Prop := exists number : string -> nat, forall s M, In s l -> In M (imported_modules s) -> (number M < number (s_name s))%nat.

Fixpoint enumerated_here (t : ParserSource.ty) : bool := match t with YEnumerated _ _ => true | YWith t _ => enumerated_here t | _ => false end.
(** DEFAULT red: only for an ENUMERATED that is written in place. *)
Definition default_ok (t : ParserSource.ty) (p : presence) : bool := match p with Default (SRef _) => enumerated_here t | _ => true end.
(** In a SEQUENCE or SET of module [M] no types are written as N.T with another module N (they are imported), and defaults are as above. *)
Fixpoint own_names (M : string) (inside : bool) (t : ParserSource.ty) : bool :=
  match t with
  | YRef (Some N) _ => negb inside || String.eqb N M
  | YChoice root more => forallb (fun e => own_names M inside (snd e)) root && match more with Some l => forallb (fun e => own_names M inside (snd e)) l | None => true end
  | YRecord _ root more =>
      let own_comp c := match c with CNamed _ t p | CAnonymous t p => own_names M true t && default_ok t p | COf t => own_names M true t end in
      forallb own_comp root && match more with Some (l, Some l2) => forallb own_comp l && forallb own_comp l2 | Some (l, None) => forallb own_comp l | None => true end
  | YListOf _ _ _ t | YTagged _ _ _ t | YWith t _ => own_names M inside t
  | _ => true
  end.
(** Every type that a module defines or imports means something, and so does the type of every value; values are not other values' names. *)
Record well_defined (l : list source) : Prop := {
  wd_types : forall s x t, In s l -> stands_for s x t -> own_names (s_name s) false t = true /\ exists a, means l s t a /\ everywhere small_tags (default_tags s) a;
  wd_values : forall s x t v, In s l -> In (DValue x t v) (s_decls s) -> own_names (s_name s) false t = true /\ (forall r, v <> WRef r) /\ exists a, means l s t a /\ everywhere small_tags (default_tags s) a }.
