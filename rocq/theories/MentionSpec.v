(** What the types and constants of a module refer to, and what is defined, in the notation of ParserSource.v.  Nothing of the parser or of
    the model of the compiler is used. *)
From Coq Require Import List String ZArith Bool.
From Verif Require Import Base Schema ParserTree ParserSource ElabSpec.
Import ListNotations.
Local Open Scope string_scope.
Local Open Scope list_scope.

(** [mentions t M x]: somewhere in the type [t] there is the reference x (or M.x).  (For the names of templates see C125_arguments.) *)
Definition component_type (c : ParserSource.comp) : ParserSource.ty := match c with CNamed _ t _ | CAnonymous t _ | COf t => t end.
Inductive mentions : ParserSource.ty -> option string -> string -> Prop :=
| m_ref M x : mentions (YRef M x) M x
| m_choice root more e M x : In e (root ++ additions more) -> mentions (snd e) M x -> mentions (YChoice root more) M x
| m_record set root more c M x : In c (root ++ inserted more) -> mentions (component_type c) M x -> mentions (YRecord set root more) M x
| m_list set size name t M x : mentions t M x -> mentions (YListOf set size name t) M x
| m_tagged c n mode t M x : mentions t M x -> mentions (YTagged c n mode t) M x
| m_with t c M x : mentions t M x -> mentions (YWith t c) M x.
(** The definition of a type refers to what the type mentions, that of a constant to its type. *)
Inductive refers : ParserSource.decl -> option string -> string -> Prop :=
| r_type y t M x : mentions t M x -> refers (DType y [] t) M x
| r_value y M x v : refers (DValue y (YRef M x) v) M x
| r_value_with y M x c v : refers (DValue y (YWith (YRef M x) c) v) M x.
(** "IMPORTS ... x ... FROM N" *)
Definition imports_type (s : source) (x N : string) : Prop := exists i names oid, s_imports s = Some i /\ In (names, N, oid) i /\ In (true, x) names.
(** [type_defined l M x]: module M defines the type x (not only a template), or imports it from a module that does, be it by an import. *)
Inductive type_defined (l : list source) : string -> string -> Prop :=
| td_here s x t : In s l -> In (DType x [] t) (s_decls s) -> type_defined l (s_name s) x
| td_imported s x N : In s l -> imports_type s x N -> type_defined l N x -> type_defined l (s_name s) x.
