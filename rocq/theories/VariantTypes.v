(** Model of the part of DynamicVariant (include/fast_ber/util/DynamicVariant.hpp) that goes by type: include/fast_ber/util/DynamicVariantHelpers.hpp,
    holds_alternative, get, get_if, visit, and the constructors, assignments and emplace that find an alternative by its type.

    Types are elements of [T]; std::is_same is [same_type].  Simplified: the alternatives are neither const nor volatile, so the four get functions
    are one, and the cv-qualified forms of variant_alternative (66-99) do not occur. *)
From Coq Require Import List Arith Bool.
From Verif Require Import Dynamic.
Import ListNotations.
Local Open Scope mem_scope.

Section Types.
Context {T : Type}.
Variable same_type : T -> T -> bool.

(** DynamicVariantHelpers.hpp 58-71: TupleCount; 73-76: ExactlyOnce. *)
Fixpoint tuple_count (t : T) (types : list T) : nat :=
  match types with [] => 0 | first :: rest => tuple_count t rest + (if same_type t first then 1 else 0) end.
Definition exactly_once (t : T) (types : list T) : bool := Nat.eqb (tuple_count t types) 1.
(** 78-94: TypeAtIndex; [None] is a program that does not compile.  (remove_reference does nothing to an object type.) *)
Fixpoint type_at_index (i : nat) (types : list T) : option T :=
  match types, i with
  | [], _ => None
  | t :: _, O => Some t
  | _ :: types, S i => type_at_index i types
  end.
(** 99-109: IndexOf. *)
Fixpoint index_of (t : T) (types : list T) : nat :=
  match types with [] => 0 | first :: rest => if same_type t first then 0 else index_of t rest + 1 end.

(** 24-55: AcceptedIndex is overload resolution among one function per alternative (two, for const H& and H&&: what the one accepts better the other
    accepts too, so that both say the same alternative).  [conversion a h] is how an argument of type [a] converts to alternative [h]: not at all, or by a
    conversion sequence, where a smaller number is a better one (C++ standard, [over.ics.rank]); the second argument, {}, converts to all alike.
    The function called is the one that is better than all others; without one the call is ill-formed and AcceptedIndex is variant_npos. *)
Variable conversion : T -> T -> option nat.
Definition better (a b : option nat) : bool :=
  match a, b with Some a, Some b => Nat.ltb a b | Some _, None => true | None, _ => false end.
(** [best], the best conversion among the alternatives before [i]: which, and if another one is as good. *)
Fixpoint resolve (a : T) (types : list T) (i : nat) (best : option nat) (which : nat) (tie : bool) : option nat :=
  match types with
  | [] => match best with Some _ => if tie then None else Some which | None => None end
  | h :: rest =>
      if better (conversion a h) best then resolve a rest (S i) (conversion a h) i false
      else if better best (conversion a h) then resolve a rest (S i) best which tie
      else resolve a rest (S i) best which true
  end.
Definition accepted_index (a : T) (types : list T) : option nat := resolve a types 0 None 0 false.
(** DynamicVariant.hpp 310-330: ToType and AcceptedType; [None] is Nothing, which is no alternative. *)
Definition accepted_type (a : T) (types : list T) : option T :=
  match accepted_index a types with Some i => type_at_index i types | None => None end.

(** 101-105: holds_alternative. *)
Definition holds_alternative (t : T) (types : list T) (o : obj) : bool :=
  match o_index o with Some i => Nat.eqb i (index_of t types) | None => false end.

Section Access.
Context {V : Type}.
(** What a call gives: a value, or an exception. *)
Inductive access (A : Type) : Type := Gives (a : A) | Throws.
Arguments Gives {A}. Arguments Throws {A}.
(** 530-540: value<T>: m_data as a pointer to the type that the object at [a] must have.  UB for a null pointer, and if the object is of
    another type. *)
Definition value_as (t : T) (types : list T) (h : heap V) (o : obj) : mem_out (cell V) :=
  match o_ptr o with
  | None => UB
  | Some a =>
      do c <- read h a;
      match type_at_index (c_alt c) types with
      | Some t' => if same_type t t' then Fine c else UB
      | None => UB
      end
  end.
(** 107-145: get<T>. *)
Definition get_type (t : T) (types : list T) (h : heap V) (o : obj) : mem_out (access (cell V)) :=
  if match o_index o with Some i => negb (Nat.eqb i (index_of t types)) | None => true end then Fine Throws
  else do c <- value_as t types h o; Fine (Gives c).
(** 147-185: get<I>; [types] without an alternative [i] does not compile. *)
Definition get_index (i : nat) (types : list T) (h : heap V) (o : obj) : mem_out (access (cell V)) :=
  if match o_index o with Some j => negb (Nat.eqb j i) | None => true end then Fine Throws
  else match type_at_index i types with
       | Some t => do c <- value_as t types h o; Fine (Gives c)
       | None => UB
       end.
(** 187-199: get_if<I>; [None] for the variant is a null pointer, in the result too. *)
Definition get_if_index (i : nat) (types : list T) (h : heap V) (v : option obj) : mem_out (option (cell V)) :=
  match v with
  | Some o =>
      if match o_index o with Some j => Nat.eqb j i | None => false end then
        do r <- get_index i types h o; match r with Gives c => Fine (Some c) | Throws => UB (* out of a noexcept function *) end
      else Fine None
  | None => Fine None
  end.
(** 201-211: get_if<T>. *)
Definition get_if_type (t : T) (types : list T) (h : heap V) (v : option obj) : mem_out (option (cell V)) :=
  get_if_index (index_of t types) types h v.
(** 213-248: visit: visit_impl<index> for index from 0; [vis i c] is the visitor called with alternative [i].  At the end of the
    alternatives `throw 0` (the assertion of a string literal holds). *)
Fixpoint visit_impl {R} (vis : nat -> cell V -> R) (types : list T) (h : heap V) (o : obj) (index more : nat) : mem_out (access R) :=
  match more with
  | O => Fine Throws
  | S more =>
      if match o_index o with Some j => Nat.eqb index j | None => false end then
        do r <- get_index index types h o; match r with Gives c => Fine (Gives (vis index c)) | Throws => Fine Throws end
      else visit_impl vis types h o (S index) more
  end.
Definition visit {R} (vis : nat -> cell V -> R) (types : list T) (h : heap V) (o : obj) : mem_out (access R) :=
  visit_impl vis types h o 0 (length types).

(** The operations that go by type, as those of Dynamic.v that go by index; [None] if the function does not take part (enable_if), so that the
    program does not compile. *)
(** 342-349: DynamicVariant(T&&), from an argument of type [a] that makes [v]. *)
Definition make_from (x : nat) (a : T) (types : list T) (v : V) : option (op V) :=
  match accepted_type a types with
  | Some t => if exactly_once t types then Some (MakeFrom x (index_of t types) v) else None
  | None => None
  end.
(** 351-368: DynamicVariant(in_place_type_t<T>, ...). *)
Definition make_in_place (x : nat) (t : T) (types : list T) (v : V) : option (op V) :=
  if exactly_once t types then Some (MakeFrom x (index_of t types) v) else None.
(** 420-434: operator=(T&&), where moving the argument leaves nothing the variant shares. *)
Definition assign_from (p : path) (a : T) (types : list T) (v : V) : option (op V) :=
  match accepted_type a types with
  | Some t => if exactly_once t types then match accepted_index a types with Some i => Some (Emplace p i v) | None => None end else None
  | None => None
  end.
(** 436-450: emplace<T>: the alternative is found by AcceptedIndex.  (variant_npos would be given to m_index; here UB at the next use, so [None].) *)
Definition emplace_type (p : path) (t : T) (types : list T) (v : V) : option (op V) :=
  if exactly_once t types then match accepted_index t types with Some i => Some (Emplace p i v) | None => None end else None.
End Access.
End Types.
Arguments access : clear implicits.
Arguments Gives {A}. Arguments Throws {A}.
