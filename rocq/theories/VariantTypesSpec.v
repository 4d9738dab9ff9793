(** Specification for C134: what finding an alternative by its type means. *)
From Coq Require Import List Arith.
From Verif Require Import Dynamic.
Import ListNotations.

Section Spec.
Context {T V : Type}.
(** [t] is one of the types, once, at place [i]. *)
Definition only_at (t : T) (types : list T) (i : nat) : Prop := forall j, nth_error types j = Some t <-> j = i.
(** The variant has an object, in memory, of the alternative that its index says; and there is such an alternative. *)
Definition has_object (types : list T) (h : heap V) (o : obj) (t : T) (v : V) : Prop :=
  exists i a n, o = Obj (Some i) (Some a) /\ nth_error h a = Some (Some (Cell i v n)) /\ nth_error types i = Some t.
(** Alternative [i] takes an argument of type [a], and takes it better than any other does. *)
Definition best_match (conversion : T -> T -> option nat) (a : T) (types : list T) (i : nat) : Prop :=
  exists h r, nth_error types i = Some h /\ conversion a h = Some r /\
    forall j h' r', j <> i -> nth_error types j = Some h' -> conversion a h' = Some r' -> r < r'.
End Spec.
