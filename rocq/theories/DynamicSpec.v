(** What objects with value semantics do, and what owning memory means (C64, C65).  Nothing here mentions when memory is
    allocated or freed. *)
From Coq Require Import List Arith Bool.
From Verif Require Import Dynamic.
Import ListNotations.

Section Spec.
Context {V : Type}.
Variable k : kind V.
(** What an optional or variant contains: nothing (an empty optional, a variant moved from), or an object, then what the
    member of the object contains, and so on. *)
Definition contents : Type := list (nat * V).
Definition world : Type := nat -> option contents.
Definition nothing : world := fun _ => None.
Definition upd (s : world) (x : nat) (l : option contents) : world := fun y => if Nat.eqb y x then l else s y.
(** What default construction, and construction of alternative [i] from [v], give. *)
Definition default : contents := if variant k then [(0, first k)] else [].
Definition made (i : nat) (v : V) : contents := (i, v) :: if nested k i then default else [].
(** The member [d] members away, if there is one. *)
Fixpoint sub (l : contents) (d : nat) : option contents :=
  match d, l with
  | O, _ => Some l
  | S d, (i, _) :: l => if nested k i then sub l d else None
  | S d, [] => None
  end.
Definition at_ (s : world) (p : path) : option contents := match s (fst p) with Some l => sub l (snd p) | None => None end.
Definition put_ (s : world) (p : path) (m : contents) : world :=
  upd s (fst p) (match s (fst p) with Some l => Some (firstn (snd p) l ++ m) | None => None end).
Definition same (p q : path) : bool := Nat.eqb (fst p) (fst q) && Nat.eqb (snd p) (snd q).
(** [q] has [p] as a part. *)
Definition part (p q : path) : bool := Nat.eqb (fst p) (fst q) && Nat.ltb (snd q) (snd p).
Definition ifSome {A B} (o : option A) (f : A -> option B) : option B := match o with Some a => f a | None => None end.
(** The effect of an operation; [None] if the caller may not ask for it: variables not constructed or constructed already, a
    member of nothing, an object moved into, or swapped with, a part of itself. *)
Definition effect (o : op V) (s : world) : option world :=
  match o with
  | Make x => match s x with None => Some (upd s x (Some default)) | _ => None end
  | MakeFrom x i v => match s x with None => Some (upd s x (Some (made i v))) | _ => None end
  | MakeCopy x q => match s x with None => ifSome (at_ s q) (fun m => Some (upd s x (Some m))) | _ => None end
  | MakeMove x q => match s x with None => ifSome (at_ s q) (fun m => Some (upd (put_ s q []) x (Some m))) | _ => None end
  | Drop x => ifSome (s x) (fun _ => Some (upd s x None))
  | Copy p q => ifSome (at_ s p) (fun _ => ifSome (at_ s q) (fun m => Some (put_ s p m)))
  | Move p q =>
      ifSome (at_ s p) (fun _ => ifSome (at_ s q) (fun m =>
        if part p q then None
        else if same p q then Some (if variant k then put_ s p [] else s) (* moved from: either will do *)
        else Some (put_ (put_ s q []) p m)))
  | CopyValue p q => ifSome (at_ s p) (fun _ => ifSome (at_ s q) (fun m => match m with [] => None | _ => Some (put_ s p m) end))
  | Emplace p i v => ifSome (at_ s p) (fun _ => Some (put_ s p (made i v)))
  | EmplaceThrows p i => ifSome (at_ s p) (fun _ => Some (if variant k then put_ s p [] else s))
  | Clear p => if variant k then None else ifSome (at_ s p) (fun _ => Some (put_ s p []))
  | SetValue p v => ifSome (at_ s p) (fun m => match m with [] => None | (i, _) :: m => Some (put_ s p ((i, v) :: m)) end)
  | Swap p q =>
      if variant k then
        ifSome (at_ s p) (fun a => ifSome (at_ s q) (fun b =>
          if same p q then Some s else if Nat.eqb (fst p) (fst q) then None else Some (put_ (put_ s p b) q a)))
      else None
  end.
(** A variant, and its member, and so on, none moved from. *)
Fixpoint whole (l : contents) : Prop := match l with [] => False | (i, _) :: l => if nested k i then whole l else True end.
Definition wholeAt (s : world) (p : path) : Prop := exists m, at_ s p = Some m /\ whole m.
(** What a variant allows: copying only from another variable and something not moved from, moving within one variable only from the
    place itself, assigning a value only from another variable and if the value has no member, no constructor that throws. *)
Definition careful (o : op V) (s : world) : Prop :=
  match o with
  | MakeCopy _ q => wholeAt s q
  | Copy p q => fst p <> fst q /\ wholeAt s q
  | Move p q => fst p = fst q -> snd p = snd q
  | CopyValue p q => fst p <> fst q /\ exists i v m, at_ s q = Some ((i, v) :: m) /\ nested k i = false
  | EmplaceThrows _ _ => False
  | _ => True
  end.
Fixpoint all_careful (l : list (op V)) (s : world) : Prop :=
  match l with [] => True | o :: l => careful o s /\ match effect o s with Some s => all_careful l s | None => True end end.
Fixpoint effects (l : list (op V)) (s : world) : option world :=
  match l with [] => Some s | o :: l => ifSome (effect o s) (effects l) end.

(** * Memory *)
Definition cell_at (h : heap V) (a : nat) (c : cell V) : Prop := nth_error h a = Some (Some c).
(** The object [o] contains [l]. *)
Inductive holds (h : heap V) : obj -> contents -> Prop :=
| h_nothing i : holds h (Obj i None) []
| h_leaf a i v n : cell_at h a (Cell i v n) -> nested k i = false -> holds h (Obj (Some i) (Some a)) [(i, v)]
| h_node a i v n l : cell_at h a (Cell i v n) -> nested k i = true -> holds h n l -> holds h (Obj (Some i) (Some a)) ((i, v) :: l).
(** [o] points to [a], or its member does, and so on. *)
Inductive owns (h : heap V) : obj -> nat -> Prop :=
| own_here i a : owns h (Obj i (Some a)) a
| own_more i a c b : cell_at h a c -> nested k (c_alt c) = true -> owns h (c_next c) b -> owns h (Obj i (Some a)) b.
Definition owner (st : state V) (x a : nat) : Prop := exists o, vars st x = Some o /\ owns (mem st) o a.
(** Memory is allocated exactly if a variable owns it; one variable, not two. *)
Definition tidy (st : state V) : Prop :=
  (forall a, (exists c, cell_at (mem st) a c) <-> exists x, owner st x a) /\
  forall a x y, owner st x a -> owner st y a -> x = y.
Definition shows (st : state V) (s : world) : Prop :=
  forall x, match s x with Some l => exists o, vars st x = Some o /\ holds (mem st) o l | None => vars st x = None end.
End Spec.
