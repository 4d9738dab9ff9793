(** Model of DynamicOptional (include/fast_ber/util/DynamicOptional.hpp) and DynamicVariant
    (include/fast_ber/util/DynamicVariant.hpp): storage of recursive types on the heap.

    What an allocation holds: which alternative it is an object of (always 0 for an optional), a part [V] of it that needs no
    allocation, and, for the alternatives for which [nested] says so, a member that is again an optional or variant.
    (Types with several such members are not modelled.)  Memory is a list of cells, a freed one being [None]; addresses are
    not reused.  Using a freed cell, freeing twice, following a null pointer and reading a cell as another type than it
    has are [UB]. *)
From Coq Require Import List Arith Bool.
Import ListNotations.

Inductive mem_out (A : Type) : Type := Fine (a : A) | UB.
Arguments Fine {A}. Arguments UB {A}.
Definition mbind {A B} (m : mem_out A) (k : A -> mem_out B) : mem_out B := match m with Fine a => k a | UB => UB end.
Declare Scope mem_scope.
Delimit Scope mem_scope with mem.
Notation "'do' x <- m ; k" := (mbind m (fun x => k)) (at level 200, x pattern, m at level 100, k at level 200) : mem_scope.
Local Open Scope mem_scope.

(** DynamicVariant.hpp 543-544 m_index and m_data; DynamicOptional.hpp 105 m_val (index 0).  [None] for m_index is
    variant_npos. *)
Record obj : Type := Obj { o_index : option nat; o_ptr : option nat }.
Definition null : obj := Obj (Some 0) None.

Section Model.
Context {V : Type}.
Record cell : Type := Cell { c_alt : nat; c_val : V; c_next : obj }.
Definition heap : Type := list (option cell).
(** Variables, [None] before construction and after destruction. *)
Record state : Type := State { vars : nat -> option obj; mem : heap }.
Definition start : state := State (fun _ => None) [].

(** What differs between instances: [nested], [first] (a variant starts as its alternative 0, default constructed; an optional
    starts empty), [variant]. *)
Record kind : Type := Kind { variant : bool; nested : nat -> bool; first : V }.

Fixpoint put {A} (l : list A) (n : nat) (a : A) : list A :=
  match l, n with [], _ => [] | _ :: l, O => a :: l | x :: l, S n => x :: put l n a end.
Definition read (h : heap) (a : nat) : mem_out cell := match nth_error h a with Some (Some c) => Fine c | _ => UB end.
Definition alloc (h : heap) (c : cell) : nat * heap := (length h, h ++ [Some c]).
Definition write (h : heap) (a : nat) (c : cell) : mem_out heap := do _ <- read h a; Fine (put h a (Some c)).
Definition free (h : heap) (a : nat) : mem_out heap := do _ <- read h a; Fine (put h a None).

Variable k : kind.
(** The object a pointer of an object points to, as the alternative the object says (value(), 530-540: reinterpret_cast). *)
Definition target (h : heap) (o : obj) (a : nat) : mem_out cell :=
  do c <- read h a;
  match o_index o with Some i => if Nat.eqb i (c_alt c) then Fine c else UB | None => UB end.

(** DeleteVisitor (288-295) if m_data is not null and m_index is not npos (387-393); ~unique_ptr: the member first, then the memory. *)
Fixpoint delete (fuel : nat) (h : heap) (o : obj) : mem_out heap :=
  match o_index o, o_ptr o with
  | Some _, Some a =>
      match fuel with
      | O => UB
      | S fuel =>
          do c <- target h o a;
          do h <- (if nested k (c_alt c) then delete fuel h (c_next c) else Fine h);
          free h a
      end
  | _, _ => Fine h
  end.
(** CopyVisitor (279-286), absl::make_unique<T>( *rhs.m_val) (DynamicOptional.hpp 44): the object copied and its member.  An empty
    optional is copied as such (46-49); the visitor follows m_data without a check. *)
Fixpoint copy (fuel : nat) (h : heap) (o : obj) : mem_out (obj * heap) :=
  match o_ptr o with
  | None => if variant k then UB else Fine (null, h)
  | Some a =>
      match fuel with
      | O => UB
      | S fuel =>
          do c <- target h o a;
          do (next, h) <- (if nested k (c_alt c) then copy fuel h (c_next c) else Fine (null, h));
          let (b, h) := alloc h (Cell (c_alt c) (c_val c) next) in
          Fine (Obj (Some (c_alt c)) (Some b), h)
      end
  end.
(** operator== (DynamicOptional.hpp 78-91; DynamicVariant.hpp 552-559, 597-601, with visit_binary 269-277), [eqv] comparing the part [V]; what an
    optional may contain is one type, [c_alt] then counting as part of the value. *)
Fixpoint equal (eqv : V -> V -> bool) (fuel : nat) (h : heap) (a b : obj) : mem_out bool :=
  match fuel with
  | O => UB
  | S fuel =>
      let values p q :=
        do c <- target h a p; do d <- target h b q;
        if Nat.eqb (c_alt c) (c_alt d) && eqv (c_val c) (c_val d)
        then if nested k (c_alt c) then equal eqv fuel h (c_next c) (c_next d) else Fine true
        else Fine false in
      if variant k then
        match o_index a, o_index b with
        | Some i, Some j => if Nat.eqb i j then match o_ptr a, o_ptr b with Some p, Some q => values p q | _, _ => UB end else Fine false
        | None, None => UB
        | _, _ => Fine false
        end
      else
        match o_ptr a, o_ptr b with
        | None, None => Fine true
        | Some p, Some q => values p q
        | _, _ => Fine false
        end
  end.
(** operator< (609-613); the visitor of one alternative is LessThan (561-568), which compares with ==. *)
Definition less (eqv : V -> V -> bool) (fuel : nat) (h : heap) (a b : obj) : mem_out bool :=
  match o_index a, o_index b with
  | Some i, Some j => if Nat.eqb i j then equal eqv fuel h a b else Fine (Nat.ltb (i + 1) (j + 1))
  | None, Some j => Fine true (* npos + 1 is 0 *)
  | Some i, None => Fine false
  | None, None => UB
  end.
Definition fuel_for (h : heap) : nat := S (length h).

(** A variable, or the member of an object on the heap. *)
Inductive slot : Type := Var (x : nat) | Field (a : nat).
Definition get (st : state) (s : slot) : mem_out obj :=
  match s with
  | Var x => match vars st x with Some o => Fine o | None => UB end
  | Field a => do c <- read (mem st) a; if nested k (c_alt c) then Fine (c_next c) else UB
  end.
Definition set_var (st : state) (x : nat) (o : option obj) : state := State (fun y => if Nat.eqb y x then o else vars st y) (mem st).
Definition set (st : state) (s : slot) (o : obj) : mem_out state :=
  match s with
  | Var x => do _ <- get st s; Fine (set_var st x (Some o))
  | Field a => do _ <- get st s; do c <- read (mem st) a; do h <- write (mem st) a (Cell (c_alt c) (c_val c) o); Fine (State (vars st) h)
  end.
(** The place [x->member->...->member], [d] members away from variable [x]. *)
Fixpoint place (st : state) (x d : nat) : mem_out slot :=
  match d with
  | O => do _ <- get st (Var x); Fine (Var x)
  | S d =>
      do s <- place st x d; do o <- get st s;
      match o_ptr o with
      | Some a => do c <- target (mem st) o a; if nested k (c_alt c) then Fine (Field a) else UB
      | None => UB
      end
  end.
(** new T with value [v] and a default constructed member: an empty optional, or a variant holding alternative 0 (332). *)
Definition build (h : heap) (i : nat) (v : V) : mem_out (obj * heap) :=
  do (next, h) <- (if nested k i then
                     if variant k then
                       if nested k 0 then UB (* constructs without end *)
                       else let (a, h) := alloc h (Cell 0 (first k) null) in Fine (Obj (Some 0) (Some a), h)
                     else Fine (null, h)
                   else Fine (null, h));
  let (b, h) := alloc h (Cell i v next) in Fine (Obj (Some i) (Some b), h).
Definition delete_in (st : state) (o : obj) : mem_out state := do h <- delete (fuel_for (mem st)) (mem st) o; Fine (State (vars st) h).
Definition copy_in (st : state) (o : obj) : mem_out (obj * state) := do (o, h) <- copy (fuel_for (mem st)) (mem st) o; Fine (o, State (vars st) h).
Definition build_in (st : state) (i : nat) (v : V) : mem_out (obj * state) := do (o, h) <- build (mem st) i v; Fine (o, State (vars st) h).

(** Operations.  [p] and [q] are places, given by a variable and the number of members. *)
Definition path : Type := nat * nat.
Inductive op : Type :=
| Make (x : nat)                      (* default constructor *)
| MakeFrom (x i : nat) (v : V)        (* constructor from a value (20-21, 24-32; 342-385) *)
| MakeCopy (x : nat) (q : path)       (* copy constructor *)
| MakeMove (x : nat) (q : path)       (* move constructor *)
| Drop (x : nat)                      (* destructor *)
| Copy (p q : path)                   (* p = q *)
| Move (p q : path)                   (* p = std::move(q) *)
| CopyValue (p q : path)              (* p = *q, p = get<T>(q) *)
| Emplace (p : path) (i : nat) (v : V)
| EmplaceThrows (p : path) (i : nat)  (* emplace, where the constructor of T throws *)
| Clear (p : path)                    (* p = empty, optional only *)
| SetValue (p : path) (v : V)         (* p->... = v *)
| Swap (p q : path).                  (* variant only (524-528) *)

(** The operations of DynamicOptional. *)
Definition opt_step (o : op) (st : state) : mem_out state :=
  match o with
  | Make x => (* 16 *) match vars st x with None => Fine (set_var st x (Some null)) | Some _ => UB end
  | MakeFrom x i v => (* 20-21 *)
      match vars st x with None => do (n, st) <- build_in st i v; Fine (set_var st x (Some n)) | Some _ => UB end
  | MakeCopy x (y, e) => (* 17: m_val(nullptr), then 40-51 *)
      match vars st x with
      | None => do s <- place st y e; do q <- get st s; do (n, st) <- copy_in st q; Fine (set_var st x (Some n))
      | Some _ => UB
      end
  | MakeMove x (y, e) => (* 18: unique_ptr's *)
      match vars st x with
      | None => do s <- place st y e; do q <- get st s; do st <- set st s null; Fine (set_var st x (Some q))
      | Some _ => UB
      end
  | Drop x => (* 22 *) do o <- get st (Var x); do st <- delete_in st o; Fine (set_var st x None)
  | Copy (x, d) (y, e) => (* 40-51: the copy is made, the pointer replaced, then what it pointed to deleted *)
      do s <- place st x d; do s' <- place st y e; do q <- get st s'; do (n, st) <- copy_in st q;
      do old <- get st s; do st <- set st s n; delete_in st old
  | Move (x, d) (y, e) => (* 62: unique_ptr's reset(release()) *)
      do s <- place st x d; do s' <- place st y e; do q <- get st s'; do st <- set st s' null;
      do old <- get st s; do st <- set st s q; delete_in st old
  | CopyValue (x, d) (y, e) => (* 57-61, 34-39; *q is undefined for an empty q *)
      do s <- place st x d; do s' <- place st y e; do q <- get st s';
      match o_ptr q with
      | None => UB
      | Some _ => do (n, st) <- copy_in st q; do old <- get st s; do st <- set st s n; delete_in st old
      end
  | Emplace (x, d) i v => (* 70-75 *)
      do s <- place st x d; do (n, st) <- build_in st i v; do old <- get st s; do st <- set st s n; delete_in st old
  | EmplaceThrows (x, d) i => (* make_unique throws before anything is changed *) do s <- place st x d; Fine st
  | Clear (x, d) => (* 52-56 *) do s <- place st x d; do old <- get st s; do st <- set st s null; delete_in st old
  | SetValue (x, d) v =>
      do s <- place st x d; do o <- get st s;
      match o_ptr o with
      | Some a => do c <- target (mem st) o a; do h <- write (mem st) a (Cell (c_alt c) v (c_next c)); Fine (State (vars st) h)
      | None => UB
      end
  | Swap _ _ => UB (* no such operation *)
  end.

(** The operations of DynamicVariant.  Where an object is deleted, m_data keeps its value until it is assigned. *)
Definition var_step (o : op) (st : state) : mem_out state :=
  match o with
  | Make x => (* 332 *)
      match vars st x with
      | None => if nested k 0 then UB else do (n, st) <- build_in st 0 (first k); Fine (set_var st x (Some n))
      | Some _ => UB
      end
  | MakeFrom x i v => (* 342-385 *)
      match vars st x with None => do (n, st) <- build_in st i v; Fine (set_var st x (Some n)) | Some _ => UB end
  | MakeCopy x (y, e) => (* 333-336 *)
      match vars st x with
      | None => do s <- place st y e; do q <- get st s; do (n, st) <- copy_in st q; Fine (set_var st x (Some n))
      | Some _ => UB
      end
  | MakeMove x (y, e) => (* 337-340 *)
      match vars st x with
      | None => do s <- place st y e; do q <- get st s; do st <- set st s (Obj (o_index q) None); Fine (set_var st x (Some q))
      | Some _ => UB
      end
  | Drop x => (* 387-393 *) do o <- get st (Var x); do st <- delete_in st o; Fine (set_var st x None)
  | Copy (x, d) (y, e) => (* 395-405 *)
      do s <- place st x d; do s' <- place st y e; do old <- get st s; do st <- delete_in st old;
      do q <- get st s'; do st <- set st s (Obj (o_index q) (o_ptr old));
      do q <- get st s'; do (n, st) <- copy_in st q; set st s (Obj (o_index q) (o_ptr n))
  | Move (x, d) (y, e) => (* 407-418 *)
      do s <- place st x d; do s' <- place st y e; do old <- get st s; do st <- delete_in st old;
      do q <- get st s'; do st <- set st s (Obj (o_index q) (o_ptr q)); do q' <- get st s'; set st s' (Obj (o_index q') None)
  | CopyValue (x, d) (y, e) => (* 420-434, for a T that is not const: the new object is built from std::move(t), so what moving
      a T leaves of it: its member without its object *)
      do s <- place st x d; do s' <- place st y e; do q <- get st s';
      match o_ptr q with
      | None => UB
      | Some a =>
          do c <- target (mem st) q a;
          do old <- get st s; do st <- delete_in st old; do st <- set st s (Obj (Some (c_alt c)) (o_ptr old));
          do c <- read (mem st) a;
          let (b, h) := alloc (mem st) (Cell (c_alt c) (c_val c) (if nested k (c_alt c) then c_next c else null)) in
          do h <- (if nested k (c_alt c) then write h a (Cell (c_alt c) (c_val c) (Obj (o_index (c_next c)) None)) else Fine h);
          set (State (vars st) h) s (Obj (Some (c_alt c)) (Some b))
      end
  | Emplace (x, d) i v => (* 436-450, 467-491 *)
      do s <- place st x d; do old <- get st s; do st <- delete_in st old; do st <- set st s (Obj (Some i) (o_ptr old));
      do (n, st) <- build_in st i v; set st s n
  | EmplaceThrows (x, d) i => (* 436-450: nothing puts m_data right *)
      do s <- place st x d; do old <- get st s; do st <- delete_in st old; set st s (Obj (Some i) (o_ptr old))
  | Clear _ => UB (* no such operation *)
  | SetValue (x, d) v =>
      do s <- place st x d; do o <- get st s;
      match o_ptr o with
      | Some a => do c <- target (mem st) o a; do h <- write (mem st) a (Cell (c_alt c) v (c_next c)); Fine (State (vars st) h)
      | None => UB
      end
  | Swap (x, d) (y, e) =>
      do s <- place st x d; do s' <- place st y e; do a <- get st s; do b <- get st s'; do st <- set st s b; set st s' a
  end.
Definition step (o : op) (st : state) : mem_out state := if variant k then var_step o st else opt_step o st.
Fixpoint run (l : list op) (st : state) : mem_out state := match l with [] => Fine st | o :: l => do st <- step o st; run l st end.
End Model.
Arguments cell : clear implicits.
Arguments heap : clear implicits.
Arguments state : clear implicits.
Arguments kind : clear implicits.
Arguments op : clear implicits.
