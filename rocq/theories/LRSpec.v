(** What it means that a text is a phrase of a grammar, and what value it has. *)
From Coq Require Import List ZArith.
From Verif Require Import Base.
Import ListNotations.
Local Open Scope Z_scope.

(** A grammar gives some numbers [k] a rule: a symbol (the left side) and the symbols that may replace it (the right side).
    Symbols below [ntokens] are tokens.  A token carries a value; a rule's action computes the value of the left side from those of
    the right side, first to last, and may change the state of the compiler.  The actions are executed bottom-up, from left to
    right. *)
Section Phrases.
  Variables (V ST : Type) (ntokens : Z) (rules : Z -> option (Z * list Z)) (action : Z -> list V -> ST -> res (V * ST)).
  (** [phrase X w st v st']: the tokens [w] are a phrase for the symbol [X]; in state [st] it has the value [v], and leaves [st']. *)
  Inductive phrase : Z -> list (Z * V) -> ST -> V -> ST -> Prop :=
  | phrase_token a v st : 0 <= a < ntokens -> phrase a [(a, v)] st v st
  | phrase_rule k X rhs w st vs st1 v st2 :
      rules k = Some (X, rhs) -> phrases rhs w st vs st1 -> action k vs st1 = Ok (v, st2) -> phrase X w st v st2
  with phrases : list Z -> list (Z * V) -> ST -> list V -> ST -> Prop :=
  | phrases_nil st : phrases [] [] st [] st
  | phrases_cons X rhs w1 w2 st v st1 vs st2 :
      phrase X w1 st v st1 -> phrases rhs w2 st1 vs st2 -> phrases (X :: rhs) (w1 ++ w2) st (v :: vs) st2.

  (** The same for the grammar with a filter: rule [k] may be used only where the token behind its phrase is [ok] for it.
      [filtered ok X w next st v st']: with [next] as the token behind [w]. *)
  Variable ok : Z -> Z -> bool.
  Definition first_of (w : list (Z * V)) (next : Z) : Z := match w with [] => next | (a, _) :: _ => a end.
  Inductive filtered : Z -> list (Z * V) -> Z -> ST -> V -> ST -> Prop :=
  | filtered_token a v next st : 0 <= a < ntokens -> filtered a [(a, v)] next st v st
  | filtered_rule k X rhs w next st vs st1 v st2 :
      rules k = Some (X, rhs) -> ok k next = true -> filtereds rhs w next st vs st1 -> action k vs st1 = Ok (v, st2) ->
      filtered X w next st v st2
  with filtereds : list Z -> list (Z * V) -> Z -> ST -> list V -> ST -> Prop :=
  | filtereds_nil next st : filtereds [] [] next st [] st
  | filtereds_cons X rhs w1 w2 next st v st1 vs st2 :
      filtered X w1 (first_of w2 next) st v st1 -> filtereds rhs w2 next st1 vs st2 -> filtereds (X :: rhs) (w1 ++ w2) next st (v :: vs) st2.
End Phrases.
Scheme phrase_ind2 := Induction for phrase Sort Prop with phrases_ind2 := Induction for phrases Sort Prop.
Combined Scheme phrase_mutind from phrase_ind2, phrases_ind2.
Scheme filtered_ind2 := Minimality for filtered Sort Prop with filtereds_ind2 := Minimality for filtereds Sort Prop.
Combined Scheme filtered_mutind from filtered_ind2, filtereds_ind2.
