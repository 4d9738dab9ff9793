(** Model of fast_ber::Any (ber_types/Any.hpp), the class of ANY. *)
From Coq Require Import List ZArith.
From Verif Require Import Base Ident Schema.
Import ListNotations.
Local Open Scope Z_scope.

(** Any.hpp 10-13 AnyTypes, in this order; the storage of each as in Elab.library_class, the universal number as in the default of its
    template parameter (Date.hpp 7, DateTime.hpp 8, Duration.hpp 7: generalized_time; Time.hpp 7, TimeOfDay.hpp 7: utc_time). *)
Definition any_types : list (lkind * Z) :=
  [(KFixed [], 3);        (* BitString *)
   (KBool, 1);            (* Boolean *)
   (KFixed [], 29);       (* CharacterString *)
   (KTime, 24);           (* Date *)
   (KTime, 24);           (* DateTime *)
   (KTime, 24);           (* Duration *)
   (KTime, 24);           (* GeneralizedTime *)
   (KSmall 8 [0], 2);     (* Integer *)
   (KNull, 5);            (* Null *)
   (KFixed [], 6);        (* ObjectIdentifier *)
   (KFixed [], 4);        (* OctetString *)
   (KSmall 100 [], 9);    (* Real *)
   (KTime, 23);           (* Time *)
   (KTime, 23);           (* TimeOfDay *)
   (KTime, 23);           (* UTCTime *)
   (KFixed [], 26)].      (* VisibleString *)
Fixpoint alternatives (l : list (lkind * Z)) : comps :=
  match l with [] => CNil | (k, n) :: l => CCons Mand [(universal, n)] (TLeaf k (Id universal n)) (alternatives l) end.
(** Any.hpp 15-23: encode, encoded_length and decode are those of the library's Choice (Choice.hpp 533-686), whose identifier is the
    ChoiceId of its alternatives. *)
Definition any : ty := TChoice CLib None (alternatives any_types).
