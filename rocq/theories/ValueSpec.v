(** Specification: the ASN.1 value an object of generated code stands for, and what printing it should give.  The types
    [nty] and the content octets [val] of objects are shared with the model; nothing that prints or compares is used. *)
From Coq Require Import String Ascii.
From Verif Require Import Base Ident Spec Time SchemaSpec Print PrintSpec DecimalSpec RealPrintSpec.
Close Scope string_scope.

(** Values.  An absent OPTIONAL member is None; a DEFAULT member always has a value.  Strings and object identifiers are
    their content octets (8.19 has exactly one encoding of each object identifier; bit strings count as their octets).  The
    values of REALs are doubles (eight octets). *)
Inductive meaning :=
| MBool (b : bool) | MNull | MInt (n : Z) | MEnum (n : Z) | MText (x : list Z) | MOid (x : list Z) | MTime (t : civil)
| MReal (d : list Z)
| MList (l : list meaning)
| MRec (l : list (option meaning))
| MAlt (n : nat) (m : meaning).
(** X.690 8.2, 8.3, 8.4, 8.8: what content octets mean.  Enumerations are those that fit in an int; times are those written
    as YYYYMMDDHHMMSSZ. *)
(** X.690 8.5: contents of REALs that a double has the value of: none (8.5.2: zero), special values (8.5.9), decimal encodings (8.5.8; the
    nearest double), and binary encodings (8.5.7) of numbers N * 2^scale that a normal double can hold; of the latter, those that C70 says are read
    as they should: exponent in one octet, the mantissa in two or more, its leading octet 16 or greater. *)
Inductive real_means : list Z -> list Z -> Prop :=
| means_zero : real_means [] [0; 0; 0; 0; 0; 0; 0; 0]
| means_plus_infinity : real_means [0x40] [0x7F; 0xF0; 0; 0; 0; 0; 0; 0]
| means_minus_infinity : real_means [0x41] [0xFF; 0xF0; 0; 0; 0; 0; 0; 0]
| means_not_a_number : real_means [0x42] [0x7F; 0xF8; 0; 0; 0; 0; 0; 0]
| means_minus_zero : real_means [0x43] [0x80; 0; 0; 0; 0; 0; 0; 0]
| means_decimal b text neg N E d : 0 <= b < 64 -> iso_6093 text neg N E -> nearest_double neg N E d -> real_means (b :: text) d
| means_binary s base factor e mant N d :
    0 <= s <= 1 -> 0 <= base <= 2 -> 0 <= factor <= 3 -> 0 <= e < 256 -> 2 <= zlen mant -> N = be_value mant -> 0 < N < 2^53 -> 4 <= Z.log2 N mod 8 ->
    let scale := factor + twos_value [e] * nth (Z.to_nat base) [1; 3; 4] 0 in
    is_double d -> dbl_sign d = s -> dbl_mantissa d = N * 2 ^ (52 - Z.log2 N) -> dbl_scale d = scale - (52 - Z.log2 N) -> 1 <= Z.log2 N + scale + 1023 <= 2046 ->
    real_means ((128 + 64 * s + 16 * base + 4 * factor) :: e :: mant) d.
Definition leaf_means (k : pkind) (x : list Z) (m : meaning) : Prop :=
  match k, m with
  | PBool, MBool b => exists c, x = [c] /\ b = negb (c =? 0)
  | PNull, MNull => x = []
  | PInt, MInt n => 1 <= zlen x <= 8 /\ n = twos_value x
  | PEnum _, MEnum n => 1 <= zlen x <= 8 /\ n = twos_value x /\ - 2^31 <= n < 2^31
  | PText, MText y => y = x
  | POid, MOid y => y = x
  | PTime, MTime t => civil_ok t = true /\ c_ns t = 0 /\ x = format_civil t ++ [90]
  | PReal, MReal d => real_means x d
  | _, _ => False
  end.
Fixpoint means (t : nty) (v : val) (m : meaning) {struct t} : Prop :=
  match t, v, m with
  | NLeaf k _, VPrim x, _ => leaf_means k x m
  | NList _ t, VList vs, MList ms => Forall2 (means t) vs ms
  | NSeq _ fs, VRec vs, MRec ms | NSet _ _ fs, VRec vs, MRec ms => fields_mean fs vs ms
  | NChoice _ _ fs, VAlt n v, MAlt k m => n = k /\ alt_means fs n v m
  | _, _, _ => False
  end
with fields_mean (fs : fields) (vs : list (option val)) (ms : list (option meaning)) {struct fs} : Prop :=
  match fs, vs, ms with
  | FNil, [], [] => True
  | FCons _ k _ t fs, v :: vs, m :: ms =>
      match v, m, k with
      | Some v, Some m, _ => means t v m
      | None, None, FOpt => True
      | None, Some m, FDef d => exists w, rep (erase t) d w /\ means t w m
      | _, _, _ => False
      end /\ fields_mean fs vs ms
  | _, _, _ => False
  end
with alt_means (fs : fields) (n : nat) (v : val) (m : meaning) {struct fs} : Prop :=
  match fs, n with
  | FCons _ _ _ t _, O => means t v m
  | FCons _ _ _ _ fs, S n => alt_means fs n v m
  | FNil, _ => False
  end.

(** What a value should be printed as: JSON's own booleans, null, numbers, strings, arrays; an object identifier as the array
    of its components; a REAL as a number, its value rounded to six digits; an enumeration by its name; a SEQUENCE or SET as the object of its members, null for an absent one; a
    CHOICE as the chosen value. *)
Definition leaf_shows (k : pkind) (m : meaning) (j : json) : Prop :=
  match k, m with
  | PBool, MBool b => j = JBool b
  | PNull, MNull => j = JNull
  | PInt, MInt n => is_int j n
  | PEnum items, MEnum n => exists name, In (name, n) items /\ j = JStr name
  | PText, MText x => octets_shown x j
  | POid, MOid x => exists comps js, x690_oid x comps /\ j = JArr js /\ Forall2 is_int js comps
  | PReal, MReal d => exists text N E, j = JNum text /\ json_number text (dbl_sign d =? 1) N E /\ six_digits_of d N E
  | _, _ => False
  end.
Fixpoint shows_value (t : nty) (m : meaning) (j : json) {struct t} : Prop :=
  match t, m, j with
  | NLeaf k _, _, _ => leaf_shows k m j
  | NList _ t, MList ms, JArr js => Forall2 (shows_value t) ms js
  | NSeq _ fs, MRec ms, JObj kjs | NSet _ _ fs, MRec ms, JObj kjs => shows_fields fs ms kjs
  | NChoice _ _ fs, MAlt n m, _ => shows_alt fs n m j
  | _, _, _ => False
  end
with shows_fields (fs : fields) (ms : list (option meaning)) (kjs : list (list Z * json)) {struct fs} : Prop :=
  match fs, ms, kjs with
  | FNil, [], [] => True
  | FCons name _ _ t fs, m :: ms, (k, j) :: kjs =>
      k = name /\ match m with Some m => shows_value t m j | None => j = JNull end /\ shows_fields fs ms kjs
  | _, _, _ => False
  end
with shows_alt (fs : fields) (n : nat) (m : meaning) (j : json) {struct fs} : Prop :=
  match fs, n with
  | FCons _ _ _ t _, O => shows_value t m j
  | FCons _ _ _ _ fs, S n => shows_alt fs n m j
  | FNil, _ => False
  end.

(** Names and values that can be printed: no time, no quotation mark or backslash in a name or a string, enumerations with one
    of their declared numbers, object identifiers X.690 defines, with components below 2^63, of which the first two are coded
    in one octet below 120, finite reals. *)
Definition clean (l : list Z) : Prop := Forall (fun b => 32 <= b /\ b <> 34 /\ b <> 92) l.
Definition leaf_presentable (k : pkind) (m : meaning) : Prop :=
  match k, m with
  | PTime, _ => False
  | PEnum items, MEnum n => In n (map snd items) /\ Forall (fun p => clean (fst p)) items
  | PText, MText x => Forall printable x -> clean x
  | POid, MOid x => hd 0 x < 120 /\ exists comps, x690_oid x comps /\ Forall (fun n => n < 2^63) comps
  | PReal, MReal d => dbl_finite d
  | _, _ => True
  end.
Fixpoint presentable (t : nty) (m : meaning) {struct t} : Prop :=
  match t, m with
  | NLeaf k _, _ => leaf_presentable k m
  | NList _ t, MList ms => Forall (presentable t) ms
  | NSeq _ fs, MRec ms | NSet _ _ fs, MRec ms => presentable_fields fs ms
  | NChoice _ _ fs, MAlt n m => presentable_alt fs n m
  | _, _ => True
  end
with presentable_fields (fs : fields) (ms : list (option meaning)) {struct fs} : Prop :=
  match fs, ms with
  | FCons name _ _ t fs, m :: ms =>
      clean name /\ match m with Some m => presentable t m | None => True end /\ presentable_fields fs ms
  | _, _ => True
  end
with presentable_alt (fs : fields) (n : nat) (m : meaning) {struct fs} : Prop :=
  match fs, n with
  | FCons _ _ _ t _, O => presentable t m
  | FCons _ _ _ _ fs, S n => presentable_alt fs n m
  | FNil, _ => True
  end.

(** Types without REAL. *)
Fixpoint without_reals (t : nty) : Prop :=
  match t with
  | NLeaf PReal _ => False
  | NLeaf _ _ => True
  | NList _ t => without_reals t
  | NSeq _ fs | NSet _ _ fs | NChoice _ _ fs => fields_without_reals fs
  end
with fields_without_reals (fs : fields) : Prop :=
  match fs with FNil => True | FCons _ _ _ t fs => without_reals t /\ fields_without_reals fs end.
(** Values in which no REAL is NaN. *)
Fixpoint without_nan (m : meaning) : Prop :=
  match m with
  | MReal d => ~ dbl_nan d
  | MList l => fold_right (fun m P => without_nan m /\ P) True l
  | MRec l => fold_right (fun o P => match o with Some m => without_nan m | None => True end /\ P) True l
  | MAlt _ m => without_nan m
  | _ => True
  end.
