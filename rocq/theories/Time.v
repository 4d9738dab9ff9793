(** Model of ber_types/GeneralizedTime.hpp (the container part, [time_decode], is in Schema.v).
    absl's times are modelled by their UTC calendar fields: absl::FormatTime with "%E4Y%m%d%H%M%S" prints them as 14
    digits (years 0..9999; fractions of a second are not printed), absl::ParseTime with the same format reads exactly 14
    digits back.  (Simplification: what ParseTime does with other strings, e.g. leading spaces, is not modelled: it is
    an error here.) *)
From Verif Require Import Base Ident View Prims Schema.

(** Calendar fields; [c_ns]: nanoseconds within the second. *)
Record civil := Civil { c_year : Z; c_month : Z; c_day : Z; c_hour : Z; c_min : Z; c_sec : Z; c_ns : Z }.
Definition digit (n : Z) : Z := 48 + n mod 10.
Definition two_digits (n : Z) : list Z := [digit (n / 10); digit n].
(** absl::FormatTime (g_local_time_format, GeneralizedTime.hpp 15-17). *)
Definition format_civil (t : civil) : list Z :=
  two_digits (c_year t / 100) ++ two_digits (c_year t) ++ two_digits (c_month t) ++ two_digits (c_day t) ++
  two_digits (c_hour t) ++ two_digits (c_min t) ++ two_digits (c_sec t).
Definition is_leap (y : Z) : bool := (y mod 4 =? 0) && (negb (y mod 100 =? 0) || (y mod 400 =? 0)).
Definition month_length (y m : Z) : Z :=
  if m =? 2 then (if is_leap y then 29 else 28) else if (m =? 4) || (m =? 6) || (m =? 9) || (m =? 11) then 30 else 31.
Definition civil_ok (t : civil) : bool :=
  (0 <=? c_year t) && (c_year t <=? 9999) && (1 <=? c_month t) && (c_month t <=? 12) &&
  (1 <=? c_day t) && (c_day t <=? month_length (c_year t) (c_month t)) &&
  (0 <=? c_hour t) && (c_hour t <=? 23) && (0 <=? c_min t) && (c_min t <=? 59) && (0 <=? c_sec t) && (c_sec t <=? 59) &&
  (0 <=? c_ns t) && (c_ns t <=? 999999999).
Definition undigit (b : Z) : option Z := if (48 <=? b) && (b <=? 57) then Some (b - 48) else None.
(** absl::ParseTime with g_local_time_format. *)
Definition parse_civil (s : list Z) : option civil :=
  match s with
  | [y1; y2; y3; y4; m1; m2; d1; d2; h1; h2; i1; i2; s1; s2] =>
      match undigit y1, undigit y2, undigit y3, undigit y4, undigit m1, undigit m2, undigit d1, undigit d2,
            undigit h1, undigit h2, undigit i1, undigit i2, undigit s1, undigit s2 with
      | Some y1, Some y2, Some y3, Some y4, Some m1, Some m2, Some d1, Some d2,
        Some h1, Some h2, Some i1, Some i2, Some s1, Some s2 =>
          let t := Civil (y1 * 1000 + y2 * 100 + y3 * 10 + y4) (m1 * 10 + m2) (d1 * 10 + d2) (h1 * 10 + h2) (i1 * 10 + i2) (s1 * 10 + s2) 0 in
          if civil_ok t then Some t else None
      | _, _, _, _, _, _, _, _, _, _, _, _, _, _ => None
      end
  | _ => None
  end.
(** GeneralizedTime.hpp 70-77: set_time(absl::Time); t is the time in UTC. *)
Definition set_time (i : ident) (f : fixed) (t : civil) : res fixed := fixed_assign_content i f (format_civil t ++ [90]).
(** 79-87: set_time(absl::CivilSecond).  FormatTime(FromCivil(cs, local), local) prints cs again (simplification: cs is
    not skipped by a change of the local zone's offset). *)
Definition set_civil (i : ident) (f : fixed) (cs : civil) : res fixed := fixed_assign_content i f (format_civil cs).
(** Decimal digits of a non-negative number, at least two ("%2.2d"). *)
Fixpoint decimal (fuel : nat) (n : Z) : list Z :=
  match fuel with
  | O => []
  | S fuel => if n <? 10 then [digit n] else decimal fuel (n / 10) ++ [digit n]
  end.
Definition print_22 (n : Z) : list Z := if n <? 10 then [48; digit n] else decimal 20 n.
(** 90-103: set_time(time, timezone_offset_minutes); snprintf writes at most 5 characters.  std::abs(INT_MIN) is UB. *)
Definition set_time_zone (i : ident) (f : fixed) (t : civil) (offset : Z) : res fixed :=
  if offset =? - 2^31 then UB
  else let ext := ztake 5 ([if offset >=? 0 then 43 else 45] ++ print_22 (Z.abs offset / 60) ++ print_22 (Z.abs offset mod 60)) in
       fixed_assign_content i f (format_civil t ++ ext).
Inductive time_format := universal_format | zone_format | local_format.
(** An element of a span or string; reading outside it is UB. *)
Definition read_at (x : list Z) (n : Z) : res Z := let* l := mem_read x n 1 in Ok (hd 0 l).
(** 105-121: format(); content().back() and content()[length - 5] must exist. *)
Definition time_format_of (f : fixed) : res time_format :=
  let* x := fixed_content f in
  let* last := read_at x (zlen x - 1) in
  if last =? 90 then Ok universal_format
  else let* c := read_at x (zlen x - 5) in
       if (c =? 45) || (c =? 43) then Ok zone_format else Ok local_format.
(** 123-155: time(); None: an exception is thrown.  (g_universal_time_format is g_local_time_format followed by Z.) *)
Definition time_value (f : fixed) : res (option civil) :=
  let* fmt := time_format_of f in
  let* x := fixed_content f in
  Ok (match fmt with
      | universal_format => parse_civil (ztake (zlen x - 1) x)
      | zone_format => parse_civil (ztake (zlen x - 5) x)
      | local_format => parse_civil x
      end).
