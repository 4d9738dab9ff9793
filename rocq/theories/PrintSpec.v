(** Specifications for the text output: JSON (RFC 8259), packet trees, and what a text should say about a packet or a
    value.  Nothing of the model in Print.v is used. *)
From Coq Require Import String Ascii.
From Verif Require Import Base Ident Spec.
Close Scope string_scope.

(** ** JSON *)
(** Numbers are kept as their literal; strings as the characters they stand for. *)
Inductive json :=
| JNull | JBool (b : bool) | JNum (literal : list Z) | JStr (s : list Z)
| JArr (l : list json) | JObj (l : list (list Z * json)).

Definition lit (s : string) : list Z := map (fun c => Z.of_N (N_of_ascii c)) (list_ascii_of_string s).
(** Section 2: insignificant whitespace. *)
Definition is_ws (b : Z) : bool := (b =? 32) || (b =? 9) || (b =? 10) || (b =? 13).
Fixpoint skip_ws (s : list Z) : list Z := match s with b :: r => if is_ws b then skip_ws r else s | [] => [] end.
(** The longest prefix of elements that satisfy p. *)
Fixpoint span (p : Z -> bool) (s : list Z) : list Z * list Z :=
  match s with
  | b :: r => if p b then let (x, y) := span p r in (b :: x, y) else ([], s)
  | [] => ([], [])
  end.
Definition is_digit (b : Z) : bool := (48 <=? b) && (b <=? 57).
(** Section 6: number = [ minus ] int [ frac ] [ exp ]. *)
Definition exp_ok (l : list Z) : bool :=
  match l with
  | [] => true
  | b :: r => if (b =? 101) || (b =? 69)
              then let r := match r with c :: r' => if (c =? 43) || (c =? 45) then r' else r | [] => [] end in
                   match span is_digit r with (_ :: _, []) => true | _ => false end
              else false
  end.
Definition frac_ok (l : list Z) : bool :=
  match l with
  | b :: r => if b =? 46 then match span is_digit r with (_ :: _, r') => exp_ok r' | ([], _) => false end else exp_ok l
  | [] => true
  end.
Definition number_ok (l : list Z) : bool :=
  let l := match l with b :: r => if b =? 45 then r else l | [] => [] end in
  match span is_digit l with
  | ([], _) => false
  | ([_], r) => frac_ok r
  | (d :: _, r) => negb (d =? 48) && frac_ok r
  end.
Definition number_char (b : Z) : bool := is_digit b || (b =? 43) || (b =? 45) || (b =? 46) || (b =? 69) || (b =? 101).
(** The number a literal without fraction and exponent stands for. *)
Definition digits_value (l : list Z) : Z := fold_left (fun a b => a * 10 + (b - 48)) l 0.
Definition is_int (j : json) (n : Z) : Prop :=
  exists l, (0 <= n /\ j = JNum l \/ n < 0 /\ j = JNum (45 :: l)) /\ l <> [] /\ forallb is_digit l = true /\ digits_value l = Z.abs n.
(** Section 7: strings; [s] starts behind the opening quote. *)
Definition hex (b : Z) : option Z :=
  if is_digit b then Some (b - 48) else if (65 <=? b) && (b <=? 70) then Some (b - 55)
  else if (97 <=? b) && (b <=? 102) then Some (b - 87) else None.
Definition escaped (b : Z) : option Z :=
  if (b =? 34) || (b =? 92) || (b =? 47) then Some b else if b =? 98 then Some 8 else if b =? 102 then Some 12
  else if b =? 110 then Some 10 else if b =? 114 then Some 13 else if b =? 116 then Some 9 else None.
Definition cons_fst {A B} (a : A) (p : option (list A * B)) : option (list A * B) :=
  match p with Some (x, y) => Some (a :: x, y) | None => None end.
Fixpoint string_rest (s : list Z) : option (list Z * list Z) :=
  match s with
  | [] => None
  | b :: r =>
      if b =? 34 then Some ([], r)
      else if b =? 92 then
        match r with
        | c :: r' =>
            if c =? 117 then
              match r' with
              | h1 :: h2 :: h3 :: h4 :: r'' =>
                  match hex h1, hex h2, hex h3, hex h4 with
                  | Some a, Some b, Some c, Some d => cons_fst (a * 4096 + b * 256 + c * 16 + d) (string_rest r'')
                  | _, _, _, _ => None
                  end
              | _ => None
              end
            else match escaped c with Some x => cons_fst x (string_rest r') | None => None end
        | [] => None
        end
      else if b <? 32 then None
      else cons_fst b (string_rest r)
  end.
(** Literal names (section 3). *)
Fixpoint strip (w s : list Z) : option (list Z) :=
  match w, s with
  | [], _ => Some s
  | a :: w, b :: s => if a =? b then strip w s else None
  | _ :: _, [] => None
  end.
(** Values and their lists: what is read, and the rest.  [fuel] bounds the number of values in a chain of enclosing or
    preceding ones; the length of the text is always enough. *)
Fixpoint elements (pv : list Z -> option (json * list Z)) (fuel : nat) (s : list Z) : option (list json * list Z) :=
  match fuel with
  | O => None
  | S fuel =>
      match pv s with
      | Some (j, r) =>
          match skip_ws r with
          | b :: r' => if b =? 44 then cons_fst j (elements pv fuel r') else if b =? 93 then Some ([j], r') else None
          | [] => None
          end
      | None => None
      end
  end.
Definition member (pv : list Z -> option (json * list Z)) (s : list Z) : option ((list Z * json) * list Z) :=
  match skip_ws s with
  | q :: r => if q =? 34 then
                match string_rest r with
                | Some (k, r) =>
                    match skip_ws r with
                    | b :: r => if b =? 58 then match pv r with Some (j, r) => Some ((k, j), r) | None => None end else None
                    | [] => None
                    end
                | None => None
                end
              else None
  | [] => None
  end.
Fixpoint members (pv : list Z -> option (json * list Z)) (fuel : nat) (s : list Z) : option (list (list Z * json) * list Z) :=
  match fuel with
  | O => None
  | S fuel =>
      match member pv s with
      | Some (kj, r) =>
          match skip_ws r with
          | b :: r' => if b =? 44 then cons_fst kj (members pv fuel r') else if b =? 125 then Some ([kj], r') else None
          | [] => None
          end
      | None => None
      end
  end.
Fixpoint value (fuel : nat) (s : list Z) : option (json * list Z) :=
  match fuel with
  | O => None
  | S fuel =>
      match skip_ws s with
      | [] => None
      | b :: r =>
          if b =? 34 then match string_rest r with Some (x, r) => Some (JStr x, r) | None => None end
          else if b =? 91 then
            match skip_ws r with
            | c :: r' => if c =? 93 then Some (JArr [], r')
                         else match elements (value fuel) fuel r with Some (l, r) => Some (JArr l, r) | None => None end
            | [] => None
            end
          else if b =? 123 then
            match skip_ws r with
            | c :: r' => if c =? 125 then Some (JObj [], r')
                         else match members (value fuel) fuel r with Some (l, r) => Some (JObj l, r) | None => None end
            | [] => None
            end
          else match strip (lit "true") (b :: r) with
          | Some r => Some (JBool true, r)
          | None =>
          match strip (lit "false") (b :: r) with
          | Some r => Some (JBool false, r)
          | None =>
          match strip (lit "null") (b :: r) with
          | Some r => Some (JNull, r)
          | None =>
              let (l, r) := span number_char (b :: r) in if number_ok l then Some (JNum l, r) else None
          end end end
      end
  end.
(** JSON-text = ws value ws (section 2). *)
Definition json_of (s : list Z) : option json :=
  match value (S (List.length s)) s with
  | Some (j, r) => match skip_ws r with [] => Some j | _ => None end
  | None => None
  end.

(** ** Packets inside packets *)
(** A packet: its octets, class, tag; its content if it is primitive, the packets in its content if it is constructed,
    followed by what is no packet. *)
Inductive node :=
| Leaf (octets : list Z) (c : class) (t : Z) (x : list Z)
| Branch (octets : list Z) (c : class) (t : Z) (kids : list node) (trailing : list Z).
Definition octets (n : node) : list Z := match n with Leaf p _ _ _ => p | Branch p _ _ _ _ => p end.
(** The header at the front of [l]: identifier octets with a tag below 2^63, a definite length field of at most nine octets;
    [h] is the number of header octets and [n] the value of the length field. *)
Definition header_in_front (l : list Z) (h n : Z) : Prop :=
  exists id len rest c con t, l = id ++ len ++ rest /\ x690_ident id c con t /\ t < 2^63 /\
    x690_length len n /\ zlen len <= 9 /\ h = zlen id + zlen len.
(** Headers the library cannot handle: a tag number that does not fit in 63 bits (its leading octets already stand for 2^56
    or more), or a length that does not fit in 64 bits together with its header. *)
Definition overflowing (l : list Z) : Prop :=
  (exists b ds rest, l = b :: ds ++ rest /\ b mod 32 = 31 /\ Forall (fun d => 128 <= d) ds /\ 2^56 <= b128_value ds) \/
  (exists h n, header_in_front l h n /\ 2^64 <= h + n).
(** Octets without such a header anywhere. *)
Definition ordinary (l : list Z) : Prop := forall front back, l = front ++ back -> ~ overflowing back.
(** Octets that do not start with a packet of the supported kind. *)
Definition no_packet_at (l : list Z) : Prop := forall p c con t x rest, ber_packet p c con t x -> l <> p ++ rest.
Inductive is_node : node -> Prop :=
| is_leaf p c t x : ber_packet p c primitive t x -> bytes x -> is_node (Leaf p c t x)
| is_branch p c t kids tail : ber_packet p c constructed t (concat (map octets kids) ++ tail) ->
    bytes tail -> no_packet_at tail -> ~ overflowing tail -> Forall is_node kids -> is_node (Branch p c t kids tail).

(** X.680 8.4, table 1: universal tag numbers, by the names the tool prints. *)
Definition universal_names : list (Z * string) :=
  [(0, "Reserved"); (1, "Boolean"); (2, "Integer"); (3, "Bit String"); (4, "Octet String"); (5, "Null");
   (6, "Object Identifier"); (7, "Object Descriptor"); (8, "Instance Of / External"); (9, "Real"); (10, "Enumerated");
   (11, "Embedded PDV"); (12, "UTF8 String"); (13, "Relative OID"); (16, "Sequence / Sequence Of"); (17, "Set / Set Of");
   (18, "Numeric String"); (19, "Printable String"); (20, "Teletex String / T161 String"); (21, "Videotex String");
   (22, "IA5 String"); (23, "UTC Time"); (24, "Generalized Time"); (25, "Graphic String");
   (26, "Visible String / ISO646 String"); (27, "General String"); (28, "Universal String"); (29, "Character String");
   (30, "BMP String")]%string.
Definition class_name (c : class) : string :=
  match c with universal => "Universal" | application => "Application" | context_specific => "Context Specific" | private_ => "Private" end%string.
Definition tag_shown (c : class) (t : Z) (j : json) : Prop :=
  match c with
  | universal => (exists s, In (t, s) universal_names /\ j = JStr (lit s)) \/
                 ~ In t (map fst universal_names) /\ j = JStr (lit "Unknown Universal Tag")
  | _ => is_int j t
  end.
Definition printable (b : Z) : Prop := 32 <= b <= 126.
(** A content shown as a string: itself if all of it is printable ASCII, "binary data" otherwise. *)
Definition octets_shown (x : list Z) (j : json) : Prop :=
  Forall printable x /\ j = JStr x \/ ~ Forall printable x /\ j = JStr (lit "binary data").
(** What the content of a primitive packet should be shown as.  Only contents that are valid for their type are
    specified. *)
Definition content_shown (c : class) (t : Z) (x : list Z) (j : json) : Prop :=
  match c with
  | universal =>
      (t = 1 -> forall b, x = [b] -> j = JBool (negb (b =? 0))) /\
      (t = 2 -> 1 <= zlen x <= 8 -> is_int j (twos_value x)) /\
      (t = 10 -> 1 <= zlen x <= 8 -> is_int j (twos_value x)) /\
      (t = 5 -> x = [] -> j = JNull) /\
      (t = 6 -> forall comps, x690_oid x comps -> Forall (fun n => n < 2^63) comps -> exists js, j = JArr js /\ Forall2 is_int js comps) /\
      (~ In t [1; 2; 5; 6; 9; 10; 23; 24] -> octets_shown x j)
  | _ => octets_shown x j
  end.
(** The text about a packet: its length, its identifier, and its content or the packets in it. *)
Definition packet_shown (p : list Z) (c : class) (t : Z) (jx j : json) : Prop :=
  exists jl jt, is_int jl (zlen p) /\ tag_shown c t jt /\
    j = JObj [(lit "length", jl); (lit "identifier", JObj [(lit "class", JStr (lit (class_name c))); (lit "tag", jt)]); (lit "content", jx)].
Inductive shown (R : class -> Z -> list Z -> json -> Prop) : node -> json -> Prop :=
| shown_leaf p c t x jx j : R c t x jx -> packet_shown p c t jx j -> shown R (Leaf p c t x) j
| shown_branch p c t kids tail js j : Forall2 (shown R) kids js -> packet_shown p c t (JArr js) j -> shown R (Branch p c t kids tail) j.
(** Every primitive packet in the tree satisfies P. *)
Inductive leaves (P : class -> Z -> list Z -> Prop) : node -> Prop :=
| leaves_leaf p c t x : P c t x -> leaves P (Leaf p c t x)
| leaves_branch p c t kids tail : Forall (leaves P) kids -> leaves P (Branch p c t kids tail).
(** A UTCTime or GeneralizedTime too short to look for its zone in: empty, or less than five octets not ending in Z. *)
Definition short_time (c : class) (t : Z) (x : list Z) : Prop :=
  c = universal /\ (t = 23 \/ t = 24) /\ (x = [] \/ zlen x < 5 /\ last x 0 <> 90).
(** Contents the tool prints as a JSON value: no REAL, no time, and no quotation mark or backslash in what it prints as a
    string. *)
Definition texty (c : class) (t : Z) (x : list Z) : Prop :=
  (c = universal -> t <> 9 /\ t <> 23 /\ t <> 24) /\
  ((c = universal -> ~ In t [1; 2; 5; 6; 10]) -> Forall printable x -> ~ In 34 x /\ ~ In 92 x).
(** Contents it prints with their value: no ENUMERATED, and no object identifier with a first octet of 120 or more. *)
Definition faithful (c : class) (t : Z) (x : list Z) : Prop :=
  c = universal -> t <> 10 /\ (t = 6 -> hd 0 x < 120).
