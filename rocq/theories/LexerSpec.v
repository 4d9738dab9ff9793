(** Regular expressions, and the rules of the lexer: /repo/src/compiler/asn_compiler.yacc 1830-1974. *)
From Coq Require Import String Ascii List ZArith.
From Verif Require Import Base CompilerNames Lexer.
Local Open Scope string_scope.
Local Open Scope list_scope.

(** ** Regular expressions over octets *)
Inductive re :=
| RSet (rs : list (Z * Z))    (* one octet in one of the ranges *)
| REps
| RSeq (a b : re)
| RAlt (a b : re)
| RStar (a : re).
Definition in_set (c : Z) (rs : list (Z * Z)) : Prop := exists lo hi, In (lo, hi) rs /\ (lo <= c <= hi)%Z.
Inductive matches : re -> list Z -> Prop :=
| m_set c rs : in_set c rs -> matches (RSet rs) [c]
| m_eps : matches REps []
| m_seq a b v w : matches a v -> matches b w -> matches (RSeq a b) (v ++ w)
| m_left a b w : matches a w -> matches (RAlt a b) w
| m_right a b w : matches b w -> matches (RAlt a b) w
| m_nil a : matches (RStar a) []
| m_more a v w : matches a v -> matches (RStar a) w -> matches (RStar a) (v ++ w).

(** re2c: the longest match counts; among the rules with that length, the first. *)
Definition longest_match (rules : list re) (mem : list Z) (k n : nat) : Prop :=
  (0 < n <= length mem)%nat /\ (exists r, nth_error rules k = Some r /\ matches r (firstn n mem)) /\
  forall j r m, nth_error rules j = Some r -> (m <= length mem)%nat -> matches r (firstn m mem) -> (m < n)%nat \/ (m = n /\ (k <= j)%nat).
(** Some rule matches a text that goes on behind the memory. *)
Definition runs_out (rules : list re) (mem : list Z) : Prop :=
  exists j r w, nth_error rules j = Some r /\ w <> [] /\ bytes w /\ matches r (mem ++ w).

(** ** The rules *)
Definition code_of (c : ascii) : Z := Z.of_N (N_of_ascii c).
Fixpoint lit (s : string) : re :=
  match s with
  | EmptyString => REps
  | String c EmptyString => RSet [(code_of c, code_of c)]
  | String c s => RSeq (RSet [(code_of c, code_of c)]) (lit s)
  end.
Definition opt (r : re) : re := RAlt r REps.
Definition plus (r : re) : re := RSeq r (RStar r).
Definition one (c : Z) : re := RSet [(c, c)].
Definition digit : re := RSet [(48, 57)]%Z.
Definition hyphen : re := one 45.
(** [A-Za-z_0-9] *)
Definition name_char : re := RSet [(65, 90); (97, 122); (95, 95); (48, 57)]%Z.
Definition upper : re := RSet [(65, 90)]%Z.
Definition lower : re := RSet [(97, 122)]%Z.
(** ([\-]?[A-Za-z_0-9])* *)
Definition name_tail : re := RStar (RSeq (opt hyphen) name_char).
(** [^\r\n\-] *)
Definition comment_char : re := RSet [(0, 9); (11, 12); (14, 44); (46, 255)]%Z.
(** two hyphens, then any comment_char, each after at most one hyphen *)
Definition comment_start : re := RSeq (lit "--") (RStar (RSeq (opt hyphen) comment_char)).
(** a character class with both quotes in it (1936: the apostrophes inside the brackets count) *)
Definition quote : re := RSet [(34, 34); (39, 39)]%Z.
Definition not_quote : re := RSet [(0, 33); (35, 38); (40, 255)]%Z.
(** . : anything but a new line *)
Definition dot : re := RSet [(0, 9); (11, 255)]%Z.
(** 1831-1922 *)
Definition keywords : list string :=
  ["ABSENT"; "ABSTRACT-SYNTAX"; "ALL"; "ANY"; "APPLICATION"; "AUTOMATIC"; "BEGIN"; "BIT"; "BMPString"; "BOOLEAN"; "BY";
   "CHARACTER"; "CHOICE"; "CLASS"; "COMPONENT"; "COMPONENTS"; "CONSTRAINED"; "CONTAINING"; "DATE"; "DATE-TIME"; "DEFAULT";
   "DEFINITIONS"; "DURATION"; "EMBEDDED"; "ENCODED"; "ENCODING_CONTROL"; "END"; "ENUMERATED"; "EXCEPT"; "EXPLICIT";
   "EXPORTS"; "EXTENSIBILITY"; "EXTERNAL"; "FALSE"; "FROM"; "GeneralizedTime"; "GeneralString"; "GraphicString";
   "IA5String"; "IDENTIFIER"; "IMPLICIT"; "IMPLIED"; "IMPORTS"; "INCLUDES"; "INSTANCE"; "INSTRUCTIONS"; "INTEGER";
   "INTERSECTION"; "ISO646String"; "MAX"; "MIN"; "MINUS-INFINITY"; "NOT-A-NUMBER"; "NULL"; "NumericString"; "OBJECT";
   "ObjectDescriptor"; "OCTET"; "OF"; "OID_IRI"; "OPTIONAL"; "PATTERN"; "PDV"; "PLUS_INFINITY"; "PRESENT";
   "PrintableString"; "PRIVATE"; "REAL"; "RELATIVE-OID"; "RELATIVE-OID-IRI"; "SEQUENCE"; "SET"; "SETTINGS"; "SIZE";
   "STRING"; "SYNTAX"; "T61String"; "TAGS"; "TeletexString"; "TIME"; "TIME-OF-DAY"; "TRUE"; "TYPE-IDENTIFIER"; "UNION";
   "UNIQUE"; "UNIVERSAL"; "UniversalString"; "UTCTime"; "UTF8String"; "VideotexString"; "VisibleString"; "WITH"].
(** 1925-1944 *)
Definition comment_rules : list re :=
  [RSeq comment_start (lit "--");
   RSeq comment_start (opt hyphen);
   (* slash star ([^\*]|([\*]+[^\*\/]))*[\*]+ slash *)
   RSeq (lit "/*") (RSeq (RStar (RAlt (RSet [(0, 41); (43, 255)]%Z) (RSeq (plus (one 42)) (RSet [(0, 41); (43, 46); (48, 255)]%Z))))
                         (RSeq (plus (one 42)) (one 47)))].
Definition value_rules : list re :=
  [RSeq (plus digit) (RSeq (one 46) (plus digit));
   plus digit;
   RSeq hyphen (plus digit);
   (* a quote; backslash and any character, two double quotes, or anything but a quote; a quote *)
   RSeq quote (RSeq (RStar (RAlt (RSeq (one 92) dot) (RAlt (RSeq (one 34) (one 34)) not_quote))) quote);
   RSeq (one 39) (RSeq (RStar (RAlt (one 48) (one 49))) (RSeq (one 39) (one 66)));
   RSeq (one 39) (RSeq (RStar (RSet [(48, 57); (65, 70); (97, 102)]%Z)) (RSeq (one 39) (one 72)));
   RSeq upper name_tail;
   RSeq lower name_tail;
   RSeq (one 38) (RSeq upper name_tail);
   RSeq (one 38) (RSeq lower name_tail)].
(** 1948-1974 *)
Definition other_rules : list re :=
  [one 0;
   RAlt (RSeq (one 13) (one 10)) (one 10);
   RSet [(8, 9); (11, 12); (32, 32)]%Z] ++
  map lit ["::="; "..."; ".."; "{"; "}"; "("; ")"; "["; "]"; ":"; ";"; ","; "-"; "."; "|"; "!"; "<"; "^"; "@"] ++
  [dot].
Definition lexer_rules : list re := map lit keywords ++ comment_rules ++ value_rules ++ other_rules.

(** ** Texts as sequences of lexemes *)
(** [lexemes rules mem ls rest]: cutting off the longest match again and again turns [mem] into the lexemes [ls] (rule and text)
    and what is left; a match that is still open at the end of [mem] is not cut off. *)
Inductive lexemes (rules : list re) : list Z -> list (nat * list Z) -> list Z -> Prop :=
| lx_none mem : lexemes rules mem [] mem
| lx_more k u mem ls rest : longest_match rules (u ++ mem) k (length u) -> ~ runs_out rules (u ++ mem) ->
    lexemes rules mem ls rest -> lexemes rules (u ++ mem) ((k, u) :: ls) rest.
Definition texts (ls : list (nat * list Z)) : list Z := concat (map snd ls).

(** ** X.680 *)
Definition is_upper (c : Z) : Prop := (65 <= c <= 90)%Z.
Definition is_lower (c : Z) : Prop := (97 <= c <= 122)%Z.
Definition is_digit (c : Z) : Prop := (48 <= c <= 57)%Z.
(** the octets of words: letters, digits, and the underscore that the rules accept as well *)
Definition word_octet (c : Z) : Prop := is_upper c \/ is_lower c \/ is_digit c \/ c = 95%Z.
(** [a] occurs in [w]. *)
Definition occurs (a w : list Z) : Prop := exists x y, w = x ++ a ++ y.
(** 12.2, 12.3: a letter, then letters, digits and hyphens; the last is not a hyphen; no two hyphens in a row. *)
Definition word (w : list Z) : Prop :=
  (exists c t, w = c :: t /\ (is_upper c \/ is_lower c) /\ Forall (fun d => word_octet d \/ d = 45%Z) t) /\
  last w 0%Z <> 45%Z /\ ~ occurs [45; 45]%Z w.
(** What follows does not continue the word. *)
Definition word_ends (rest : list Z) : Prop :=
  match rest with
  | [] => False
  | c :: t => ~ word_octet c /\ (c = 45%Z -> match t with [] => False | d :: _ => ~ word_octet d end)
  end.
(** 12.38: the reserved words. *)
Definition reserved_words : list string :=
  ["ABSENT"; "ABSTRACT-SYNTAX"; "ALL"; "APPLICATION"; "AUTOMATIC"; "BEGIN"; "BIT"; "BMPString"; "BOOLEAN"; "BY"; "CHARACTER";
   "CHOICE"; "CLASS"; "COMPONENT"; "COMPONENTS"; "CONSTRAINED"; "CONTAINING"; "DATE"; "DATE-TIME"; "DEFAULT"; "DEFINITIONS";
   "DURATION"; "EMBEDDED"; "ENCODED"; "ENCODING-CONTROL"; "END"; "ENUMERATED"; "EXCEPT"; "EXPLICIT"; "EXPORTS";
   "EXTENSIBILITY"; "EXTERNAL"; "FALSE"; "FROM"; "GeneralizedTime"; "GeneralString"; "GraphicString"; "IA5String";
   "IDENTIFIER"; "IMPLICIT"; "IMPLIED"; "IMPORTS"; "INCLUDES"; "INSTANCE"; "INSTRUCTIONS"; "INTEGER"; "INTERSECTION";
   "ISO646String"; "MAX"; "MIN"; "MINUS-INFINITY"; "NOT-A-NUMBER"; "NULL"; "NumericString"; "OBJECT"; "ObjectDescriptor";
   "OCTET"; "OF"; "OID-IRI"; "OPTIONAL"; "PATTERN"; "PDV"; "PLUS-INFINITY"; "PRESENT"; "PrintableString"; "PRIVATE"; "REAL";
   "RELATIVE-OID"; "RELATIVE-OID-IRI"; "SEQUENCE"; "SET"; "SETTINGS"; "SIZE"; "STRING"; "SYNTAX"; "T61String"; "TAGS";
   "TeletexString"; "TIME"; "TIME-OF-DAY"; "TRUE"; "TYPE-IDENTIFIER"; "UNION"; "UNIQUE"; "UNIVERSAL"; "UniversalString";
   "UTCTime"; "UTF8String"; "VideotexString"; "VisibleString"; "WITH"].
Fixpoint codes (s : string) : list Z := match s with EmptyString => [] | String c s => code_of c :: codes s end.
(** 12.6.3: a comment that two hyphens start ends at the next two hyphens or at the end of the line; 12.1.6: lines end at LF, VT, FF or CR. *)
Definition line_end (c : Z) : Prop := (10 <= c <= 13)%Z.
(** 12.1.6 *)
Definition white (c : Z) : Prop := (9 <= c <= 13)%Z \/ c = 32%Z.
(** Texts that are still open at the end of the file. *)
Definition open_line_comment (t : list Z) : Prop :=
  exists w, t = [45; 45]%Z ++ w /\ ~ In 10%Z w /\ ~ In 13%Z w /\ ~ occurs [45; 45]%Z w.
Definition open_block_comment (t : list Z) : Prop := exists w, t = [47; 42]%Z ++ w /\ ~ occurs [42; 47]%Z w.
(** [string_item w]: two double quotes, a backslash with what it escapes (not a new line), or an octet that is no quote. *)
Definition string_item (w : list Z) : Prop :=
  w = [34; 34]%Z \/ (exists c, w = [92; c]%Z /\ c <> 10%Z) \/ (exists c, w = [c] /\ c <> 34%Z /\ c <> 39%Z).
Definition open_string (t : list Z) : Prop :=
  exists q items, t = q :: concat items /\ (q = 34%Z \/ q = 39%Z) /\ Forall string_item items.

(** ** What the rules yield *)
Inductive verdict := Skipped | Gives (t : token) | Fails.
(** Token names are the keywords, with an underscore for a hyphen. *)
Fixpoint underscores (s : string) : string :=
  match s with EmptyString => EmptyString | String c s => String (if Ascii.eqb c "-" then "_" else c)%char (underscores s) end.
Definition keyword_token (s : string) : string := if String.eqb s "NULL" then "ASN_NULL" else underscores s.
Definition symbol_tokens : list string :=
  ["DEFINED_AS"; "ELIPSIS"; "RANGE"; "OPEN_BRACE"; "CLOSE_BRACE"; "OPEN_PARENTHESIS"; "CLOSE_PARENTHESIS"; "OPEN_SQUARE_BRACKET";
   "CLOSE_SQUARE_BRACKET"; "COLON"; "SEMICOLON"; "COMMA"; "HYPHEN_MINUS"; "FULL_STOP"; "VERTICAL_LINE"; "EXCLAMATION_MARK";
   "LESS_THAN"; "ACCENT"; "AT"].
Fixpoint decimal (ds : list Z) : Z := match ds with [] => 0 | d :: ds => (d - 48) * 10 ^ zlen ds + decimal ds end%Z.
Definition number_value (u : list Z) : Z := match u with c :: ds => if (c =? 45)%Z then (- decimal ds)%Z else decimal u | [] => 0%Z end.
Definition integer (name : string) (u : list Z) : verdict :=
  if ((-(2^63) <=? number_value u) && (number_value u <? 2^63))%Z then Gives (Token name (PInteger (number_value u))) else Fails.
(** Rule [k] with the text [u]. *)
Definition rule_meaning (k : nat) (u : list Z) : verdict :=
  match nth_error keywords k with
  | Some s => Gives (Token (keyword_token s) PNone)
  | None =>
      match k with
      | 92 | 93 | 94 | 106 | 107 | 127 => Skipped
      | 95 => Gives (Token "realnumber" (PText u))
      | 96 => integer "number" u
      | 97 => integer "negativenumber" u
      | 98 => Gives (Token "cstring" (PText u))
      | 99 => Gives (Token "bstring" (PText (firstn (length u - 3) (tl u))))
      | 100 => Gives (Token "hstring" (PText (firstn (length u - 3) (tl u))))
      | 101 => Gives (Token "GENERIC_IDENTIFIER_UPPERCASE" (PName (santize_name (string_of u))))
      | 102 => Gives (Token "GENERIC_IDENTIFIER_LOWERCASE" (PName (santize_name (string_of u))))
      | 103 => Gives (Token "typefieldreference" (PName (santize_name (string_of u))))
      | 104 => Gives (Token "valuefieldreference" (PName (santize_name (string_of u))))
      | 105 => Gives (Token "END_OF_FILE" PNone)
      | _ => match nth_error symbol_tokens (k - 108) with Some s => Gives (Token s PNone) | None => Fails end
      end%nat
  end.
(** The tokens of a sequence of lexemes, and whether all of them are good. *)
Fixpoint tokens_of (ls : list (nat * list Z)) : list token :=
  match ls with
  | [] => []
  | (k, u) :: ls => match rule_meaning k u with Gives t => t :: tokens_of ls | _ => tokens_of ls end
  end.
Definition good (p : nat * list Z) : Prop := rule_meaning (fst p) (snd p) <> Fails.
(** New lines in a text. *)
Definition new_lines (w : list Z) : Z := zlen (filter (Z.eqb 10) w).
(** The line on which each token starts, when the first lexeme starts on line [n]: new lines counted in the text before it. *)
Fixpoint token_lines (n : Z) (ls : list (nat * list Z)) : list Z :=
  match ls with
  | [] => []
  | (k, u) :: ls => match rule_meaning k u with Gives _ => [n] | _ => [] end ++ token_lines (n + new_lines u) ls
  end.
(** Where the text behind a lexeme starts, when the lexeme starts at [p].  A new line (rule 106) starts the next line; a block
    comment (94) does so at each line feed in it; white space (107) counts for one more than its length; an unknown octet (127)
    does not count; everything else counts for its length, and stays on its line. *)
Definition after (p : position) (e : nat * list Z) : position :=
  match fst e with
  | 94%nat => fold_left (fun p c => if (c =? 10)%Z then Position (p_line p + 1) 1 else Position (p_line p) (p_column p + 1)) (snd e) p
  | 106%nat => Position (p_line p + 1) 1
  | 107%nat => Position (p_line p) (p_column p + zlen (snd e) + 1)
  | 127%nat => p
  | _ => Position (p_line p) (p_column p + zlen (snd e))
  end.
(** The position at which each token starts, when the first lexeme starts at [p]. *)
Fixpoint token_positions (p : position) (ls : list (nat * list Z)) : list position :=
  match ls with
  | [] => []
  | (k, u) :: ls => match rule_meaning k u with Gives _ => [p] | _ => [] end ++ token_positions (after p (k, u)) ls
  end.
(** What reading [mem] comes to: cut off lexemes until the first that ends the file or that has no value, or that is still open at
    the end of the memory.  The tokens; None for an exception; UB for reading past the end. *)
Definition eof_token : token := Token "END_OF_FILE" PNone.
Inductive reads_as (mem : list Z) : res (option (list token)) -> Prop :=
| ra_end ls mid rest : lexemes lexer_rules mem ls mid -> Forall good ls -> Forall (fun p => fst p <> 105%nat) ls ->
    lexemes lexer_rules mid [(105%nat, [0%Z])] rest -> reads_as mem (Ok (Some (tokens_of ls ++ [eof_token])))
| ra_fails ls mid k u rest : lexemes lexer_rules mem ls mid -> Forall good ls -> Forall (fun p => fst p <> 105%nat) ls ->
    lexemes lexer_rules mid [(k, u)] rest -> rule_meaning k u = Fails -> reads_as mem (Ok None)
| ra_open ls mid : lexemes lexer_rules mem ls mid -> Forall good ls -> Forall (fun p => fst p <> 105%nat) ls ->
    runs_out lexer_rules mid -> reads_as mem UB.
