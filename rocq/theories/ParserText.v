(** Texts of ASN.1: how tokens are spelled (X.680, 12), and what may stand between them. *)
From Coq Require Import String Ascii List ZArith.
From Verif Require Import Base CompilerNames Lexer LexerSpec.
Local Open Scope string_scope.
Local Open Scope list_scope.

Definition symbol_spellings : list (string * string) :=
  [("::=", "DEFINED_AS"); ("...", "ELIPSIS"); ("..", "RANGE"); ("{", "OPEN_BRACE"); ("}", "CLOSE_BRACE"); ("(", "OPEN_PARENTHESIS");
   (")", "CLOSE_PARENTHESIS"); ("[", "OPEN_SQUARE_BRACKET"); ("]", "CLOSE_SQUARE_BRACKET"); (":", "COLON"); (";", "SEMICOLON"); (",", "COMMA");
   (".", "FULL_STOP"); ("|", "VERTICAL_LINE"); ("!", "EXCLAMATION_MARK"); ("<", "LESS_THAN"); ("^", "ACCENT"); ("@", "AT")].
Definition starts_word (p : Z -> Prop) (w : list Z) : Prop := match w with c :: _ => p c | [] => False end.
Definition next_octet (p : Z -> Prop) (rest : list Z) : Prop := match rest with c :: _ => p c | [] => False end.
(** A character string: its text between double quotes, octets other than quotes and backslash, and doubled double quotes. *)
Definition string_octets (i : list Z) : Prop := i = [34; 34]%Z \/ exists c, i = [c] /\ wf_byte c /\ c <> 34%Z /\ c <> 39%Z /\ c <> 92%Z.
(** [spelled u t rest]: [u] is a text for the token [t] where [rest] (that what ends the file included) stands behind it. *)
Inductive spelled : list Z -> token -> list Z -> Prop :=
| sp_keyword s rest : In s keywords -> word_ends rest -> spelled (codes s) (Token (keyword_token s) PNone) rest
| sp_symbol s name rest : In (s, name) symbol_spellings -> (s = "." \/ s = ".." -> next_octet (fun c => c <> 46%Z) rest) -> (s = ":" -> next_octet (fun c => c <> 58%Z) rest) ->
    spelled (codes s) (Token name PNone) rest
| sp_upper w rest : word w -> ~ In w (map codes keywords) -> starts_word is_upper w -> word_ends rest ->
    spelled w (Token "GENERIC_IDENTIFIER_UPPERCASE" (PName (santize_name (string_of w)))) rest
| sp_lower w rest : word w -> starts_word is_lower w -> word_ends rest ->
    spelled w (Token "GENERIC_IDENTIFIER_LOWERCASE" (PName (santize_name (string_of w)))) rest
| sp_type_field w rest : word w -> starts_word is_upper w -> word_ends rest ->
    spelled (38%Z :: w) (Token "typefieldreference" (PName (santize_name (string_of (38%Z :: w))))) rest
| sp_value_field w rest : word w -> starts_word is_lower w -> word_ends rest ->
    spelled (38%Z :: w) (Token "valuefieldreference" (PName (santize_name (string_of (38%Z :: w))))) rest
| sp_number ds rest : ds <> [] -> Forall is_digit ds -> (decimal ds < 2^63)%Z ->
    next_octet (fun c => ~ is_digit c) rest -> (forall t, rest = 46%Z :: t -> next_octet (fun c => ~ is_digit c) t) -> spelled ds (Token "number" (PInteger (decimal ds))) rest
| sp_negative ds rest : ds <> [] -> Forall is_digit ds -> (decimal ds <= 2^63)%Z -> next_octet (fun c => ~ is_digit c) rest ->
    spelled (45%Z :: ds) (Token "negativenumber" (PInteger (- decimal ds))) rest
| sp_real ds es rest : ds <> [] -> Forall is_digit ds -> es <> [] -> Forall is_digit es -> next_octet (fun c => ~ is_digit c) rest ->
    spelled (ds ++ 46%Z :: es) (Token "realnumber" (PText (ds ++ 46%Z :: es))) rest
| sp_text items rest : Forall string_octets items -> next_octet (fun c => c <> 34%Z) rest ->
    spelled (34%Z :: concat items ++ [34%Z]) (Token "cstring" (PText (34%Z :: concat items ++ [34%Z]))) rest
| sp_bits ds rest : Forall (fun c => c = 48 \/ c = 49)%Z ds -> spelled (39%Z :: ds ++ [39; 66]%Z) (Token "bstring" (PText ds)) rest
| sp_hex ds rest : Forall (fun c => is_digit c \/ 65 <= c <= 70 \/ 97 <= c <= 102)%Z ds -> spelled (39%Z :: ds ++ [39; 72]%Z) (Token "hstring" (PText ds)) rest.
(** [written text ts]: the text is the tokens [ts] one after another, with white space and comments between them. *)
Inductive written : list Z -> list token -> Prop :=
| wr_end : written [] []
| wr_white c text ts : white c -> written text ts -> written (c :: text) ts
| wr_comment w text ts : bytes w -> ~ In 10%Z w -> ~ In 13%Z w -> ~ occurs [45; 45]%Z w -> last w 0%Z <> 45%Z -> written text ts -> written ([45; 45]%Z ++ w ++ [45; 45]%Z ++ text) ts
| wr_line_comment w c text ts : bytes w -> ~ In 10%Z w -> ~ In 13%Z w -> ~ occurs [45; 45]%Z w -> c = 10%Z \/ c = 13%Z -> written (c :: text) ts -> written ([45; 45]%Z ++ w ++ c :: text) ts
| wr_block_comment w text ts : bytes w -> ~ occurs [42; 47]%Z w -> written text ts -> written ([47; 42]%Z ++ w ++ [42; 47]%Z ++ text) ts
| wr_token u t text ts : spelled u t (text ++ [0%Z]) -> written text ts -> written (u ++ text) (t :: ts).
