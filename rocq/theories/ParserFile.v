(** Model of the parsing of files: the grammar by numbers, the values of the tokens, and the files in a row:
    /repo/src/compiler_main/CompilerMain.cpp 217-240. *)
From Coq Require Import List String Ascii ZArith Bool FSets.FMapPositive.
From Verif Require Import Base CompilerNames Lexer LexerTable Parser ParserTable ParserGrammar ParserTree ParserActions.
Import ListNotations.
Local Open Scope Z_scope.
Local Open Scope list_scope.

(** The number of a symbol: its place in [symbol_names] (-1: no symbol). *)
Fixpoint place (s : string) (l : list string) (n : Z) : Z :=
  match l with [] => -1 | x :: l => if String.eqb s x then n else place s l (n + 1) end.
Definition number (s : string) : Z := place s symbol_names 0.
(** Rule [k] of the grammar, by numbers. *)
Definition numbered : list (Z * list Z) := Eval vm_compute in map (fun r => (number (fst r), map number (snd r))) grammar.
Definition numbered_map : PositiveMap.t (Z * list Z) := Eval vm_compute in
  snd (fold_left (fun (a : positive * PositiveMap.t (Z * list Z)) x => (Pos.succ (fst a), PositiveMap.add (fst a) x (snd a))) numbered
    (1%positive, PositiveMap.empty (Z * list Z))).
Definition rules (k : Z) : option (Z * list Z) := match k with Zpos p => PositiveMap.find p numbered_map | _ => None end.
(** The declared type of a symbol, and the action of a rule. *)
Definition kind_of (a : Z) : kind := nth (Z.to_nat a) symbol_kinds KNone.
Definition perform (k : Z) (vs : list semantic) (s : state) : res (semantic * state) :=
  match nth_error actions (Z.to_nat (k - 1)) with Some a => act a vs s | None => UB end.
Definition nothing : semantic := existT denote KNone tt.
(** asn1_parser::make_NAME (asn_compiler.hpp 1700-4900): a token's value, as its type. *)
Definition token_value (t : Lexer.token) : semantic :=
  match kind_of (number (tk_name t)), tk_value t with
  | KInt64, PInteger x => existT denote KInt64 x
  | KDouble, PText s => existT denote KDouble (string_of s)
  | KString, PText s => existT denote KString (string_of s)
  | KString, PName s => existT denote KString s
  | _, _ => nothing
  end.
(** What the calls of yylex give, one by one: the tokens up to the end of file; a call behind it would read behind the text. *)
Fixpoint token_stream (fuel : nat) (mem : list Z) (loc : location) : stream semantic :=
  match fuel with
  | O => SUB
  | S fuel =>
      match yylex yy_map yy_actions (S (length mem)) mem loc with
      | Ok (Some (t, loc, rest)) => SToken (number (tk_name t)) (token_value t) (token_stream fuel rest loc)
      | Ok None => SThrow
      | _ => SUB
      end
  end.
Definition file_stream (text : list Z) : stream semantic := token_stream (S (S (length text))) (text ++ [0]) start_location.
(** parser.parse() (CompilerMain.cpp 234).  11 steps for each token are enough (see PropertiesParser.v). *)
Definition parse_file (s : state) (text : list Z) : res (verdict * state) :=
  run semantic state yy_tables perform nothing (12 * (length text + 4)) (start semantic state nothing s (file_stream text)).
(** 217-240: the files one after another; None: the compiler ends with -1 or an exception.  Opening the files is not modelled. *)
Fixpoint parse_files (s : state) (texts : list (list Z)) : res (option state) :=
  match texts with
  | [] => Ok (Some s)
  | x :: texts => let* (r, s) := parse_file s x in match r with Accepted => parse_files s texts | _ => Ok None end
  end.
Definition initial_state : state := State [] 0.
