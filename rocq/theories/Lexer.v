(** Model of the compiler's lexer, yylex: /repo/src/compiler/asn_compiler.yacc 1817-1977, as generated by re2c in
    /repo/src/compiler/autogen_copy/asn_compiler.hpp 11586-24035 (the copy that is built by default, src/CMakeLists.txt 23-25). *)
From Coq Require Import String Ascii List ZArith PArith FSets.FMapPositive.
From Verif Require Import Base CompilerNames.
Local Open Scope string_scope.
Local Open Scope list_scope.

(** ** The automaton *)
(** What the generated code does at a label, first: nothing; "yych = *cursor"; "yych = *++cursor";
    "yyaccept = n; yych = *(YYMARKER = ++cursor)"; "++cursor". *)
Inductive mode := MNone | MRead | MAdv | MMark (n : nat) | MInc.
(** And then: "switch (yych)"; "goto" or falling through; the action of a rule; "cursor = YYMARKER; switch (yyaccept)". *)
Inductive jump :=
| TSwitch (cases : list (list (Z * Z) * positive)) (default : positive)
| TGoto (l : positive)
| TAct (rule : nat)
| TRestore (cases : list (nat * positive)) (default : positive).
Record label_code := Code { c_mode : mode; c_jump : jump }.

Definition in_ranges (c : Z) (rs : list (Z * Z)) : bool := existsb (fun r => (fst r <=? c)%Z && (c <=? snd r)%Z) rs.
Fixpoint switch (c : Z) (cases : list (list (Z * Z) * positive)) (default : positive) : positive :=
  match cases with
  | [] => default
  | (rs, l) :: cases => if in_ranges c rs then l else switch c cases default
  end.
Fixpoint select_accept (n : nat) (cases : list (nat * positive)) (default : positive) : positive :=
  match cases with
  | [] => default
  | (k, l) :: cases => if Nat.eqb n k then l else select_accept n cases default
  end.
(** The memory from the start of the token on; positions are relative to it.  yych is a (signed) char, but the cases of the
    generated switches are all below 128, so an octet from 128 on goes to the default, as here. *)
Definition read (mem : list Z) (pos : nat) : res Z := match nth_error mem pos with Some c => Ok c | None => UB end.
(** The variables cursor, yych, YYMARKER (null at first) and yyaccept. *)
Record vars := Vars { x_pos : nat; x_char : option Z; x_marker : option nat; x_accept : nat }.
Fixpoint exec (code : PositiveMap.t label_code) (fuel : nat) (mem : list Z) (l : positive) (x : vars) : res (nat * nat) :=
  match fuel with
  | O => NoFuel
  | S fuel =>
      match PositiveMap.find l code with
      | None => NoFuel
      | Some (Code m j) =>
          let* x := match m with
            | MNone => Ok x
            | MRead => let* c := read mem (x_pos x) in Ok (Vars (x_pos x) (Some c) (x_marker x) (x_accept x))
            | MAdv => let* c := read mem (S (x_pos x)) in Ok (Vars (S (x_pos x)) (Some c) (x_marker x) (x_accept x))
            | MMark n => let* c := read mem (S (x_pos x)) in Ok (Vars (S (x_pos x)) (Some c) (Some (S (x_pos x))) n)
            | MInc => Ok (Vars (S (x_pos x)) (x_char x) (x_marker x) (x_accept x))
            end in
          match j with
          | TSwitch cases d => match x_char x with Some c => exec code fuel mem (switch c cases d) x | None => UB end
          | TGoto l => exec code fuel mem l x
          | TAct k => Ok (k, x_pos x)
          | TRestore cases d =>
              match x_marker x with
              | Some p => exec code fuel mem (select_accept (x_accept x) cases d) (Vars p (x_char x) (x_marker x) (x_accept x))
              | None => UB
              end
          end
      end
  end.
Definition code_map (l : list (positive * label_code)) : PositiveMap.t label_code :=
  fold_right (fun p m => PositiveMap.add (fst p) (snd p) m) (PositiveMap.empty _) l.
(** One pass through the automaton: the rule whose action is executed, and how far the cursor has moved. *)
Definition scan (code : PositiveMap.t label_code) (mem : list Z) : res (nat * nat) :=
  exec code (4 * length mem + 8) mem 1%positive (Vars 0 None None 0).

(** ** The actions *)
(** asn_compiler.yacc 1831-1974, right column. *)
Inductive action :=
| AToken (name : string)      (* return make_NAME(location) *)
| AReal                       (* return make_realnumber(stod(text)) *)
| AInteger (name : string)    (* return make_NAME(stoll(text)) *)
| AText (name : string)       (* return make_NAME(text) *)
| AQuoted (name : string)     (* return make_NAME(text without the first and the last two characters) *)
| AName (name : string)       (* return make_NAME(santize_name(text)) *)
| ASkip                       (* columns(length); return yylex() *)
| ABlock                      (* 1930: columns and lines character by character *)
| ANewline | ASpace           (* 1951, 1952 *)
| AUnknown.                   (* 1974 *)
Inductive payload := PNone | PInteger (x : Z) | PText (s : list Z) | PName (s : string).
Record token := Token { tk_name : string; tk_value : payload }.

(** yy::position (asn_compiler.hpp 167-223): lines and columns; location::step, columns, lines act on begin and end.  The int
    arithmetic is taken to be exact (files of less than 2^30 characters). *)
Record position := Position { p_line : Z; p_column : Z }.
Record location := Location { loc_begin : position; loc_end : position }.
Definition start_location : location := Location (Position 1 1) (Position 1 1).
Definition loc_step (l : location) : location := Location (loc_end l) (loc_end l).
Definition loc_columns (n : Z) (l : location) : location :=
  Location (loc_begin l) (Position (p_line (loc_end l)) (Z.max 1 (p_column (loc_end l) + n))).
Definition loc_lines (l : location) : location := Location (loc_begin l) (Position (p_line (loc_end l) + 1) 1).

Definition string_of (s : list Z) : string := fold_right (fun c s => String (ascii_of_N (Z.to_N c)) s) EmptyString s.
(** std::stoll on text that is [-]digits: None is the exception std::out_of_range. *)
Definition digits_value (ds : list Z) : Z := fold_left (fun a d => a * 10 + (d - 48))%Z ds 0%Z.
Definition stoll (s : list Z) : option Z :=
  let v := match s with c :: ds => if c =? 45 then - digits_value ds else digits_value s | [] => 0 end%Z in
  if ((-(2^63) <=? v) && (v <? 2^63))%Z then Some v else None.

(** yylex: the next token, its location, and the memory behind it; None: an exception (main reports "Compilation error").
    stod's result and range error are not modelled: the token carries the text. *)
Fixpoint yylex (code : PositiveMap.t label_code) (actions : list action) (fuel : nat) (mem : list Z) (loc : location) :
    res (option (token * location * list Z)) :=
  match fuel with
  | O => NoFuel
  | S fuel =>
      let loc := loc_step loc in
      let* (k, n) := scan code mem in
      let text := firstn n mem in
      let rest := skipn n mem in
      let loc1 := loc_columns (zlen text) loc in
      match nth_error actions k with
      | Some (AToken x) => Ok (Some (Token x PNone, loc1, rest))
      | Some AReal => Ok (Some (Token "realnumber" (PText text), loc1, rest))
      | Some (AInteger x) => Ok (match stoll text with Some v => Some (Token x (PInteger v), loc1, rest) | None => None end)
      | Some (AText x) => Ok (Some (Token x (PText text), loc1, rest))
      | Some (AQuoted x) => Ok (Some (Token x (PText (firstn (length text - 3) (tl text))), loc1, rest))
      | Some (AName x) => Ok (Some (Token x (PName (santize_name (string_of text))), loc1, rest))
      | Some ASkip => yylex code actions fuel rest loc1
      | Some ABlock =>
          yylex code actions fuel rest (fold_left (fun l c => let l := loc_columns 1 l in if (c =? 10)%Z then loc_lines l else l) text loc)
      | Some ANewline => yylex code actions fuel rest (loc_lines loc1)
      | Some ASpace => yylex code actions fuel rest (loc_columns 1 loc1)
      | Some AUnknown => yylex code actions fuel rest loc
      | None => NoFuel
      end
  end.
(** The tokens the parser asks for, up to END_OF_FILE (asn1_parser::parse calls yylex until then, or until a syntax error). *)
Fixpoint tokens (code : PositiveMap.t label_code) (actions : list action) (fuel : nat) (mem : list Z) (loc : location) :
    res (option (list (token * location))) :=
  match fuel with
  | O => NoFuel
  | S fuel =>
      let* o := yylex code actions (S (length mem)) mem loc in
      match o with
      | None => Ok None
      | Some (t, loc, rest) =>
          if (tk_name t =? "END_OF_FILE")%string then Ok (Some [(t, loc)])
          else let* o := tokens code actions fuel rest loc in
               Ok (match o with Some ts => Some ((t, loc) :: ts) | None => None end)
      end
  end.
(** compiler_main/CompilerMain.cpp 226-232: the file's text with the NUL that c_str() ends in. *)
Definition lex_file (code : PositiveMap.t label_code) (actions : list action) (text : list Z) : res (option (list (token * location))) :=
  tokens code actions (S (S (length text))) (text ++ [0%Z]) start_location.
