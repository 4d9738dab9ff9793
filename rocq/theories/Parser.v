(** Model of the parser's engine, asn1_parser::parse: /repo/src/compiler/autogen_copy/asn_compiler.hpp 7515-7640, 9624-9790. *)
From Coq Require Import List ZArith Bool FSets.FMapPositive.
From Verif Require Import Base.
Import ListNotations.
Local Open Scope Z_scope.

(** An array, and reading from it: UB out of its bounds. *)
Definition array (l : list Z) : PositiveMap.t Z :=
  snd (fold_left (fun (a : positive * PositiveMap.t Z) x => (Pos.succ (fst a), PositiveMap.add (fst a) x (snd a))) l (1%positive, PositiveMap.empty Z)).
Definition get (a : PositiveMap.t Z) (i : Z) : res Z :=
  if i <? 0 then UB else match PositiveMap.find (Z.to_pos (i + 1)) a with Some x => Ok x | None => UB end.
(** The tables (9895-11380) and the constants yypact_ninf_, yytable_ninf_, yylast_, yyfinal_, yyntokens_. *)
Record tables := Tables { t_pact : PositiveMap.t Z; t_defact : PositiveMap.t Z; t_pgoto : PositiveMap.t Z; t_defgoto : PositiveMap.t Z;
  t_table : PositiveMap.t Z; t_check : PositiveMap.t Z; t_r1 : PositiveMap.t Z; t_r2 : PositiveMap.t Z;
  pact_ninf : Z; table_ninf : Z; last_ : Z; final : Z; ntokens : Z }.

(** 7516-7524 yy_lr_goto_state_ *)
Definition lr_goto (t : tables) (s x : Z) : res Z :=
  let* g := get (t_pgoto t) (x - ntokens t) in
  let r := g + s in
  if (0 <=? r) && (r <=? last_ t) then
    let* c := get (t_check t) r in
    if c =? s then get (t_table t) r else get (t_defgoto t) (x - ntokens t)
  else get (t_defgoto t) (x - ntokens t).

Inductive decision := Shift (s : Z) | Reduce (rule : Z) | Error.
(** 7653-7658 yydefault *)
Definition default_decision (t : tables) (s : Z) : res decision :=
  let* k := get (t_defact t) s in Ok (if k =? 0 then Error else Reduce k).
(** 7620-7651: with a lookahead token of type [a]; [n] is yypact_[s]. *)
Definition decide (t : tables) (s n a : Z) : res decision :=
  let i := n + a in
  if (i <? 0) || (last_ t <? i) then default_decision t s
  else let* c := get (t_check t) i in
       if negb (c =? a) then default_decision t s
       else let* y := get (t_table t) i in
            Ok (if y <=? 0 then if y =? table_ninf t then Error else Reduce (- y) else Shift y).

(** What yylex will give: tokens (their type and value), and at the end an exception of its, or UB.  A stream that the parser
    reads no further has [SThrow] or whatever else at its end. *)
Inductive stream (V : Type) := SToken (a : Z) (v : V) (rest : stream V) | SThrow | SUB.
Arguments SToken {V} a v rest. Arguments SThrow {V}. Arguments SUB {V}.

(** The result of parse: 0 (YYACCEPT), 1 (YYABORT), or an exception that leaves it; and the state that the actions have left. *)
Inductive verdict := Accepted | Rejected | Thrown.

Section Engine.
  Variables (V ST : Type) (t : tables) (action : Z -> list V -> ST -> res (V * ST)) (v0 : V).
  (** The stack (top first) of states and values; the state of the actions; the tokens from the lookahead on (the lookahead
      token, yyla, is the first one, once it has been read: reading it early or late makes no difference to the parser);
      yyerrstatus_. *)
  Record config := Config { c_stack : list (Z * V); c_state : ST; c_input : stream V; c_errors : Z }.
  Inductive outcome := Next (c : config) | Stop (r : verdict) (st : ST).

  (** 9708-9731: pops states until one can shift the error token (number 1); None is YYABORT. *)
  Fixpoint recover (stk : list (Z * V)) : res (option (list (Z * V) * Z)) :=
    match stk with
    | [] => UB
    | (s, v) :: below =>
        let pop := match below with [] => Ok None | _ => recover below end in
        let* n := get (t_pact t) s in
        if n =? pact_ninf t then pop
        else let i := n + 1 in
             if (0 <=? i) && (i <=? last_ t) then
               let* c := get (t_check t) i in
               if c =? 1 then let* y := get (t_table t) i in if 0 <? y then Ok (Some (stk, y)) else pop
               else pop
             else pop
    end.
  (** 9652-9742 yyerrlab, yyerrlab1. *)
  Definition error (c : config) : res outcome :=
    let abort := Stop Rejected (c_state c) in
    let go input := let* o := recover (c_stack c) in
      Ok match o with None => abort | Some (stk, s) => Next (Config ((s, v0) :: stk) (c_state c) input 3) end in
    if c_errors c =? 3 then
      match c_input c with
      | SToken a _ rest => if a =? 0 then Ok abort else go rest
      | i => go i
      end
    else go (c_input c).
  (** 7660-7670, 9626-9645 yyreduce: the values of the right side are handed to the action, first to last. *)
  Definition reduce (k : Z) (c : config) : res outcome :=
    let* len := get (t_r2 t) k in
    let n := Z.to_nat len in
    match nth_error (c_stack c) n with
    | None => UB
    | Some (s, _) =>
        let* lhs := get (t_r1 t) k in
        let* g := lr_goto t s lhs in
        let* (v, st) := action k (rev (map snd (firstn n (c_stack c)))) (c_state c) in
        Ok (Next (Config ((g, v) :: skipn n (c_stack c)) st (c_input c) (c_errors c)))
    end.
  (** 7580-7651, 7653-7658: from yynewstate to the next push or the end. *)
  Definition step (c : config) : res outcome :=
    match c_stack c with
    | [] => UB
    | (s, _) :: _ =>
        if s =? final t then Ok (Stop Accepted (c_state c))
        else
          let* n := get (t_pact t) s in
          let perform d := match d with
            | Error => error c
            | Reduce k => reduce k c
            | Shift s' => match c_input c with
                | SToken _ v rest => Ok (Next (Config ((s', v) :: c_stack c) (c_state c) rest (if c_errors c =? 0 then 0 else c_errors c - 1)))
                | _ => UB
                end
            end in
          if n =? pact_ninf t then let* d := default_decision t s in perform d
          else match c_input c with
               | SToken a _ _ => let* d := decide t s n a in perform d
               | SThrow => Ok (Stop Thrown (c_state c))
               | SUB => UB
               end
    end.
  Fixpoint run (fuel : nat) (c : config) : res (verdict * ST) :=
    match fuel with
    | O => NoFuel
    | S fuel => let* o := step c in match o with Next c => run fuel c | Stop r st => Ok (r, st) end
    end.
  (** 7575-7578: the initial stack. *)
  Definition start (st : ST) (input : stream V) : config := Config [(0, v0)] st input 0.
End Engine.
