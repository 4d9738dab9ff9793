(** The parser reads the notation of ParserSource.v as it says there. *)
(* rules used: 2-4 12 14-19 24-29 31 33-40 53 55 94 95 99 103-110 116 143-148 150-156 158-200 202 204 207 209 210 212-214 217-261 268 274 275 282-361 363-369 371-373 380-458 460-462 464 466-470 472 493 497-500 600-658 *)
From Coq Require Import List String ZArith NArith Bool Lia.
From Verif Require Import Base Lexer LexerSpec LexerFile Parser LRSpec LRProofs LRComplete ParserTable ParserGrammar ParserTree ParserActions ParserFile ParserSubset ParserValid ParserComplete ParserFileProofs ParserSource ParserPhrases ParserRules.
Import ListNotations.
Local Open Scope string_scope.
Local Open Scope Z_scope.
Local Open Scope list_scope.

Notation SEP := (kw "COMMA").
(** * Lists *)
Lemma sep_app s a b : a <> [] -> b <> [] -> sep s (a ++ b) = sep s a ++ s :: sep s b.
Proof.
  intros Ha Hb. induction a as [|x a IH]; [contradiction|]. destruct a as [|y a].
  - destruct b; [contradiction|]. reflexivity.
  - change (sep s ((x :: y :: a) ++ b)) with (x ++ s :: sep s ((y :: a) ++ b)). rewrite IH by discriminate. cbn [sep]. rewrite <- app_assoc. reflexivity.
Qed.
Lemma sep_one s x : sep s [x] = x.
Proof. reflexivity. Qed.
Lemma thread_app {A B} (f : A -> Z -> B * Z) a b n :
  thread f (a ++ b) n = (fst (thread f a n) ++ fst (thread f b (snd (thread f a n))), snd (thread f b (snd (thread f a n)))).
Proof.
  revert n. induction a as [|x a IH]; intros n; cbn [thread app fst snd]; [destruct (thread f b n); reflexivity|]. destruct (f x n) as [y n1]. rewrite IH.
  destruct (thread f a n1) as [ys n2]. reflexivity.
Qed.
Lemma thread_one {A B} (f : A -> Z -> B * Z) x n : thread f [x] n = ([fst (f x n)], snd (f x n)).
Proof. cbn. destruct (f x n). reflexivity. Qed.
Lemma thread_pure {A B} (g : A -> B) l n : thread (fun a n => (g a, n)) l n = (map g l, n).
Proof. induction l as [|x l IH]; cbn; [reflexivity|]. rewrite IH. reflexivity. Qed.
Lemma nonempty_true {A} (l : list A) : nonempty l = true -> l <> [].
Proof. destruct l; [discriminate|discriminate]. Qed.
Lemma map_nonempty {A B} (f : A -> B) l : l <> [] -> map f l <> [].
Proof. destruct l; [contradiction|discriminate]. Qed.

(** Lists of items with a token between them. *)
Lemma separated {A B} (L I : Z) (c : string) (tokens : A -> list Lexer.token) (read : A -> Z -> B * Z) (ei : B -> semantic) (el : list B -> semantic) (ok : string -> Prop) :
  (forall t next s x s', ph I t next s (ei x) s' -> ph L t next s (el [x]) s') ->
  (forall t1 t2 next s s1 s2 l x, ph L t1 c s (el l) s1 -> ph I t2 next s1 (ei x) s2 -> ph L (t1 ++ kw c :: t2) next s (el (l ++ [x])) s2) ->
  ok c ->
  forall l, l <> [] -> (forall a next m n, In a l -> ok next -> ph I (tokens a) next (State m n) (ei (fst (read a n))) (State m (snd (read a n)))) ->
  forall next m n, ok next -> ph L (sep (kw c) (map tokens l)) next (State m n) (el (fst (thread read l n))) (State m (snd (thread read l n))).
Proof.
  intros R1 R2 Oc l. induction l as [|x l IH] using rev_ind; [contradiction|]. intros _ H next m n Hn. destruct l as [|y l].
  - cbn [app map]. rewrite sep_one, thread_one. cbn [fst snd]. apply R1, H; [left; reflexivity|exact Hn].
  - rewrite map_app, sep_app by discriminate. rewrite thread_app, thread_one. cbn [fst snd]. change (map tokens [x]) with [tokens x]. rewrite sep_one. eapply R2.
    + apply IH; [discriminate| |exact Oc]. intros a nx m' n' Ha. apply H. apply in_or_app. left; exact Ha.
    + apply H; [|exact Hn]. apply in_or_app. right; left; reflexivity.
Qed.

(** * Values *)
Lemma num_signed x next s : ph n_SignedNumber [num x] next s (sem KInt64 x) s.
Proof. unfold num. destruct (x <? 0); [eapply r_294|eapply r_293]; reflexivity. Qed.
Lemma num_number x : 0 <= x -> num x = Lexer.Token "number" (PInteger x).
Proof. intros H. unfold num. destruct (Z.ltb_spec x 0); [lia|reflexivity]. Qed.
Lemma bool_value (b : bool) next s : ph n_BooleanValue [kw (if b then "TRUE" else "FALSE")] next s (sem KBool b) s.
Proof. destruct b; [eapply r_285|eapply r_286]; reflexivity. Qed.
Lemma upper_type x next s : ph n_typereference [upper x] next s (sem KString x) s.
Proof. eapply r_497; reflexivity. Qed.
Lemma lower_identifier x next s : ph n_identifier [lower x] next s (sem KString x) s.
Proof. eapply r_498; reflexivity. Qed.
Lemma lower_value x next s : ph n_valuereference [lower x] next s (sem KString x) s.
Proof. eapply r_499; reflexivity. Qed.
Lemma single_phrase v next s : next <> "OPEN_BRACE" -> ph n_SingleValue (single_tokens v) next s (sem KValue (read_single v)) s.
Proof.
  intros N. destruct v; cbn [single_tokens read_single].
  - eapply r_449; [apply bool_value|reflexivity].
  - eapply r_450; reflexivity.
  - eapply r_452; reflexivity.
  - eapply r_453; reflexivity.
  - eapply r_454; reflexivity.
  - eapply r_455; reflexivity.
  - eapply r_456; [|reflexivity]. eapply r_198; [apply lower_value|exact N|reflexivity].
  - eapply r_457; [apply num_signed|reflexivity].
  - eapply r_458; reflexivity.
Qed.
Definition in_constraint (next : string) : Prop := next <> "CLOSE_BRACE" /\ next <> "LESS_THAN".
Lemma single_phrase' v next s : not_null v = true -> in_constraint next -> ph n_SingleValue_1 (single_tokens v) next s (sem KValue (read_single v)) s.
Proof.
  intros V [N1 N2]. destruct v; cbn [single_tokens read_single]; try discriminate.
  - eapply r_635; [apply bool_value|reflexivity].
  - eapply r_637; reflexivity.
  - eapply r_638; reflexivity.
  - eapply r_639; reflexivity.
  - eapply r_640; reflexivity.
  - eapply r_641; [|reflexivity]. eapply r_644; [|reflexivity]. eapply r_646; [exact N1|exact N2|reflexivity].
  - eapply r_642; [apply num_signed|reflexivity].
  - eapply r_643; reflexivity.
Qed.
Definition val_rect' (P : val -> Prop) (H : forall v, match v with WList l => Forall P l | _ => True end -> P v) : forall v, P v :=
  fix go v := H v match v with
    | WList l => (fix all (l : list val) : Forall P l := match l with [] => Forall_nil P | x :: l => Forall_cons x (go x) (all l) end) l
    | _ => I
    end.
Definition is_ref (v : val) : bool := match v with WRef _ => true | _ => false end.
Definition is_list (v : val) : bool := match v with WList _ => true | _ => false end.
Lemma val_first v next : nxt (val_tokens v) next <> "COLON" /\ (is_list v = false -> nxt (val_tokens v) next <> "OPEN_BRACE").
Proof. destruct v; try (destruct b); cbn; unfold num; try destruct (x <? 0); cbn; split; congruence. Qed.
Lemma no_ref_app l x : no_ref_list (l ++ [x]) = true -> no_ref_list l = true /\ (is_list x = true -> is_ref (last l WNull) = false).
Proof.
  induction l as [|y l IH]; [split; reflexivity|]. destruct l as [|z l].
  - cbn. destruct y, x; cbn; intros; split; congruence.
  - intros H. assert (H' : no_ref_list ((z :: l) ++ [x]) = true). { destruct y; try exact H. destruct z; try exact H; discriminate. }
    destruct (IH H') as [I1 I2]. split; [|exact I2]. destruct y; try exact I1. destruct z; try exact I1. discriminate.
Qed.
Lemma value_phrase v : wf_val v = true -> forall next s, (is_ref v = true -> next <> "OPEN_BRACE") -> ph n_Value (val_tokens v) next s (sem KValue (read_val v)) s.
Proof.
  induction v as [v IH] using val_rect'. intros W next s N. destruct v as [b| |u|u|u|x|x|x n|x|u|l]; cbn [val_tokens read_val].
  - eapply r_274; [|reflexivity]. eapply r_249; [apply bool_value|reflexivity].
  - eapply r_274; [|reflexivity]. eapply r_251; reflexivity.
  - eapply r_274; [|reflexivity]. eapply r_253; reflexivity.
  - eapply r_274; [|reflexivity]. eapply r_254; reflexivity.
  - eapply r_274; [|reflexivity]. eapply r_255; reflexivity.
  - eapply r_275; reflexivity.
  - eapply r_274; [|reflexivity]. eapply r_257; [|reflexivity]. eapply r_198; [apply lower_value|apply N; reflexivity|reflexivity].
  - cbn [wf_val] in W. apply Z.leb_le in W. rewrite num_number by exact W. eapply r_274; [|reflexivity]. eapply r_258; reflexivity.
  - eapply r_274; [|reflexivity]. eapply r_260; [apply num_signed|reflexivity].
  - eapply r_274; [|reflexivity]. eapply r_261; reflexivity.
  - cbn [wf_val] in W. rewrite !andb_true_iff in W. destruct W as [[W1 W2] W3]. eapply r_274; [|reflexivity]. eapply (r_268 (flat_map val_tokens l)); [|reflexivity].
    cut (forall next, next <> "COLON" -> (is_ref (last l WNull) = true -> next <> "OPEN_BRACE") -> ph n_SequenceOfValues (flat_map val_tokens l) next s (sem KValues (map read_val l)) s).
    { intros H. apply H; intros; discriminate. }
    apply nonempty_true in W1. clear N next. induction l as [|x l IHl] using rev_ind; [contradiction|]. intros next N1 N2.
    destruct (no_ref_app _ _ W2) as [R1 R2]. apply Forall_app in IH. destruct IH as [IH1 IH2]. rewrite forallb_app, andb_true_iff in W3. destruct W3 as [W3 W4].
    cbn [forallb] in W4. rewrite andb_true_r in W4. inversion IH2 as [|x0 l0 Px _]; subst x0 l0. rewrite last_last in N2. rewrite flat_map_app, map_app. cbn [flat_map map]. rewrite app_nil_r.
    destruct (val_first x next) as [F1 F2]. destruct l as [|y l].
    + cbn [flat_map map app]. eapply r_282; [|exact N1|reflexivity]. apply Px; [exact W4|exact N2].
    + eapply (r_283 (flat_map val_tokens (y :: l)) _ (val_tokens x)); [| |exact N1|reflexivity].
      * apply IHl; [exact IH1|discriminate|exact R1|exact W3|exact F1|]. intros E. apply F2. destruct (is_list x); [|reflexivity]. rewrite R2 in E by reflexivity. discriminate.
      * apply Px; [exact W4|exact N2].
Qed.

(** * Constraints *)
Section ConstrInd.
Variables (P : constr -> Prop) (Q : elem -> Prop).
Hypothesis Hc : forall u ext, Forall (Forall Q) u -> match ext with Some (Some u) => Forall (Forall Q) u | _ => True end -> P (Constr u ext).
Hypothesis He : forall e, match e with ESize c | EFrom c | EGroup c => P c | _ => True end -> Q e.
Fixpoint constr_rect' (c : constr) : P c :=
  match c with
  | Constr u ext =>
      let all := fix all (l : list elem) : Forall Q l := match l with [] => Forall_nil Q | x :: l => Forall_cons x (elem_rect' x) (all l) end in
      let alls := fix alls (l : list (list elem)) : Forall (Forall Q) l := match l with [] => Forall_nil _ | x :: l => Forall_cons x (all x) (alls l) end in
      Hc u ext (alls u) match ext with Some (Some u) => alls u | _ => I end
  end
with elem_rect' (e : elem) : Q e := He e match e with ESize c | EFrom c | EGroup c => constr_rect' c | _ => I end.
End ConstrInd.
Lemma exception_none next s : ph n_ExceptionSpec [] next s (sem KNone tt) s.
Proof. eapply r_493; reflexivity. Qed.
Definition elem_good (e : elem) : Prop := wf_elem e = true -> forall next s, in_constraint next -> ph n_Elements (elem_tokens e) next s (sem KNone tt) s.
Definition set_good (ts : list Lexer.token) : Prop := forall next s, in_constraint next -> ph n_ElementSetSpec ts next s (sem KNone tt) s.
Definition constr_good (c : constr) : Prop := wf_constr c = true -> forall next s, ph n_Constraint (constr_tokens c) next s (sem KNone tt) s /\
  ph n_Elements (constr_tokens c) next s (sem KNone tt) s.
Definition unions_tokens (u : list (list elem)) := sep (kw "VERTICAL_LINE") (map (fun i => sep (kw "ACCENT") (map elem_tokens i)) u).
Lemma unions_phrase u : Forall (Forall elem_good) u -> nonempty u && forallb (fun i => nonempty i && forallb wf_elem i) u = true -> set_good (unions_tokens u).
Proof.
  rewrite andb_true_iff, forallb_forall, Forall_forall. intros G [Wn Wf] next [m n] N. apply nonempty_true in Wn. eapply r_422; [|reflexivity].
  pose (nothing := fun _ : unit => sem KNone tt). pose (nothings := fun _ : list unit => sem KNone tt).
  pose proof (separated (A := list elem) n_Unions n_Intersections "VERTICAL_LINE" (fun i => sep (kw "ACCENT") (map elem_tokens i)) (fun _ n => (tt, n)) nothing nothings in_constraint) as H.
  specialize (H ltac:(intros; eapply r_424; [eassumption|reflexivity])).
  specialize (H ltac:(intros t1 t2 ? ? ? ? ? ? H1 H2; eapply (r_425 t1 [kw "VERTICAL_LINE"] t2); [eapply r_426; [exact H1|reflexivity]|eapply r_434; reflexivity|exact H2|reflexivity])).
  specialize (H ltac:(split; discriminate) u Wn). rewrite (thread_pure (fun _ => tt)) in H || idtac.
  assert (H' : forall m n, ph n_Unions (unions_tokens u) next (State m n) (sem KNone tt) (State m n)); [|apply H'].
  clear m n. intros m n. specialize (fun X => H X next m n N). rewrite thread_pure in H. apply H. clear H. intros i nx m' n' Hi Nx. cbn [fst snd].
  specialize (G i Hi). specialize (Wf i Hi). rewrite andb_true_iff, forallb_forall in Wf. destruct Wf as [Wi We]. rewrite Forall_forall in G.
  pose proof (separated (A := elem) n_Intersections n_IntersectionElements "ACCENT" elem_tokens (fun _ n => (tt, n)) nothing nothings in_constraint) as H.
  specialize (H ltac:(intros; eapply r_427; [eassumption|reflexivity])).
  specialize (H ltac:(intros t1 t2 ? ? ? ? ? ? H1 H2; eapply (r_428 t1 [kw "ACCENT"] t2); [eapply r_429; [exact H1|reflexivity]|eapply r_436; reflexivity|exact H2|reflexivity])).
  specialize (H ltac:(split; discriminate) i ltac:(apply nonempty_true, Wi)). specialize (fun X => H X nx m' n' Nx). rewrite thread_pure in H. apply H.
  intros e nx' m2 n2 He Ne. eapply r_430; [|reflexivity]. apply G; [exact He|apply We; exact He|exact Ne].
Qed.
Lemma end_low v next s : wf_end v = true -> in_constraint next -> ph n_LowerEndpoint (end_tokens "MIN" v) next s (sem KNone tt) s.
Proof. intros W N. eapply r_462; [|reflexivity]. destruct v as [v|]; [eapply r_466; [apply single_phrase'; [exact W|exact N]|reflexivity]|eapply r_467; reflexivity]. Qed.
Lemma end_high v next s : wf_end v = true -> in_constraint next -> ph n_UpperEndpoint (end_tokens "MAX" v) next s (sem KNone tt) s.
Proof. intros W N. eapply r_464; [|reflexivity]. destruct v as [v|]; [eapply r_468; [apply single_phrase'; [exact W|exact N]|reflexivity]|eapply r_469; reflexivity]. Qed.
Lemma constr_phrase_step u ext : Forall (Forall elem_good) u -> match ext with Some (Some u) => Forall (Forall elem_good) u | _ => True end -> constr_good (Constr u ext).
Proof.
  intros G1 G2 W next s. cbn [wf_constr] in W. apply andb_true_iff in W. destruct W as [W1 W2]. pose proof (unions_phrase u G1 W1) as S1. fold (unions_tokens u) in *.
  assert (H : forall s, ph n_ElementSetSpecs (unions_tokens u ++ match ext with
        | None => []
        | Some None => [kw "COMMA"; kw "ELIPSIS"]
        | Some (Some u) => kw "COMMA" :: kw "ELIPSIS" :: kw "COMMA" :: unions_tokens u
        end) "CLOSE_PARENTHESIS" s (sem KNone tt) s).
  { clear s. intros s. destruct ext as [[u'|]|].
    - eapply r_421; [| |reflexivity]; [apply S1; split; discriminate|]. apply unions_phrase; [exact G2|exact W2|split; discriminate].
    - eapply r_420; [|reflexivity]. apply S1; split; discriminate.
    - eapply r_419; [|rewrite app_nil_r; reflexivity]. apply S1; split; discriminate. }
  split.
  - eapply (r_415 _ []); [| |cbn [constr_tokens app]; reflexivity].
    + cbn [nxt app]. eapply r_416; [|reflexivity]. eapply r_418; [|reflexivity]. apply H.
    + apply exception_none.
  - eapply r_439; [apply H|reflexivity].
Qed.
Lemma elem_phrase_step e : match e with ESize c | EFrom c | EGroup c => constr_good c | _ => True end -> elem_good e.
Proof.
  intros G W next s N. destruct e as [v|lo hi|c|c|c]; cbn [elem_tokens wf_elem] in *.
  - eapply r_438; [|reflexivity]. eapply r_440; [apply single_phrase'; [exact W|exact N]|reflexivity].
  - apply andb_true_iff in W. destruct W as [W1 W2]. eapply r_438; [|reflexivity]. eapply r_442; [|reflexivity].
    eapply r_461; [apply end_low; [exact W1|split; discriminate]|apply end_high; [exact W2|exact N]|reflexivity].
  - eapply r_438; [|reflexivity]. eapply r_444; [|reflexivity]. eapply r_470; [apply G; exact W|reflexivity].
  - eapply r_438; [|reflexivity]. eapply r_443; [|reflexivity]. eapply r_472; [apply G; exact W|reflexivity].
  - apply G; exact W.
Qed.
Lemma constr_phrase c next s : wf_constr c = true -> ph n_Constraint (constr_tokens c) next s (sem KNone tt) s.
Proof. intros W. apply (constr_rect' constr_good elem_good constr_phrase_step elem_phrase_step c W). Qed.

(** * Types *)
Section TyInd.
Variables (P : ty -> Prop) (Q : comp -> Prop).
Definition opt_all {A} (R : A -> Prop) (o : option A) : Prop := match o with Some x => R x | None => True end.
Definition all_opt {A} (R : A -> Prop) (f : forall x, R x) (o : option A) : opt_all R o := match o as o return opt_all R o with Some x => f x | None => I end.
Definition more_all (m : list comp * option (list comp)) : Prop := Forall Q (fst m) /\ opt_all (Forall Q) (snd m).
Definition ty_hyp (t : ty) : Prop :=
  match t with
  | YChoice root more => Forall (fun e => P (snd e)) root /\ opt_all (Forall (fun e => P (snd e))) more
  | YRecord _ root more => Forall Q root /\ opt_all more_all more
  | YListOf _ _ _ t | YTagged _ _ _ t | YApply _ t | YWith t _ => P t
  | _ => True
  end.
Definition comp_hyp (c : comp) : Prop := match c with CNamed _ t _ | CAnonymous t _ | COf t => P t end.
Hypothesis Ht : forall t, ty_hyp t -> P t.
Hypothesis Hk : forall c, comp_hyp c -> Q c.
Fixpoint ty_rect' (t : ty) : P t :=
  let all := fix all (l : list (string * ty)) : Forall (fun e => P (snd e)) l := match l with [] => Forall_nil _ | x :: l => Forall_cons x (ty_rect' (snd x)) (all l) end in
  let alls := fix alls (l : list comp) : Forall Q l := match l with [] => Forall_nil _ | x :: l => Forall_cons x (comp_rect' x) (alls l) end in
  Ht t match t as t return ty_hyp t with
    | YChoice root more => conj (all root) (all_opt _ all more)
    | YRecord _ root more => conj (alls root) (all_opt _ (fun m => conj (alls (fst m)) (all_opt _ alls (snd m))) more)
    | YListOf _ _ _ t => ty_rect' t | YTagged _ _ _ t => ty_rect' t | YApply _ t => ty_rect' t | YWith t _ => ty_rect' t
    | _ => I
    end
with comp_rect' (c : comp) : Q c := Hk c match c as c return comp_hyp c with CNamed _ t _ => ty_rect' t | CAnonymous t _ => ty_rect' t | COf t => ty_rect' t end.
End TyInd.

Definition read_ok {A} (X : Z) (ts : list Lexer.token) (next : string) (e : A -> semantic) (r : Z -> A * Z) : Prop :=
  forall m n, ph X ts next (State m n) (e (fst (r n))) (State m (snd (r n))).
Definition ty_good (t : ty) : Prop := wf_ty t = true -> forall next, (next = "OPEN_PARENTHESIS" -> closed t = true) ->
  read_ok n_Type (ty_tokens t) next (sem KType) (read_ty t) /\
  (is_null t = false -> read_ok n_Type_1 (ty_tokens t) next (sem KType) (read_ty t)) /\
  (plain t = true -> match t with YRef None _ => next <> "COLON" | _ => True end -> read_ok n_Type_2 (ty_tokens t) next (sem KType) (read_ty t)).
Lemma from_builtin t next : read_ok n_BuiltinType (ty_tokens t) next (sem KBuiltin) (read_ty t) -> (is_null t = false -> read_ok n_BuiltinType_1 (ty_tokens t) next (sem KBuiltin) (read_ty t)) ->
  read_ok n_Type (ty_tokens t) next (sem KType) (read_ty t) /\
  (is_null t = false -> read_ok n_Type_1 (ty_tokens t) next (sem KType) (read_ty t)) /\
  (plain t = true -> match t with YRef None _ => next <> "COLON" | _ => True end -> read_ok n_Type_2 (ty_tokens t) next (sem KType) (read_ty t)).
Proof.
  intros H1 H2. split; [|split].
  - intros m n. eapply r_212; [apply H1|reflexivity].
  - intros N m n. eapply r_600; [apply H2; exact N|reflexivity].
  - intros _ _ m n. eapply r_650; [apply H1|reflexivity].
Qed.
Tactic Notation "both" uconstr(r1) uconstr(r2) := apply from_builtin; [intros m n; eapply r1|intros _ m n; eapply r2].
Lemma simple_good k : ty_good (YSimple k).
Proof.
  intros W next _. destruct k as [| | | | | | | | | | | | | | | | | | | | |c]; cbn [wf_ty simple_tokens nonempty] in W; try discriminate;
    try (lazymatch goal with |- context [CharString] => fail | _ => idtac end; apply from_builtin; [intros m n; cbn [ty_tokens simple_tokens map read_ty fst snd]|intros N m n; cbn [ty_tokens simple_tokens map read_ty fst snd]; try discriminate]).
  - eapply r_217; reflexivity.
  - eapply r_605; reflexivity.
  - eapply r_218; [eapply r_305; reflexivity|reflexivity].
  - eapply r_606; [eapply r_305; reflexivity|reflexivity].
  - eapply r_219; [eapply r_284; reflexivity|reflexivity].
  - eapply r_607; [eapply r_284; reflexivity|reflexivity].
  - eapply r_222; [eapply r_385; reflexivity|reflexivity].
  - eapply r_610; [eapply r_385; reflexivity|reflexivity].
  - eapply r_223; [eapply r_387; reflexivity|reflexivity].
  - eapply r_611; [eapply r_387; reflexivity|reflexivity].
  - eapply r_224; [eapply r_388; reflexivity|reflexivity].
  - eapply r_612; [eapply r_388; reflexivity|reflexivity].
  - eapply r_225; [eapply r_381; reflexivity|reflexivity].
  - eapply r_613; [eapply r_381; reflexivity|reflexivity].
  - eapply r_227; [eapply r_382; reflexivity|reflexivity].
  - eapply r_615; [eapply r_382; reflexivity|reflexivity].
  - eapply r_228; reflexivity.
  - eapply r_616; reflexivity.
  - eapply r_231; [eapply r_373; reflexivity|reflexivity].
  - eapply r_619; [eapply r_373; reflexivity|reflexivity].
  - eapply r_232; [eapply r_312; reflexivity|reflexivity].
  - eapply r_234; reflexivity.
  - eapply r_621; reflexivity.
  - eapply r_235; [eapply r_360; reflexivity|reflexivity].
  - eapply r_622; [eapply r_360; reflexivity|reflexivity].
  - eapply r_236; [eapply r_311; reflexivity|reflexivity].
  - eapply r_623; [eapply r_311; reflexivity|reflexivity].
  - eapply r_237; [eapply r_304; reflexivity|reflexivity].
  - eapply r_624; [eapply r_304; reflexivity|reflexivity].
  - eapply r_238; [eapply r_380; reflexivity|reflexivity].
  - eapply r_625; [eapply r_380; reflexivity|reflexivity].
  - eapply r_239; [eapply r_372; reflexivity|reflexivity].
  - eapply r_626; [eapply r_372; reflexivity|reflexivity].
  - eapply r_245; [eapply r_383; reflexivity|reflexivity].
  - eapply r_632; [eapply r_383; reflexivity|reflexivity].
  - eapply r_246; [eapply r_386; reflexivity|reflexivity].
  - eapply r_633; [eapply r_386; reflexivity|reflexivity].
  - eapply r_247; reflexivity.
  - eapply r_634; reflexivity.
  - assert (H : forall m n, ph n_CharacterStringType (ty_tokens (YSimple (CharString c))) next (State m n) (sem KChar c) (State m n)).
    { intros m n. destruct c; try discriminate W; cbn [ty_tokens simple_tokens map]; try (eapply r_390; [eapply r_404; reflexivity|reflexivity]); eapply r_389; try reflexivity.
      - eapply r_391; reflexivity. - eapply r_392; reflexivity. - eapply r_393; reflexivity. - eapply r_394; reflexivity. - eapply r_395; reflexivity.
      - eapply r_396; reflexivity. - eapply r_397; reflexivity. - eapply r_398; reflexivity. - eapply r_399; reflexivity. - eapply r_400; reflexivity.
      - eapply r_401; reflexivity. - eapply r_402; reflexivity. - eapply r_403; reflexivity. }
    both r_220 r_608; try reflexivity; apply H.
Qed.

(** Named numbers and bits. *)
Lemma numbered_phrase x next s : ph n_NamedNumber (numbered_name x) next s (sem KNamedNumber x) s.
Proof. destruct x as [x n]. eapply r_291; [apply lower_identifier|apply num_signed|reflexivity]. Qed.
Lemma numbered_list l next m n : l <> [] -> ph n_NamedNumberList (commas (map numbered_name l)) next (State m n) (sem KNamedNumbers l) (State m n).
Proof.
  intros N. pose proof (separated n_NamedNumberList n_NamedNumber "COMMA" numbered_name (fun x n => (x, n)) (sem KNamedNumber) (sem KNamedNumbers) (fun _ => True)
    ltac:(intros; eapply r_289; [eassumption|reflexivity]) ltac:(intros t1 t2 ? ? ? ? ? ? H1 H2; eapply r_290; [exact H1|exact H2|reflexivity]) I l N) as H.
  specialize (fun X => H X next m n I). rewrite (thread_pure (fun x => x)), map_id in H. apply H. intros. apply numbered_phrase.
Qed.
Lemma bits_list (l : list (string * Z)) next m n : l <> [] -> forallb (fun e => (0 <=? snd e)%Z) l = true -> ph n_NamedBitList (commas (map numbered_name l)) next (State m n) (sem KNone tt) (State m n).
Proof.
  intros N W. rewrite forallb_forall in W. pose proof (separated (B := unit) n_NamedBitList n_NamedBit "COMMA" numbered_name (fun x n => (tt, n)) (fun _ => sem KNone tt) (fun _ => sem KNone tt) (fun _ => True)
    ltac:(intros; eapply r_307; [eassumption|reflexivity]) ltac:(intros t1 t2 ? ? ? ? ? ? H1 H2; eapply r_308; [exact H1|exact H2|reflexivity]) I l N) as H.
  specialize (fun X => H X next m n I). rewrite thread_pure in H. apply H. intros [x k] nx m' n' Hx _. specialize (W _ Hx). apply Z.leb_le in W. unfold numbered_name. cbn [fst snd] in *.
  rewrite num_number by exact W. eapply r_309; [apply lower_identifier|reflexivity].
Qed.
Lemma bits_good l : ty_good (YBits l).
Proof.
  intros W next _. cbn [wf_ty] in W. apply andb_true_iff in W. destruct W as [W1 W2]. apply nonempty_true in W1.
  assert (H : forall m n, ph n_BitStringType (ty_tokens (YBits l)) next (State m n) (sem (KEmpty BitString) tt) (State m n)).
  { intros m n. eapply r_306; [apply bits_list; [exact W1|exact W2]|reflexivity]. }
  both r_218 r_606; try reflexivity; apply H.
Qed.
Lemma integer_good l : ty_good (YInteger l).
Proof.
  intros _ next _. assert (H : forall m n, ph n_IntegerType (ty_tokens (YInteger l)) next (State m n) (sem KInteger l) (State m n)).
  { intros m n. destruct l as [|x l]; [eapply r_287; reflexivity|]. eapply r_288; [apply numbered_list; discriminate|reflexivity]. }
  both r_230 r_618; try reflexivity; apply H.
Qed.
Lemma enum_item_phrase x next s : ph n_EnumerationItem (enum_item x) next s (sem KEnumValue x) s.
Proof. destruct x as [x [n|]]; [eapply (r_303 _ (x, n)); [apply numbered_phrase|reflexivity]|eapply r_302; [apply lower_identifier|reflexivity]]. Qed.
Lemma enum_list l next m n : l <> [] -> ph n_Enumeration (commas (map enum_item l)) next (State m n) (sem KEnumerated (l, false)) (State m n).
Proof.
  intros N. pose proof (separated n_Enumeration n_EnumerationItem "COMMA" enum_item (fun x n => (x, n)) (sem KEnumValue) (fun l => sem KEnumerated (l, false)) (fun _ => True)
    ltac:(intros; eapply r_300; [eassumption|reflexivity]) ltac:(intros t1 t2 ? ? ? ? l0 x0 H1 H2; eapply (r_301 t1 (l0, false) t2 x0); [exact H1|exact H2|reflexivity]) I l N) as H.
  specialize (fun X => H X next m n I). rewrite (thread_pure (fun x => x)), map_id in H. apply H. intros. apply enum_item_phrase.
Qed.
Lemma enumerated_good root more : ty_good (YEnumerated root more).
Proof.
  intros W next _. cbn [wf_ty] in W. apply nonempty_true in W.
  assert (H : forall m n, ph n_EnumeratedType (ty_tokens (YEnumerated root more)) next (State m n)
    (sem KEnumerated (root ++ match more with Some l => l | None => [] end, match more with Some _ => true | None => false end)) (State m n)).
  { intros m n. eapply r_295; [|reflexivity]. destruct more as [l|].
    - unfold commas. rewrite sep_app; [|apply map_nonempty, W|discriminate]. destruct l as [|x l].
      + rewrite app_nil_r. eapply (r_297 _ (_, _) []); [apply enum_list, W|apply exception_none|reflexivity].
      + eapply (r_298 _ (_, _) [] _ (_, _)); [apply enum_list, W|apply exception_none|apply (enum_list (x :: l)); discriminate|reflexivity].
    - rewrite !app_nil_r. eapply (r_296 _ (_, _)); [apply enum_list, W|reflexivity]. }
  both (r_226 _ (_, _)) (r_614 _ (_, _)); try reflexivity; apply H.
Qed.

(** CHOICE. *)
Definition named_tokens (e : string * ty) : list Lexer.token := lower (fst e) :: ty_tokens (snd e).
Definition read_named (e : string * ty) (n : Z) : (string * type) * Z := let (u, n) := read_ty (snd e) n in ((fst e, u), n).
Definition not_open (next : string) : Prop := next <> "OPEN_PARENTHESIS".
Lemma good_type t next : ty_good t -> wf_ty t = true -> not_open next -> read_ok n_Type (ty_tokens t) next (sem KType) (read_ty t).
Proof. intros G W N. apply G; [exact W|]. intros E. contradiction. Qed.
Lemma named_phrase e next : ty_good (snd e) -> wf_ty (snd e) = true -> not_open next -> read_ok n_NamedType (named_tokens e) next (sem KNamedType) (read_named e).
Proof.
  intros G W N m n. destruct e as [x t]. unfold read_named, named_tokens. cbn [fst snd] in *. pose proof (good_type t next G W N m n) as H. destruct (read_ty t n) as [u n']. cbn [fst snd] in *.
  eapply (r_248 [lower x]); [apply lower_identifier|exact H|exact N|reflexivity].
Qed.
Lemma named_list l next : l <> [] -> Forall (fun e => ty_good (snd e)) l -> forallb (fun e => wf_ty (snd e)) l = true -> not_open next ->
  read_ok n_AlternativeTypeList (commas (map named_tokens l)) next (sem KNamedTypes) (thread read_named l).
Proof.
  intros N G W Nn m n. rewrite forallb_forall in W. rewrite Forall_forall in G. refine (separated n_AlternativeTypeList n_NamedType "COMMA" named_tokens read_named (sem KNamedType) (sem KNamedTypes) not_open _ _ _ l N _ next m n Nn).
  - intros; eapply r_344; [eassumption|reflexivity].
  - intros t1 t2 ? ? ? ? ? ? H1 H2; eapply r_345; [exact H1|exact H2|reflexivity].
  - discriminate.
  - intros e nx m' n' He Nx. apply named_phrase; [apply G, He|apply W, He|exact Nx].
Qed.
Lemma choice_good root more : Forall (fun e => ty_good (snd e)) root -> opt_all (Forall (fun e => ty_good (snd e))) more -> ty_good (YChoice root more).
Proof.
  intros G1 G2 W next _. cbn [wf_ty] in W. rewrite !andb_true_iff in W. destruct W as [[W1 W2] W3]. apply nonempty_true in W1.
  set (r := fun n => let (r, n) := thread read_named root n in let (a, n) := match more with Some l => thread read_named l n | None => ([], n) end in (a ++ r, n)).
  assert (H : read_ok n_ChoiceType (ty_tokens (YChoice root more)) next (sem KChoice) r).
  { intros m n. eapply r_339; [|reflexivity]. eapply r_340; [|reflexivity]. change (fun e : string * ty => lower (fst e) :: ty_tokens (snd e)) with named_tokens. unfold r.
    pose proof (fun nx N => named_list root nx W1 G1 W2 N m n) as H. destruct (thread read_named root n) as [a n1]. cbn [fst snd] in H. destruct more as [l|].
    - unfold commas. rewrite sep_app; [|apply map_nonempty, W1|discriminate]. destruct l as [|x l].
      + cbn [thread fst snd app map]. rewrite sep_one. eapply r_342; [apply H; discriminate|reflexivity].
      + pose proof (fun nx N => named_list (x :: l) nx ltac:(discriminate) G2 W3 N m n1) as H'. destruct (thread read_named (x :: l) n1) as [b n2]. cbn [fst snd] in H'.
        eapply r_343; [apply H; discriminate|apply H'; discriminate|reflexivity].
    - rewrite app_nil_r. cbn [fst snd app]. eapply r_341; [apply H; discriminate|reflexivity]. }
  assert (E : forall n, read_ty (YChoice root more) n = (TChoice (fst (r n)), snd (r n))).
  { intros n. cbn [read_ty]. unfold r. change (fun (e : string * ty) n => let (u, n) := read_ty (snd e) n in (fst e, u, n)) with read_named. destruct (thread read_named root n) as [a n1].
    destruct more as [l|]; [|reflexivity]. destruct (thread read_named l n1). reflexivity. }
  apply from_builtin; [intros m n|intros _ m n]; rewrite E; cbn [fst snd]; [eapply r_221|eapply r_609]; try reflexivity; apply H.
Qed.

(** Components. *)
Definition comp_good (c : comp) : Prop := wf_comp c = true -> forall next, next = "COMMA" \/ next = "CLOSE_BRACE" -> read_ok n_ComponentType (comp_tokens c) next (sem KComp) (read_comp c).
Lemma comp_step c : comp_hyp ty_good c -> comp_good c.
Proof.
  intros G W next N m n. assert (Nb : next <> "OPEN_BRACE") by (destruct N; subst; discriminate). assert (No : not_open next) by (destruct N; subst; discriminate).
  destruct c as [x t p|t p|t]; cbn [comp_hyp wf_comp comp_tokens read_comp] in *.
  - pose proof (fun nx N => named_phrase (x, t) nx G W N m n) as H. unfold read_named in H. cbn [fst snd] in H. destruct (read_ty t n) as [u n1]. cbn [fst snd] in *.
    destruct p as [| |v]; cbn [presence_tokens is_optional default_of]; change (lower x :: ty_tokens t ++ ?a) with (named_tokens (x, t) ++ a).
    + rewrite app_nil_r. eapply (r_329 _ (_, _)); [apply H; exact No|reflexivity].
    + eapply (r_330 _ (_, _)); [apply H; discriminate|reflexivity].
    + eapply (r_331 _ (_, _)); [apply H; discriminate|apply single_phrase; exact Nb|reflexivity].
  - pose proof (fun nx N => good_type t nx G W N m n) as H. destruct (read_ty t n) as [u n1]. cbn [fst snd] in *. destruct p as [| |v]; cbn [presence_tokens is_optional default_of].
    + rewrite app_nil_r. eapply (r_326 _ _ (State m n1)); [apply H; exact No|reflexivity].
    + eapply (r_327 _ _ (State m n1)); [apply H; discriminate|reflexivity].
    + eapply (r_328 _ _ _ _ (State m n1) (State m n1)); [apply H; discriminate|apply single_phrase; exact Nb|reflexivity].
  - pose proof (good_type t next G W No m n) as H. destruct (read_ty t n) as [u n1]. cbn [fst snd] in *. eapply r_332; [exact H|reflexivity].
Qed.
Lemma comp_list l next : l <> [] -> Forall comp_good l -> forallb wf_comp l = true -> next = "COMMA" \/ next = "CLOSE_BRACE" ->
  read_ok n_ComponentTypeList (commas (map comp_tokens l)) next (sem KComps) (thread read_comp l).
Proof.
  intros N G W Nn m n. rewrite forallb_forall in W. rewrite Forall_forall in G.
  refine (separated n_ComponentTypeList n_ComponentType "COMMA" comp_tokens read_comp (sem KComp) (sem KComps) (fun next => next = "COMMA" \/ next = "CLOSE_BRACE") _ _ _ l N _ next m n Nn).
  - intros; eapply r_324; [eassumption|reflexivity].
  - intros t1 t2 ? ? ? ? ? ? H1 H2; eapply r_325; [exact H1|exact H2|reflexivity].
  - left; reflexivity.
  - intros e nx m' n' He Nx. apply G; [exact He|apply W, He|exact Nx].
Qed.
Definition record_body (root : list comp) (more : option (list comp * option (list comp))) : list Lexer.token :=
  commas (map comp_tokens root ++ match more with
      | None => []
      | Some (l, None) => [kw "ELIPSIS"] :: map comp_tokens l
      | Some (l, Some l2) => [kw "ELIPSIS"] :: map comp_tokens l ++ [kw "ELIPSIS"] :: map comp_tokens l2
      end).
Definition read_body (root : list comp) (more : option (list comp * option (list comp))) (n : Z) : (list component * bool) * Z :=
  let (r, n) := thread read_comp root n in
  let (a, n) := match more with Some (l, _) => thread read_comp l n | None => ([], n) end in
  let (b, n) := match more with Some (_, Some l) => thread read_comp l n | _ => ([], n) end in
  ((r ++ a ++ b, match more with Some _ => true | None => false end), n).
Lemma body_phrase root more : Forall comp_good root -> opt_all (more_all comp_good) more -> wf_ty (YRecord false root more) = true -> root <> [] \/ more <> None ->
  read_ok n_ComponentTypeLists (record_body root more) "CLOSE_BRACE" (sem KCollection) (read_body root more).
Proof.
  intros G1 G2 W NE m n. cbn [wf_ty] in W. apply andb_true_iff in W. destruct W as [W1 W2]. unfold record_body, read_body, commas.
  pose proof (fun N nx Nx => comp_list root nx N G1 W1 Nx m n) as HR. pose proof (fun nx s => exception_none nx s) as X.
  destruct root as [|c root].
  - destruct more as [[l [l2|]]|]; [| |destruct NE; contradiction]; cbn [thread map app fst snd].
    + rewrite !andb_true_iff in W2. destruct W2 as [[W2 W3] W4]. cbn in W4. destruct l2; [|discriminate]. destruct G2 as [G2 _]. cbn [fst] in G2.
      pose proof (fun N nx Nx => comp_list l nx N G2 W2 Nx m n) as HA. destruct l as [|d l].
      * cbn [thread map app sep fst snd]. eapply (r_323 []); [apply X|reflexivity].
      * specialize (HA ltac:(discriminate)). destruct (thread read_comp (d :: l) n) as [a n1]. cbn [fst snd thread] in *. rewrite app_nil_r.
        eapply (r_321 [] (commas (map comp_tokens (d :: l)))); [apply X|apply HA; left; reflexivity|].
        change (map comp_tokens []) with (@nil (list Lexer.token)). change ([kw "ELIPSIS"] :: map comp_tokens (d :: l) ++ [[kw "ELIPSIS"]]) with (([[kw "ELIPSIS"]] ++ map comp_tokens (d :: l)) ++ [[kw "ELIPSIS"]]).
        rewrite sep_app by discriminate. rewrite sep_app by discriminate. unfold commas. rewrite <- app_assoc. reflexivity.
    + destruct G2 as [G2 _]. cbn [fst] in G2. pose proof (fun N nx Nx => comp_list l nx N G2 W2 Nx m n) as HA. destruct l as [|d l].
      * cbn [thread map app sep fst snd]. eapply (r_322 []); [apply X|reflexivity].
      * specialize (HA ltac:(discriminate)). destruct (thread read_comp (d :: l) n) as [a n1]. cbn [fst snd] in *. rewrite app_nil_r.
        eapply (r_320 [] (commas (map comp_tokens (d :: l)))); [apply X|apply HA; right; reflexivity|].
        change ([kw "ELIPSIS"] :: map comp_tokens (d :: l)) with ([[kw "ELIPSIS"]] ++ map comp_tokens (d :: l)). rewrite sep_app by discriminate. reflexivity.
  - specialize (HR ltac:(discriminate)). destruct (thread read_comp (c :: root) n) as [r n1]. cbn [fst snd] in HR. assert (NR : map comp_tokens (c :: root) <> []) by discriminate.
    destruct more as [[l [l2|]]|].
    + rewrite !andb_true_iff in W2. destruct W2 as [[W2 W3] W4]. cbn [nonempty] in W4. apply nonempty_true in W4. destruct G2 as [G2 G3]. cbn [fst snd opt_all] in G2, G3.
      pose proof (fun nx Nx => comp_list l nx W4 G2 W2 Nx m n1) as HA. destruct (thread read_comp l n1) as [a n2]. cbn [fst snd] in HA.
      pose proof (fun N nx Nx => comp_list l2 nx N G3 W3 Nx m n2) as HB. rewrite sep_app by (exact NR || discriminate).
      change ([kw "ELIPSIS"] :: map comp_tokens l ++ [kw "ELIPSIS"] :: map comp_tokens l2) with ([[kw "ELIPSIS"]] ++ map comp_tokens l ++ [[kw "ELIPSIS"]] ++ map comp_tokens l2).
      assert (NA : map comp_tokens l <> []) by (apply map_nonempty, W4).
      rewrite (sep_app _ [[kw "ELIPSIS"]]) by (discriminate || (destruct (map comp_tokens l); [contradiction|discriminate])). rewrite (sep_app _ (map comp_tokens l)) by (exact NA || discriminate).
      destruct l2 as [|d l2].
      * cbn [thread map app sep fst snd]. rewrite app_nil_r. eapply (r_318 _ _ []); [apply HR; left; reflexivity|apply X|apply HA; left; reflexivity|reflexivity].
      * specialize (HB ltac:(discriminate)). destruct (thread read_comp (d :: l2) n2) as [b n3]. cbn [fst snd] in HB. rewrite (sep_app _ [[kw "ELIPSIS"]]) by discriminate.
        eapply (r_319 _ _ []); [apply HR; left; reflexivity|apply X|apply HA; left; reflexivity|apply HB; right; reflexivity|reflexivity].
    + destruct G2 as [G2 _]. cbn [fst] in G2. pose proof (fun N nx Nx => comp_list l nx N G2 W2 Nx m n1) as HA. rewrite sep_app by (exact NR || discriminate). destruct l as [|d l].
      * cbn [thread map app fst snd]. rewrite sep_one, app_nil_r. eapply (r_316 _ _ []); [apply HR; left; reflexivity|apply X|reflexivity].
      * specialize (HA ltac:(discriminate)). destruct (thread read_comp (d :: l) n1) as [a n2]. cbn [fst snd] in *. rewrite app_nil_r.
        change ([kw "ELIPSIS"] :: map comp_tokens (d :: l)) with ([[kw "ELIPSIS"]] ++ map comp_tokens (d :: l)). rewrite (sep_app _ [[kw "ELIPSIS"]]) by discriminate.
        eapply (r_317 _ _ []); [apply HR; left; reflexivity|apply X|apply HA; right; reflexivity|reflexivity].
    + cbn [thread fst snd app]. rewrite !app_nil_r. eapply r_315; [apply HR; right; reflexivity|reflexivity].
Qed.
Lemma record_good set root more : Forall comp_good root -> opt_all (more_all comp_good) more -> ty_good (YRecord set root more).
Proof.
  intros G1 G2 W next _. assert (D : root = [] /\ more = None \/ (root <> [] \/ more <> None)). { destruct root; [|right; left; discriminate]. destruct more; [right; right; discriminate|left; split; reflexivity]. }
  assert (E : forall n, read_ty (YRecord set root more) n = (TRecord set (fst (fst (read_body root more n))) (snd (fst (read_body root more n))), snd (read_body root more n))).
  { intros n. cbn [read_ty]. unfold read_body. destruct (thread read_comp root n) as [r n1]. destruct (match more with Some (l, _) => thread read_comp l n1 | None => ([], n1) end) as [a n2].
    destruct (match more with Some (_, Some l) => thread read_comp l n2 | _ => ([], n2) end) as [b n3]. reflexivity. }
  assert (H : if set then read_ok n_SetType (ty_tokens (YRecord set root more)) next (sem KSet) (read_body root more) else
    read_ok n_SequenceType (ty_tokens (YRecord set root more)) next (sem KSequence) (read_body root more)).
  { destruct D as [[-> ->]|D]; [destruct set; intros m n; [eapply r_335|eapply r_313]; reflexivity|]. pose proof (body_phrase root more G1 G2 W D) as B.
    destruct set; intros m n; [eapply r_336|eapply r_314]; try apply B; reflexivity. }
  destruct set; apply from_builtin; [intros m n|intros _ m n|intros m n|intros _ m n]; rewrite E; cbn [fst snd]; [eapply (r_242 _ (fst (read_body root more n)))|eapply (r_629 _ (fst (read_body root more n)))|
    eapply (r_240 _ (fst (read_body root more n)))|eapply (r_627 _ (fst (read_body root more n)))]; try apply H; reflexivity.
Qed.

(** SEQUENCE OF and SET OF. *)
Lemma list_of_good set size name t : ty_good t -> ty_good (YListOf set size name t).
Proof.
  intros G W next C. cbn [wf_ty] in W. apply andb_true_iff in W. destruct W as [W1 W2].
  assert (No : not_open next) by (intros ->; specialize (C eq_refl); discriminate C). destruct size as [c|].
  - assert (H : read_ok n_TypeWithConstraint (ty_tokens (YListOf set (Some c) name t)) next (sem KType) (read_ty (YListOf set (Some c) name t))).
    { intros m n. cbn [read_ty]. destruct name as [x|].
      - pose proof (named_phrase (x, t) next G W2 No m n) as H. unfold read_named in H. cbn [fst snd] in H. destruct (read_ty t n) as [u n1]. cbn [fst snd] in *.
        destruct set; [eapply (r_412 (kw "SIZE" :: constr_tokens c) _ (_, _))|eapply (r_414 (kw "SIZE" :: constr_tokens c) _ (_, _))];
          try (eapply r_470; [apply constr_phrase; exact W1|reflexivity]); try exact H; cbn [ty_tokens app]; try rewrite <- app_assoc; reflexivity.
      - pose proof (good_type t next G W2 No m n) as H. destruct (read_ty t n) as [u n1]. cbn [fst snd] in *.
        destruct set; [eapply (r_408 (kw "SIZE" :: constr_tokens c))|eapply (r_410 (kw "SIZE" :: constr_tokens c))];
          try (eapply r_470; [apply constr_phrase; exact W1|reflexivity]); try exact H; try exact No; cbn [ty_tokens app]; try rewrite <- app_assoc; reflexivity. }
    split; [|split].
    + intros m n. eapply r_213; [|reflexivity]. eapply r_406; [apply H|reflexivity].
    + intros _ m n. eapply r_601; [|reflexivity]. eapply r_406; [apply H|reflexivity].
    + intros _ _ m n. eapply r_651; [|reflexivity]. eapply r_658; [apply H|reflexivity].
  - destruct name as [x|].
    + pose proof (named_phrase (x, t) next G W2 No) as H. unfold read_named in H. cbn [fst snd] in H. destruct set; apply from_builtin; [intros m n|intros _ m n|intros m n|intros _ m n];
        specialize (H m n); cbn [read_ty]; cbv beta in H; destruct (read_ty t n) as [u n1]; cbn [fst snd] in *; [eapply (r_243 _ (_, _))|eapply (r_630 _ (_, _))|eapply (r_241 _ (_, _))|eapply (r_628 _ (_, _))];
        try reflexivity; [eapply (r_338 _ (_, _))|eapply (r_338 _ (_, _))|eapply (r_334 _ (_, _))|eapply (r_334 _ (_, _))]; try exact H; reflexivity.
    + pose proof (good_type t next G W2 No) as H. destruct set; apply from_builtin; [intros m n|intros _ m n|intros m n|intros _ m n];
        specialize (H m n); cbn [read_ty]; cbv beta in H; destruct (read_ty t n) as [u n1]; cbn [fst snd] in *; [eapply (r_243 _ (_, _))|eapply (r_630 _ (_, _))|eapply (r_241 _ (_, _))|eapply (r_628 _ (_, _))];
        try reflexivity; [eapply r_337|eapply r_337|eapply r_333|eapply r_333]; try exact H; try exact No; reflexivity.
Qed.
(** Tags. *)
Lemma tagged_good class k mode t : ty_good t -> ty_good (YTagged class k mode t).
Proof.
  intros G W next C. cbn [wf_ty] in W. apply andb_true_iff in W. destruct W as [W1 W2]. apply Z.leb_le in W1.
  assert (No : not_open next) by (intros ->; specialize (C eq_refl); discriminate C). pose proof (good_type t next G W2 No) as H.
  set (tag := kw "OPEN_SQUARE_BRACKET" :: match class with universal => [kw "UNIVERSAL"] | application => [kw "APPLICATION"] | private_ => [kw "PRIVATE"] | context_specific => [] end ++
      num k :: kw "CLOSE_SQUARE_BRACKET" :: []).
  assert (T : forall nx s, ph n_Tag tag nx s (sem KTag (class, to_int k)) s).
  { intros nx s. unfold tag. rewrite num_number by exact W1. destruct class.
    - eapply (r_351 [] [kw "UNIVERSAL"] _ [_]); [eapply r_353; reflexivity|eapply r_356; reflexivity|eapply r_354; reflexivity|reflexivity].
    - eapply (r_351 [] [kw "APPLICATION"] _ [_]); [eapply r_353; reflexivity|eapply r_357; reflexivity|eapply r_354; reflexivity|reflexivity].
    - eapply (r_351 [] [] _ [_]); [eapply r_353; reflexivity|eapply r_359; reflexivity|eapply r_354; reflexivity|reflexivity].
    - eapply (r_351 [] [kw "PRIVATE"] _ [_]); [eapply r_353; reflexivity|eapply r_358; reflexivity|eapply r_354; reflexivity|reflexivity]. }
  assert (P : forall m n, ph n_PrefixedType (ty_tokens (YTagged class k mode t)) next (State m n) (sem KPrefixed ((class, to_int k), mode, fst (read_ty t n))) (State m (snd (read_ty t n)))).
  { intros m n. eapply r_347; [|reflexivity]. destruct mode; [eapply (r_350 tag)|eapply (r_349 tag)|eapply (r_348 tag)]; try apply T; try apply H; try exact No;
      unfold tag; cbn [ty_tokens app]; rewrite <- app_assoc; reflexivity. }
  apply from_builtin; [intros m n|intros _ m n]; cbn [read_ty]; specialize (P m n); destruct (read_ty t n) as [u n1]; cbn [fst snd] in *; [eapply (r_244 _ ((_, _), _))|eapply (r_631 _ ((_, _), _))]; try exact P; reflexivity.
Qed.
(** References, arguments, fields, constrained types. *)
Lemma ref_good q x : ty_good (YRef q x).
Proof.
  intros _ next _. destruct q as [q|].
  - assert (H : forall m n, ph n_ExternalTypeReference (ty_tokens (YRef (Some q) x)) next (State m n) (sem KDefined (Defined (Some q) x [])) (State m n)).
    { intros m n. eapply r_207; [apply upper_type|apply upper_type|reflexivity]. }
    split; [|split].
    + intros m n. eapply r_214; [|reflexivity]. eapply r_195; [apply H|reflexivity].
    + intros _ m n. eapply r_602; [|reflexivity]. eapply r_195; [apply H|reflexivity].
    + intros _ _ m n. eapply r_652; [|reflexivity]. eapply r_655; [apply H|reflexivity].
  - split; [|split].
    + intros m n. eapply r_214; [|reflexivity]. eapply r_196; [apply upper_type|reflexivity].
    + intros _ m n. eapply r_602; [|reflexivity]. eapply r_196; [apply upper_type|reflexivity].
    + intros _ N m n. eapply r_652; [|reflexivity]. eapply r_656; [apply upper_type|exact N|reflexivity].
Qed.
Lemma apply_good x t : ty_good t -> ty_good (YApply x t).
Proof.
  intros G W next _. cbn [wf_ty] in W. apply andb_true_iff in W. destruct W as [W1 W2]. apply negb_true_iff in W2. destruct (G W1 "CLOSE_BRACE" ltac:(discriminate)) as (_ & G1 & _). specialize (G1 W2).
  assert (H : read_ok n_DefinedType (ty_tokens (YApply x t)) next (sem KDefined) (fun n => (Defined None x [fst (read_ty t n)], snd (read_ty t n)))).
  { intros m n. eapply r_197; [|reflexivity]. eapply (r_200 [upper x]); [eapply r_116; [apply upper_type|reflexivity]|eapply r_202; [eapply r_204; [apply G1|reflexivity]|reflexivity]|reflexivity]. }
  split; [|split].
  - intros m n. specialize (H m n). cbv beta in H. cbn [read_ty]. destruct (read_ty t n). eapply r_214; [exact H|reflexivity].
  - intros _ m n. specialize (H m n). cbv beta in H. cbn [read_ty]. destruct (read_ty t n). eapply r_602; [exact H|reflexivity].
  - discriminate.
Qed.
Lemma field_names l next m n : l <> [] -> ph n_FieldNameList (sep (kw "FULL_STOP") (map (fun f => [field_token f]) l)) next (State m n) (sem KStrings (map snd l)) (State m n).
Proof.
  intros N. pose proof (separated n_FieldNameList n_FieldName "FULL_STOP" (fun f => [field_token f]) (fun f n => (snd f, n)) (sem KString) (sem KStrings) (fun _ => True)
    ltac:(intros; eapply r_26; [eassumption|reflexivity]) ltac:(intros t1 t2 ? ? ? ? ? ? H1 H2; eapply r_27; [exact H1|exact H2|reflexivity]) I l N) as H.
  specialize (fun X => H X next m n I). rewrite thread_pure in H. apply H. intros [[|] x] nx m' n' _ _; [eapply r_24|eapply r_25]; reflexivity.
Qed.
Lemma field_good c fs : ty_good (YField c fs).
Proof.
  intros W next _. cbn [wf_ty] in W. apply nonempty_true in W.
  assert (H : forall m n, ph n_ObjectClassFieldType (ty_tokens (YField c fs)) next (State m n) (sem KField (Defined None c [], map snd fs)) (State m n)).
  { intros m n. eapply (r_94 [upper c]); [apply upper_type|apply field_names; exact W|reflexivity]. }
  apply from_builtin; [intros m n|intros _ m n]; [eapply (r_233 _ (_, _))|eapply (r_620 _ (_, _))]; try apply H; reflexivity.
Qed.
Lemma with_good t c : ty_good t -> ty_good (YWith t c).
Proof.
  intros G W next _. cbn [wf_ty] in W. rewrite !andb_true_iff in W. destruct W as [[W1 W2] W3].
  assert (G' : forall s, ph n_Constraint (constr_tokens c) next s (sem KNone tt) s) by (intros s; apply constr_phrase; exact W3).
  assert (Nx : nxt (constr_tokens c) next = "OPEN_PARENTHESIS") by (destruct c; reflexivity).
  destruct (G W1 "OPEN_PARENTHESIS" (fun _ => W2)) as (G1 & G2 & G3).
  assert (C : read_ok n_ConstrainedType (ty_tokens (YWith t c)) next (sem KType) (read_ty t)).
  { intros m n. eapply r_405; [rewrite Nx; apply G1|apply G'|reflexivity]. }
  split; [|split].
  - intros m n. eapply r_213; [apply C|reflexivity].
  - intros _ m n. eapply r_601; [apply C|reflexivity].
  - intros P _ m n. eapply r_651; [|reflexivity]. eapply r_657; [rewrite Nx; apply G3; [exact P|destruct t as [| | | | | | | |[|]| | |]; try exact I; discriminate]|apply G'|reflexivity].
Qed.
Lemma ty_step t : ty_hyp ty_good comp_good t -> ty_good t.
Proof.
  destruct t; cbn [ty_hyp]; intros H; first [apply simple_good|apply bits_good|apply integer_good|apply enumerated_good|apply choice_good; apply H|apply record_good; apply H|
    apply list_of_good; exact H|apply tagged_good; exact H|apply ref_good|apply apply_good; exact H|apply field_good|apply with_good; exact H].
Qed.
Lemma all_good t : ty_good t.
Proof. apply (ty_rect' ty_good comp_good ty_step comp_step). Qed.
Lemma type_phrase t next m n : wf_ty t = true -> not_open next -> ph n_Type (ty_tokens t) next (State m n) (sem KType (fst (read_ty t n))) (State m (snd (read_ty t n))).
Proof. intros W N. apply good_type; [apply all_good|exact W|exact N]. Qed.

(** * Assignments *)
Lemma symbol_phrase s next st : ph n_Reference [symbol s] next st (sem KString (snd s)) st.
Proof. destruct s as [[|] x]; [eapply r_184; [apply upper_type|reflexivity]|eapply r_186; [apply lower_value|reflexivity]]. Qed.
Lemma param_phrase p next : wf_param p = true -> read_ok n_Parameter (param_tokens p) next (sem KParam) (read_param p).
Proof.
  intros W m n. destruct p as [x|t s]; cbn [param_tokens read_param wf_param] in *.
  - eapply r_107; [|reflexivity]. eapply r_647; [apply upper_type|reflexivity].
  - apply andb_true_iff in W. destruct W as [W1 W2]. destruct (all_good t W1 "COLON" ltac:(discriminate)) as (_ & _ & G). specialize (G W2).
    assert (H : ph n_ParamGovernor (ty_tokens t) "COLON" (State m n) (sem KType (fst (read_ty t n))) (State m (snd (read_ty t n)))).
    { destruct t as [| | | | | | | |[q|] x| | |]; try (eapply r_108; [eapply r_110; [apply G; exact I|reflexivity]|reflexivity]).
      eapply r_109; [eapply r_184; [apply upper_type|reflexivity]|reflexivity]. }
    destruct (read_ty t n) as [u n1]. cbn [fst snd] in *. eapply r_106; [exact H|apply symbol_phrase|reflexivity].
Qed.
Lemma params_phrase l next : l <> [] -> forallb wf_param l = true -> read_ok n_ParameterList (braces (commas (map param_tokens l))) next (sem KParams) (thread read_param l).
Proof.
  intros N W m n. rewrite forallb_forall in W. eapply r_103; [|reflexivity].
  refine (separated n_ParameterSeries n_Parameter "COMMA" param_tokens read_param (sem KParam) (sem KParams) (fun _ => True) _ _ I l N _ _ m n I).
  - intros; eapply r_104; [eassumption|reflexivity].
  - intros t1 t2 ? ? ? ? ? ? H1 H2; eapply r_105; [exact H1|exact H2|reflexivity].
  - intros p nx m' n' Hp _. apply param_phrase, W, Hp.
Qed.
Definition after_field (next : string) : Prop := next = "COMMA" \/ next = "CLOSE_BRACE".
Lemma class_field_phrase f next : wf_field f = true -> after_field next -> read_ok n_FieldSpec (field_tokens f) next (fun x => sem KFields [x]) (read_field f).
Proof.
  intros W N m n. assert (Nb : next <> "OPEN_BRACE") by (destruct N; subst; discriminate). assert (No : not_open next) by (destruct N; subst; discriminate).
  assert (Nt : next <> "OPTIONAL") by (destruct N; subst; discriminate). destruct f as [x o|x t u p]; cbn [field_tokens read_field wf_field] in *.
  - eapply r_18; [|reflexivity]. destruct o; (eapply (r_28 [field_token (true, x)] [x]); [eapply r_29; reflexivity| |reflexivity]); [eapply r_31|eapply r_33]; reflexivity.
  - eapply r_19; [|reflexivity].
    assert (T : forall nx, not_open nx -> ph n_Type (ty_tokens t) nx (State m n) (sem KType (fst (read_ty t n))) (State m (snd (read_ty t n)))) by (intros nx Nx; apply type_phrase; [exact W|exact Nx]).
    destruct (read_ty t n) as [y n1]. cbn [fst snd] in *. destruct u.
    + eapply (r_37 x (ty_tokens t) _ [kw "UNIQUE"]); [apply T; discriminate|eapply r_35; reflexivity| |reflexivity].
      destruct p as [| |v]; [eapply r_40|eapply r_38|eapply r_39; [apply single_phrase; exact Nb|]]; reflexivity.
    + destruct p as [| |v].
      * eapply (r_37 x (ty_tokens t) _ [] []); [apply T; exact No|eapply r_36; [exact Nt|reflexivity]|eapply r_40; reflexivity|cbn [presence_tokens app]; rewrite !app_nil_r; reflexivity].
      * eapply (r_37 x (ty_tokens t) _ [kw "OPTIONAL"] []); [apply T; discriminate|eapply r_34; reflexivity|eapply r_40; reflexivity|reflexivity].
      * eapply (r_37 x (ty_tokens t) _ [] (presence_tokens (Default v))); [apply T; discriminate|eapply r_36; [discriminate|reflexivity]|eapply r_39; [apply single_phrase; exact Nb|reflexivity]|reflexivity].
Qed.
Lemma class_fields_phrase l : l <> [] -> forallb wf_field l = true -> read_ok n_FieldSpecList (commas (map field_tokens l)) "CLOSE_BRACE" (sem KFields) (thread read_field l).
Proof.
  intros N W m n. rewrite forallb_forall in W.
  refine (separated n_FieldSpecList n_FieldSpec "COMMA" field_tokens read_field (fun x => sem KFields [x]) (sem KFields) after_field _ _ _ l N _ _ m n _).
  - intros; eapply r_16; [eassumption|reflexivity].
  - intros t1 t2 ? ? ? ? ? ? H1 H2; eapply r_17; [exact H1|exact H2|reflexivity].
  - left; reflexivity.
  - intros p nx m' n' Hp Nx. apply class_field_phrase; [apply W, Hp|exact Nx].
  - right; reflexivity.
Qed.
Definition after_decl (next : string) : Prop := next <> "OPEN_PARENTHESIS" /\ next <> "OPEN_BRACE".
Lemma decl_phrase d next : wf_decl d = true -> after_decl next -> read_ok n_Assignment (decl_tokens d) next (sem KAssign) (read_decl d).
Proof.
  intros W [No Nb] m n. destruct d as [x ps t|x t v|x fs]; cbn [decl_tokens read_decl wf_decl] in *; apply andb_true_iff in W; destruct W as [W1 W2].
  - destruct ps as [|p ps].
    + pose proof (type_phrase t next m n W2 No) as H. cbn [thread]. destruct (read_ty t n) as [u n1]. cbn [fst snd] in *.
      eapply r_189; [|reflexivity]. eapply (r_209 [upper x]); [apply upper_type|exact H|reflexivity].
    + pose proof (fun nx => params_phrase (p :: ps) nx ltac:(discriminate) W1 m n) as HP. destruct (thread read_param (p :: ps) n) as [l n1]. cbn [fst snd] in HP.
      pose proof (type_phrase t next m n1 W2 No) as H. destruct (read_ty t n1) as [u n2]. cbn [fst snd] in *.
      eapply r_194; [|reflexivity]. eapply r_95; [|reflexivity]. eapply (r_99 [upper x]); [apply upper_type|apply HP|exact H|reflexivity].
  - pose proof (type_phrase t "DEFINED_AS" m n W1 ltac:(discriminate)) as H. destruct (read_ty t n) as [u n1]. cbn [fst snd] in *.
    eapply r_190; [|reflexivity]. eapply (r_210 [lower x]); [apply lower_value|exact H|apply value_phrase; [exact W2|intros _; exact Nb]|reflexivity].
  - pose proof (class_fields_phrase fs (nonempty_true _ W1) W2 m n) as H. destruct (thread read_field fs n) as [l n1]. cbn [fst snd] in *.
    eapply r_191; [|reflexivity]. eapply (r_12 [upper x]); [apply upper_type| |reflexivity]. eapply r_14; [|reflexivity]. eapply (r_15 _ _ []); [exact H|eapply r_55; reflexivity|reflexivity].
Qed.
Lemma decl_first d ts next : after_decl (nxt (decl_tokens d ++ ts) next).
Proof. destruct d; split; discriminate. Qed.
Lemma decls_phrase l : l <> [] -> forallb wf_decl l = true -> read_ok n_AssignmentList (flat_map decl_tokens l) "END" (sem KAssigns) (fun n => (rev (fst (thread read_decl l n)), snd (thread read_decl l n))).
Proof.
  induction l as [|d l IH]; [contradiction|]. intros _ W m n. cbn [forallb] in W. apply andb_true_iff in W. destruct W as [W1 W2]. cbn [flat_map thread].
  pose proof (fun nx N => decl_phrase d nx W1 N m n) as H. destruct (read_decl d n) as [a n1]. cbn [fst snd] in H. destruct l as [|e l].
  - cbn [flat_map thread fst snd rev app]. rewrite app_nil_r. eapply r_187; [apply H; split; [discriminate|discriminate]|reflexivity].
  - specialize (IH ltac:(discriminate) W2 m n1). cbv beta in IH. destruct (thread read_decl (e :: l) n1) as [b n2]. cbn [fst snd rev] in *. eapply r_188; [apply H; apply decl_first|exact IH|reflexivity].
Qed.

(** * Modules *)
Lemma arcs_phrase l s : l <> [] -> forallb wf_arc l = true -> forall next, ph n_DefinitiveObjIdComponentList (flat_map arc_tokens l) next s (sem KNone tt) s.
Proof.
  intros N W next. rewrite forallb_forall in W. induction l as [|a l IH]; [contradiction|]. cbn [flat_map].
  assert (A : forall nx, ph n_DefinitiveObjIdComponent (arc_tokens a) nx s (sem KNone tt) s).
  { intros nx. specialize (W a (or_introl eq_refl)). destruct a as [x|k|x k]; cbn [arc_tokens wf_arc] in *.
    - eapply r_152; [eapply r_368; [apply lower_identifier|reflexivity]|reflexivity].
    - apply Z.leb_le in W. rewrite num_number by exact W. eapply r_153; [eapply r_155; reflexivity|reflexivity].
    - apply Z.leb_le in W. unfold numbered_name. cbn [fst snd]. rewrite num_number by exact W. eapply r_154; [|reflexivity].
      eapply (r_156 [lower x] _ [_]); [apply lower_identifier|eapply r_155; reflexivity|reflexivity]. }
  destruct l as [|b l]; [eapply r_150; [apply A|cbn [flat_map]; rewrite app_nil_r; reflexivity]|].
  eapply r_151; [apply A|apply IH; [discriminate|intros x Hx; apply W; right; exact Hx]|reflexivity].
Qed.
Lemma arcs_value l s : l <> [] -> forallb wf_arc l = true -> forall next, exists v, ph n_ObjIdComponentsList (flat_map arc_tokens l) next s (sem KOidComps v) s.
Proof.
  intros N W next. rewrite forallb_forall in W. induction l as [|a l IH]; [contradiction|]. cbn [flat_map].
  assert (A : forall nx, exists v, ph n_ObjIdComponents (arc_tokens a) nx s (sem KOidComp v) s).
  { intros nx. specialize (W a (or_introl eq_refl)). destruct a as [x|k|x k]; cbn [arc_tokens wf_arc] in *; eexists.
    - eapply r_365; [eapply r_368; [apply lower_identifier|reflexivity]|reflexivity].
    - apply Z.leb_le in W. rewrite num_number by exact W. eapply r_366; [eapply r_369; reflexivity|reflexivity].
    - apply Z.leb_le in W. unfold numbered_name. cbn [fst snd]. rewrite num_number by exact W. eapply r_367; [|reflexivity].
      eapply (r_371 [lower x] _ [_]); [apply lower_identifier|eapply r_369; reflexivity|reflexivity]. }
  destruct l as [|b l].
  - destruct (A next) as [v Hv]. eexists. eapply r_363; [exact Hv|cbn [flat_map]; rewrite app_nil_r; reflexivity].
  - destruct IH as [v Hv]; [discriminate|intros x Hx; apply W; right; exact Hx|]. destruct (A (nxt (flat_map arc_tokens (b :: l)) next)) as [w Hw]. eexists. eapply r_364; [exact Hw|exact Hv|reflexivity].
Qed.
Lemma module_name x oid s : forallb wf_arc oid = true -> ph n_ModuleIdentifier (upper x :: oid_tokens oid) "DEFINITIONS" s (sem KString x) s.
Proof.
  intros W. destruct oid as [|a oid].
  - eapply (r_144 [upper x] _ []); [eapply r_500; [discriminate|reflexivity]|eapply r_147; reflexivity|reflexivity].
  - eapply (r_144 [upper x] _ (oid_tokens (a :: oid))); [eapply r_500; [discriminate|reflexivity]| |reflexivity].
    eapply r_145; [|reflexivity]. eapply r_148; [apply (arcs_phrase (a :: oid)); [discriminate|exact W]|reflexivity].
Qed.
Lemma symbols_phrase l next m n : l <> [] -> ph n_SymbolList (symbols l) next (State m n) (sem KStrings (map snd l)) (State m n).
Proof.
  intros N. pose proof (separated n_SymbolList n_Symbol "COMMA" (fun s => [symbol s]) (fun s n => (snd s, n)) (sem KString) (sem KStrings) (fun _ => True)
    ltac:(intros; eapply r_181; [eassumption|reflexivity]) ltac:(intros t1 t2 ? ? ? ? ? ? H1 H2; eapply r_182; [exact H1|exact H2|reflexivity]) I l N) as H.
  specialize (fun X => H X next m n I). rewrite thread_pure in H. apply H. intros s nx m' n' _ _. eapply r_183; [apply symbol_phrase|reflexivity].
Qed.
Lemma starts_upper_ok s : starts_upper s = isupper_first s.
Proof. destruct s as [|c s]; [reflexivity|]. destruct c as [[] [] [] [] [] [] [] []]; reflexivity. Qed.
Lemma imported l : forallb (fun s => Bool.eqb (starts_upper (snd s)) (fst s)) l = true ->
  filter isupper_first (map snd l) = map snd (filter fst l) /\ filter (fun x => negb (isupper_first x)) (map snd l) = map snd (filter (fun s => negb (fst s)) l).
Proof.
  induction l as [|[b x] l IH]; [split; reflexivity|]. cbn [forallb map filter fst snd]. rewrite andb_true_iff. intros [H1 H2]. apply Bool.eqb_prop in H1. rewrite starts_upper_ok in H1. destruct (IH H2) as [E1 E2]. rewrite H1.
  destruct b; cbn [negb map]; rewrite E1, E2; split; reflexivity.
Qed.
Lemma import_phrase i next m n : wf_import i = true -> next <> "OPEN_BRACE" -> next <> "FULL_STOP" -> ph n_SymbolsFromModule (import_tokens i) next (State m n) (sem KImport (read_import i)) (State m n).
Proof.
  destruct i as [[l q] oid]. cbn [wf_import import_tokens read_import]. rewrite !andb_true_iff. intros [[W1 W2] W3] Nb Nf. destruct (imported l W2) as [<- <-].
  eapply (r_178 (symbols l)); [apply symbols_phrase, nonempty_true, W1| |reflexivity]. destruct oid as [|a oid].
  - eapply r_179; [eapply r_500; [exact Nf|reflexivity]|reflexivity].
  - destruct (arcs_value (a :: oid) (State m n) ltac:(discriminate) W3 "CLOSE_BRACE") as [v Hv].
    eapply (r_180 [upper q] _ (oid_tokens (a :: oid))); [eapply r_500; [discriminate|reflexivity]| |reflexivity]. eapply r_361; [exact Hv|reflexivity].
Qed.
Lemma import_first i ts next : wf_import i = true -> nxt (import_tokens i ++ ts) next <> "OPEN_BRACE" /\ nxt (import_tokens i ++ ts) next <> "FULL_STOP".
Proof.
  destruct i as [[l q] oid]. cbn [wf_import import_tokens]. rewrite !andb_true_iff. intros [[W _] _]. destruct l as [|[b x] l]; [discriminate|]. unfold symbols, commas.
  destruct l; cbn [map sep app nxt fst snd]; unfold symbol; cbn [fst snd]; destruct b; cbn; split; discriminate.
Qed.
Lemma imports_list l m n : l <> [] -> forallb wf_import l = true -> forall next, next <> "OPEN_BRACE" -> next <> "FULL_STOP" ->
  ph n_SymbolsFromModuleList (flat_map import_tokens l) next (State m n) (sem KImports (map read_import l)) (State m n).
Proof.
  induction l as [|i l IH] using rev_ind; [contradiction|]. intros _ W next N1 N2. rewrite forallb_app, andb_true_iff in W. destruct W as [W1 W2]. cbn [forallb] in W2. rewrite andb_true_r in W2.
  rewrite flat_map_app, map_app. cbn [flat_map map]. rewrite app_nil_r. destruct l as [|j l].
  - eapply r_176; [apply import_phrase; [exact W2|exact N1|exact N2]|reflexivity].
  - destruct (import_first i [] next W2) as [F1 F2]. rewrite app_nil_r in F1, F2. eapply r_177; [apply IH; [discriminate|exact W1|exact F1|exact F2]|apply import_phrase; [exact W2|exact N1|exact N2]|reflexivity].
Qed.
Definition imports_tokens (o : option (list (list (bool * string) * string * list arc))) : list Lexer.token :=
  match o with None => [] | Some l => kw "IMPORTS" :: flat_map import_tokens l ++ [kw "SEMICOLON"] end.
Lemma imports_phrase o next m n : match o with Some l => forallb wf_import l | None => true end = true ->
  ph n_Imports (imports_tokens o) next (State m n) (sem KImports (match o with Some l => map read_import l | None => [] end)) (State m n).
Proof.
  intros W. destruct o as [l|]; [|eapply r_173; reflexivity]. destruct l as [|i l].
  - eapply (r_172 []); [eapply r_175; reflexivity|reflexivity].
  - eapply (r_172 (flat_map import_tokens (i :: l))); [|reflexivity]. eapply r_174; [|reflexivity]. apply (imports_list (i :: l)); [discriminate|exact W|discriminate|discriminate].
Qed.
Definition exports_tokens (o : option (option (list (bool * string)))) : list Lexer.token :=
  match o with None => [] | Some None => [kw "EXPORTS"; kw "ALL"; kw "SEMICOLON"] | Some (Some l) => kw "EXPORTS" :: symbols l ++ [kw "SEMICOLON"] end.
Lemma exports_phrase o next m n : ph n_Exports (exports_tokens o) next (State m n) (sem KExports tt) (State m n).
Proof.
  destruct o as [[l|]|]; [|eapply r_168; reflexivity|eapply r_169; reflexivity]. destruct l as [|s l].
  - eapply (r_167 []); [eapply r_171; reflexivity|reflexivity].
  - eapply (r_167 (symbols (s :: l))); [|reflexivity]. eapply r_170; [|reflexivity]. apply symbols_phrase. discriminate.
Qed.
Lemma source_phrase src next ms n : wf_source src = true -> ph n_ModuleDefinition (source_tokens src) next (State ms n) (sem KNone tt)
  (State (ms ++ [fst (read_source src n)]) (snd (read_source src n))).
Proof.
  destruct src as [name oid tags implied exports imports decls]. unfold wf_source, source_tokens, read_source. cbn [s_name s_oid s_tags s_implied s_exports s_imports s_decls]. rewrite !andb_true_iff.
  intros [[[W1 W2] W3] W4]. fold (exports_tokens exports) (imports_tokens imports).
  set (tt_ := match tags with Some Explicit => [kw "EXPLICIT"; kw "TAGS"] | Some Implicit => [kw "IMPLICIT"; kw "TAGS"] | Some Automatic => [kw "AUTOMATIC"; kw "TAGS"] | None => [] end).
  set (ti := if implied then [kw "EXTENSIBILITY"; kw "IMPLIED"] else []). set (mode := match tags with Some t => t | None => Explicit end).
  set (ims := match imports with Some l => map read_import l | None => [] end).
  assert (B : exists x, ph n_ModuleBody (exports_tokens exports ++ imports_tokens imports ++ flat_map decl_tokens decls) "END" (State ms n) (sem KModule x) (State ms (snd (thread read_decl decls n))) /\
    m_imports x = ims /\ m_assigns x = rev (fst (thread read_decl decls n))).
  { destruct decls as [|d decls].
    - cbn [nonempty orb] in W4. destruct exports; [discriminate|]. destruct imports; [discriminate|]. eexists. split; [eapply r_166; reflexivity|split; reflexivity].
    - eexists. split; [eapply (r_165 (exports_tokens exports) tt (imports_tokens imports)); [apply exports_phrase|apply imports_phrase; exact W2|apply (decls_phrase (d :: decls)); [discriminate|exact W3]|reflexivity]|].
      split; reflexivity. }
  destruct B as (x & B & E1 & E2). destruct (thread read_decl decls n) as [l n1]. cbn [fst snd] in *.
  replace (rev l) with (m_assigns x) by exact E2. rewrite <- E1.
  eapply (r_4 (upper name :: oid_tokens oid) name [] tt_ mode ti (exports_tokens exports ++ imports_tokens imports ++ flat_map decl_tokens decls) x []  (State ms n) (State ms n) (State ms n) (State ms n) (State ms n1) (State ms n1)).
  - apply module_name; exact W1.
  - eapply r_158; reflexivity.
  - unfold tt_, mode. destruct tags as [[| |]|]; [eapply r_159|eapply r_160|eapply r_161|eapply r_162]; reflexivity.
  - unfold ti. destruct implied; [eapply r_163|eapply r_164]; reflexivity.
  - exact B.
  - eapply r_143; reflexivity.
  - cbn [app]. rewrite <- !app_assoc. reflexivity.
Qed.
Lemma sources_phrase l : l <> [] -> forallb wf_source l = true -> forall next ms n, ph n_ModuleDefinitionList (flat_map source_tokens l) next (State ms n) (sem KNone tt)
  (State (ms ++ fst (thread read_source l n)) (snd (thread read_source l n))).
Proof.
  induction l as [|a l IH]; [contradiction|]. intros _ W next ms n. cbn [forallb] in W. apply andb_true_iff in W. destruct W as [W1 W2]. cbn [flat_map thread].
  pose proof (fun nx => source_phrase a nx ms n W1) as H. destruct (read_source a n) as [b n1]. cbn [fst snd] in H. destruct l as [|c l].
  - cbn [flat_map thread fst snd]. rewrite app_nil_r. eapply r_2; [apply H|reflexivity].
  - specialize (IH ltac:(discriminate) W2 next (ms ++ [b]) n1). destruct (thread read_source (c :: l) n1) as [d n2]. cbn [fst snd] in *. rewrite <- app_assoc in IH. eapply r_3; [apply H|exact IH|reflexivity].
Qed.
(** A file of such modules. *)
Theorem parse_sources l text ms n : bytes text -> l <> [] -> forallb wf_source l = true -> file_tokens text = Ok (Some (flat_map source_tokens l ++ [eof_token])) ->
  parse_file (State ms n) text = Ok (Accepted, State (ms ++ fst (thread read_source l n)) (snd (thread read_source l n))).
Proof. intros B N W E. eapply parse_file_accepts; [exact B|exact E|]. apply (sources_phrase l N W "END_OF_FILE" ms n). Qed.
