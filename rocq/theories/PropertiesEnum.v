(** C88-C90: BOOLEAN and ENUMERATED values and ENUMERATED types in generated code. *)
From Verif Require Import Base CompilerNames NamesSpec CompilerEnum EnumSpec PropertiesNames.
Local Open Scope string_scope.
Local Open Scope Z_scope.

(** * C88 *)
(** A BOOLEAN value is the C++ literal of the same truth value. *)
Theorem C88_boolean_values : forall b, exists e, value_as_string ForOther (VBool b) = Some e /\
  (e = "true" <-> b = true) /\ (e = "false" <-> b = false).
Proof. intros [|]; eexists; (split; [reflexivity|]); split; split; (reflexivity || discriminate). Qed.
(** An ENUMERATED value is a qualified name in the enum class the compiler writes for the type; values given in another
    way make the compiler stop. *)
Theorem C88_enumerated_values : forall name l ref, In ref (map ev_name l) ->
  exists e, value_as_string (ForEnumerated name) (VDefined ref) = Some e /\
    exists scope, fst (enum_class name l) = "enum class " ++ scope /\ e = scope ++ "::" ++ ref.
Proof.
  intros name l ref _. eexists. split; [reflexivity|]. exists (name ++ "Values"). split; [reflexivity|].
  rewrite app_assoc_s. reflexivity.
Qed.
Theorem C88_enumerated_only_names : forall name v e, value_as_string (ForEnumerated name) v = Some e -> exists ref, v = VDefined ref.
Proof. intros name v e H. destruct v; try discriminate. eauto. Qed.
Example C88_example : In "red" (map ev_name [EnumValue "red" None; EnumValue "blue" (Some 5)]) /\
  value_as_string (ForEnumerated "Colour") (VDefined "red") = Some "ColourValues::red".
Proof. split; [left|]; reflexivity. Qed.

(** * C89 *)
(** ** reading the text back *)
Definition name_char (c : ascii) : Prop := letter c \/ digit c \/ c = "_"%char.
Fixpoint all_chars (P : ascii -> Prop) (s : string) : Prop := match s with "" => True | String c s => P c /\ all_chars P s end.
Lemma ident_chars n : cpp_identifier n -> all_chars name_char n.
Proof.
  intros (c & r & -> & Hc & Hr). split; [unfold name_char; tauto|].
  induction Hr as [|d s Hd _ IH]; [exact I|]. split; [exact Hd|exact IH].
Qed.
Lemma split_at (P : ascii -> Prop) a b c d x y : all_chars P a -> all_chars P b -> ~ P c -> ~ P d ->
  a ++ String c x = b ++ String d y -> a = b /\ c = d /\ x = y.
Proof.
  revert b. induction a as [|u a IH]; intros [|v b] Ha Hb Hc Hd H; cbn in H; injection H as E1 E2.
  - auto.
  - subst v. destruct Hb as [Hb _]. contradiction.
  - subst u. destruct Ha as [Ha _]. contradiction.
  - subst v. destruct Ha as [_ Ha], Hb as [_ Hb]. destruct (IH b Ha Hb Hc Hd E2) as (-> & -> & ->). auto.
Qed.
Lemma space_no_name : ~ name_char " "%char. Proof. intros [[H|H]|[H|H]]; [vm_compute in H; destruct H; auto..|discriminate]; destruct H; auto. Qed.
Lemma comma_no_name : ~ name_char ","%char. Proof. intros [[H|H]|[H|H]]; [vm_compute in H; destruct H; auto..|discriminate]; destruct H; auto. Qed.
Definition lit_char (c : ascii) : Prop := digit c \/ c = "-"%char.
Lemma comma_no_lit : ~ lit_char ","%char. Proof. intros [H|H]; [vm_compute in H; destruct H; auto|discriminate]. Qed.
Lemma digits_chars s : forall acc v, digits_value s acc = Some v -> all_chars digit s.
Proof.
  induction s as [|c s IH]; intros acc v H; [exact I|]. cbn [digits_value] in H.
  destruct ((48 <=? code c) && (code c <=? 57)) eqn:E; [|discriminate]. split; [unfold digit; lia|]. eapply IH, H.
Qed.
Lemma all_chars_imp (P Q : ascii -> Prop) s : (forall c, P c -> Q c) -> all_chars P s -> all_chars Q s.
Proof. intros H. induction s as [|c s IH]; [auto|]. intros [H1 H2]. split; auto. Qed.
Lemma literal_chars e v : int_literal e v -> all_chars lit_char e.
Proof.
  intros [(H & _)|(r & -> & H & _)]; [|split; [right; reflexivity|]]; apply digits_chars in H; (eapply all_chars_imp; [|exact H]); intros c Hc; left; exact Hc.
Qed.
Lemma literal_fun e v w : int_literal e v -> int_literal e w -> v = w.
Proof.
  intros [(H & _)|(r & -> & H & _)] [(K & _)|(r' & E & K & _)].
  - congruence.
  - subst e. apply digits_chars in H as [Hd _]. vm_compute in Hd. destruct Hd as [Hd _]. destruct Hd. reflexivity.
  - apply digits_chars in K as [Hd _]. vm_compute in Hd. destruct Hd as [Hd _]. destruct Hd. reflexivity.
  - injection E as <-. rewrite H in K. injection K as K. lia.
Qed.
(** The text of any number, also of the least one (which is no C++ literal), gives the number back. *)
Definition signed_value (s : string) : option Z :=
  match s with String "-" r => match digits_value r 0 with Some n => Some (- n) | None => None end | _ => digits_value s 0 end.
Lemma literal_signed e v : int_literal e v -> signed_value e = Some v.
Proof.
  intros [(H & _)|(r & -> & H & _)].
  - destruct e as [|c e]; [exact H|]. destruct (ascii_dec c "-") as [->|Hc]; [discriminate|].
    unfold signed_value. destruct c as [[|] [|] [|] [|] [|] [|] [|] [|]]; try exact H. destruct Hc. reflexivity.
  - cbn. rewrite H. f_equal. lia.
Qed.
Lemma to_string_signed n : in_i64 n -> signed_value (to_string n) = Some n.
Proof.
  intros H. destruct (Z.eq_dec n (- 2^63)) as [->|Hn]; [vm_compute; reflexivity|]. apply literal_signed, to_string_literal; assumption.
Qed.
Lemma to_string_chars n : in_i64 n -> all_chars lit_char (to_string n).
Proof.
  intros H. destruct (Z.eq_dec n (- 2^63)) as [->|Hn]; [|eapply literal_chars, to_string_literal; assumption].
  apply (all_chars_imp lit_char); [auto|]. change (to_string (- 2^63)) with (String "-" (to_string (2^63 - 1 + 1))).
  split; [right; reflexivity|]. eapply all_chars_imp; [|eapply (digits_chars _ 0 (2^63)); vm_compute; reflexivity]. intros c Hc. left. exact Hc.
Qed.

(** ** the values the text gives *)
Fixpoint numbers_from (next : Z) (l : list enum_value) : list Z :=
  match l with
  | [] => []
  | v :: l => let n := match ev_value v with Some n => n | None => next end in n :: numbers_from (n + 1) l
  end.
Definition items_ok (l : list enum_value) : Prop :=
  Forall (fun v => cpp_identifier (ev_name v) /\ forall n, ev_value v = Some n -> in_i64 n) l /\ NoDup (map ev_name l).
Lemma line_next v n : cpp_identifier (ev_name v) -> cpp_identifier n -> enum_line v = n ++ "," -> ev_value v = None /\ n = ev_name v.
Proof.
  intros Hv Hn. unfold enum_line. apply ident_chars in Hv, Hn. destruct (ev_value v) as [m|]; intros E.
  - destruct (split_at name_char (ev_name v) n " " "," _ _ Hv Hn space_no_name comma_no_name E) as (_ & X & _). discriminate.
  - destruct (split_at name_char (ev_name v) n "," "," _ _ Hv Hn comma_no_name comma_no_name E) as (-> & _). auto.
Qed.
Lemma line_init v n e x : cpp_identifier (ev_name v) -> (forall m, ev_value v = Some m -> in_i64 m) -> cpp_identifier n -> int_literal e x ->
  enum_line v = n ++ " = " ++ e ++ "," -> ev_value v = Some x /\ n = ev_name v.
Proof.
  intros Hv Hi Hn He. unfold enum_line. apply ident_chars in Hv, Hn. destruct (ev_value v) as [m|]; intros E.
  - destruct (split_at name_char (ev_name v) n " " " " _ _ Hv Hn space_no_name space_no_name E) as (-> & _ & E2).
    cbn in E2. injection E2 as E2. specialize (Hi m eq_refl).     destruct (split_at lit_char (to_string m) e "," "," "" "" (to_string_chars _ Hi) (literal_chars _ _ He) comma_no_lit comma_no_lit E2) as (<- & _).
    pose proof (to_string_signed m Hi) as K. rewrite (literal_signed _ _ He) in K. injection K as ->. auto.
  - destruct (split_at name_char (ev_name v) n "," " " _ _ Hv Hn comma_no_name space_no_name E) as (_ & X & _). discriminate.
Qed.
Lemma enumerators_exact l : Forall (fun v => cpp_identifier (ev_name v) /\ forall n, ev_value v = Some n -> in_i64 n) l -> forall next vs,
  cpp_enumerators next (map enum_line l) vs <-> vs = combine (map ev_name l) (numbers_from next l) /\ Forall in_i32 (numbers_from next l).
Proof.
  induction 1 as [|v l [Hv Hi] _ IH]; intros next vs; cbn [map numbers_from combine].
  - split; [intros H; inversion H; auto|intros (-> & _); constructor].
  - split.
    + intros H. inversion H as [|nx n ls ws Hn H32 Hr E1 E2 E3|nx n e x ls ws Hn He H32 Hr E1 E2 E3]; subst.
      * symmetry in E2. destruct (line_next _ _ Hv Hn E2) as [-> ->]. apply IH in Hr as [-> Hr]. auto.
      * symmetry in E2. destruct (line_init _ _ _ _ Hv Hi Hn He E2) as [-> ->]. apply IH in Hr as [-> Hr]. auto.
    + intros (-> & H). inversion H as [|? ? H1 H2]; subst. unfold enum_line. destruct (ev_value v) as [n|] eqn:Ev.
      * apply ce_init; auto; [apply to_string_literal; [auto|unfold in_i32 in H1; lia]|]. apply IH. auto.
      * apply ce_next; auto. apply IH. auto.
Qed.
Lemma numbers_len l : forall next, length (numbers_from next l) = length l.
Proof. induction l as [|v l IH]; intros next; [reflexivity|]. cbn. rewrite IH. reflexivity. Qed.
Lemma map_fst_combine {A B} (a : list A) : forall b : list B, length a = length b -> map fst (combine a b) = a.
Proof. induction a as [|x a IH]; intros [|y b] H; cbn in *; [reflexivity|discriminate..|]. f_equal. apply IH. lia. Qed.
(** C89: the enumerators of the generated enum class, exactly: an item with a number has it, any other item is one more
    than the item before it (zero if it is the first); the class is well formed exactly when these fit into an int. *)
Definition numbering (l : list enum_value) (vs : list Z) : Prop :=
  length vs = length l /\
  forall k v x, nth_error l k = Some v -> nth_error vs k = Some x ->
    match ev_value v with
    | Some n => x = n
    | None => match k with O => x = 0 | S k => exists y, nth_error vs k = Some y /\ x = y + 1 end
    end.
Definition numbering_from (next : Z) (l : list enum_value) (vs : list Z) : Prop :=
  length vs = length l /\
  forall k v x, nth_error l k = Some v -> nth_error vs k = Some x ->
    match ev_value v with
    | Some n => x = n
    | None => match k with O => x = next | S k => exists y, nth_error vs k = Some y /\ x = y + 1 end
    end.
Lemma numbering_iff l : forall next vs, numbering_from next l vs <-> vs = numbers_from next l.
Proof.
  induction l as [|v l IH]; intros next vs; cbn [numbers_from].
  - split; [intros (H & _); destruct vs; [reflexivity|discriminate]|intros ->; split; [reflexivity|]]. intros [|k] ? ? H; discriminate.
  - split.
    + intros (Hl & H). destruct vs as [|x vs]; [discriminate|]. pose proof (H O v x eq_refl eq_refl) as H0.
      assert (Ex : x = match ev_value v with Some n => n | None => next end) by (destruct (ev_value v); exact H0).
      rewrite <- Ex. f_equal. apply IH. split; [cbn in Hl; lia|]. intros k v' x' H1 H2. specialize (H (S k) v' x' H1 H2).
      destruct (ev_value v'); [exact H|]. destruct k as [|k]; destruct H as (y & E & ->); cbn in E; [injection E as <-; reflexivity|eauto].
    + intros ->. set (n := match ev_value v with Some n => n | None => next end).
      destruct (proj2 (IH (n + 1) _) eq_refl) as [Hl H]. split; [cbn; f_equal; exact Hl|].
      intros [|k] v' x' H1 H2; cbn in H1, H2.
      * injection H1 as <-. injection H2 as <-. unfold n. destruct (ev_value v); reflexivity.
      * specialize (H k v' x' H1 H2). destruct (ev_value v'); [exact H|]. destruct k as [|k]; [|cbn; exact H]. exists n. split; [reflexivity|exact H].
Qed.
Theorem C89_enum_class_exact : forall name l vs, items_ok l ->
  cpp_enum (enum_class name l) (name ++ "Values") vs <->
  exists ns, numbering l ns /\ Forall in_i32 ns /\ vs = combine (map ev_name l) ns.
Proof.
  intros name l vs [Hok Hnd]. unfold cpp_enum, enum_class. cbn [fst snd]. rewrite (enumerators_exact l Hok). split.
  - intros (_ & (-> & H) & _). exists (numbers_from 0 l). split; [apply (numbering_iff l 0); reflexivity|]. auto.
  - intros (ns & Hn & H32 & ->). apply (numbering_iff l 0) in Hn. subst ns. split; [reflexivity|]. split; [auto|].
    rewrite map_fst_combine by (rewrite map_length, numbers_len; reflexivity). exact Hnd.
Qed.

(** Items added behind the extension marker change no enumerator of the root: the class of { root, ..., additions }
    begins with the enumerators, and numbers, of the class of { root }. *)
Theorem C89_enum_extension : forall name root additions vs, items_ok (enumerations root additions) ->
  cpp_enum (enum_class name (enumerations root additions)) (name ++ "Values") vs ->
  exists vs1 vs2, vs = (vs1 ++ vs2)%list /\ cpp_enum (enum_class name root) (name ++ "Values") vs1 /\ map fst vs2 = map ev_name additions.
Proof.
  intros name root additions vs Hok Hc. apply (C89_enum_class_exact name _ _ Hok) in Hc as (ns & Hn & H32 & ->).
  apply (numbering_iff _ 0) in Hn. subst ns. unfold enumerations in *.
  assert (Hr : items_ok root).
  { destruct Hok as [H1 H2]. apply Forall_app in H1 as [H1 _]. split; [exact H1|]. rewrite map_app in H2. clear -H2.
    induction (map ev_name root) as [|x l IH]; [constructor|]. cbn in H2. inversion H2 as [|? ? H3 H4]; subst. constructor; [|apply IH, H4].
    intros Hx. apply H3, in_or_app. left. exact Hx. }
  assert (Hs : forall l next, exists next', numbers_from next (l ++ additions) = (numbers_from next l ++ numbers_from next' additions)%list).
  { clear. induction l as [|v l IH]; intros next; [exists next; reflexivity|]. cbn [app numbers_from].
    destruct (IH (match ev_value v with Some n => n | None => next end + 1)) as [n' E]. exists n'. rewrite E. reflexivity. }
  destruct (Hs root 0) as [n' E]. rewrite E in H32 |- *. apply Forall_app in H32 as [H32 _].
  exists (combine (map ev_name root) (numbers_from 0 root)), (combine (map ev_name additions) (numbers_from n' additions)).
  split; [|split].
  - rewrite map_app. generalize (numbers_len root 0). generalize (numbers_from 0 root). clear.
    induction root as [|v l IH]; intros [|x q] H; try discriminate; [reflexivity|]. cbn. f_equal. apply IH. cbn in H. lia.
  - apply (C89_enum_class_exact name _ _ Hr). exists (numbers_from 0 root). split; [apply (numbering_iff _ 0); reflexivity|]. auto.
  - apply map_fst_combine. rewrite map_length, numbers_len. reflexivity.
Qed.
(** ** against X.680 *)
Lemma x680_all_given used : forall l k, x680_numbers used k (map Some l) l.
Proof. induction l as [|n l IH]; intros k; constructor. apply IH. Qed.
(** Missing from "the generated enumerators have the numbers of X.680": lists in which an item without a number comes
    after one whose number is not its position, or whose numbers collide with the positions; the next two theorems. *)
Theorem C89_enum_numbers_x680_partial : forall l a b ns, l = (a ++ b)%list ->
  (forall k v n, nth_error a k = Some v -> ev_value v = Some n -> n = Z.of_nat k) ->
  Forall (fun v => exists n, ev_value v = Some n /\ ~ (0 <= n < zlen a)) b ->
  numbering l ns -> x680_enumeration (map ev_value l) ns.
Proof.
  intros l a b ns -> Ha Hb Hn. apply (numbering_iff _ 0) in Hn. subst ns.
  assert (Hu : forall x, In x (given (map ev_value b)) -> ~ (0 <= x < zlen a)).
  { clear Ha. induction Hb as [|v b (n & E & Hn) _ IH]; [intros x []|]. intros x. cbn. rewrite E. cbn. intros [<-|H]; [exact Hn|apply IH, H]. }
  unfold x680_enumeration.
  assert (Hall : forall used k next, x680_numbers used k (map ev_value b) (numbers_from next b)).
  { clear Ha Hu. induction Hb as [|v b (n & E & Hn) _ IH]; intros used k next; [constructor|]. cbn [map numbers_from]. rewrite E. constructor. apply IH. }
  (* walk over a *)
  set (used := given (map ev_value (a ++ b))).
  assert (Hin : forall x, 0 <= x < zlen a -> In x used -> exists v, nth_error a (Z.to_nat x) = Some v /\ ev_value v = Some x).
  { intros x Hx. unfold used, given. rewrite map_app, flat_map_app. intros H. apply in_app_iff in H as [H|H]; [|destruct (Hu x H Hx)].
    apply in_flat_map in H as (o & Ho & H). apply in_map_iff in Ho as (v & <- & Hv). destruct (ev_value v) as [n|] eqn:E; [|destruct H].
    destruct H as [->|[]]. apply In_nth_error in Hv as (k & Hk). pose proof (Ha k v x Hk E). subst x. rewrite Nat2Z.id. eauto. }
  assert (Hinv : forall k v n, nth_error a k = Some v -> ev_value v = Some n -> In n used).
  { intros k v n Hk E. unfold used, given. rewrite map_app, flat_map_app. apply in_app_iff. left. apply in_flat_map. exists (ev_value v).
    split; [apply in_map, (nth_error_In a k), Hk|]. rewrite E. left. reflexivity. }
  assert (Hw : forall suf pre k, a = (pre ++ suf)%list -> 0 <= k <= zlen pre -> (forall j, k <= j < zlen pre -> In j used) ->
     x680_numbers used k (map ev_value (suf ++ b)) (numbers_from (zlen pre) (suf ++ b))).
  { induction suf as [|v suf IH]; intros pre k Ea Hk Hj; [apply Hall|]. cbn [app map numbers_from].
    assert (Hv : nth_error a (length pre) = Some v) by (rewrite Ea, nth_error_app2, Nat.sub_diag by lia; reflexivity).
    assert (Hlen : zlen (pre ++ [v]) = zlen pre + 1) by (unfold zlen; rewrite app_length; cbn; lia).
    assert (Ez : zlen pre = Z.of_nat (length pre)) by reflexivity.
    assert (Ea2 : a = ((pre ++ [v]) ++ suf)%list) by (rewrite <- app_assoc; exact Ea).
    assert (Hla : zlen a = zlen pre + 1 + zlen suf) by (rewrite Ea2; unfold zlen; rewrite !app_length; cbn; lia).
    assert (Hs : 0 <= zlen suf) by (unfold zlen; lia).
    destruct (ev_value v) as [n|] eqn:Ev.
    - pose proof (Ha _ _ _ Hv Ev) as En. rewrite <- Ez in En. subst n. constructor. rewrite <- Hlen. apply IH; [exact Ea2|lia|].
      intros j Hj2. destruct (Z.eq_dec j (zlen pre)) as [->|]; [eapply Hinv; eauto|apply Hj; lia].
    - apply xn_next; [lia| |exact Hj|].
      + intros Hc. destruct (Hin (zlen pre) ltac:(lia) Hc) as (v' & Hv' & Ev'). rewrite Ez, Nat2Z.id in Hv'. congruence.
      + rewrite <- Hlen. apply IH; [exact Ea2|lia|lia]. }
  apply (Hw a []%list 0 eq_refl); cbn; lia.
Qed.
Fixpoint lower (s : string) : bool := match s with "" => true | String c s => (97 <=? code c) && (code c <=? 122) && lower s end.
Lemma lower_ident s : s <> "" -> lower s = true -> cpp_identifier s.
Proof.
  intros Hn H. destruct s as [|c s]; [congruence|]. cbn [lower] in H. apply andb_true_iff in H as [H1 H2].
  exists c, s. split; [reflexivity|]. split; [left; right; lia|]. clear H1 Hn. induction s as [|d s IH]; [constructor|].
  cbn [lower] in H2. apply andb_true_iff in H2 as [H1 H2]. constructor; [left; right; lia|apply IH, H2].
Qed.
Ltac items := repeat (apply Forall_cons; [split; [apply lower_ident; [discriminate|reflexivity]|cbn [ev_value]; intros ? [=]; subst; unfold in_i64; lia]|]); apply Forall_nil.
Definition colours := [EnumValue "red" None; EnumValue "green" (Some 1); EnumValue "blue" None; EnumValue "other" (Some 9)].
Example C89_example : items_ok colours /\ numbering colours [0; 1; 2; 9] /\ Forall in_i32 [0; 1; 2; 9] /\
  x680_enumeration (map ev_value colours) [0; 1; 2; 9].
Proof.
  assert (Hn : numbering colours [0; 1; 2; 9]) by (apply (numbering_iff _ 0); reflexivity).
  split; [|split; [exact Hn|split; [repeat constructor; unfold in_i32; lia|]]].
  - split; [|repeat constructor; cbn; intuition discriminate].
    items.
  - apply (C89_enum_numbers_x680_partial colours (firstn 3 colours) (skipn 3 colours)); [reflexivity| | |exact Hn].
    + intros [|[|[|[|k]]]] v n; cbn; intros [= <-]; cbn; try discriminate. intros [= <-]. reflexivity.
    + constructor; [|constructor]. exists 9. split; [reflexivity|vm_compute; intuition discriminate].
Qed.
Example C89_extension_example : exists vs, items_ok (enumerations (firstn 2 colours) (skipn 2 colours)) /\
  cpp_enum (enum_class "Colour" (enumerations (firstn 2 colours) (skipn 2 colours))) ("Colour" ++ "Values") vs.
Proof.
  destruct C89_example as (H1 & H2 & H3 & _). eexists. split; [exact H1|]. apply (C89_enum_class_exact "Colour" _ _ H1). exists [0; 1; 2; 9]. auto.
Qed.
(** { first(2), second } : X.680 gives second the number 0, the generated class 3. *)
Theorem C89_enum_numbers_refuted : exists l ns xs, items_ok l /\ numbering l ns /\ x680_enumeration (map ev_value l) xs /\ ns <> xs.
Proof.
  exists [EnumValue "a" (Some 2); EnumValue "b" None], [2; 3], [2; 0].
  split; [|split; [apply (numbering_iff _ 0); reflexivity|split; [|discriminate]]].
  - split; [|repeat constructor; cbn; intuition discriminate].
    items.
  - constructor. apply xn_next; [lia|cbn; intuition discriminate|lia|]. constructor.
Qed.
(** X.680 never gives two items one number (the numbers given being different), the generated class can: { a, b(0) }. *)
Theorem C89_x680_distinct : forall l ns, NoDup (given l) -> x680_enumeration l ns -> NoDup ns.
Proof.
  assert (K : forall used k l ns, x680_numbers used k l ns -> (forall x, In x (given l) -> In x used) -> NoDup (given l) ->
     NoDup ns /\ forall x, In x ns -> In x (given l) \/ (k <= x /\ ~ In x used)).
  { intros used k l ns H. induction H as [k|k n l vs H IH|k m l vs Hk Hm Hj H IH]; intros Hu Hd.
    - split; [constructor|intros x []].
    - cbn in Hu, Hd. inversion Hd as [|? ? Hn Hd']; subst. destruct (IH (fun x Hx => Hu x (or_intror Hx)) Hd') as [H1 H2].
      split; [constructor; [|exact H1]|].
      + intros Hx. destruct (H2 n Hx) as [Hg|[_ Hg]]; [exact (Hn Hg)|]. apply Hg, Hu. left. reflexivity.
      + intros x [<-|Hx]; [left; left; reflexivity|]. destruct (H2 x Hx) as [Hg|Hg]; [left; right; exact Hg|right; exact Hg].
    - destruct (IH Hu Hd) as [H1 H2]. split; [constructor; [|exact H1]|].
      + intros Hx. destruct (H2 m Hx) as [Hg|[Hg _]]; [apply Hm, Hu, Hg|lia].
      + intros x [<-|Hx]; [right; auto|]. destruct (H2 x Hx) as [Hg|[Hg Hg2]]; [left; exact Hg|right; split; [lia|exact Hg2]]. }
  intros l ns Hd H. apply (K _ _ _ _ H (fun x Hx => Hx) Hd).
Qed.
Theorem C89_enum_distinct_refuted : exists l ns, items_ok l /\ NoDup (given (map ev_value l)) /\ numbering l ns /\ ~ NoDup ns.
Proof.
  exists [EnumValue "a" None; EnumValue "b" (Some 0)], [0; 0].
  split; [|split; [repeat constructor; intros []|split; [apply (numbering_iff _ 0); reflexivity|]]].
  - split; [|repeat constructor; cbn; intuition discriminate].
    items.
  - intros H. inversion H as [|? ? H1 _]. apply H1. left. reflexivity.
Qed.
(** A number outside int makes the generated class ill formed. *)
Theorem C89_enum_large_refuted : exists l, items_ok l /\ forall name vs, ~ cpp_enum (enum_class name l) (name ++ "Values") vs.
Proof.
  exists [EnumValue "a" (Some (2^31))].
  assert (H : items_ok [EnumValue "a" (Some (2^31))]).
  { split; [|repeat constructor; cbn; intuition discriminate].
    items. }
  split; [exact H|]. intros name vs Hc. apply (C89_enum_class_exact _ _ _ H) in Hc as (ns & Hn & H32 & _).
  apply (numbering_iff _ 0) in Hn. subst ns. cbn in H32. inversion H32 as [|? ? H1 _]. unfold in_i32 in H1. lia.
Qed.

Lemma Forall2_weaken {A B} (P Q : A -> B -> Prop) l m : (forall a b, P a b -> Q a b) -> Forall2 P l m -> Forall2 Q l m.
Proof. intros H. induction 1; constructor; auto. Qed.
(** * C90: to_string of a generated enumeration *)
(** When the items' values are different, the generated to_string returns for each value the item's (C++) name and
    "Invalid state!" for every other value; when two are equal, the switch is ill formed. *)
Theorem C90_enum_to_string : forall name l ns, items_ok l -> numbering l ns -> Forall in_i32 ns ->
  (NoDup ns -> exists f, cpp_switch (name ++ "Values") (combine (map ev_name l) ns) (to_string_cases name l) f /\
     (forall k v x, nth_error l k = Some v -> nth_error ns k = Some x -> f x = ev_name v) /\
     forall x, ~ In x ns -> f x = "Invalid state!") /\
  (~ NoDup ns -> forall f, ~ cpp_switch (name ++ "Values") (combine (map ev_name l) ns) (to_string_cases name l) f).
Proof.
  intros name l ns [Hok Hnd] [Hl _] _.
  set (cs := map (fun v => "    case " ++ (name ++ "Values") ++ "::" ++ ev_name v ++ ": return " ++ quote ++ ev_name v ++ quote ++ ";") l).
  assert (Hcs : Forall2 (case_line (name ++ "Values")) cs (map (fun v => (ev_name v, ev_name v)) l)).
  { unfold cs. clear -Hok. induction Hok as [|v l [Hv _] _ IH]; constructor; [|exact IH]. split; [reflexivity|split; exact Hv]. }
  assert (Hin : Forall2 (fun (p : string * string) v => In (fst p, v) (combine (map ev_name l) ns)) (map (fun v => (ev_name v, ev_name v)) l) ns).
  { clear -Hl. revert ns Hl. induction l as [|v l IH]; intros [|n ns] Hl; try discriminate; constructor; [left; reflexivity|].
    eapply Forall2_weaken; [|apply IH; cbn in Hl; lia]. intros p x H. right. exact H. }
  split.
  - intros Hd.
    set (f := fun x => match find (fun p => snd p =? x) (combine (map ev_name l) ns) with Some p => fst p | None => "Invalid state!" end).
    assert (Hf : forall k v x, nth_error l k = Some v -> nth_error ns k = Some x -> f x = ev_name v).
    { unfold f. clear -Hl Hd. revert ns Hl Hd. induction l as [|u l IH]; intros [|n ns] Hl Hd k v x H1 H2; try discriminate; [destruct k; discriminate|].
      cbn [map combine find snd]. inversion Hd as [|? ? Hni Hd']; subst. destruct k as [|k]; cbn in H1, H2.
      - injection H1 as ->. injection H2 as ->. rewrite Z.eqb_refl. reflexivity.
      - assert (n <> x) by (intros ->; apply Hni, (nth_error_In ns k), H2). replace (n =? x) with false by lia.
        apply (IH ns) with (k := k); auto. }
    assert (Hdf : forall x, ~ In x ns -> f x = "Invalid state!").
    { intros x Hx. unfold f. destruct (find _ _) as [p|] eqn:E; [|reflexivity]. apply find_some in E as [E1 E2].
      destruct p as [a b]. apply in_combine_r in E1. cbn in E2. assert (b = x) by lia. subst. contradiction. }
    exists f. split; [|split; [exact Hf|exact Hdf]].
    exists cs, "Invalid state!", (map (fun v => (ev_name v, ev_name v)) l), ns.
    split; [reflexivity|]. split; [exact Hcs|]. split; [exact Hin|]. split; [exact Hd|]. split; [|exact Hdf].
    intros k p v Hp Hv. rewrite nth_error_map in Hp. destruct (nth_error l k) as [u|] eqn:E; [|discriminate]. injection Hp as <-.
    cbn [snd]. eapply Hf; eauto.
  - intros Hd f (cs' & dflt & ls & vs & E & H1 & H2 & H3 & _). apply Hd. clear Hd.
    unfold to_string_cases in E. fold cs in E. apply app_inj_tail in E as [<- _].
    assert (Els : map fst ls = map ev_name l).
    { revert H1. unfold cs. clear -Hok. revert ls. induction Hok as [|v l [Hv _] _ IH]; intros ls H1; inversion H1 as [|? p ? ls' Hp Hr]; subst; [reflexivity|].
      cbn [map]. f_equal; [|apply IH, Hr]. destruct Hp as (Ep & Hp & _). apply ident_chars in Hv, Hp.
      assert (Hcol : ~ name_char ":"%char) by (intros [[K|K]|[K|K]]; [vm_compute in K; destruct K; auto..|discriminate]; destruct K; auto).
      assert (Ea : forall a b c : string, a ++ b = a ++ c -> b = c) by (induction a; cbn; intros b c Hbc; [exact Hbc|injection Hbc as Hbc; auto]).
      cbn [append] in Ep. repeat (injection Ep as Ep). apply Ea in Ep. cbn [append] in Ep. injection Ep as Ep.
      symmetry. eapply (proj1 (split_at name_char _ _ _ _ _ _ Hv Hp Hcol Hcol Ep)). }
    assert (Evs : vs = ns).
    { assert (Hfun : forall a x y, In (a, x) (combine (map ev_name l) ns) -> In (a, y) (combine (map ev_name l) ns) -> x = y).
      { clear -Hnd Hl. revert ns Hl. induction l as [|v l IH]; intros [|n ns] Hl a x y; cbn [map combine]; try (intros []; fail); try discriminate.
        inversion Hnd as [|? ? Hni Hnd']; subst. intros [Ex|Hx] [Ey|Hy].
        - congruence.
        - injection Ex as <- <-. destruct Hni. apply in_combine_l in Hy. exact Hy.
        - injection Ey as <- <-. destruct Hni. apply in_combine_l in Hx. exact Hx.
        - eapply IH; eauto. }
      assert (H4 : Forall2 (fun a v => In (a, v) (combine (map ev_name l) ns)) (map ev_name l) vs).
      { rewrite <- Els at 1. clear -H2. induction H2; constructor; auto. }
      assert (H5 : Forall2 (fun a v => In (a, v) (combine (map ev_name l) ns)) (map ev_name l) ns).
      { clear -Hin. revert Hin. set (C := combine (map ev_name l) ns). clearbody C. revert ns. induction l as [|v l IH]; intros ns H; inversion H; subst; constructor; auto. }
      revert H4 H5 Hfun. generalize (combine (map ev_name l) ns) as C. generalize (map ev_name l) as A. clear. intros A C H4 H5 Hfun. revert ns H5.
      induction H4 as [|a v A vs Ha _ IH]; intros ns H5; inversion H5; subst; [reflexivity|]. f_equal; [eapply Hfun; eauto|apply IH; auto]. }
    rewrite <- Evs. exact H3.
Qed.
Example C90_example : items_ok colours /\ numbering colours [0; 1; 2; 9] /\ Forall in_i32 [0; 1; 2; 9] /\ NoDup [0; 1; 2; 9] /\
  nth 1 (to_string_cases "Colour" colours) "" = "    case ColourValues::green: return " ++ dq ++ "green" ++ dq ++ ";".
Proof.
  destruct C89_example as (H1 & H2 & H3 & _). split; [exact H1|]. split; [exact H2|]. split; [exact H3|].
  split; [repeat constructor; cbn; intuition discriminate|reflexivity].
Qed.
