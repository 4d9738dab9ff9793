(** Names and values in generated code (C59-C61, C71-C73). *)
From Verif Require Import CompilerNames NamesSpec.
Local Open Scope string_scope.
Local Open Scope Z_scope.

(** * C59 *)
Fixpoint last_char (s : string) : option ascii :=
  match s with "" => None | String c "" => Some c | String _ s => last_char s end.
Lemma last_char_app s c : last_char (s ++ String c "") = Some c.
Proof. induction s as [|d s IH]; [reflexivity|]. cbn. destruct s; [reflexivity|]. exact IH. Qed.
Lemma app_inj_r s t c : s ++ String c "" = t ++ String c "" -> s = t.
Proof.
  revert t. induction s as [|d s IH]; intros [|e t] H; cbn in H; try reflexivity.
  - injection H as -> H. destruct t; discriminate.
  - injection H as -> H. destruct s; discriminate.
  - injection H as -> H. f_equal. apply IH, H.
Qed.
Lemma not_special c : letter c \/ digit c -> c <> "_"%char /\ c <> "-"%char.
Proof. unfold letter, digit. intros H. split; intros ->; cbn in H; lia. Qed.
Lemma hu_char c : letter c \/ digit c -> (if Ascii.eqb c "-" then "_"%char else c) = c.
Proof. intros H. apply not_special in H as [_ H]. apply Ascii.eqb_neq in H. rewrite H. reflexivity. Qed.
Lemma hu_rest s : name_rest s -> ident_rest (hyphen_to_underscore s).
Proof.
  induction 1 as [|c s Hc Hs IH|c s Hc Hs IH]; cbn [hyphen_to_underscore]; try rewrite (hu_char c Hc).
  - constructor.
  - constructor; [tauto|exact IH].
  - constructor; [right; right; reflexivity|]. constructor; [tauto|exact IH].
Qed.
Lemma hu_name s : asn1_name s -> cpp_identifier (hyphen_to_underscore s).
Proof.
  intros (c & r & -> & Hc & Hr). cbn [hyphen_to_underscore]. rewrite (hu_char c (or_introl Hc)).
  exists c, (hyphen_to_underscore r). split; [reflexivity|]. split; [left; exact Hc|apply hu_rest, Hr].
Qed.
Lemma ident_app s c : ident_rest s -> letter c \/ digit c \/ c = "_"%char -> ident_rest (s ++ String c "").
Proof. induction 1; intros Hc; cbn; constructor; auto. constructor. Qed.
Lemma hu_inj_rest s : name_rest s -> forall t, name_rest t -> hyphen_to_underscore s = hyphen_to_underscore t -> s = t.
Proof.
  assert (Hb : forall c, letter c \/ digit c -> (if Ascii.eqb c "-" then "_"%char else c) <> "_"%char)
    by (intros c Hc; rewrite (hu_char c Hc); exact (proj1 (not_special c Hc))).
  induction 1 as [|c s Hc Hs IH|c s Hc Hs IH]; intros t Ht; inversion Ht as [|d u Hd Hu|d u Hd Hu]; subst;
    cbn [hyphen_to_underscore]; intros E; try discriminate; try reflexivity.
  - rewrite (hu_char c Hc), (hu_char d Hd) in E. injection E as -> E. f_equal. apply IH; assumption.
  - exfalso. injection E as E _. exact (Hb _ Hc E).
  - exfalso. injection E as E _. symmetry in E. exact (Hb _ Hd E).
  - injection E as E1 E. rewrite (hu_char c Hc), (hu_char d Hd) in E1. subst d. do 2 f_equal. apply IH; assumption.
Qed.
Lemma name_is_rest s : asn1_name s -> name_rest s.
Proof. intros (c & r & -> & Hc & Hr). constructor; [left; exact Hc|exact Hr]. Qed.
Lemma hu_last s : name_rest s -> last_char (hyphen_to_underscore s) <> Some "_"%char.
Proof.
  assert (Hx : forall c s, letter c \/ digit c -> last_char (hyphen_to_underscore s) <> Some "_"%char ->
                           last_char (String c (hyphen_to_underscore s)) <> Some "_"%char).
  { intros c s0 Hc H. cbn. destruct (hyphen_to_underscore s0); [|exact H]. intros [= E]. exact (proj1 (not_special c Hc) E). }
  induction 1 as [|c s Hc Hs IH|c s Hc Hs IH]; cbn [hyphen_to_underscore].
  - discriminate.
  - rewrite (hu_char c Hc). apply Hx; assumption.
  - rewrite (hu_char c Hc). pose proof (Hx c s Hc IH) as H. cbn in H |- *. exact H.
Qed.
Lemma reserved_iff s : reserved s = true <-> In s reserved_keywords.
Proof.
  unfold reserved. rewrite existsb_exists. split.
  - intros (x & H & E). apply String.eqb_eq in E. subst. exact H.
  - intros H. exists s. split; [exact H|apply String.eqb_refl].
Qed.
Ltac in_list H := repeat (destruct H as [H|H]; [try (rewrite <- H in *; clear H)|]); [..|destruct H].

(** The result of santize_name on a name that X.680 allows is a C++ identifier; it is not a C++ keyword and not one of
    the names of the library, except for the two names that the missing comma (see CompilerNames.v) leaves out. *)
Theorem C59_legal_partial : forall n, asn1_name n ->
  cpp_identifier (santize_name n) /\
  (In (santize_name n) cpp_keywords -> n = "xor-eq") /\
  (In (santize_name n) library_names -> n = "BMPString").
Proof.
  intros n Hn. unfold santize_name. destruct (hu_name n Hn) as (c & r & E & Hc & Hr). destruct (reserved _) eqn:Er.
  - split; [|split].
    + rewrite E. exists c, (r ++ "_"). split; [reflexivity|]. split; [exact Hc|]. apply ident_app; [exact Hr|tauto].
    + intros H. exfalso. pose proof (last_char_app (hyphen_to_underscore n) "_") as L. change (String "_" "") with "_" in L.
      revert L. generalize dependent (hyphen_to_underscore n ++ "_"). intros s H. cbn in H.
      repeat (destruct H as [<-|H]; [discriminate|]). destruct H.
    + intros H. exfalso. pose proof (last_char_app (hyphen_to_underscore n) "_") as L. change (String "_" "") with "_" in L.
      revert L. generalize dependent (hyphen_to_underscore n ++ "_"). intros s H. cbn in H.
      repeat (destruct H as [<-|H]; [discriminate|]). destruct H.
  - split; [exists c, r; auto|]. split.
    + intros H. apply hu_inj_rest; [apply name_is_rest, Hn| |].
      { repeat (first [apply nr_end|apply nr_char; [unfold letter, digit; cbn; lia|]|apply nr_hyphen; [unfold letter, digit; cbn; lia|]]). }
      change (hyphen_to_underscore "xor-eq") with "xor_eq". revert H Er. generalize (hyphen_to_underscore n). intros s H. cbn in H.
      repeat (destruct H as [<-|H]; [intros Er; first [reflexivity|exfalso; vm_compute in Er; discriminate]|]). destruct H.
    + intros H. apply hu_inj_rest; [apply name_is_rest, Hn| |].
      { repeat (apply nr_char; [unfold letter, digit; cbn; lia|]). apply nr_end. }
      change (hyphen_to_underscore "BMPString") with "BMPString". revert H Er. generalize (hyphen_to_underscore n). intros s H. cbn in H.
      repeat (destruct H as [<-|H]; [intros Er; first [reflexivity|exfalso; vm_compute in Er; discriminate]|]). destruct H.
Qed.
Ltac name_check := eexists _, _; split; [reflexivity|]; split; [unfold letter; cbn; lia|];
  repeat (first [apply nr_end|apply nr_char; [unfold letter, digit; cbn; lia|]|apply nr_hyphen; [unfold letter, digit; cbn; lia|]]).
Example C59_example : asn1_name "co-await" /\ asn1_name "class" /\ asn1_name "my-Type2" /\
  santize_name "class" = "class_" /\ santize_name "co-await" = "co_await_" /\ santize_name "my-Type2" = "my_Type2".
Proof. split; [name_check|]. split; [name_check|]. split; [name_check|]. repeat split. Qed.
(** The ASN.1 names xor-eq and BMPString are left as the keyword xor_eq and the library's BMPString. *)
Theorem C59_missing_comma_refuted : exists n m, asn1_name n /\ asn1_name m /\
  In (santize_name n) cpp_keywords /\ In (santize_name m) library_names.
Proof. exists "xor-eq", "BMPString". split; [name_check|]. split; [name_check|]. cbn. tauto. Qed.
(** Whatever the name: the result has no hyphen, is not in the compiler's own list, and a name without hyphens that is
    not in the list is left alone. *)
Fixpoint occurs (c : ascii) (s : string) : Prop := match s with "" => False | String d s => d = c \/ occurs c s end.
Lemma occurs_app c s t : occurs c (s ++ t) -> occurs c s \/ occurs c t.
Proof. induction s; cbn; tauto. Qed.
Lemma hu_no_hyphen s : ~ occurs "-" (hyphen_to_underscore s).
Proof.
  induction s as [|c s IH]; cbn; [tauto|]. intros [H|H]; [|tauto]. destruct (Ascii.eqb c "-") eqn:E; [discriminate|].
  apply Ascii.eqb_neq in E. congruence.
Qed.
Lemma hu_same s : ~ occurs "-" s -> hyphen_to_underscore s = s.
Proof.
  induction s as [|c s IH]; cbn; [reflexivity|]. intros H. rewrite IH by tauto.
  destruct (Ascii.eqb c "-") eqn:E; [|reflexivity]. apply Ascii.eqb_eq in E. subst. tauto.
Qed.
Theorem C59_any_name : forall n,
  ~ occurs "-" (santize_name n) /\ ~ In (santize_name n) reserved_keywords /\
  (~ occurs "-" n -> ~ In n reserved_keywords -> santize_name n = n).
Proof.
  intros n. unfold santize_name. destruct (reserved _) eqn:Er; (split; [|split]).
  - intros H. apply occurs_app in H as [H|H]; [exact (hu_no_hyphen n H)|]. destruct H as [H|[]]. discriminate.
  - intros H. pose proof (last_char_app (hyphen_to_underscore n) "_") as L. change (String "_" "") with "_" in L.
    revert L. generalize dependent (hyphen_to_underscore n ++ "_"). intros s H. cbn in H.
    repeat (destruct H as [<-|H]; [discriminate|]). destruct H.
  - intros H Hn. rewrite (hu_same n H) in Er. apply reserved_iff in Er. tauto.
  - apply hu_no_hyphen.
  - intros H. apply reserved_iff in H. congruence.
  - intros H _. apply hu_same, H.
Qed.
Example C59_any_example : ~ occurs "-" "value" /\ ~ In "value" reserved_keywords /\ occurs "-" "a-b".
Proof. split; [cbn; intuition discriminate|]. split; [|cbn; tauto]. intros H. apply reserved_iff in H. discriminate. Qed.

(** * C60 *)
Theorem C60_distinct_names : forall n m, asn1_name n -> asn1_name m -> n <> m -> santize_name n <> santize_name m.
Proof.
  assert (Hx : forall n m, asn1_name m -> hyphen_to_underscore n ++ "_" = hyphen_to_underscore m -> False).
  { intros n m Hm E. apply name_is_rest, hu_last in Hm. rewrite <- E in Hm. apply Hm. apply last_char_app. }
  intros n m Hn Hm Hd E. apply Hd. unfold santize_name in E.
  destruct (reserved (hyphen_to_underscore n)), (reserved (hyphen_to_underscore m)).
  - apply hu_inj_rest; [apply name_is_rest, Hn|apply name_is_rest, Hm|]. apply app_inj_r with "_"%char. exact E.
  - exfalso. exact (Hx _ _ Hm E).
  - exfalso. symmetry in E. exact (Hx _ _ Hn E).
  - apply hu_inj_rest; [apply name_is_rest, Hn|apply name_is_rest, Hm|exact E].
Qed.
Example C60_example : asn1_name "int" /\ asn1_name "in-t" /\ "int" <> "in-t" /\
  santize_name "int" = "int_" /\ santize_name "in-t" = "in_t".
Proof. split; [name_check|]. split; [name_check|]. split; [discriminate|]. split; reflexivity. Qed.
(** Names outside X.680 that the lexer (asn_compiler.yacc 1942-1943) accepts as well, those with an underscore, can collide. *)
Theorem C60_underscore_refuted : exists n m, asn1_name n /\ n <> m /\ santize_name n = santize_name m.
Proof. exists "a-b", "a_b". split; [name_check|]. split; [discriminate|reflexivity]. Qed.

(** * C61 *)
Definition start (c : ascii) : Prop := c = "\"%char \/ is_quote c = true.
Definition esc (n : Z) : option (list Z) := literal_body ("\" ++ to_string n ++ quote).
Definition join (a b : option (list Z)) : option (list Z) :=
  match a, b with Some x, Some y => Some (x ++ y)%list | _, _ => None end.
Definition octets : list Z := map Z.of_nat (seq 0 256).
Lemma in_octets n : 0 <= n < 256 -> In n octets.
Proof. intros H. unfold octets. apply in_map_iff. exists (Z.to_nat n). split; [lia|]. apply in_seq. lia. Qed.
Definition noct (s : string) : Prop := match s with String c _ => octal c = false | "" => False end.
Lemma body_1 d s : octal d = true -> noct s -> literal_body (String "\" (String d s)) = chr (oval d) (literal_body s).
Proof. intros Hd Hs. destruct s as [|c s]; [destruct Hs|]. cbn in Hs. cbn [literal_body]. change (is_quote "\") with false.
  change (code "\" =? 92) with true. cbv iota. rewrite Hd, Hs. reflexivity. Qed.
Lemma body_2 d e s : octal d = true -> octal e = true -> noct s ->
  literal_body (String "\" (String d (String e s))) = chr (8 * oval d + oval e) (literal_body s).
Proof. intros Hd He Hs. destruct s as [|c s]; [destruct Hs|]. cbn in Hs. cbn [literal_body]. change (is_quote "\") with false.
  change (code "\" =? 92) with true. cbv iota. rewrite Hd, He, Hs. reflexivity. Qed.
Lemma body_3 d e f s : octal d = true -> octal e = true -> octal f = true ->
  literal_body (String "\" (String d (String e (String f s)))) = chr (64 * oval d + 8 * oval e + oval f) (literal_body s).
Proof. intros Hd He Hf. cbn [literal_body]. change (is_quote "\") with false.
  change (code "\" =? 92) with true. cbv iota. rewrite Hd, He, Hf. reflexivity. Qed.
Lemma body_bad d s : octal d = false -> simple_escape d = None -> literal_body (String "\" (String d s)) = None.
Proof. intros Hd He. cbn [literal_body]. change (is_quote "\") with false.
  change (code "\" =? 92) with true. cbv iota. rewrite Hd, He. reflexivity. Qed.
Lemma body_plain c s : is_quote c = false -> code c =? 92 = false -> code c =? 10 = false ->
  literal_body (String c s) = chr (code c) (literal_body s).
Proof. intros H1 H2 H3. cbn [literal_body]. rewrite H1, H2, H3. reflexivity. Qed.
Lemma body_esc n s : 0 <= n < 256 -> noct s ->
  literal_body (String "\" (to_string n ++ s)) = join (esc n) (literal_body s).
Proof.
  intros Hn Hc. apply in_octets in Hn. revert n Hn. apply Forall_forall. set (l := octets). vm_compute in l. subst l.
  repeat (apply Forall_cons;
    [match goal with |- context [to_string ?n] => let t := eval vm_compute in (to_string n) in change (to_string n) with t;
       let e := eval vm_compute in (esc n) in change (esc n) with e end; cbn [append];
     first [rewrite body_bad by reflexivity; reflexivity
           |rewrite body_3 by reflexivity; destruct (literal_body s); reflexivity
           |rewrite body_2 by first [reflexivity|exact Hc]; try (rewrite body_plain by reflexivity); destruct (literal_body s); reflexivity
           |rewrite body_1 by first [reflexivity|exact Hc]; rewrite ?body_plain by reflexivity; destruct (literal_body s); reflexivity]|]).
  apply Forall_nil.
Qed.
Definition esc_all (l : list Z) : option (list Z) := fold_right (fun n acc => join (esc n) acc) (Some []) l.
Definition small (n : Z) : Prop := 1 <= n <= 7.
Lemma esc_small n : 0 <= n <= 7 -> esc n = Some [n].
Proof.
  intros H. assert (Hl : In n [0; 1; 2; 3; 4; 5; 6; 7]) by (cbn; lia). cbn in Hl.
  repeat (destruct Hl as [<-|Hl]; [reflexivity|]). destruct Hl.
Qed.
Definition esc_wrong (n : Z) : bool :=
  (n <? 8) || match esc n with None => true | Some (x :: _) => negb (x =? n) && negb (x =? 0) | Some [] => false end.
Lemma esc_big n : 8 <= n < 256 -> esc n = None \/ exists x y, esc n = Some (x :: y) /\ x <> n /\ x <> 0.
Proof.
  intros H. assert (Hf : forallb esc_wrong octets = true) by (vm_compute; reflexivity).
  rewrite forallb_forall in Hf. specialize (Hf n (in_octets n ltac:(lia))). unfold esc_wrong in Hf.
  assert (E : n <? 8 = false) by lia. rewrite E in Hf. cbn [orb] in Hf. destruct (esc n) as [[|x y]|]; [discriminate| |left; reflexivity].
  right. exists x, y. split; [reflexivity|]. split; lia.
Qed.
Definition odd_wrong (d : Z) : bool :=
  match esc d with None => true | Some (x :: _) => (x =? 0) || negb (x / 16 =? d) | Some [] => false end.
Lemma esc_odd d : 0 <= d < 16 -> esc d = None \/ exists x y, esc d = Some (x :: y) /\ (x = 0 \/ x / 16 <> d).
Proof.
  intros H. assert (Hf : forallb odd_wrong (map Z.of_nat (seq 0 16)) = true) by (vm_compute; reflexivity).
  rewrite forallb_forall in Hf. specialize (Hf d). unfold odd_wrong in Hf.
  assert (Hi : In d (map Z.of_nat (seq 0 16))) by (apply in_map_iff; exists (Z.to_nat d); split; [lia|apply in_seq; lia]).
  specialize (Hf Hi). destruct (esc d) as [[|x y]|]; [discriminate| |left; reflexivity].
  right. exists x, y. split; [reflexivity|]. lia.
Qed.
Lemma esc_all_iff l : Forall (fun n => 0 <= n < 256) l ->
  (exists x, esc_all l = Some x /\ before_nul x = l) <-> Forall small l.
Proof.
  induction 1 as [|n l Hn Hl IH]; [split; [constructor|intros _; exists []; split; reflexivity]|]. split.
  - intros (x & E & Eb). cbn [esc_all fold_right] in E. fold (esc_all l) in E. unfold join in E.
    destruct (Z_lt_ge_dec n 8) as [Hs|Hb].
    + rewrite esc_small in E by lia. destruct (esc_all l) as [y|] eqn:Ey; [|discriminate]. injection E as <-. cbn in Eb.
      destruct (n =? 0) eqn:E0; [discriminate|]. injection Eb as Eb. constructor; [unfold small; lia|]. apply IH. exists y. auto.
    + exfalso. destruct (esc_big n ltac:(lia)) as [En|(a & b & En & Ha & Ha0)]; rewrite En in E; [discriminate|].
      destruct (esc_all l); [|discriminate]. injection E as <-. cbn in Eb.
      destruct (a =? 0) eqn:E0; [lia|]. injection Eb as Eb _. auto.
  - intros H. inversion H as [|? ? Hs Hs']; subst. apply IH in Hs' as (y & Ey & Eb). exists (n :: y). unfold small in Hs. split.
    + cbn [esc_all fold_right]. fold (esc_all l). rewrite Ey, esc_small by lia. reflexivity.
    + cbn. destruct (n =? 0) eqn:E0; [lia|]. rewrite Eb. reflexivity.
Qed.
Lemma nibble_range c : hex_char c -> hex_digit c = nibble c /\ 0 <= nibble c < 16.
Proof.
  unfold hex_char, hex_digit, nibble, digit, code. set (z := Z.of_N (N_of_ascii c)). cbv zeta. intros H.
  destruct (z <? 58) eqn:E1, (z <=? 57) eqn:E2; try lia. destruct (z <? 71) eqn:E3, (z <=? 70) eqn:E4; lia.
Qed.
Lemma pair_ind (P : string -> Prop) : P "" -> (forall a, P (String a "")) -> (forall a b s, P s -> P (String a (String b s))) -> forall s, P s.
Proof.
  intros H0 H1 H2 s. cut (P s /\ forall a, P (String a s)); [tauto|]. induction s as [|a s [IH1 IH2]]; split; auto.
Qed.
Lemma octets_range s : all_hex s -> Forall (fun n => 0 <= n < 256) (hstring_octets s).
Proof.
  induction s as [|a|a b s IH] using pair_ind; cbn [all_hex hstring_octets]; intros H; [constructor| |].
  - constructor; [|constructor]. pose proof (nibble_range a (proj1 H)). lia.
  - destruct H as (Ha & Hb & H). constructor; [|apply IH, H]. pose proof (nibble_range a Ha). pose proof (nibble_range b Hb). lia.
Qed.
Lemma even_ss n : Nat.even (S (S n)) = Nat.even n. Proof. reflexivity. Qed.
Lemma app_assoc_s a b c : ((a ++ b) ++ c = a ++ b ++ c)%string.
Proof. induction a; cbn; congruence. Qed.
Lemma pairs_noct s : noct (hex_pairs s ++ quote).
Proof. destruct s as [|a [|b s]]; reflexivity. Qed.
Lemma pairs_body s : all_hex s -> Nat.even (String.length s) = true ->
  literal_body (hex_pairs s ++ quote) = esc_all (hstring_octets s).
Proof.
  induction s as [|a|a b s IH] using pair_ind; intros H He; [reflexivity|discriminate|].
  destruct H as (Ha & Hb & H). cbn [hstring_octets esc_all fold_right]. fold (esc_all (hstring_octets s)).
  rewrite <- IH by (exact H || exact He). cbn [hex_pairs]. rewrite !app_assoc_s. cbn [append].
  destruct (nibble_range a Ha) as (-> & Ra), (nibble_range b Hb) as (-> & Rb). apply body_esc; [lia|apply pairs_noct].
Qed.
Lemma app_inj_l (a b c : string) : (a ++ b = a ++ c)%string -> b = c.
Proof. induction a as [|x a IH]; cbn; intros H; [exact H|]. injection H as H. auto. Qed.
Lemma view_iff lit l : denotes_view ("absl::string_view(" ++ lit ++ ")") l <-> exists x, cpp_literal lit = Some x /\ before_nul x = l.
Proof.
  unfold denotes_view. split.
  - intros (lit' & x & E & H). apply app_inj_l, app_inj_r in E. subst. exists x. exact H.
  - intros (x & H). exists lit, x. split; [reflexivity|exact H].
Qed.
(** The C++ expression written for an hstring denotes the octets of that hstring if and only if it has an even number of
    digits and every octet is between 1 and 7.  (The bytes are written in decimal after a backslash, which C++ reads
    as octal; absl::string_view stops at a zero octet; and the digit missing from an odd number is taken to be the
    first, not the last.) *)
Theorem C61_hex_partial : forall h, all_hex h ->
  exists e, value_as_string ForOther (VHex h) = Some e /\
    (denotes_view e (hstring_octets h) <->
     Nat.even (String.length h) = true /\ Forall (fun n => 1 <= n <= 7) (hstring_octets h)).
Proof.
  intros h Hh. eexists. split; [reflexivity|]. rewrite view_iff.
  assert (Eq : forall s, cpp_literal (quote ++ s) = literal_body s) by reflexivity.
  unfold cpp_hex. destruct (Nat.even (String.length h)) eqn:He.
  - assert (Ex : match h with String a s => if Nat.odd (String.length h) then "\" ++ to_string (hex_digit a) ++ hex_pairs s else hex_pairs h
           | "" => "" end = hex_pairs h) by (destruct h; [reflexivity|]; unfold Nat.odd; rewrite He; reflexivity).
    rewrite Ex, Eq, (pairs_body h Hh He), (esc_all_iff _ (octets_range h Hh)). split; [intros H; split; auto|intros H; apply H].
  - split; [|intros (H & _); discriminate]. intros (x & E & Eb). exfalso. destruct h as [|a s]; [discriminate|].
    unfold Nat.odd in E. rewrite He in E. cbn [negb] in E. rewrite Eq in E. destruct Hh as (Ha & Hs). destruct (nibble_range a Ha) as (Ea & Ra).
    rewrite Ea in E. rewrite !app_assoc_s in E. cbn [append] in E.
    rewrite body_esc in E by first [apply pairs_noct|lia]. unfold join in E.
    destruct (esc_odd (nibble a) Ra) as [En|(y & z & En & Hy)]; rewrite En in E; [discriminate|].
    destruct (literal_body _) as [w|]; [|discriminate]. injection E as <-. cbn [app before_nul] in Eb. destruct (y =? 0) eqn:E0.
    + destruct s; discriminate.
    + destruct Hy as [Hy|Hy]; [lia|]. destruct s as [|b s]; cbn [hstring_octets] in Eb; apply (f_equal (hd 0)) in Eb; cbn [hd] in Eb; apply Hy.
      * symmetry. apply Z.div_unique with 0; lia.
      * destruct Hs as (Hb & _). pose proof (nibble_range b Hb) as (_ & Rb). symmetry. apply Z.div_unique with (nibble b); lia.
Qed.
Example C61_example : all_hex "0107" /\ Forall (fun n => 1 <= n <= 7) (hstring_octets "0107") /\ hstring_octets "0107" = [1; 7] /\
  value_as_string ForOther (VHex "0107") = Some ("absl::string_view(" ++ quote ++ "\1\7" ++ quote ++ ")").
Proof. split; [unfold all_hex, hex_char, digit; cbn; lia|]. split; [change (hstring_octets "0107") with [1; 7]; constructor; [lia|constructor; [lia|constructor]]|]. split; reflexivity. Qed.
(** 'FF'H denotes the octet 173; 'ABC'H is AB C0 but does not even denote two octets. *)
Theorem C61_decimal_refuted : exists h e, all_hex h /\ hstring_octets h = [255] /\
  value_as_string ForOther (VHex h) = Some e /\ denotes_view e [173].
Proof.
  exists "FF". eexists. split; [unfold all_hex, hex_char, digit; cbn; lia|]. split; [reflexivity|]. split; [reflexivity|].
  apply view_iff. eexists. split; vm_compute; reflexivity.
Qed.

(** * C71: character string values *)
(** A cstring is copied into the generated code as it stands in the module.  Right if it has no double quote or
    backslash in it and no zero character. *)
Fixpoint no_special (s : string) : Prop :=
  match s with "" => True | String c s => code c <> 34 /\ code c <> 92 /\ code c <> 10 /\ code c <> 0 /\ no_special s end.
Lemma code_range c : 0 <= code c < 256.
Proof. unfold code. pose proof (N_ascii_bounded c). lia. Qed.
Lemma plain_body s : no_special s -> exists x, cstring_body (s ++ quote) = Some x /\ literal_body (s ++ quote) = Some x /\ before_nul x = x.
Proof.
  induction s as [|c s IH]; [exists []; repeat split; reflexivity|]. cbn [no_special]. intros (H1 & H2 & H3 & H4 & H).
  destruct (IH H) as (x & E1 & E2 & E3). exists (code c :: x). pose proof (code_range c) as R. cbn [append].
  assert (Q : is_quote c = false) by (unfold is_quote; lia). split; [|split].
  - cbn [cstring_body]. rewrite Q, E1. destruct (code c =? 10) eqn:E; [lia|reflexivity].
  - rewrite body_plain by (exact Q || lia). rewrite E2. unfold chr. destruct (code c <? 256) eqn:E; [reflexivity|lia].
  - cbn. destruct (code c =? 0) eqn:E; [lia|]. rewrite E3. reflexivity.
Qed.
Theorem C71_cstring_partial : forall s, no_special s ->
  exists e x, value_as_string ForOther (VChars (quote ++ s ++ quote)) = Some e /\
    cstring_chars (quote ++ s ++ quote) = Some x /\ denotes_view e x.
Proof.
  intros s H. destruct (plain_body s H) as (x & E1 & E2 & E3). eexists _, x. split; [reflexivity|]. split; [exact E1|].
  apply view_iff. exists x. split; [exact E2|exact E3].
Qed.
Example C71_example : no_special "it's 1!" /\ cstring_chars (quote ++ "it's 1!" ++ quote) = Some [105; 116; 39; 115; 32; 49; 33].
Proof. split; [cbn; lia|reflexivity]. Qed.
(** The ASN.1 string "a""b", whose value is a, double quote, b, becomes ab; and a\n, four characters with the two
    backslash-n, becomes a and a line feed. *)
Theorem C71_quote_refuted : exists s e, cstring_chars s = Some [97; 34; 98] /\
  value_as_string ForOther (VChars s) = Some e /\ denotes_view e [97; 98].
Proof.
  exists (quote ++ "a" ++ quote ++ quote ++ "b" ++ quote). eexists. split; [reflexivity|]. split; [reflexivity|].
  apply view_iff. eexists. split; vm_compute; reflexivity.
Qed.
Theorem C71_backslash_refuted : exists s e, cstring_chars s = Some [97; 92; 110] /\
  value_as_string ForOther (VChars s) = Some e /\ denotes_view e [97; 10].
Proof.
  exists (quote ++ "a\n" ++ quote). eexists. split; [reflexivity|]. split; [reflexivity|].
  apply view_iff. eexists. split; vm_compute; reflexivity.
Qed.

(** * C72: BIT STRING values *)
(** False: every BIT STRING value, '101'B as well as 'FF'H, is written as an empty string literal. *)
Theorem C72_bit_string_refuted : forall v, (exists s, v = VBits s \/ v = VHex s) ->
  exists e, value_as_string ForBitString v = Some e /\ cpp_literal e = Some [].
Proof. intros v _. eexists. split; reflexivity. Qed.
Example C72_example : exists v s, v = VBits s /\ s <> "".
Proof. exists (VBits "101"), "101". split; [reflexivity|discriminate]. Qed.

(** * C73: INTEGER and OBJECT IDENTIFIER values *)
Lemma digit_code d : 0 <= d < 10 -> code (digit_char d) = 48 + d.
Proof. intros H. unfold code, digit_char. rewrite N_ascii_embedding by lia. lia. Qed.
Lemma decimal_value f : forall n acc, 0 <= n < 10 ^ Z.of_nat f -> digits_value (decimal f n acc) 0 = digits_value acc n.
Proof.
  induction f as [|f IH]; intros n acc H.
  - cbn in H. replace n with 0 by lia. reflexivity.
  - cbn [decimal]. pose proof (Z.mod_pos_bound n 10 ltac:(lia)) as Hm.
    assert (Hs : forall k, digits_value (String (digit_char (n mod 10)) acc) k = digits_value acc (10 * k + n mod 10)).
    { intros k. cbn [digits_value]. rewrite digit_code by lia.
      assert (E : (48 <=? 48 + n mod 10) && (48 + n mod 10 <=? 57) = true) by lia. rewrite E. f_equal. lia. }
    destruct (n <? 10) eqn:E.
    + rewrite Hs. f_equal. rewrite Z.mod_small by lia. lia.
    + rewrite IH.
      * rewrite Hs. f_equal. pose proof (Z.div_mod n 10 ltac:(lia)). lia.
      * rewrite Nat2Z.inj_succ, Z.pow_succ_r in H by lia. split; [apply Z.div_pos; lia|]. apply Z.div_lt_upper_bound; lia.
Qed.
Lemma decimal_first f : forall n acc, 1 <= n < 10 ^ Z.of_nat f -> exists c r, decimal f n acc = String c r /\ c <> "0"%char.
Proof.
  induction f as [|f IH]; intros n acc H; [cbn in H; lia|]. cbn [decimal]. destruct (n <? 10) eqn:E.
  - eexists _, _. split; [reflexivity|]. intros Ed. assert (C : code (digit_char (n mod 10)) = 48) by (rewrite Ed; reflexivity).
    rewrite Z.mod_small, digit_code in C by lia. lia.
  - apply IH. rewrite Nat2Z.inj_succ, Z.pow_succ_r in H by lia. split; [apply Z.div_le_lower_bound; lia|]. apply Z.div_lt_upper_bound; lia.
Qed.
Lemma decimal_nonneg n : 0 <= n < 2^63 -> decimal_literal (decimal 20 n "") n.
Proof.
  intros H. assert (P : 2^64 < 10 ^ Z.of_nat 20) by (vm_compute; reflexivity). split; [rewrite decimal_value; [reflexivity|lia]|].
  destruct (Z.eq_dec n 0) as [->|Hn]; [split; [discriminate|]; split; [intros r [= <-]; reflexivity|lia]|].
  destruct (decimal_first 20 n "" ltac:(lia)) as (c & r & -> & Hc). split; [discriminate|]. split; [intros r' [= -> _]; destruct Hc; reflexivity|lia].
Qed.
Lemma to_string_literal n : in_i64 n -> n <> - 2^63 -> int_literal (to_string n) n.
Proof.
  unfold in_i64. intros H Hm. unfold to_string. destruct (n <? 0) eqn:E.
  - right. eexists. split; [reflexivity|]. apply decimal_nonneg. lia.
  - left. apply decimal_nonneg. lia.
Qed.
(** Missing: the least number, whose text is no C++ number. *)
Theorem C73_integer_partial : forall n, in_i64 n -> n <> - 2^63 ->
  exists e, value_as_string ForOther (VInt n) = Some e /\ int_literal e n.
Proof. intros n H Hm. eexists. split; [reflexivity|]. apply to_string_literal; assumption. Qed.
Theorem C73_least_refuted : exists e, value_as_string ForOther (VInt (- 2^63)) = Some e /\ forall n, ~ int_literal e n.
Proof.
  eexists. split; [reflexivity|]. intros n H. vm_compute (to_string _) in H. destruct H as [(H & _)|(r & [= <-] & H & _ & _ & B)]; [discriminate|]. cbn in H. injection H as H. lia.
Qed.
Example C73_integer_example : value_as_string ForOther (VInt (-1024)) = Some "-1024" /\ in_i64 (-1024).
Proof. split; [reflexivity|unfold in_i64; lia]. Qed.
(** An OBJECT IDENTIFIER value whose components all have a number, as in { iso(1) 2 840 }, is the object identifier with
    these numbers; the names in it do not matter. *)
Definition numbered (v : value) (n : Z) : Prop := v = VInt n \/ exists s, v = VNamed s n.
Lemma comma_concat l : comma_list l = String.concat ", " l.
Proof. induction l as [|s [|s' l] IH]; [reflexivity..|]. cbn [comma_list String.concat] in IH |- *. rewrite IH. reflexivity. Qed.
Theorem C73_oid_partial : forall vs ns, Forall2 numbered vs ns -> Forall (fun n => 0 <= n < 2^63) ns ->
  exists e, value_as_string ForOid (VList vs) = Some e /\ denotes_oid e ns.
Proof.
  intros vs ns H Hn. assert (E : oid_components vs = Some (map Some ns)).
  { clear Hn. induction H as [|v n vs ns [->|(s & ->)] _ IH]; [reflexivity|cbn; rewrite IH; reflexivity..]. }
  cbn [value_as_string]. rewrite E. eexists. split; [reflexivity|]. rewrite comma_concat. eexists. split; [reflexivity|].
  clear E H. rewrite map_map. induction Hn as [|n ns Hn _ IH]; constructor; [|exact IH]. apply to_string_literal; [unfold in_i64|]; lia.
Qed.
Example C73_oid_example : Forall2 numbered [VNamed "iso" 1; VInt 2; VInt 840] [1; 2; 840] /\ Forall (fun n => 0 <= n < 2^63) [1; 2; 840] /\
  value_as_string ForOid (VList [VNamed "iso" 1; VInt 2; VInt 840]) = Some "ObjectIdentifier<>{1, 2, 840}".
Proof.
  split; [constructor; [right; eexists; reflexivity|]; constructor; [left; reflexivity|]; constructor; [left; reflexivity|constructor]|].
  split; [repeat constructor; lia|reflexivity].
Qed.
(** The X.660 names without numbers become 0: { iso standard 8571 } and { joint-iso-itu-t 3 } begin with arcs 1 and 2. *)
Theorem C73_oid_names_refuted : exists vs, vs = [VDefined "iso"; VDefined "standard"; VInt 8571] /\
  exists e, value_as_string ForOid (VList vs) = Some e /\ denotes_oid e [0; 0; 8571].
Proof.
  eexists. split; [reflexivity|]. eexists. split; [reflexivity|]. exists ["0"; "0"; "8571"]. split; [reflexivity|].
  assert (Hz : int_literal "0" 0) by (apply (to_string_literal 0); unfold in_i64; lia).
  constructor; [exact Hz|]. constructor; [exact Hz|]. constructor; [|constructor]. apply (to_string_literal 8571); unfold in_i64; lia.
Qed.
