(** A check that a given text spells given tokens (for examples): names without hyphens, keywords, symbols, natural numbers and white space. *)
From Coq Require Import String Ascii List ZArith Bool Lia.
From Verif Require Import Base CompilerNames Lexer LexerSpec ParserText.
Import ListNotations.
Local Open Scope string_scope.
Local Open Scope list_scope.

Definition upper_b (c : Z) : bool := ((65 <=? c) && (c <=? 90))%Z.
Definition lower_b (c : Z) : bool := ((97 <=? c) && (c <=? 122))%Z.
Definition digit_b (c : Z) : bool := ((48 <=? c) && (c <=? 57))%Z.
Definition word_octet_b (c : Z) : bool := upper_b c || lower_b c || digit_b c || (c =? 95)%Z.
Definition white_b (c : Z) : bool := ((9 <=? c) && (c <=? 13) || (c =? 32))%Z.
Definition ends_b (text : list Z) : bool := match text with [] => true | c :: _ => negb (word_octet_b c) && negb (c =? 45)%Z end.
Definition plain_word (w : list Z) : bool := match w with c :: t => (upper_b c || lower_b c) && forallb word_octet_b t | [] => false end.
Fixpoint strip (u text : list Z) : option (list Z) :=
  match u, text with
  | [], _ => Some text
  | c :: u, d :: text => if (c =? d)%Z then strip u text else None
  | _, [] => None
  end.
Fixpoint skip_white (text : list Z) : list Z := match text with c :: t => if white_b c then skip_white t else text | [] => [] end.
Fixpoint digits_of (text : list Z) : list Z * list Z :=
  match text with c :: t => if digit_b c then let (a, b) := digits_of t in (c :: a, b) else ([], text) | [] => ([], []) end.
(** The text behind the token, if the text starts with it. *)
Definition plain_octet (c : Z) : bool := (0 <=? c)%Z && (c <? 256)%Z && negb (c =? 34)%Z && negb (c =? 39)%Z && negb (c =? 92)%Z.
Definition spells (t : token) (text : list Z) : option (list Z) :=
  match t with
  | Token x PNone =>
      match find (fun s => String.eqb (snd s) x) symbol_spellings with
      | Some (s, _) =>
          match strip (codes s) text with
          | Some rest => if match rest with c :: _ => negb ((c =? 46) || (c =? 58))%Z | [] => true end then Some rest else None
          | None => None
          end
      | None =>
          match find (fun s => String.eqb (keyword_token s) x) keywords with
          | Some s => match strip (codes s) text with Some rest => if ends_b rest then Some rest else None | None => None end
          | None => None
          end
      end
  | Token x (PName n) =>
      match strip (codes n) text with
      | Some rest =>
          let field := (hd 0 (codes n) =? 38)%Z in let w := if field then tl (codes n) else codes n in
          if plain_word w && String.eqb (santize_name n) n && ends_b rest &&
             (if field then (String.eqb x "typefieldreference" && upper_b (hd 0%Z w)) || (String.eqb x "valuefieldreference" && lower_b (hd 0%Z w))
              else (String.eqb x "GENERIC_IDENTIFIER_UPPERCASE" && upper_b (hd 0%Z w) && negb (existsb (String.eqb n) keywords))
                || (String.eqb x "GENERIC_IDENTIFIER_LOWERCASE" && lower_b (hd 0%Z w))) then Some rest else None
      | None => None
      end
  | Token x (PInteger n) =>
      if String.eqb x "negativenumber" then
        match text with
        | c :: text =>
            let (ds, rest) := digits_of text in
            if (c =? 45)%Z && negb (match ds with [] => true | _ => false end) && (- decimal ds =? n)%Z && (decimal ds <=? 2^63)%Z then Some rest else None
        | [] => None
        end
      else
      let (ds, rest) := digits_of text in
      if String.eqb x "number" && negb (match ds with [] => true | _ => false end) && (decimal ds =? n)%Z && (n <? 2^63)%Z &&
         match rest with c :: t => negb (c =? 46)%Z || match t with d :: _ => negb (digit_b d) | [] => true end | [] => true end then Some rest else None
  | Token x (PText u) =>
      if String.eqb x "realnumber" then
        match strip u text, digits_of u with
        | Some rest, (d :: ds, c :: e :: es) => if (c =? 46)%Z && forallb digit_b (e :: es) && match rest with c :: _ => negb (digit_b c) | [] => true end then Some rest else None
        | _, _ => None
        end
      else
      match strip u text, u with
      | Some rest, c :: w =>
          if String.eqb x "cstring" && (c =? 34)%Z && (last w 0 =? 34)%Z && forallb plain_octet (removelast w) && negb (match w with [] => true | _ => false end) &&
             match rest with c :: _ => negb (c =? 34)%Z | [] => true end then Some rest else None
      | _, _ => None
      end
  end.
Fixpoint writes (ts : list token) (text : list Z) : bool :=
  match ts with
  | [] => forallb white_b text
  | t :: ts => match spells t (skip_white text) with Some rest => writes ts rest | None => false end
  end.

Lemma strip_ok u : forall text rest, strip u text = Some rest -> text = u ++ rest.
Proof. induction u as [|c u IH]; intros text rest; cbn; [congruence|]. destruct text as [|d t]; [discriminate|]. destruct (Z.eqb_spec c d); [subst|discriminate]. intros E. rewrite (IH _ _ E). reflexivity. Qed.
Lemma digits_of_ok text : text = fst (digits_of text) ++ snd (digits_of text) /\ Forall is_digit (fst (digits_of text)) /\
  match snd (digits_of text) with c :: _ => ~ is_digit c | [] => True end.
Proof.
  induction text as [|c t IH]; [repeat constructor|]. cbn. destruct (digit_b c) eqn:D; unfold digit_b in D.
  - destruct (digits_of t) as [a b]. cbn in *. destruct IH as (-> & H1 & H2). repeat split; auto. constructor; [unfold is_digit; lia|exact H1].
  - cbn. repeat split; [constructor|]. unfold is_digit. lia.
Qed.
Lemma white_b_ok c : white_b c = true -> white c.
Proof. unfold white_b, white. lia. Qed.
Lemma word_octet_b_ok c : word_octet_b c = true <-> word_octet c.
Proof. unfold word_octet_b, word_octet, is_upper, is_lower, is_digit, upper_b, lower_b, digit_b. lia. Qed.
Lemma ends_b_ok rest : ends_b rest = true -> word_ends (rest ++ [0%Z]).
Proof.
  destruct rest as [|c t]; cbn.
  - intros _. split; [unfold word_octet, is_upper, is_lower, is_digit; lia|lia].
  - rewrite andb_true_iff, !negb_true_iff. intros [H1 H2]. split; [rewrite <- word_octet_b_ok, H1; discriminate|]. lia.
Qed.
Lemma plain_word_ok w : plain_word w = true -> word w.
Proof.
  destruct w as [|c t]; [discriminate|]. cbn. rewrite andb_true_iff, orb_true_iff. intros [H1 H2]. rewrite forallb_forall in H2.
  assert (A : Forall (fun d => word_octet d) (c :: t)).
  { constructor; [apply word_octet_b_ok; unfold word_octet_b; lia|]. apply Forall_forall. intros d Hd. apply word_octet_b_ok, H2, Hd. }
  assert (N : ~ In 45%Z (c :: t)). { intros H. eapply Forall_forall in A; [|exact H]. revert A. unfold word_octet, is_upper, is_lower, is_digit. lia. }
  split; [|split].
  - exists c, t. split; [reflexivity|]. split; [unfold upper_b, lower_b in H1; unfold is_upper, is_lower; lia|]. eapply Forall_impl; [|inversion A; eassumption]. cbn; auto.
  - intros E. apply N. rewrite <- E. assert (X : forall l : list Z, l <> [] -> In (last l 0%Z) l); [|apply X; discriminate].
    induction l as [|a [|b l] IH]; intros Hl; [congruence|left; reflexivity|right; apply IH; discriminate].
  - intros (x & y & E). apply N. rewrite E. apply in_or_app. right. left. reflexivity.
Qed.
Lemma string_of_codes s : string_of (codes s) = s.
Proof. induction s as [|c s IH]; [reflexivity|]. cbn [codes string_of fold_right]. unfold string_of in IH. rewrite IH. unfold LexerSpec.code_of. rewrite N2Z.id, ascii_N_embedding. reflexivity. Qed.
Lemma codes_in n : In (codes n) (map codes keywords) -> In n keywords.
Proof. rewrite in_map_iff. intros (s & E & H). rewrite <- (string_of_codes n), <- E, string_of_codes. exact H. Qed.
Lemma spells_ok t text rest : spells t text = Some rest -> exists u, text = u ++ rest /\ spelled u t (rest ++ [0%Z]).
Proof.
  destruct t as [x [| n | w | n]]; cbn [spells].
  - destruct (find (fun s => String.eqb (snd s) x) symbol_spellings) as [[s x']|] eqn:F.
    + apply find_some in F. destruct F as [F1 F2]. apply String.eqb_eq in F2. cbn in F2. subst x'.
      destruct (strip (codes s) text) as [r|] eqn:S; [|discriminate]. destruct (match r with c :: _ => _ | [] => _ end) eqn:N; [|discriminate]. intros E. injection E as <-.
      exists (codes s). split; [apply strip_ok, S|]. apply sp_symbol; [exact F1| |]; intros _; destruct r as [|c r]; cbn; lia.
    + destruct (find (fun s => String.eqb (keyword_token s) x) keywords) as [s|] eqn:G; [|discriminate]. apply find_some in G. destruct G as [G1 G2]. apply String.eqb_eq in G2. subst x.
      destruct (strip (codes s) text) as [r|] eqn:S; [|discriminate]. destruct (ends_b r) eqn:N; [|discriminate]. intros E. injection E as <-.
      exists (codes s). split; [apply strip_ok, S|]. apply sp_keyword; [exact G1|apply ends_b_ok, N].
  - destruct (String.eqb_spec x "negativenumber") as [->|Nx].
    { destruct text as [|c text]; [discriminate|]. pose proof (digits_of_ok text) as (H1 & H2 & H3). destruct (digits_of text) as [ds r]. cbn [fst snd] in *. destruct (_ && _) eqn:B; [|discriminate]. intros E. injection E as <-.
      rewrite !andb_true_iff in B. destruct B as (((B1 & B2) & B3) & B4). apply Z.eqb_eq in B1, B3. subst c n. exists (45%Z :: ds). split; [rewrite H1; reflexivity|].
      apply sp_negative; [intros X; rewrite X in B2; discriminate|exact H2|lia|]. destruct r as [|c r]; cbn; [unfold is_digit; lia|exact H3]. }
    clear Nx. pose proof (digits_of_ok text) as (H1 & H2 & H3). destruct (digits_of text) as [ds r]. cbn [fst snd] in *. destruct (_ && _) eqn:B; [|discriminate]. intros E. injection E as <-.
    rewrite !andb_true_iff in B. destruct B as ((((B1 & B2) & B3) & B4) & B5). apply String.eqb_eq in B1. apply Z.eqb_eq in B3. subst x. exists ds. split; [exact H1|]. rewrite <- B3.
    apply sp_number; [intros X; rewrite X in B2; discriminate|exact H2|lia| |].
    + destruct r as [|c r]; cbn; [unfold is_digit; lia|exact H3].
    + intros t Et. destruct r as [|c r]; [discriminate|]. cbn in Et. injection Et as -> <-. destruct r as [|d r]; cbn; [unfold is_digit; lia|]. cbn in B5. unfold digit_b in B5. unfold is_digit. lia.
  - destruct (String.eqb_spec x "realnumber") as [->|Nx].
    { destruct (strip w text) as [r|] eqn:S; [|discriminate]. pose proof (digits_of_ok w) as (H1 & H2 & H3). destruct (digits_of w) as [[|d ds] [|c [|e es]]]; cbn [fst snd] in *; try discriminate. destruct (_ && _) eqn:B; [|discriminate]. intros E. injection E as <-.
      rewrite !andb_true_iff in B. destruct B as ((B1 & B2) & B3). apply Z.eqb_eq in B1. subst c. exists w. split; [apply strip_ok, S|]. rewrite H1. apply sp_real; [discriminate|exact H2|discriminate| |].
      - apply Forall_forall. intros z Hz. rewrite forallb_forall in B2. specialize (B2 z Hz). unfold digit_b in B2. unfold is_digit. lia.
      - destruct r as [|c r]; cbn; [unfold is_digit; lia|]. unfold digit_b in B3. unfold is_digit. lia. }
    clear Nx. destruct (strip w text) as [r|] eqn:S; [|discriminate]. destruct w as [|c w]; [discriminate|]. destruct (_ && _) eqn:B; [|discriminate]. intros E. injection E as <-. rewrite !andb_true_iff in B. destruct B as (((((B1 & B2) & B3) & B4) & B5) & B6).
    apply String.eqb_eq in B1. apply Z.eqb_eq in B2, B3. subst x c. exists (34%Z :: w). split; [apply strip_ok, S|]. assert (Nw : w <> []) by (intros X; rewrite X in B5; discriminate).
    assert (Ew : w = concat (map (fun c => [c]) (removelast w)) ++ [34%Z]).
    { rewrite (app_removelast_last 0%Z Nw) at 1. rewrite B3. f_equal. clear. induction (removelast w) as [|c l IH]; [reflexivity|]. cbn. f_equal. exact IH. }
    rewrite Ew. apply sp_text; [|destruct r as [|d r]; cbn; lia]. apply Forall_forall. intros i Hi. apply in_map_iff in Hi as (c & <- & Hc). right. exists c. rewrite forallb_forall in B4. specialize (B4 c Hc). unfold plain_octet in B4. unfold wf_byte. split; [reflexivity|]. split; [lia|]. lia.
  - destruct (strip (codes n) text) as [r|] eqn:S; [|discriminate]. cbv zeta. destruct (Z.eqb_spec (hd 0%Z (codes n)) 38) as [Hf|_].
    { destruct (_ && _) eqn:B; [|discriminate]. intros E. injection E as <-. rewrite !andb_true_iff in B. destruct B as (((B1 & B2) & B3) & B4). apply String.eqb_eq in B2. exists (codes n). split; [apply strip_ok, S|].
      destruct (codes n) as [|c0 w] eqn:Ec; [discriminate Hf|]. cbn in Hf. subst c0. cbn [tl] in *. assert (Nw : w <> []) by (intros X; rewrite X in B1; discriminate). rewrite orb_true_iff, !andb_true_iff in B4. destruct B4 as [(E1 & E2)|(E1 & E2)]; apply String.eqb_eq in E1; subst x; rewrite <- B2; rewrite <- (string_of_codes n), Ec.
      - apply sp_type_field; [apply plain_word_ok, B1| |apply ends_b_ok, B3]. destruct w as [|c w]; [congruence|]. cbn in E2 |- *. unfold upper_b in E2. unfold is_upper. lia.
      - apply sp_value_field; [apply plain_word_ok, B1| |apply ends_b_ok, B3]. destruct w as [|c w]; [congruence|]. cbn in E2 |- *. unfold lower_b in E2. unfold is_lower. lia. }
    destruct (_ && _) eqn:B; [|discriminate]. intros E. injection E as <-.
    rewrite !andb_true_iff in B. destruct B as (((B1 & B2) & B3) & B4). apply String.eqb_eq in B2. exists (codes n). split; [apply strip_ok, S|].
    assert (Nn : codes n <> []) by (intros X; rewrite X in B1; discriminate).
    rewrite orb_true_iff, !andb_true_iff in B4. destruct B4 as [((E1 & E2) & E3)|(E1 & E2)]; apply String.eqb_eq in E1; subst x.
    + rewrite <- B2 at 2. rewrite <- (string_of_codes n) at 2. apply sp_upper; [apply plain_word_ok, B1| | |apply ends_b_ok, B3].
      * intros H. apply codes_in in H. rewrite negb_true_iff in E3. assert (X : existsb (String.eqb n) keywords = true) by (apply existsb_exists; exists n; split; [exact H|apply String.eqb_refl]). congruence.
      * destruct (codes n) as [|c ?]; [congruence|]. cbn in E2 |- *. unfold upper_b in E2. unfold is_upper. lia.
    + rewrite <- B2 at 2. rewrite <- (string_of_codes n) at 2. apply sp_lower; [apply plain_word_ok, B1| |apply ends_b_ok, B3].
      destruct (codes n) as [|c ?]; [congruence|]. cbn in E2 |- *. unfold lower_b in E2. unfold is_lower. lia.
Qed.
Lemma skip_written text ts : written (skip_white text) ts -> written text ts.
Proof. induction text as [|c t IH]; [exact id|]. cbn. destruct (white_b c) eqn:W; [|exact id]. intros H. apply wr_white; [apply white_b_ok, W|apply IH, H]. Qed.
Lemma writes_ok ts : forall text, writes ts text = true -> written text ts.
Proof.
  induction ts as [|t ts IH]; intros text; cbn [writes].
  - induction text as [|c text IH]; [constructor|]. cbn. rewrite andb_true_iff. intros [H1 H2]. apply wr_white; [apply white_b_ok, H1|apply IH, H2].
  - destruct (spells t (skip_white text)) as [rest|] eqn:S; [|discriminate]. intros H. destruct (spells_ok _ _ _ S) as (u & E & Sp). apply skip_written. rewrite E. apply wr_token; [exact Sp|apply IH, H].
Qed.
