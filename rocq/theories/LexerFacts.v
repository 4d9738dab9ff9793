(** What the rules match, in elementary terms. *)
From Coq Require Import String Ascii List ZArith PArith FSets.FMapPositive Lia.
From Verif Require Import Base CompilerNames Lexer LexerTable LexerSpec LexerProofs.
Local Open Scope list_scope.
Local Open Scope nat_scope.

Lemma seq_iff a b w : matches (RSeq a b) w <-> exists v u, w = v ++ u /\ matches a v /\ matches b u.
Proof. split; [intros H; inversion H; subst; eauto 6|intros (v & u & -> & H1 & H2); constructor; assumption]. Qed.
Lemma alt_iff a b w : matches (RAlt a b) w <-> matches a w \/ matches b w.
Proof. split; [intros H; inversion H; subst; auto|intros [H|H]; [apply m_left|apply m_right]; exact H]. Qed.
Lemma set_iff rs w : matches (RSet rs) w <-> exists c, w = [c] /\ in_set c rs.
Proof. split; [intros H; inversion H; subst; eauto|intros (c & -> & H); constructor; exact H]. Qed.
Lemma eps_iff w : matches REps w <-> w = [].
Proof. split; [intros H; inversion H; reflexivity|intros ->; constructor]. Qed.
Lemma in_set_nil c : in_set c [] <-> False.
Proof. split; [intros (lo & hi & [] & _)|tauto]. Qed.
Lemma in_set_cons c lo hi rs : in_set c ((lo, hi) :: rs) <-> (lo <= c <= hi)%Z \/ in_set c rs.
Proof.
  split.
  - intros (l & h & [E|H] & B); [injection E as -> ->; auto|right; exists l, h; auto].
  - intros [H|(l & h & H & B)]; [exists lo, hi; split; [left; reflexivity|exact H]|exists l, h; split; [right; exact H|exact B]].
Qed.
Lemma star_concat a w : matches (RStar a) w <-> exists ps, w = concat ps /\ Forall (matches a) ps.
Proof.
  split.
  - intros H. remember (RStar a) as s eqn:E. induction H as [| | | | |a'|a' v u H1 _ H2 IH]; try discriminate; injection E as ->.
    + exists []. split; [reflexivity|constructor].
    + destruct (IH eq_refl) as (ps & -> & F). exists (v :: ps). split; [reflexivity|constructor; assumption].
  - intros (ps & -> & F). induction F as [|v ps H F IH]; cbn; constructor; assumption.
Qed.
Lemma star_ind a (P : list Z -> Prop) : P [] -> (forall v u, matches a v -> matches (RStar a) u -> P u -> P (v ++ u)) -> forall w, matches (RStar a) w -> P w.
Proof.
  intros H0 H1 w H. remember (RStar a) as s eqn:E. induction H as [| | | | |a'|a' v u Ha _ Hs IH]; try discriminate; injection E as ->; [exact H0|].
  apply H1; auto.
Qed.
Ltac sets := repeat rewrite ?in_set_cons, ?in_set_nil in *.

Lemma longest_unique rules mem k n k' n' : longest_match rules mem k n -> longest_match rules mem k' n' -> k = k' /\ n = n'.
Proof.
  intros (B1 & (r1 & N1 & M1) & L1) (B2 & (r2 & N2 & M2) & L2).
  destruct (L1 k' r2 n' N2 ltac:(lia) M2) as [H1|[H1 H1']], (L2 k r1 n N1 ltac:(lia) M1) as [H2|[H2 H2']]; lia.
Qed.
Lemma scan_ok_iff mem k n : bytes mem -> (scan yy_map mem = Ok (k, n) <-> longest_match lexer_rules mem k n /\ ~ runs_out lexer_rules mem).
Proof.
  intros B. pose proof (scan_spec mem B) as S. split.
  - intros E. rewrite E in S. exact S.
  - intros [L N]. destruct (scan yy_map mem) as [[k' n']| |]; [|contradiction|contradiction]. destruct (longest_unique _ _ _ _ _ _ L (proj1 S)) as [-> ->]. reflexivity.
Qed.
Lemma scan_ub_iff mem : bytes mem -> (scan yy_map mem = UB <-> runs_out lexer_rules mem).
Proof.
  intros B. pose proof (scan_spec mem B) as S. split.
  - intros E. rewrite E in S. exact S.
  - intros N. destruct (scan yy_map mem) as [[k' n']| |]; [destruct S; contradiction|reflexivity|contradiction].
Qed.

(** ** Comments *)
Definition comment_item : re := RSeq (opt hyphen) comment_char.
Lemma comment_item_iff v : matches comment_item v -> exists c, c <> 10%Z /\ c <> 13%Z /\ c <> 45%Z /\ (v = [c] \/ v = [45%Z; c]).
Proof.
  unfold comment_item, opt, hyphen, one, comment_char. rewrite seq_iff. intros (a & b & -> & H1 & H2). rewrite alt_iff, eps_iff, !set_iff in *.
  destruct H2 as (c & -> & H2). exists c. sets. split; [lia|]. split; [lia|]. split; [lia|]. destruct H1 as [(d & -> & H1)| ->]; [right; sets|left; reflexivity]. cbn. f_equal. lia.
Qed.
Lemma comment_item_intro c : wf_byte c -> c <> 10%Z -> c <> 13%Z -> c <> 45%Z -> matches comment_item [c] /\ matches comment_item [45%Z; c].
Proof.
  intros B N1 N2 N3. unfold wf_byte in B. unfold comment_item, opt, hyphen, one, comment_char.
  assert (C : matches (RSet [(0, 9); (11, 12); (14, 44); (46, 255)]%Z) [c]) by (constructor; sets; lia).
  split.
  - change [c] with ([] ++ [c]). constructor; [apply m_right; constructor|exact C].
  - change [45%Z; c] with ([45%Z] ++ [c]). constructor; [apply m_left; constructor; sets; lia|exact C].
Qed.
Definition no_pair (w : list Z) : Prop := ~ In 10%Z w /\ ~ In 13%Z w /\ ~ occurs [45; 45]%Z w.
Lemma occurs_cons a c w : occurs a w -> occurs a (c :: w).
Proof. intros (x & y & ->). exists (c :: x), y. reflexivity. Qed.
Lemma occurs_app a u w : occurs a u -> occurs a (u ++ w).
Proof. intros (x & y & ->). exists x, (y ++ w). rewrite <- !app_assoc. reflexivity. Qed.
Lemma occurs_pair_cons (a c d : Z) w : occurs [c; d] (a :: w) <-> (a = c /\ exists t, w = d :: t) \/ occurs [c; d] w.
Proof.
  split.
  - intros ([|x xs] & y & E); cbn in E; injection E as -> E; [left; eauto|right; exists xs, y; exact E].
  - intros [[-> (t & ->)]|H]; [exists [], t; reflexivity|apply occurs_cons, H].
Qed.
Lemma occurs_nil (c d : Z) : ~ occurs [c; d] [].
Proof. intros ([|x xs] & y & E); discriminate. Qed.
Lemma no_pair_tail c w : no_pair (c :: w) -> no_pair w.
Proof. intros (H1 & H2 & H3). split; [cbn in H1; tauto|]. split; [cbn in H2; tauto|]. intros H. apply H3, occurs_cons, H. Qed.
Lemma star_no_pair w : matches (RStar comment_item) w -> no_pair w /\ last w 0%Z <> 45%Z.
Proof.
  revert w. apply (star_ind comment_item (fun w => no_pair w /\ last w 0%Z <> 45%Z)).
  - split; [split; [cbn; tauto|]; split; [cbn; tauto|apply occurs_nil]|discriminate].
  - intros v u Hv _ [(P1 & P2 & P3) L]. apply comment_item_iff in Hv. destruct Hv as (c & N1 & N2 & N3 & Hv).
    assert (A : no_pair (c :: u) /\ last (c :: u) 0%Z <> 45%Z).
    { split; [split; [cbn; intros [H|H]; auto|]; split; [cbn; intros [H|H]; auto|rewrite occurs_pair_cons; intros [[H _]|H]; auto]|]. destruct u; [exact N3|exact L]. }
    destruct Hv as [-> | ->]; cbn [app]; [exact A|]. destruct A as [(A1 & A2 & A3) A4]. split; [|exact A4].
    split; [cbn; cbn in A1; intros [H|H]; [lia|auto]|]. split; [cbn; cbn in A2; intros [H|H]; [lia|auto]|]. rewrite occurs_pair_cons. intros [[_ (t & H)]|H]; [congruence|auto].
Qed.
Lemma no_pair_star n : forall w, length w <= n -> bytes w -> no_pair w -> last w 0%Z <> 45%Z -> matches (RStar comment_item) w.
Proof.
  induction n as [|n IH]; intros w Hn B P L; [destruct w; [constructor|cbn in Hn; lia]|]. destruct w as [|c w]; [constructor|]. inversion B as [|? ? Bc Bw]; subst.
  assert (C : forall a t, a = c -> In a (c :: t)) by (intros a t ->; left; reflexivity).
  destruct (Z.eq_dec c 45) as [->|N].
  - destruct w as [|d w]; [cbn in L; congruence|]. inversion Bw as [|? ? Bd Bw']; subst. destruct P as (P1 & P2 & P3).
    assert (N : d <> 45%Z) by (intros ->; apply P3; exists [], w; reflexivity).
    change (45%Z :: d :: w) with ([45%Z; d] ++ w). constructor.
    + apply comment_item_intro; [exact Bd|intros ->; apply P1; cbn; auto|intros ->; apply P2; cbn; auto|exact N].
    + apply IH; [cbn in Hn; lia|exact Bw'| |destruct w; [discriminate|exact L]]. split; [cbn in P1; tauto|]. split; [cbn in P2; tauto|]. intros H. apply P3, occurs_cons, occurs_cons, H.
  - change (c :: w) with ([c] ++ w). constructor.
    + destruct P as (P1 & P2 & P3). apply comment_item_intro; [exact Bc|intros ->; apply P1; cbn; auto|intros ->; apply P2; cbn; auto|exact N].
    + apply IH; [cbn in Hn; lia|exact Bw|apply no_pair_tail in P; exact P|]. destruct w; [discriminate|exact L].
Qed.
Lemma lit2 a b w : matches (RSeq (one a) (one b)) w <-> w = [a; b].
Proof.
  unfold one. rewrite seq_iff. split.
  - intros (x & y & -> & H1 & H2). rewrite set_iff in H1, H2. destruct H1 as (c & -> & H1), H2 as (d & -> & H2). sets. cbn. f_equal; [lia|f_equal; lia].
  - intros ->. exists [a], [b]. split; [reflexivity|]. split; constructor; sets; lia.
Qed.
Lemma one_iff a w : matches (one a) w <-> w = [a].
Proof. unfold one. rewrite set_iff. split; [intros (c & -> & H); sets; f_equal; lia|intros ->; exists a; split; [reflexivity|sets; lia]]. Qed.
Definition closed_comment : re := RSeq comment_start (lit "--").
Definition plain_comment : re := RSeq comment_start (opt hyphen).
Lemma comment_start_iff w : matches comment_start w <-> exists v, w = [45; 45]%Z ++ v /\ matches (RStar comment_item) v.
Proof.
  unfold comment_start. rewrite seq_iff. split.
  - intros (a & b & -> & H1 & H2). apply (proj1 (lit2 45 45 a)) in H1. subst a. eauto.
  - intros (v & -> & H). exists [45; 45]%Z, v. split; [reflexivity|]. split; [apply (proj2 (lit2 45 45 _)); reflexivity|exact H].
Qed.
Lemma closed_comment_iff w : matches closed_comment w <-> exists v, w = [45; 45]%Z ++ v ++ [45; 45]%Z /\ matches (RStar comment_item) v.
Proof.
  unfold closed_comment. rewrite seq_iff. split.
  - intros (a & b & -> & H1 & H2). apply (proj1 (lit2 45 45 b)) in H2. subst b. apply comment_start_iff in H1. destruct H1 as (v & -> & H). exists v. rewrite <- app_assoc. auto.
  - intros (v & -> & H). exists ([45; 45]%Z ++ v), [45; 45]%Z. split; [apply app_assoc|]. split; [apply comment_start_iff; eauto|apply (proj2 (lit2 45 45 _)); reflexivity].
Qed.
Lemma plain_comment_iff w : matches plain_comment w <-> exists v, (w = [45; 45]%Z ++ v \/ w = [45; 45]%Z ++ v ++ [45%Z]) /\ matches (RStar comment_item) v.
Proof.
  unfold plain_comment, opt. rewrite seq_iff. split.
  - intros (a & b & -> & H1 & H2). apply comment_start_iff in H1. destruct H1 as (v & -> & H). exists v. split; [|exact H]. rewrite alt_iff, eps_iff in H2.
    destruct H2 as [H2| ->]; [apply one_iff in H2; subst b; right; rewrite <- app_assoc; reflexivity|left; rewrite app_nil_r; reflexivity].
  - intros (v & [-> | ->] & H); [exists ([45; 45]%Z ++ v), []|exists ([45; 45]%Z ++ v), [45%Z]]; (split; [rewrite ?app_nil_r, ?app_assoc; reflexivity|]); (split; [apply comment_start_iff; eauto|]).
    + apply m_right. constructor.
    + apply m_left, one_iff. reflexivity.
Qed.

(** ** Block comments *)
(** What is behind the first star with a slash. *)
Fixpoint close (s : bool) (w : list Z) : option (list Z) :=
  match w with
  | [] => None
  | c :: t => if (c =? 42)%Z then close true t else if (c =? 47)%Z && s then Some t else close false t
  end.
Lemma close_occurs w : forall s, close s w <> None <-> occurs [42; 47]%Z w \/ (s = true /\ exists t, w = 47%Z :: t).
Proof.
  induction w as [|c w IH]; intros s; cbn [close].
  - split; [congruence|]. intros [H|[_ (t & H)]]; [destruct (occurs_nil _ _ H)|discriminate].
  - rewrite occurs_pair_cons. destruct (c =? 42)%Z eqn:E1.
    + rewrite IH. assert (c = 42%Z) by lia. split; [intros [H'|[_ (t & ->)]]; [auto|left; left; split; [assumption|eauto]]|].
      intros [[[_ (t & ->)]|H']|[_ (t & E)]]; [right; split; [reflexivity|eauto]|auto|injection E; intros; lia].
    + destruct ((c =? 47)%Z && s) eqn:E2.
      * apply andb_prop in E2. destruct E2 as [E2 ->]. assert (c = 47%Z) by lia. subst c. split; [intros _; right; eauto|discriminate].
      * rewrite IH. split; [intros [H|[H _]]; [auto|discriminate]|]. intros [[[H _]|H]|[-> (t & E)]]; [lia|auto|]. injection E as -> ->. discriminate.
Qed.
Lemma close_app a : forall s b r, close s a = Some r -> close s (a ++ b) = Some (r ++ b).
Proof.
  induction a as [|c a IH]; intros s b r; cbn [close app]; [discriminate|]. destruct (c =? 42)%Z; [apply IH|]. destruct ((c =? 47)%Z && s); [congruence|apply IH].
Qed.
Lemma close_stars n : forall s w, 0 < n -> close s (repeat 42%Z n ++ w) = close true w.
Proof. induction n as [|n IH]; intros s w H; [lia|]. cbn. destruct n; [reflexivity|apply IH; lia]. Qed.
Definition block_item : re := RAlt (RSet [(0, 41); (43, 255)]%Z) (RSeq (plus (one 42)) (RSet [(0, 41); (43, 46); (48, 255)]%Z)).
Definition block_comment : re := RSeq (lit "/*") (RSeq (RStar block_item) (RSeq (plus (one 42)) (one 47))).
Lemma plus_one_iff a w : matches (plus (one a)) w <-> exists n, 0 < n /\ w = repeat a n.
Proof.
  unfold plus. rewrite seq_iff. split.
  - intros (x & y & -> & H1 & H2). apply one_iff in H1. subst x.
    assert (S : exists n, y = repeat a n).
    { revert y H2. apply (star_ind (one a) (fun w => exists n, w = repeat a n)); [exists 0; reflexivity|]. intros v u Hv _ (n & ->). apply one_iff in Hv. subst v. exists (S n). reflexivity. }
    destruct S as (n & ->). exists (S n). split; [lia|reflexivity].
  - intros (n & Hn & ->). destruct n as [|n]; [lia|]. exists [a], (repeat a n). split; [reflexivity|]. split; [apply one_iff; reflexivity|]. clear Hn. induction n as [|n IH]; [constructor|].
    change (repeat a (S n)) with ([a] ++ repeat a n). constructor; [apply one_iff; reflexivity|exact IH].
Qed.
Lemma block_item_iff w : bytes w -> (matches block_item w <-> (exists c, w = [c] /\ c <> 42%Z) \/ (exists n c, 0 < n /\ w = repeat 42%Z n ++ [c] /\ c <> 42%Z /\ c <> 47%Z)).
Proof.
  intros B. unfold block_item. rewrite alt_iff, seq_iff, set_iff. split.
  - intros [(c & -> & H)|(x & y & -> & H1 & H2)]; [left; exists c; sets; split; [reflexivity|lia]|]. apply plus_one_iff in H1. destruct H1 as (n & Hn & ->). rewrite set_iff in H2. destruct H2 as (c & -> & H).
    right. exists n, c. sets. split; [exact Hn|]. split; [reflexivity|lia].
  - intros [(c & -> & H)|(n & c & Hn & -> & H1 & H2)].
    + left. exists c. split; [reflexivity|]. inversion B as [|? ? Bc _]; subst. unfold wf_byte in Bc. sets. lia.
    + right. exists (repeat 42%Z n), [c]. split; [reflexivity|]. split; [apply plus_one_iff; eauto|]. apply Forall_app in B. destruct B as [_ B]. inversion B as [|? ? Bc _]; subst. unfold wf_byte in Bc. constructor. sets. lia.
Qed.
Lemma block_item_close v : matches block_item v -> forall w, close false (v ++ w) = close false w.
Proof.
  unfold block_item. rewrite alt_iff, seq_iff, set_iff. intros [(c & -> & H)|(x & y & -> & H1 & H2)] w.
  - sets. cbn. destruct (c =? 42)%Z eqn:E; [lia|]. rewrite andb_false_r. reflexivity.
  - apply plus_one_iff in H1. destruct H1 as (n & Hn & ->). rewrite set_iff in H2. destruct H2 as (c & -> & H). sets. rewrite <- app_assoc. rewrite close_stars by exact Hn. cbn.
    destruct (c =? 42)%Z eqn:E; [lia|]. destruct (c =? 47)%Z eqn:E'; [lia|]. reflexivity.
Qed.
Lemma block_star_close v : matches (RStar block_item) v -> forall w, close false (v ++ w) = close false w.
Proof.
  revert v. apply (star_ind block_item (fun v => forall w, close false (v ++ w) = close false w)); [reflexivity|].
  intros v u Hv _ IH w. rewrite <- app_assoc, (block_item_close v Hv). apply IH.
Qed.
Lemma block_comment_iff w : matches block_comment w <-> exists v n, 0 < n /\ w = [47; 42]%Z ++ v ++ repeat 42%Z n ++ [47%Z] /\ matches (RStar block_item) v.
Proof.
  unfold block_comment. rewrite seq_iff. split.
  - intros (a & b & -> & H1 & H2). apply (proj1 (lit2 47 42 a)) in H1. subst a. rewrite seq_iff in H2. destruct H2 as (v & u & -> & H2 & H3). rewrite seq_iff in H3. destruct H3 as (x & y & -> & H3 & H4).
    apply one_iff in H4. apply plus_one_iff in H3. destruct H3 as (n & Hn & ->). subst y. exists v, n. auto.
  - intros (v & n & Hn & -> & H). exists [47; 42]%Z, (v ++ repeat 42%Z n ++ [47%Z]). split; [reflexivity|]. split; [apply (proj2 (lit2 47 42 _)); reflexivity|].
    constructor; [exact H|]. constructor; [apply plus_one_iff; eauto|apply one_iff; reflexivity].
Qed.
(** Text without a star and slash is items, and stars at its end. *)
Lemma stars_split w : exists n t, w = repeat 42%Z n ++ t /\ match t with [] => True | c :: _ => c <> 42%Z end.
Proof.
  induction w as [|c w (n & t & -> & H)]; [exists 0, []; auto|]. destruct (Z.eq_dec c 42) as [->|N]; [exists (S n), t; auto|]. exists 0, (c :: repeat 42%Z n ++ t). auto.
Qed.
Lemma block_text n : forall w, length w <= n -> bytes w -> close false w = None -> exists v m, w = v ++ repeat 42%Z m /\ matches (RStar block_item) v.
Proof.
  induction n as [|n IH]; intros w Hl B C; [destruct w; [|cbn in Hl; lia]; exists [], 0; split; [reflexivity|constructor]|].
  destruct (stars_split w) as (m & t & -> & Ht). destruct t as [|c t]; [exists [], m; split; [rewrite app_nil_r; reflexivity|constructor]|].
  rewrite app_length in Hl. cbn [length] in Hl. apply Forall_app in B. destruct B as [B1 B2]. inversion B2 as [|? ? Bc Bt]; subst.
  assert (I : matches block_item (repeat 42%Z m ++ [c]) /\ close false t = None).
  { destruct m as [|m].
    - cbn [repeat app] in *. split; [apply block_item_iff; [constructor; [exact Bc|constructor]|left; eauto]|]. cbn in C. destruct (c =? 42)%Z eqn:E; [lia|]. rewrite andb_false_r in C. exact C.
    - rewrite close_stars in C by lia. cbn in C. destruct (c =? 42)%Z eqn:E; [lia|]. destruct (c =? 47)%Z eqn:E'; [discriminate|]. split; [|exact C].
      apply block_item_iff; [apply Forall_app; split; [exact B1|constructor; [exact Bc|constructor]]|]. right. exists (S m), c. split; [lia|]. split; [reflexivity|lia]. }
  destruct I as [I1 I2]. destruct (IH t ltac:(lia) Bt I2) as (v & m' & -> & Hv). exists ((repeat 42%Z m ++ [c]) ++ v), m'. split; [rewrite <- !app_assoc; reflexivity|]. constructor; assumption.
Qed.

(** ** Strings *)
Definition string_piece : re := RAlt (RSeq (one 92) dot) (RAlt (RSeq (one 34) (one 34)) not_quote).
Definition quoted : re := RSeq quote (RSeq (RStar string_piece) quote).
Lemma string_piece_item v : matches string_piece v -> string_item v.
Proof.
  unfold string_piece. rewrite !alt_iff, seq_iff, lit2. intros [(x & y & -> & H1 & H2)|[->|H]].
  - apply one_iff in H1. subst x. unfold dot in H2. rewrite set_iff in H2. destruct H2 as (c & -> & H). sets. right. left. exists c. split; [reflexivity|lia].
  - left. reflexivity.
  - unfold not_quote in H. rewrite set_iff in H. destruct H as (c & -> & H). sets. right. right. exists c. split; [reflexivity|lia].
Qed.
Lemma string_item_piece v : bytes v -> string_item v -> matches string_piece v.
Proof.
  intros B H. unfold string_piece. rewrite !alt_iff, seq_iff, lit2. destruct H as [->|[(c & -> & N)|(c & -> & N1 & N2)]]; [auto| |].
  - left. exists [92%Z], [c]. inversion B as [|? ? _ B']; subst. inversion B' as [|? ? Bc _]; subst. unfold wf_byte in Bc. split; [reflexivity|]. split; [apply one_iff; reflexivity|constructor; sets; lia].
  - right. right. inversion B as [|? ? Bc _]; subst. unfold wf_byte in Bc. constructor. sets. lia.
Qed.
Lemma quote_iff w : matches quote w <-> w = [34%Z] \/ w = [39%Z].
Proof. unfold quote. rewrite set_iff. split; [intros (c & -> & H); sets; assert (c = 34%Z \/ c = 39%Z) as [-> | ->] by lia; auto|intros [-> | ->]; eexists; (split; [reflexivity|]); sets; lia]. Qed.
Lemma quoted_iff w : matches quoted w <-> exists q v q', w = q :: v ++ [q'] /\ (q = 34 \/ q = 39)%Z /\ (q' = 34 \/ q' = 39)%Z /\ matches (RStar string_piece) v.
Proof.
  unfold quoted. rewrite seq_iff. split.
  - intros (a & b & -> & H1 & H2). rewrite seq_iff in H2. destruct H2 as (v & u & -> & H2 & H3). apply quote_iff in H1, H3. destruct H1 as [-> | ->], H3 as [-> | ->]; cbn; eauto 10.
  - intros (q & v & q' & -> & H1 & H2 & H3). exists [q], (v ++ [q']). split; [reflexivity|]. split; [apply quote_iff; destruct H1 as [-> | ->]; auto|].
    constructor; [exact H3|]. apply quote_iff. destruct H2 as [-> | ->]; auto.
Qed.

(** ** The rules, one by one *)
Fixpoint free_of (c : Z) (r : re) : bool :=
  match r with
  | RSet rs => negb (in_ranges c rs)
  | REps => true
  | RSeq a b | RAlt a b => free_of c a && free_of c b
  | RStar a => free_of c a
  end.
Lemma free_of_spec c r : free_of c r = true -> forall w, matches r w -> ~ In c w.
Proof.
  intros F w M. revert F. induction M as [d rs Hd| |a b v w H1 IH1 H2 IH2|a b w H IH|a b w H IH| |a v w H1 IH1 H2 IH2]; cbn [free_of]; intros F.
  - intros [->|[]]. apply in_ranges_iff in Hd. rewrite Hd in F. discriminate.
  - intros [].
  - apply andb_prop in F. destruct F as [F1 F2]. intros H. apply in_app_or in H. destruct H; [apply IH1|apply IH2]; assumption.
  - apply andb_prop in F. destruct F as [F1 F2]. auto.
  - apply andb_prop in F. destruct F as [F1 F2]. auto.
  - intros [].
  - intros H. apply in_app_or in H. destruct H; [apply IH1|apply IH2]; assumption.
Qed.
Definition is_set (r : re) : bool := match r with RSet _ => true | _ => false end.
Lemma rules_with_octet c (special : list nat) :
  forallb (fun p => free_of c (snd p) || is_set (snd p) || existsb (Nat.eqb (fst p)) special) (start_items lexer_rules) = true ->
  forall j r w, nth_error lexer_rules j = Some r -> matches r w -> In c w -> (exists d, w = [d]) \/ In j special.
Proof.
  intros F j r w Hn M Hc. assert (I : item_match (start_items lexer_rules) j w) by (apply start_match; eauto). destruct I as (r' & Hin & M'). rewrite forallb_forall in F.
  specialize (F (j, r') Hin). cbn [fst snd] in F. apply orb_prop in F. destruct F as [F|F].
  - apply orb_prop in F. destruct F as [F|F]; [exfalso; exact (free_of_spec c r' F w M' Hc)|]. destruct r'; try discriminate. apply set_iff in M'. destruct M' as (d & -> & _). left. eauto.
  - right. rewrite existsb_exists in F. destruct F as (i & Hi & E). apply Nat.eqb_eq in E. congruence.
Qed.
Lemma rule_92 : nth_error lexer_rules 92 = Some closed_comment. Proof. reflexivity. Qed.
Lemma rule_93 : nth_error lexer_rules 93 = Some plain_comment. Proof. reflexivity. Qed.
Lemma rule_94 : nth_error lexer_rules 94 = Some block_comment. Proof. reflexivity. Qed.
Lemma rule_98 : nth_error lexer_rules 98 = Some quoted. Proof. reflexivity. Qed.
Lemma zero_rules j r w : nth_error lexer_rules j = Some r -> matches r w -> In 0%Z w -> 2 <= length w -> In j [92; 93; 94; 98].
Proof.
  intros Hn M H0 Hl. destruct (rules_with_octet 0%Z [92; 93; 94; 98] ltac:(vm_compute; reflexivity) j r w Hn M H0) as [(d & ->)|H]; [cbn in Hl; lia|exact H].
Qed.
Lemma split_at (a b v u : list Z) (c : Z) : a ++ c :: b = v ++ u -> ~ In c u -> exists v', v = a ++ c :: v'.
Proof.
  revert v. induction a as [|x a IH]; intros v E N; cbn in E.
  - destruct v as [|y v]; cbn in E; [exfalso; apply N; rewrite <- E; left; reflexivity|]. injection E as -> E. exists v. reflexivity.
  - destruct v as [|y v]; cbn in E; [exfalso; apply N; rewrite <- E; right; apply in_or_app; right; left; reflexivity|]. injection E as -> E. destruct (IH v E N) as (v' & ->). exists v'. reflexivity.
Qed.
Lemma no_pair_prefix a b : no_pair (a ++ b) -> no_pair a.
Proof. intros (H1 & H2 & H3). split; [intros H; apply H1, in_or_app; auto|]. split; [intros H; apply H2, in_or_app; auto|]. intros H. apply H3, occurs_app, H. Qed.
Lemma last_app_one (w : list Z) c d : last (w ++ [c]) d = c.
Proof. apply last_last. Qed.
Lemma no_pair_snoc w c : no_pair w -> c <> 10%Z -> c <> 13%Z -> c <> 45%Z -> no_pair (w ++ [c]).
Proof.
  intros (H1 & H2 & H3) N1 N2 N3. split; [intros H; apply in_app_or in H; destruct H as [H|[H|[]]]; auto|]. split; [intros H; apply in_app_or in H; destruct H as [H|[H|[]]]; auto|].
  intros (x & y & E). destruct (@exists_last _ (45%Z :: 45%Z :: y) ltac:(discriminate)) as (y' & l & Ey). cbn in E. rewrite Ey, app_assoc in E. apply app_inj_tail in E. destruct E as [E ->].
  destruct y' as [|a [|b y']].
  - cbn in Ey. injection Ey as Ey. discriminate.
  - cbn in Ey. injection Ey as E1 E2 E3. congruence.
  - cbn in Ey. injection Ey as <- <- Ey. apply H3. exists x, y'. exact E.
Qed.
Lemma over_read_iff t : bytes t -> (runs_out lexer_rules (t ++ [0%Z]) <-> open_line_comment t \/ open_block_comment t \/ open_string t).
Proof.
  intros B. assert (B0 : bytes [0%Z]) by (constructor; [unfold wf_byte; lia|constructor]). split.
  - intros (j & r & w & Hn & Nw & Bw & M). rewrite <- app_assoc in M. cbn [app] in M.
    assert (H0 : In 0%Z (t ++ 0%Z :: w)) by (apply in_or_app; right; left; reflexivity).
    assert (Hl : 2 <= length (t ++ 0%Z :: w)) by (rewrite app_length; cbn; destruct w; [congruence|cbn; lia]).
    assert (CUT : forall v, matches (RStar comment_item) v -> forall u, ~ In 0%Z u -> t ++ 0%Z :: w = [45; 45]%Z ++ v ++ u -> open_line_comment t).
    { intros v Hv u Nu E. destruct t as [|x [|y t]]; cbn in E; try discriminate. injection E as -> -> E.
      destruct (split_at _ _ _ _ _ E Nu) as (v' & ->). apply star_no_pair in Hv. destruct Hv as [Hv _]. apply no_pair_prefix in Hv. exists t. split; [reflexivity|exact Hv]. }
    destruct (zero_rules j r _ Hn M H0 Hl) as [<-|[<-|[<-|[<-|[]]]]].
    + rewrite rule_92 in Hn. injection Hn as <-. apply closed_comment_iff in M. destruct M as (v & E & Hv). left. apply (CUT v Hv [45; 45]%Z); [cbn; lia|exact E].
    + rewrite rule_93 in Hn. injection Hn as <-. apply plain_comment_iff in M. destruct M as (v & [E|E] & Hv); left; [apply (CUT v Hv []); [tauto|rewrite app_nil_r; exact E]|apply (CUT v Hv [45%Z]); [cbn; lia|exact E]].
    + rewrite rule_94 in Hn. injection Hn as <-. apply block_comment_iff in M. destruct M as (v & n & Pn & E & Hv). right. left.
      destruct t as [|x [|y t]]; cbn in E; try discriminate. injection E as -> -> E. exists t. split; [reflexivity|]. intros H.
      assert (C : close false t <> None) by (apply close_occurs; auto). destruct (close false t) as [rst|] eqn:Ec; [|congruence]. apply (close_app t false (0%Z :: w)) in Ec. rewrite E in Ec.
      rewrite (block_star_close v Hv), close_stars in Ec by exact Pn. cbn in Ec. injection Ec as Ec. destruct rst; discriminate.
    + rewrite rule_98 in Hn. injection Hn as <-. apply quoted_iff in M. destruct M as (q & v & q' & E & Hq & Hq' & Hv). right. right.
      destruct t as [|x t]; cbn in E; [injection E as E _; lia|]. injection E as -> E. destruct (split_at _ _ _ _ _ E) as (v' & ->); [cbn; lia|].
      exists q. cut (exists items, t = concat items /\ Forall string_item items); [intros (items & -> & F); exists items; auto|].
      clear - Hv. remember (t ++ 0%Z :: v') as u eqn:Eu. revert t v' Eu. revert u Hv.
      apply (star_ind string_piece (fun u => forall t v', u = t ++ 0%Z :: v' -> exists items, t = concat items /\ Forall string_item items)).
      * intros [|x t] v' E; discriminate.
      * intros v u Hv _ IH t v' E. apply string_piece_item in Hv. pose proof Hv as Hi. destruct Hv as [->|[(c & -> & N)|(c & -> & N1 & N2)]]; cbn in E.
        -- destruct t as [|a [|b t]]; cbn in E; try discriminate. injection E as <- <- E. destruct (IH _ _ E) as (items & -> & F). exists ([34; 34]%Z :: items). split; [reflexivity|constructor; assumption].
        -- destruct t as [|a [|b t]]; cbn in E; [discriminate| |].
           ++ injection E as <- E1 E2. exists [[92%Z]]. split; [reflexivity|]. constructor; [|constructor]. right. right. exists 92%Z. split; [reflexivity|lia].
           ++ injection E as <- <- E. destruct (IH _ _ E) as (items & -> & F). exists ([92%Z; c] :: items). split; [reflexivity|constructor; assumption].
        -- destruct t as [|a t]; cbn in E; [exists []; split; [reflexivity|constructor]|]. injection E as <- E. destruct (IH _ _ E) as (items & -> & F). exists ([c] :: items). split; [reflexivity|constructor; assumption].
  - intros [(w & -> & P)|[(w & -> & P)|(q & items & -> & Hq & F)]].
    + apply Forall_app in B. destruct B as [_ B]. exists 93, plain_comment, [1%Z]. split; [apply rule_93|]. split; [discriminate|]. split; [constructor; [unfold wf_byte; lia|constructor]|].
      apply plain_comment_iff. exists (w ++ [0%Z] ++ [1%Z]). split; [left; rewrite <- !app_assoc; reflexivity|].
      rewrite app_assoc. apply (no_pair_star (length ((w ++ [0%Z]) ++ [1%Z]))); [lia| | |rewrite last_app_one; discriminate].
      * apply Forall_app. split; [apply Forall_app; auto|]. constructor; [unfold wf_byte; lia|constructor].
      * apply no_pair_snoc; [apply no_pair_snoc; [exact P| | |]| | |]; discriminate.
    + apply Forall_app in B. destruct B as [_ B]. assert (C : close false w = None). { destruct (close false w) eqn:E; [|reflexivity]. exfalso. apply P. destruct (proj1 (close_occurs w false)) as [H|[H _]]; [congruence|exact H|discriminate]. }
      destruct (block_text (length w) w ltac:(lia) B C) as (v & m & -> & Hv). exists 94, block_comment, [42; 47]%Z. split; [apply rule_94|]. split; [discriminate|].
      split; [repeat (constructor; [unfold wf_byte; lia|]); constructor|]. apply block_comment_iff. exists (v ++ repeat 42%Z m ++ [0%Z]), 1. split; [lia|]. split; [rewrite <- !app_assoc; reflexivity|].
      apply star_concat in Hv. destruct Hv as (ps & -> & F). apply star_concat. exists (ps ++ [repeat 42%Z m ++ [0%Z]]). split; [rewrite concat_app; cbn; rewrite app_nil_r; reflexivity|].
      apply Forall_app. split; [exact F|]. constructor; [|constructor]. apply Forall_app in B. apply block_item_iff; [apply Forall_app; tauto|].
      destruct m as [|m]; [left; exists 0%Z; split; [reflexivity|lia]|right; exists (S m), 0%Z; split; [lia|]; split; [reflexivity|lia]].
    + inversion B as [|? ? Bq Bi]; subst. exists 98, quoted, [34%Z]. split; [apply rule_98|]. split; [discriminate|]. split; [constructor; [unfold wf_byte; lia|constructor]|].
      apply quoted_iff. exists q, (concat items ++ [0%Z]), 34%Z. split; [cbn; rewrite <- app_assoc; reflexivity|]. split; [exact Hq|]. split; [auto|].
      apply star_concat. exists (items ++ [[0%Z]]). split; [rewrite concat_app; cbn; reflexivity|]. apply Forall_app. split.
      * clear - F Bi. induction F as [|i items Hi F IH]; [constructor|]. cbn in Bi. apply Forall_app in Bi. destruct Bi. constructor; [apply string_item_piece; assumption|auto].
      * constructor; [|constructor]. apply string_item_piece; [exact B0|]. right. right. exists 0%Z. split; [reflexivity|lia].
Qed.

(** ** Actions *)
Lemma longest_in rules mem k n : longest_match rules mem k n -> k < length rules.
Proof. intros (_ & (r & H & _) & _). apply nth_error_Some. congruence. Qed.
(** The effect of an action on tokens. *)
Definition act (a : action) (u : list Z) : verdict :=
  match a with
  | AToken x => Gives (Token x PNone)
  | AReal => Gives (Token "realnumber" (PText u))
  | AInteger x => match stoll u with Some v => Gives (Token x (PInteger v)) | None => Fails end
  | AText x => Gives (Token x (PText u))
  | AQuoted x => Gives (Token x (PText (firstn (length u - 3) (tl u))))
  | AName x => Gives (Token x (PName (santize_name (string_of u))))
  | ASkip | ABlock | ANewline | ASpace | AUnknown => Skipped
  end.
Lemma digits_decimal ds : forall a, fold_left (fun a d => a * 10 + (d - 48))%Z ds a = (a * 10 ^ zlen ds + decimal ds)%Z.
Proof.
  induction ds as [|d ds IH]; intros a; cbn [fold_left decimal]; [change (zlen (@nil Z)) with 0%Z; lia|]. rewrite IH.
  assert (E : zlen (d :: ds) = (1 + zlen ds)%Z) by (unfold zlen; cbn [length]; lia). rewrite E, Z.pow_add_r by (unfold zlen; lia). change (10 ^ 1)%Z with 10%Z. ring.
Qed.
Lemma stoll_integer x u : act (AInteger x) u = integer x u.
Proof.
  unfold act, integer, stoll, number_value. assert (D : forall ds, digits_value ds = decimal ds) by (intros ds; unfold digits_value; rewrite digits_decimal; lia).
  destruct u as [|c u]; [reflexivity|]. cbv zeta. rewrite !D. destruct (_ && _)%bool; reflexivity.
Qed.
Lemma action_meaning k u : k < length lexer_rules -> exists a, nth_error yy_actions k = Some a /\ act a u = rule_meaning k u.
Proof.
  intros H. change (length lexer_rules) with 128 in H.
  do 96 (destruct k as [|k]; [eexists; split; [reflexivity|reflexivity]|]).
  do 2 (destruct k as [|k]; [eexists; split; [reflexivity|apply stoll_integer]|]).
  do 30 (destruct k as [|k]; [eexists; split; [reflexivity|reflexivity]|]). lia.
Qed.
