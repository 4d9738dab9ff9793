(** Proofs about recursive types. *)
From Verif Require Import Base Ident Spec HeaderProofs View ViewProofs Prims PrimProofs ContProofs Schema SchemaSpec SchemaProofs SchemaDecode RecTypes RecSpec.
Local Open Scope nat_scope.

Scheme ty_comps_min := Minimality for ty Sort Prop with comps_ty_min := Minimality for comps Sort Prop.
(** [agree d t t']: t and t' are the same down to d packets. *)
Inductive agree : nat -> ty -> ty -> Prop :=
| ag_far t t' : type_ids t = type_ids t' -> (forall o, init (retag o t) = init (retag o t')) -> agree 0 t t'
| ag_leaf d k i : agree d (TLeaf k i) (TLeaf k i)
| ag_seqof d i t t' : agree d t t' -> agree (S d) (TSeqOf i t) (TSeqOf i t')
| ag_seq d i cs cs' : agree_comps d cs cs' -> agree (S d) (TSeq i cs) (TSeq i cs')
| ag_set d i ext cs cs' : agree_comps d cs cs' -> agree (S d) (TSet i ext cs) (TSet i ext cs')
| ag_tagged d g i cs cs' : agree_comps d cs cs' -> agree (S d) (TChoice g (Some i) cs) (TChoice g (Some i) cs')
| ag_choice d g cs cs' : agree_comps d cs cs' -> agree d (TChoice g None cs) (TChoice g None cs')
with agree_comps : nat -> comps -> comps -> Prop :=
| ag_nil d : agree_comps d CNil CNil
| ag_cons d k ids t t' cs cs' : agree d t t' -> agree_comps d cs cs' -> agree_comps d (CCons k ids t cs) (CCons k ids t' cs').
Scheme agree_min := Minimality for agree Sort Prop with agree_comps_min := Minimality for agree_comps Sort Prop.
Combined Scheme agree_mut from agree_min, agree_comps_min.

Lemma retag_retag o o' t : retag o (retag o' t) = retag (match o with Some i => Some i | None => o' end) t.
Proof. destruct o, o', t; reflexivity. Qed.
Lemma init_retag_ids t : forall o, init (retag o t) = match t with TLeaf k i => SLeaf (leaf_init k (match o with Some j => j | None => i end)) | _ => init t end.
Proof. intros [i|]; destruct t; reflexivity. Qed.
Lemma agree_facts :
  (forall d t t', agree d t t' -> type_ids t = type_ids t' /\ forall o, init (retag o t) = init (retag o t')) /\
  (forall d cs cs', agree_comps d cs cs' -> comps_ids cs = comps_ids cs' /\ init_comps cs = init_comps cs' /\
     match cs, cs' with CNil, CNil => True | CCons _ _ t _, CCons _ _ t' _ => init t = init t' | _, _ => False end).
Proof.
  apply agree_mut; intros.
  - auto.
  - auto.
  - split; [reflexivity|]. intros [j|]; reflexivity.
  - split; [reflexivity|]. destruct H0 as (_ & E & _). intros [j|]; cbn; rewrite E; reflexivity.
  - split; [reflexivity|]. destruct H0 as (_ & E & _). intros [j|]; cbn; rewrite E; reflexivity.
  - split; [reflexivity|]. destruct H0 as (_ & _ & E). destruct cs, cs'; try tauto; intros [j|]; cbn; rewrite ?E; reflexivity.
  - destruct H0 as (E1 & _ & E). split; [cbn; exact E1|]. destruct cs, cs'; try tauto; intros [j|]; cbn; rewrite ?E; reflexivity.
  - auto.
  - destruct H0 as [_ E], H2 as (F1 & F2 & _). specialize (E None). cbn [retag] in E. split; [cbn; rewrite F1; reflexivity|]. split; [|exact E].
    cbn [init_comps]. rewrite E, F2. reflexivity.
Qed.
Lemma agree_ids d t t' : agree d t t' -> type_ids t = type_ids t'.
Proof. apply agree_facts. Qed.
Lemma agree_init d t t' : agree d t t' -> init t = init t'.
Proof. intros H. exact (proj2 (proj1 agree_facts d t t' H) None). Qed.
Lemma agree_zero d t t' : agree d t t' -> agree 0 t t'.
Proof. intros H. destruct (proj1 agree_facts d t t' H). constructor; assumption. Qed.
Lemma agree_less : (forall d t t', agree d t t' -> forall e, e <= d -> agree e t t') /\ (forall d cs cs', agree_comps d cs cs' -> forall e, e <= d -> agree_comps e cs cs').
Proof.
  apply agree_mut; intros.
  - replace e with 0 by lia. constructor; assumption.
  - constructor.
  - destruct e; [eapply agree_zero; constructor; exact H|]. constructor. apply H0. lia.
  - destruct e; [eapply agree_zero; constructor; exact H|]. constructor. apply H0. lia.
  - destruct e; [eapply agree_zero; constructor; exact H|]. constructor. apply H0. lia.
  - destruct e; [eapply agree_zero; apply ag_tagged; exact H|]. constructor. apply H0. lia.
  - constructor. apply H0. lia.
  - constructor.
  - constructor; auto.
Qed.
Lemma agree_retag d o t t' : agree d t t' -> agree d (retag o t) (retag o t').
Proof.
  intros H. destruct o as [i|]; [|exact H]. destruct H as [t t' E1 E2|d k j|d j t t' H|d j cs cs' H|d j ext cs cs' H|d g j cs cs' H|d g cs cs' H].
  - constructor; [destruct t, t'; reflexivity|]. intros o. rewrite !retag_retag. apply E2.
  - constructor.
  - constructor. exact H.
  - constructor. exact H.
  - constructor. exact H.
  - cbn. constructor. exact H.
  - cbn. destruct d as [|d].
    + eapply agree_zero. apply (ag_tagged 0 g i). exact H.
    + constructor. eapply (proj2 agree_less); [exact H|lia].
Qed.
(** ** Unfoldings agree *)
Lemma subst_ids f f' r : (forall y, In y (heads r) -> type_ids (f y) = type_ids (f' y)) -> type_ids (subst f r) = type_ids (subst f' r).
Proof.
  destruct r as [k i|i r|i cs|i ext cs|g o cs|o x]; cbn [subst heads]; intros H; try reflexivity.
  - destruct o as [i|]; cbn [type_ids]; [reflexivity|]. clear H. induction cs as [|k ids r cs IH]; cbn; [reflexivity|]. rewrite IH. reflexivity.
  - specialize (H x (or_introl eq_refl)). destruct o as [i|]; cbn [retag]; [destruct (f x), (f' x); reflexivity|exact H].
Qed.
Lemma subst_init f f' : forall r, (forall y, In y (inits r) -> forall o, init (retag o (f y)) = init (retag o (f' y))) -> forall o, init (retag o (subst f r)) = init (retag o (subst f' r)).
Proof.
  set (ok := fun l => forall y, In y l -> forall o, init (retag o (f y)) = init (retag o (f' y))).
  set (P := fun r => ok (inits r) -> forall o, init (retag o (subst f r)) = init (retag o (subst f' r))).
  enough (G : forall r, P r) by exact G.
  apply (rty_rcomps_ind P (fun cs => (ok (inits_comps cs) -> init_comps (subst_comps f cs) = init_comps (subst_comps f' cs)) /\ match cs with RNil => True | RCons _ _ r _ => P r end)); unfold P; clear P.
  - intros k i _ o. reflexivity.
  - intros i r _ _ o. destruct o; reflexivity.
  - intros i cs [IH _] H o. destruct o; cbn; rewrite IH by exact H; reflexivity.
  - intros i ext cs [IH _] H o. destruct o; cbn; rewrite IH by exact H; reflexivity.
  - intros g o cs [_ IH] H o'. destruct cs as [|k ids r cs]; [destruct o'; reflexivity|]. cbn [inits] in H. specialize (IH H None). cbn [retag] in IH.
    destruct o'; cbn; rewrite IH; reflexivity.
  - intros o x H o'. cbn [subst]. rewrite !retag_retag. apply H. left. reflexivity.
  - split; [reflexivity|exact I].
  - intros k ids r IHr cs [IH _]. split; [|exact IHr]. intros H. cbn [subst_comps init_comps inits_comps] in *. unfold ok in *. rewrite IH by (intros y Hy; apply H, in_or_app; auto).
    destruct k; try reflexivity. f_equal. f_equal. apply (IHr (fun y Hy => H y (in_or_app _ _ _ (or_introl Hy))) None).
Qed.
Lemma subst_agree d f f' : (forall y, agree 0 (f y) (f' y)) -> (forall e y, S e = d -> agree e (f y) (f' y)) ->
  forall r, (forall y, In y (heads r) -> agree d (f y) (f' y)) -> agree d (subst f r) (subst f' r).
Proof.
  intros H0. revert f f' H0. induction d as [|d IHd]; intros f f' H0 H1.
  - intros r _. constructor.
    + apply subst_ids. intros y _. eapply agree_ids, H0.
    + apply subst_init. intros y _ o. pose proof (H0 y) as K. apply (proj1 agree_facts 0 _ _ K).
  - assert (H1' : forall y, agree d (f y) (f' y)) by (intros y; apply H1; reflexivity).
    assert (Hd : forall r, agree d (subst f r) (subst f' r)).
    { intros r. apply IHd; auto. intros e y <-. eapply (proj1 agree_less); [apply H1'|lia]. }
    assert (Hc : forall cs, agree_comps d (subst_comps f cs) (subst_comps f' cs)) by (induction cs; cbn; constructor; auto).
    apply (rty_rcomps_ind (fun r => (forall y, In y (heads r) -> agree (S d) (f y) (f' y)) -> agree (S d) (subst f r) (subst f' r))
      (fun cs => (forall y, In y (heads_comps cs) -> agree (S d) (f y) (f' y)) -> agree_comps (S d) (subst_comps f cs) (subst_comps f' cs))).
    + intros. constructor.
    + intros. cbn. constructor. apply Hd.
    + intros. cbn. constructor. apply Hc.
    + intros. cbn. constructor. apply Hc.
    + intros g [i|] cs IH H; cbn; constructor; [apply Hc|apply IH; exact H].
    + intros o x H. cbn. apply agree_retag. apply H. left. reflexivity.
    + intros. constructor.
    + intros k ids r IHr cs IHc H. cbn. constructor; [apply IHr|apply IHc]; intros y Hy; apply H; cbn; apply in_or_app; auto.
Qed.
Section env.
  Variable env : defs.
  Variable K : nat.
  Hypothesis W : well_founded_defs env K.
  Variables b b' : nat -> ty.
  Lemma level_zero n n' x : K < n -> K < n' -> agree 0 (level env b n x) (level env b' n' x).
  Proof.
    intros Hn Hn'. destruct W as [(r1 & R1) (r2 & R2)]. constructor.
    - assert (G : forall k x n n', r1 x < k -> r1 x < n -> r1 x < n' -> type_ids (level env b n x) = type_ids (level env b' n' x)).
      { clear x n n' Hn Hn'. induction k as [|k IH]; intros x n n' Hk Hn Hn'; [lia|]. destruct n as [|n], n' as [|n']; try lia. cbn [level]. apply subst_ids.
        intros y Hy. destruct (R1 x) as [_ Q]. specialize (Q y Hy). apply IH; lia. }
      destruct (R1 x) as [Q _]. apply (G (S (r1 x))); lia.
    - assert (G : forall k x n n', r2 x < k -> r2 x < n -> r2 x < n' -> forall o, init (retag o (level env b n x)) = init (retag o (level env b' n' x))).
      { clear x n n' Hn Hn'. induction k as [|k IH]; intros x n n' Hk Hn Hn'; [lia|]. destruct n as [|n], n' as [|n']; try lia. cbn [level]. apply subst_init.
        intros y Hy. destruct (R2 x) as [_ Q]. specialize (Q y Hy). apply IH; lia. }
      destruct (R2 x) as [Q _]. apply (G (S (r2 x))); lia.
  Qed.
  Lemma level_agree d : forall x n n', (d + 1) * (K + 2) <= n -> (d + 1) * (K + 2) <= n' -> agree d (level env b n x) (level env b' n' x).
  Proof.
    induction d as [|d IHd]; intros x n n' Hn Hn'; [apply level_zero; lia|].
    destruct W as [(r1 & R1) _].
    assert (G : forall k x n n', r1 x < k -> (d + 1) * (K + 2) + r1 x + 1 <= n -> (d + 1) * (K + 2) + r1 x + 1 <= n' -> agree (S d) (level env b n x) (level env b' n' x)).
    { clear x n n' Hn Hn'. induction k as [|k IH]; intros x n n' Hk Hn Hn'; [lia|]. destruct n as [|n], n' as [|n']; try lia. cbn [level]. apply subst_agree.
      - intros y. apply level_zero; lia.
      - intros e y [= ->]. apply IHd; lia.
      - intros y Hy. destruct (R1 x) as [_ Q]. specialize (Q y Hy). apply IH; lia. }
    destruct (R1 x) as [Q _]. apply (G (S (r1 x))); lia.
  Qed.
  Lemma unfolding_agree d r n n' : (d + 1) * (K + 2) <= n -> (d + 1) * (K + 2) <= n' -> agree d (unfolding env b n r) (unfolding env b' n' r).
  Proof.
    intros Hn Hn'. apply subst_agree.
    - intros y. apply level_zero; lia.
    - intros e y <-. apply level_agree; lia.
    - intros y _. apply level_agree; lia.
  Qed.
End env.
(** ** Decoding looks no further than there are packets *)
Definition reach (v : view) : nat := match v_mem v with Some m => S (length m) | None => 0 end.
(** A view is invalid, or in memory that starts with a header. *)
Definition sized (v : view) : Prop := match v_mem v with None => v_hl v = 0%Z /\ v_cl v = 0%Z | Some m => (zlen m < 2^63)%Z /\ (1 <= v_hl v)%Z end.
Lemma extract_tag_range input t0 k t : extract_tag input t0 = Ok (k, t) -> (0 <= k <= zlen input)%Z.
Proof.
  intros E. apply extract_tag_len_eq in E. subst k. destruct input as [|b l]; [cbn; lia|]. unfold extract_tag_length. rewrite zlen_cons. pose proof (zlen_nonneg l).
  destruct (negb _); [lia|]. assert (A : forall l i, (0 <= i)%Z -> (0 <= extract_tag_length_loop l i <= i + zlen l)%Z).
  { clear. induction l as [|b l IH]; intros i Hi; cbn [extract_tag_length_loop]; [change (zlen (@nil Z)) with 0%Z; lia|]. rewrite zlen_cons. pose proof (zlen_nonneg l).
    destruct (_ =? _)%Z; [lia|]. specialize (IH (i + 1)%Z). lia. }
  specialize (A l 1%Z). lia.
Qed.
Lemma extract_length_range input l0 o k n : extract_length input l0 o = (k, n) -> (0 <= k <= 9)%Z.
Proof.
  unfold extract_length. destruct (zdrop o input) as [|b rest]; [intros E; injection E as <- _; lia|].
  destruct (_ =? 0)%Z; [intros E; injection E as <- _; lia|]. destruct (_ || _ || _)%bool eqn:C; intros E; injection E as <- _; [lia|].
  apply orb_false_elim in C. destruct C as [C _]. apply orb_false_elim in C. destruct C as [C _]. pose proof (Z.land_nonneg b 0x7F). lia.
Qed.
Lemma assign_sized t0 input v : v_assign t0 input = Ok v -> (zlen input < 2^63)%Z -> sized v /\ (is_valid v = true -> v_mem v = Some input).
Proof.
  unfold v_assign. intros E Hz. destruct (extract_tag input t0) as [[k t]| |] eqn:Et; cbn [bind] in E; try discriminate. apply extract_tag_range in Et.
  destruct (extract_length input 0 k) as [k2 n] eqn:El. apply extract_length_range in El.
  destruct (_ || _ || _)%bool eqn:C; injection E as <-.
  - split; [cbn; auto|discriminate].
  - split; [|reflexivity]. unfold sized. cbn [v_mem v_hl]. split; [exact Hz|]. apply orb_false_elim in C. destruct C as [C _]. apply orb_false_elim in C. destruct C as [C1 C2].
    unfold u64. rewrite Z.mod_small; lia.
Qed.
Definition sized_iter (it : iter) : Prop := (zlen (it_buf it) < 2^63)%Z /\ exists t0, v_assign t0 (it_buf it) = Ok (it_view it).
Lemma sized_iter_view it : sized_iter it -> sized (it_view it).
Proof. intros (Hz & t0 & E). eapply assign_sized; eauto. Qed.
Lemma sized_iter_reach it : sized_iter it -> reach (it_view it) <= S (length (it_buf it)).
Proof.
  intros (Hz & t0 & E). destruct (assign_sized _ _ _ E Hz) as [_ H]. unfold reach, is_valid in *. destruct (v_mem (it_view it)) as [m|]; [|lia]. specialize (H eq_refl). injection H as <-. lia.
Qed.
Lemma next_shorter it it' : sized_iter it -> it_next it = Ok it' -> sized_iter it' /\ length (it_buf it') <= length (it_buf it).
Proof.
  intros (Hz & t0 & E) En. unfold it_next in En. destruct (_ >? _)%Z eqn:C; [discriminate|]. destruct (v_assign (v_tag (it_view it)) _) as [w| |] eqn:Ew; cbn [bind] in En; try discriminate. injection En as <-.
  cbn [it_buf it_view]. assert (L : forall n (l : list Z), length (zdrop n l) <= length l) by (intros n l; unfold zdrop; rewrite skipn_length; lia).
  split; [|apply L]. split; [|cbn [it_buf it_view]; eauto]. cbn [it_buf]. specialize (L (v_ber_length (it_view it)) (it_buf it)). unfold zlen in *. lia.
Qed.
Lemma begin_shorter v it : sized v -> v_begin v = Ok it -> sized_iter it /\ (is_valid v = true -> S (length (it_buf it)) < reach v) /\ length (it_buf it) <= reach v - 1.
Proof.
  unfold v_begin, v_content, sized, reach, is_valid, it_make, v_make. intros S E. destruct (v_mem v) as [m|] eqn:M.
  - destruct S as [Hz Hh]. unfold mem_read in E. destruct (_ && _ && _)%bool eqn:C; cbn [bind] in E; try discriminate.
    destruct (v_assign _ _) as [w| |] eqn:Ew; cbn [bind] in E; try discriminate. injection E as <-. cbn [it_buf it_view].
    apply andb_prop in C. destruct C as [C C3]. apply andb_prop in C. destruct C as [C1 C2].
    assert (L : length (ztake (v_cl v) (zdrop (v_hl v) m)) < length m).
    { unfold ztake, zdrop. rewrite firstn_length, skipn_length. unfold zlen in C3. lia. }
    split; [|split; [intros _|]; lia]. split; [cbn [it_buf]; unfold zlen in *; lia|]. eauto.
  - destruct (_ && _)%bool; cbn [bind] in E; try discriminate. vm_compute in E. injection E as <-. split; [|split; [discriminate|cbn; lia]].
    split; [cbn; lia|]. exists 0%Z. reflexivity.
Qed.
Lemma content_shorter i v it : sized v -> is_valid v = true -> content_iter i v = Ok it -> sized_iter it /\ S (length (it_buf it)) < reach v.
Proof.
  intros Hs Hv E. destruct i as [c t|oc ot ic tt]; cbn [content_iter] in E.
  - destruct (begin_shorter _ _ Hs E) as (H1 & H2 & _). auto.
  - destruct (v_begin v) as [it1| |] eqn:E1; cbn [bind] in E; try discriminate. destruct (begin_shorter _ _ Hs E1) as (H1 & H2 & _).
    destruct (begin_shorter _ _ (sized_iter_view _ H1) E) as (H3 & _ & H4). split; [exact H3|]. pose proof (sized_iter_reach _ H1). specialize (H2 Hv). lia.
Qed.
Lemma header_iter v i it : sized v -> has_correct_header v i constructed = Ok true -> content_iter i v = Ok it -> sized_iter it /\ S (length (it_buf it)) < reach v.
Proof. intros Hs Hh E. exact (content_shorter i v it Hs (header_valid _ _ _ _ Hh eq_refl) E). Qed.
Definition same_decode (d : nat) (t t' : ty) : Prop := forall s v, sized v -> reach v < d -> decode t s v = decode t' s v.
Lemma member_same d k t t' m v : agree d t t' -> same_decode d t t' -> sized v -> reach v < d ->
  member_decode k (type_ids t) (init t) (decode t) m v = member_decode k (type_ids t') (init t') (decode t') m v.
Proof.
  intros A S Hg Hr. rewrite <- (agree_ids _ _ _ A), <- (agree_init _ _ _ A). destruct k; cbn [member_decode].
  - destruct m; [|reflexivity]. rewrite S by assumption. reflexivity.
  - destruct (is_valid v); [|reflexivity]. destruct (v_class v); cbn [bind]; try reflexivity. destruct (has_id _ _ _); [|reflexivity]. rewrite S by assumption. reflexivity.
  - destruct (is_valid v); [|reflexivity]. destruct (v_class v); cbn [bind]; try reflexivity. destruct (has_id _ _ _); [|reflexivity]. rewrite S by assumption. reflexivity.
Qed.
Record same_comps (d : nat) (cs cs' : comps) : Prop := {
  sc_seq : forall ms it, sized_iter it -> S (length (it_buf it)) < d -> decode_seq cs ms it = decode_seq cs' ms it;
  sc_member : forall ms counts c tag v, sized v -> reach v < d -> decode_member cs ms counts c tag v = decode_member cs' ms counts c tag v;
  sc_alt : forall n k v, sized v -> reach v < d -> decode_alt cs n k v = decode_alt cs' n k v;
  sc_length : comps_length cs = comps_length cs';
  sc_finish : forall ms counts, set_finish cs ms counts = set_finish cs' ms counts;
  sc_label : forall c tag, find_label cs c tag = find_label cs' c tag }.
Lemma set_loop_same d cs cs' ext : same_comps d cs cs' -> forall fuel it ms counts, sized_iter it -> S (length (it_buf it)) < d ->
  set_loop (decode_member cs) ext fuel it ms counts = set_loop (decode_member cs') ext fuel it ms counts.
Proof.
  intros C. induction fuel as [|fuel IH]; intros it ms counts Hg Hl; [reflexivity|]. cbn [set_loop]. destruct (it_at_end it); [reflexivity|].
  destruct (v_class (it_view it)); cbn [bind]; try reflexivity. rewrite (sc_member _ _ _ C) by (auto using sized_iter_view; pose proof (sized_iter_reach _ Hg); lia).
  destruct (decode_member cs' ms counts _ _ _) as [[[[|] [ms1 counts1]]|]| |]; cbn [bind]; try reflexivity.
  - destruct (it_next it) as [it'| |] eqn:E; cbn [bind]; try reflexivity. destruct (next_shorter _ _ Hg E). apply IH; [assumption|lia].
  - destruct ext; [|reflexivity]. destruct (it_next it) as [it'| |] eqn:E; cbn [bind]; try reflexivity. destruct (next_shorter _ _ Hg E). apply IH; [assumption|lia].
Qed.
Lemma seqof_loop_same d t t' : same_decode d t t' -> forall s fuel it, sized_iter it -> S (length (it_buf it)) < d ->
  seqof_loop (decode t s) fuel it = seqof_loop (decode t' s) fuel it.
Proof.
  intros S s. induction fuel as [|fuel IH]; intros it Hg Hl; [reflexivity|]. cbn [seqof_loop]. destruct (it_at_end it); [reflexivity|].
  rewrite S by (auto using sized_iter_view; pose proof (sized_iter_reach _ Hg); lia). destruct (decode t' s (it_view it)) as [[ok s1]| |]; cbn [bind]; try reflexivity.
  destruct ok; [|reflexivity]. destruct (it_next it) as [it'| |] eqn:E; cbn [negb bind]; try reflexivity. destruct (next_shorter _ _ Hg E). rewrite IH by (assumption || lia). reflexivity.
Qed.
Lemma select_same d g cs cs' c tag : same_comps d cs cs' -> select g cs c tag = select g cs' c tag.
Proof. intros C. unfold select. rewrite !(sc_label _ _ _ C). reflexivity. Qed.
Lemma decode_agree : (forall d t t', agree d t t' -> same_decode d t t') /\ (forall d cs cs', agree_comps d cs cs' -> same_comps d cs cs').
Proof.
  apply agree_mut; unfold same_decode.
  - intros t t' _ _ s v _ H. lia.
  - reflexivity.
  - intros d i t t' A IH s v Hg Hr. destruct s; try reflexivity. cbn [decode].
    destruct (has_correct_header v i constructed) as [[|]| |] eqn:E; cbn [bind negb]; try reflexivity.
    destruct (content_iter i v) as [it| |] eqn:Ei; cbn [bind]; try reflexivity. destruct (header_iter v i it Hg E Ei) as [Hgi L].
    rewrite (agree_init _ _ _ A). rewrite (seqof_loop_same d t t') by (assumption || lia). reflexivity.
  - intros d i cs cs' A IH s v Hg Hr. destruct s; try reflexivity. cbn [decode]. destruct (is_valid v) eqn:Hv0; [|reflexivity]. cbn [negb].
    destruct (has_correct_header v i constructed) as [[|]| |] eqn:E; cbn [bind negb]; try reflexivity.
    rewrite (sc_length _ _ _ IH). destruct (Nat.eqb _ _); [reflexivity|]. destruct (content_iter i v) as [it| |] eqn:Ei; cbn [bind]; try reflexivity. destruct (header_iter v i it Hg E Ei) as [Hgi L].
    rewrite (sc_seq _ _ _ IH) by (assumption || lia). reflexivity.
  - intros d i ext cs cs' A IH s v Hg Hr. destruct s; try reflexivity. cbn [decode]. destruct (is_valid v) eqn:Hv0; [|reflexivity]. cbn [negb].
    destruct (has_correct_header v i constructed) as [[|]| |] eqn:E; cbn [bind negb]; try reflexivity.
    rewrite (sc_length _ _ _ IH). destruct (Nat.eqb _ _); [reflexivity|]. destruct (content_iter i v) as [it| |] eqn:Ei; cbn [bind]; try reflexivity. destruct (header_iter v i it Hg E Ei) as [Hgi L].
    rewrite (set_loop_same d cs cs') by (assumption || lia).
    destruct (set_loop _ _ _ _ _ _) as [[ok [ms counts]]| |]; cbn [bind]; try reflexivity. rewrite (sc_finish _ _ _ IH). reflexivity.
  - intros d g i cs cs' A IH s v Hg Hr. destruct s; try reflexivity. cbn [decode]. destruct (is_valid v) eqn:Hv0; [|reflexivity]. cbn [negb].
    destruct (has_correct_header v i constructed) as [[|]| |] eqn:E; cbn [bind negb]; try reflexivity.
    destruct (content_iter i v) as [it| |] eqn:Ei; cbn [bind]; try reflexivity. destruct (header_iter v i it Hg E Ei) as [Hgi L].
    destruct (is_valid (it_view it)) eqn:Hvi; [|reflexivity]. destruct (match g with CGen => Ok universal | CLib => v_class (it_view it) end); cbn [bind]; try reflexivity.
    rewrite (select_same d g cs cs') by assumption. destruct (select _ _ _ _); [|reflexivity]. apply (sc_alt _ _ _ IH); [apply sized_iter_view, Hgi|]. pose proof (sized_iter_reach _ Hgi). lia.
  - intros d g cs cs' A IH s v Hg Hr. destruct s; try reflexivity. cbn [decode bind].
    destruct g.
    + cbn [bind]. rewrite (select_same d CGen cs cs') by assumption. destruct (select _ _ _ _); [|reflexivity]. apply (sc_alt _ _ _ IH); assumption.
    + destruct (is_valid v); [|reflexivity]. destruct (v_class v); cbn [bind]; try reflexivity. rewrite (select_same d CLib cs cs') by assumption. destruct (select _ _ _ _); [|reflexivity]. apply (sc_alt _ _ _ IH); assumption.
  - intros d. constructor; reflexivity.
  - intros d k ids t t' cs cs' A S Ac C. constructor.
    + intros ms it Hg Hl. destruct ms as [|m ms]; [reflexivity|]. cbn [decode_seq].
      rewrite (member_same d k t t') by (auto using sized_iter_view; pose proof (sized_iter_reach _ Hg); lia).
      destruct (match k with Mand => Ok true | _ => _ end) as [[|]| |]; cbn [bind]; try reflexivity.
      * destruct (member_decode _ _ _ _ _ _) as [[[|] m1]| |]; cbn [bind negb]; try reflexivity. destruct (it_next it) as [it'| |] eqn:E; cbn [bind]; try reflexivity.
        destruct (next_shorter _ _ Hg E). rewrite (sc_seq _ _ _ C) by (assumption || lia). reflexivity.
      * rewrite (sc_seq _ _ _ C) by assumption. reflexivity.
    + intros ms counts c tag v Hg Hr. destruct ms, counts; try reflexivity. cbn [decode_member]. rewrite (member_same d k t t') by assumption. rewrite (sc_member _ _ _ C) by assumption. reflexivity.
    + intros n j v Hg Hr. destruct n; cbn [decode_alt]; [|apply (sc_alt _ _ _ C); assumption]. rewrite (agree_init _ _ _ A), S by assumption. reflexivity.
    + cbn. rewrite (sc_length _ _ _ C). reflexivity.
    + intros ms counts. destruct ms, counts; try reflexivity. cbn [set_finish]. rewrite (sc_finish _ _ _ C). reflexivity.
    + intros c tag. cbn. rewrite (sc_label _ _ _ C). reflexivity.
Qed.
(** ** Objects and values are finite *)
Fixpoint height (s : st) : nat :=
  S (match s with
     | SLeaf _ => 0
     | SList l => list_max (map height l)
     | SRec l => list_max (map (fun m => match m with Some s => height s | None => 0 end) l)
     | SAlt _ s => height s
     end).
Fixpoint vheight (v : val) : nat :=
  S (match v with
     | VPrim _ => 0
     | VList l => list_max (map vheight l)
     | VRec l => list_max (map (fun m => match m with Some s => vheight s | None => 0 end) l)
     | VAlt _ s => vheight s
     end).
Definition mheight (l : list (option st)) : nat := list_max (map (fun m => match m with Some s => height s | None => 0 end) l).
Definition mvheight (l : list (option val)) : nat := list_max (map (fun m => match m with Some s => vheight s | None => 0 end) l).
Definition same_at (t t' : ty) (s : st) : Prop :=
  (forall buf, encode t s buf = encode t' s buf) /\ encoded_length_of t s = encoded_length_of t' s /\ (obj t s <-> obj t' s) /\ (forall v, rep t s v <-> rep t' s v).
Definition same_below (d : nat) (t t' : ty) : Prop := forall s, height s <= d -> same_at t t' s.
Definition same_below_comps (d : nat) (cs cs' : comps) : Prop :=
  (forall l, mheight l <= d -> (forall buf, encode_comps cs l buf = encode_comps cs' l buf) /\ length_comps cs l = length_comps cs' l /\
     (obj_comps cs l <-> obj_comps cs' l) /\ (forall v, rep_comps cs l v <-> rep_comps cs' l v)) /\
  (forall n s, height s <= d -> (forall buf, encode_alt cs n s buf = encode_alt cs' n s buf) /\ length_alt cs n s = length_alt cs' n s /\
     (obj_alt cs n s <-> obj_alt cs' n s) /\ (forall v, rep_alt cs n s v <-> rep_alt cs' n s v)).
Lemma enc_wrap_ext i e e' buf : (forall b, e b = e' b) -> enc_wrap i e buf = enc_wrap i e' buf.
Proof. intros H. unfold enc_wrap. destruct (_ <? _)%Z; [reflexivity|]. rewrite H. reflexivity. Qed.
Lemma enc_seq_ext r e e' : (forall b, e b = e' b) -> enc_seq r e = enc_seq r e'.
Proof. intros H. unfold enc_seq. destruct r as [r| |]; cbn [bind]; try reflexivity. destruct (negb _); [reflexivity|]. destruct (_ >? _)%Z; [reflexivity|]. rewrite H. reflexivity. Qed.
Lemma list_same d t t' l : same_below d t t' -> list_max (map height l) <= d ->
  (forall buf, enc_list (encode t) l buf = enc_list (encode t') l buf) /\ len_list (encoded_length_of t) l = len_list (encoded_length_of t') l /\
  (Forall (obj t) l <-> Forall (obj t') l) /\ forall vs, Forall2 (rep t) l vs <-> Forall2 (rep t') l vs.
Proof.
  intros S. induction l as [|s l IH]; intros H.
  - split; [reflexivity|]. split; [reflexivity|]. split; [split; constructor|]. intros vs. split; intros F; inversion F; constructor.
  - cbn [map list_max] in H. change (list_max (height s :: map height l)) with (Nat.max (height s) (list_max (map height l))) in H.
    destruct (IH ltac:(lia)) as (I1 & I2 & I3 & I4). destruct (S s ltac:(lia)) as (S1 & S2 & S3 & S4). split; [|split; [|split]].
    + intros buf. cbn [enc_list]. rewrite S1. apply enc_seq_ext, I1.
    + cbn [len_list]. rewrite S2, I2. reflexivity.
    + rewrite !Forall_cons_iff. tauto.
    + intros vs. split; intros F; inversion F as [|? y ? ys F1 F2]; subst; (constructor; [apply S4; exact F1|apply I4; exact F2]).
Qed.
Lemma agree_below : (forall d t t', agree d t t' -> same_below d t t') /\ (forall d cs cs', agree_comps d cs cs' -> same_below_comps d cs cs').
Proof.
  apply agree_mut; unfold same_below, same_below_comps.
  - intros t t' _ _ s H. destruct s; cbn in H; lia.
  - intros. repeat split; auto.
  - intros d i t t' A IH s H. destruct s as [|l| |]; [repeat split; auto| |repeat split; auto|repeat split; auto].
    cbn [height] in H. destruct (list_same d t t' l IH ltac:(lia)) as (I1 & I2 & I3 & I4). split; [|split; [|split]].
    + intros buf. cbn [encode]. apply enc_wrap_ext, I1.
    + cbn [encoded_length_of]. rewrite I2. reflexivity.
    + exact I3.
    + intros [|vs| |]; cbn [rep]; try tauto. apply I4.
  - intros d i cs cs' A [IH _] s H. destruct s as [| |l|]; [repeat split; auto|repeat split; auto| |repeat split; auto].
    cbn [height] in H. destruct (IH l) as (I1 & I2 & I3 & I4); [unfold mheight; lia|]. split; [|split; [|split]].
    + intros buf. cbn [encode]. apply enc_wrap_ext, I1.
    + cbn [encoded_length_of]. rewrite I2. reflexivity.
    + exact I3.
    + intros [| |vs|]; cbn [rep]; try tauto. apply I4.
  - intros d i ext cs cs' A [IH _] s H. destruct s as [| |l|]; [repeat split; auto|repeat split; auto| |repeat split; auto].
    cbn [height] in H. destruct (IH l) as (I1 & I2 & I3 & I4); [unfold mheight; lia|]. split; [|split; [|split]].
    + intros buf. cbn [encode]. apply enc_wrap_ext, I1.
    + cbn [encoded_length_of]. rewrite I2. reflexivity.
    + exact I3.
    + intros [| |vs|]; cbn [rep]; try tauto. apply I4.
  - intros d g i cs cs' A [_ IH] s H. destruct s as [| | |n s]; [repeat split; auto|repeat split; auto|repeat split; auto|].
    cbn [height] in H. destruct (IH n s ltac:(lia)) as (I1 & I2 & I3 & I4). split; [|split; [|split]].
    + intros buf. cbn [encode]. apply enc_wrap_ext, I1.
    + cbn [encoded_length_of]. rewrite I2. reflexivity.
    + exact I3.
    + intros [| | |m v]; cbn [rep]; try tauto. rewrite I4. tauto.
  - intros d g cs cs' A [_ IH] s H. destruct s as [| | |n s]; [repeat split; auto|repeat split; auto|repeat split; auto|].
    cbn [height] in H. destruct (IH n s ltac:(lia)) as (I1 & I2 & I3 & I4). split; [|split; [|split]].
    + intros buf. cbn [encode]. apply I1.
    + cbn [encoded_length_of]. rewrite I2. reflexivity.
    + exact I3.
    + intros [| | |m v]; cbn [rep]; try tauto. rewrite I4. tauto.
  - intros d. repeat split; auto.
  - intros d k ids t t' cs cs' A S Ac [IH1 IH2]. split.
    + intros [|m l] H; [repeat split; auto|]. unfold mheight in H. cbn [map] in H.
      change (Nat.max (match m with Some s => height s | None => 0 end) (mheight l) <= d) in H.
      destruct (IH1 l ltac:(lia)) as (I1 & I2 & I3 & I4). destruct m as [s|].
      * destruct (S s ltac:(lia)) as (S1 & S2 & S3 & S4). split; [|split; [|split]].
        -- intros buf. cbn [encode_comps]. destruct k; rewrite S1; apply enc_seq_ext, I1.
        -- cbn [length_comps]. destruct k; rewrite S2, I2; reflexivity.
        -- cbn [obj_comps]. rewrite S3, I3. tauto.
        -- intros [|[v|] vs]; cbn [rep_comps]; [tauto| |]; rewrite I4; [rewrite S4|]; tauto.
      * split; [|split; [|split]].
        -- intros buf. cbn [encode_comps]. destruct k; apply enc_seq_ext, I1.
        -- cbn [length_comps]. destruct k; rewrite I2; reflexivity.
        -- cbn [obj_comps]. rewrite I3. tauto.
        -- intros [|[v|] vs]; cbn [rep_comps]; [tauto| |]; rewrite I4; tauto.
    + intros [|n] s H; [exact (S s H)|]. exact (IH2 n s H).
Qed.
Definition ber_below (d : nat) (t t' : ty) : Prop := forall v p, vheight v <= d -> ber_of t v p <-> ber_of t' v p.
Lemma agree_ber : (forall d t t', agree d t t' -> ber_below d t t') /\
  (forall d cs cs', agree_comps d cs cs' -> (forall vs ps, mvheight vs <= d -> ber_parts cs vs ps <-> ber_parts cs' vs ps) /\ (forall n v p, vheight v <= d -> ber_alt cs n v p <-> ber_alt cs' n v p)).
Proof.
  apply agree_mut; unfold ber_below.
  - intros t t' _ _ v p H. destruct v; cbn in H; lia.
  - tauto.
  - intros d i t t' A IH v p H. destruct v as [|l| |]; cbn [ber_of]; try tauto. cbn [vheight] in H.
    assert (E : forall ps, Forall2 (ber_of t) l ps <-> Forall2 (ber_of t') l ps).
    { assert (H' : list_max (map vheight l) <= d) by lia. clear H. induction l as [|v l IHl]; intros ps.
      - split; intros F; inversion F; constructor.
      - cbn [map] in H'. change (Nat.max (vheight v) (list_max (map vheight l)) <= d) in H'.
        split; intros F; inversion F as [|? y ? ys F1 F2]; subst; (constructor; [apply (IH v y ltac:(lia)); exact F1|apply (IHl ltac:(lia)); exact F2]). }
    split; intros (ps & H1 & H2); exists ps; (split; [apply E; exact H1|exact H2]).
  - intros d i cs cs' A [IH _] v p H. destruct v as [| |l|]; cbn [ber_of]; try tauto. cbn [vheight] in H.
    split; intros (ps & H1 & H2); exists ps; (split; [apply IH; [unfold mvheight; lia|exact H1]|exact H2]).
  - intros d i ext cs cs' A [IH _] v p H. destruct v as [| |l|]; cbn [ber_of]; try tauto. cbn [vheight] in H.
    split; intros (ps & qs & H1 & H2); exists ps, qs; (split; [apply IH; [unfold mvheight; lia|exact H1]|exact H2]).
  - intros d g i cs cs' A [_ IH] v p H. destruct v as [| | |n v]; cbn [ber_of]; try tauto. cbn [vheight] in H.
    split; intros (q & H1 & H2); exists q; (split; [apply IH; [lia|exact H1]|exact H2]).
  - intros d g cs cs' A [_ IH] v p H. destruct v as [| | |n v]; cbn [ber_of]; try tauto. cbn [vheight] in H. apply IH. lia.
  - intros d. split; [intros [|? ?]; tauto|tauto].
  - intros d k ids t t' cs cs' A S Ac [IH1 IH2]. split.
    + intros [|m l] ps H; [tauto|]. unfold mvheight in H. cbn [map] in H. change (Nat.max (match m with Some s => vheight s | None => 0 end) (mvheight l) <= d) in H.
      destruct m as [v|]; cbn [ber_parts].
      * split; intros (p & ps' & E & H1 & H2); exists p, ps'; (split; [exact E|]; split; [apply S; [lia|exact H1]|apply IH1; [lia|exact H2]]).
      * rewrite IH1 by lia. tauto.
    + intros [|n] v p H; [apply S; exact H|apply IH2; exact H].
Qed.
(** ** Unfoldings of good definitions are good schemas *)
Definition null_t : ty := TLeaf KNull (Id universal 5).
Fixpoint null_alts (ids : list (class * Z)) : comps := match ids with [] => CNil | p :: ids => CCons Mand [p] (TLeaf KNull (Id (fst p) (snd p))) (null_alts ids) end.
(** Something to put at the bottom, with the right identifiers. *)
Definition bottom (r : rty) : ty :=
  match r with
  | RSeqOf i _ => TSeqOf i null_t
  | RSeq i _ => TSeq i CNil
  | RSet i ext _ => TSet i ext CNil
  | RChoice _ o cs => TChoice CLib o (null_alts (comps_ids (skeleton cs)))
  | RLeaf _ _ | RName _ _ => null_t
  end.
Definition bot (env : defs) (x : nat) : ty := bottom (env x).
Definition rooted (r : rty) (t : ty) : Prop :=
  match r, t with
  | RSeqOf _ _, TSeqOf _ _ | RSeq _ _, TSeq _ _ | RSet _ _ _, TSet _ _ _ => True
  | RChoice _ o _, TChoice _ o' _ => o = o'
  | _, _ => False
  end.
Lemma skeleton_ids f cs : comps_ids (subst_comps f cs) = comps_ids (skeleton cs).
Proof. unfold skeleton. induction cs as [|k ids r cs IH]; cbn; [reflexivity|]. rewrite IH. reflexivity. Qed.
Lemma skeleton_next f cs : next_ids (subst_comps f cs) = next_ids (skeleton cs).
Proof. unfold skeleton. induction cs as [|k ids r cs IH]; cbn; [reflexivity|]. rewrite IH. reflexivity. Qed.
Lemma skeleton_seq f cs : seq_distinct (skeleton cs) -> seq_distinct (subst_comps f cs).
Proof. induction cs as [|k ids r cs IH]; cbn; [auto|]. fold (skeleton cs). rewrite skeleton_next. intros [H1 H2]. split; auto. Qed.
Lemma skeleton_all f cs : all_distinct (skeleton cs) -> all_distinct (subst_comps f cs).
Proof. induction cs as [|k ids r cs IH]; cbn; [auto|]. fold (skeleton cs). rewrite skeleton_ids. intros [H1 H2]. split; auto. Qed.
Lemma nodup_all cs : NoDup (comps_ids cs) -> all_distinct cs.
Proof.
  induction cs as [|k ids t cs IH]; cbn; [auto|]. intros H. split.
  - intros x H1 H2. revert H1 H2. clear IH. induction ids as [|y ids IHi]; cbn in *; [tauto|]. inversion H as [|? ? N1 N2]; subst. intros [->|H1] H2; [|exact (IHi N2 H1 H2)].
    apply N1, in_or_app. auto.
  - apply IH. induction ids as [|y ids IHi]; cbn in *; [exact H|]. inversion H; subst. auto.
Qed.
Lemma null_ids ids : comps_ids (null_alts ids) = ids.
Proof. induction ids as [|p ids IH]; cbn; [reflexivity|]. rewrite IH. reflexivity. Qed.
Lemma null_good ids : ids <> [] -> NoDup ids -> (forall c t, In (c, t) ids -> wf_ident (Id c t)) ->
  null_alts ids <> CNil /\ wf_comps (null_alts ids) /\ labelled_comps (null_alts ids) /\ all_distinct (null_alts ids) /\ unambiguous_comps (null_alts ids) /\ choices_by_tag_comps (null_alts ids) /\ safe_comps (null_alts ids).
Proof.
  intros H1 H2 H3. split; [destruct ids; [congruence|discriminate]|]. split.
  - clear H1 H2. induction ids as [|[c t] ids IH]; cbn; [exact I|]. split; [split; [apply (H3 c t); left; reflexivity|exact I]|]. apply IH. intros c' t' H. apply H3. right. exact H.
  - split; [clear; induction ids as [|[c t] ids IH]; cbn; auto|]. split; [apply nodup_all; rewrite null_ids; exact H2|].
    split; [clear; induction ids as [|[c t] ids IH]; cbn; auto|]. split; clear; induction ids as [|[c t] ids IH]; cbn; auto.
Qed.
Lemma wf_null : wf_ty null_t.
Proof. cbn. split; [lia|exact I]. Qed.
Section good.
  Variable env : defs.
  Variable K : nat.
  Hypothesis G : good_defs env K.
  (** what is put for the names *)
  Record fine (f : nat -> ty) : Prop := {
    fi_good : forall x, good_schema (f x);
    fi_ids : forall x, type_ids (f x) = node_ids (env x);
    fi_root : forall x, rooted (env x) (f x) }.
  Lemma good_retag f o x : fine f -> match o with Some i => wf_ident i | None => True end -> good_schema (retag o (f x)).
  Proof.
    intros F Ho. destruct o as [i|]; [|apply F]. pose proof (fi_root f F x) as Hr. destruct (fi_good f F x) as (H1 & H2 & H3 & H4).
    destruct (env x), (f x); cbn in Hr; try tauto; cbn [retag]; (split; [|split; [|split]]); cbn in *; tauto.
  Qed.
  Lemma subst_rids f r : fine f -> type_ids (subst f r) = rids env r.
  Proof.
    intros F. destruct r as [k i|i r|i cs|i ext cs|g [i|] cs|[i|] x]; cbn [subst rids node_ids type_ids retag]; try reflexivity.
    - apply skeleton_ids.
    - destruct (f x); reflexivity.
    - apply F.
  Qed.
  Lemma good_subst f r : fine f -> rgood env r -> good_schema (subst f r).
  Proof.
    intros F. apply (rty_rcomps_ind (fun r => rgood env r -> good_schema (subst f r))
      (fun cs => rgood_comps env cs -> wf_comps (subst_comps f cs) /\ labelled_comps (subst_comps f cs) /\ unambiguous_comps (subst_comps f cs) /\ choices_by_tag_comps (subst_comps f cs))); clear r.
    - intros k i H. split; [exact H|]. cbn. auto.
    - intros i r IH [Hi Hr]. destruct (IH Hr) as (H1 & H2 & H3 & H4). split; [|split; [|split]]; cbn; auto.
    - intros i cs IH (Hi & Hd & Hc). destruct (IH Hc) as (H1 & H2 & H3 & H4). split; [|split; [|split]]; cbn; auto. split; [apply skeleton_seq, Hd|exact H3].
    - intros i ext cs IH (Hi & Hd & Hc). destruct (IH Hc) as (H1 & H2 & H3 & H4). split; [|split; [|split]]; cbn; auto. split; [apply skeleton_all, Hd|exact H3].
    - intros g o cs IH (Hi & (Hn & Hd & _) & Ht & Hc). destruct (IH Hc) as (H1 & H2 & H3 & H4). split; [|split; [|split]]; cbn; auto.
      + split; [exact Hi|]. split; [|exact H1]. intros E. apply Hn. rewrite <- (skeleton_ids f). rewrite E. reflexivity.
      + split; [|exact H3]. apply nodup_all. rewrite skeleton_ids. exact Hd.
      + split; [|exact H4]. destruct Ht as [Ht|Ht]; [auto|]. right. unfold tags_distinct in *. rewrite skeleton_ids. exact Ht.
    - intros o x H. apply good_retag; [exact F|exact H].
    - cbn. auto.
    - intros k ids r IHr cs IHc (E & Hr & Hc). destruct (IHr Hr) as (H1 & H2 & H3 & H4). destruct (IHc Hc) as (C1 & C2 & C3 & C4). cbn. rewrite (subst_rids f r F). auto 10.
  Qed.
  Lemma fine_bottom : fine (bot env).
  Proof.
    constructor; intros x; unfold bot; pose proof (gd_structured env K G x) as S; pose proof (gd_good env K G x) as R; destruct (env x) as [k i|i r|i cs|i ext cs|g o cs|o y]; cbn in S; try contradiction; cbn [bottom].
    - destruct R as [Hi _]. split; [split; [exact Hi|apply wf_null]|]. cbn. auto.
    - destruct R as [Hi _]. split; [split; [exact Hi|exact I]|]. cbn. auto.
    - destruct R as [Hi _]. split; [split; [exact Hi|exact I]|]. cbn. auto.
    - cbn [rgood] in R. destruct R as (Hi & (H1 & H2 & H3) & _). destruct (null_good _ H1 H2 H3) as (N1 & N2 & N3 & N4 & N5 & N6 & _).
      split; [split; [exact Hi|split; assumption]|]. split; [exact N3|]. split; [split; assumption|]. split; [left; reflexivity|exact N6].
    - reflexivity.
    - reflexivity.
    - reflexivity.
    - destruct o; cbn; [reflexivity|apply null_ids].
    - exact I.
    - exact I.
    - exact I.
    - reflexivity.
  Qed.
  Lemma fine_level n : fine (level env (bot env) n).
  Proof.
    induction n as [|n IH]; [exact fine_bottom|]. constructor; intros x; cbn [level].
    - apply good_subst; [exact IH|apply G].
    - rewrite subst_rids by exact IH. pose proof (gd_structured env K G x) as S. destruct (env x); cbn in S; try contradiction; reflexivity.
    - pose proof (gd_structured env K G x) as S. destruct (env x); cbn in S; try contradiction; cbn; auto.
  Qed.
  Lemma good_unfolding n r : rgood env r -> good_schema (unfolding env (bot env) n r).
  Proof. apply good_subst, fine_level. Qed.
  (** safety *)
  Lemma guarded_subst f r : (forall x, node_guarded (env x) -> guarded (f x)) -> rguarded env r -> guarded (subst f r).
  Proof.
    intros F H. destruct r as [k i|i r|i cs|i ext cs|g o cs|o x]; cbn in *; auto; try (destruct g, o; exact H).
    destruct o as [i|]; cbn; [destruct (f x) as [| | | |g' o' cs']; try exact I; destruct g'; exact I|apply F, H].
  Qed.
  Lemma safe_retag o t : safe t -> safe (retag o t).
  Proof. destruct o; [|auto]. destruct t; cbn; auto. Qed.
  Lemma safe_subst f r : (forall x, safe (f x)) -> (forall x, node_guarded (env x) -> guarded (f x)) -> rsafe env r -> safe (subst f r).
  Proof.
    intros F1 F2. apply (rty_rcomps_ind (fun r => rsafe env r -> safe (subst f r))
      (fun cs => forall b, rsafe_comps env b cs -> safe_comps (subst_comps f cs) /\ (b = true -> guarded_comps (subst_comps f cs)))); clear r.
    - cbn. auto.
    - cbn. auto.
    - intros i cs IH H. destruct (IH true H). split; auto.
    - intros i ext cs IH H. apply (IH false H).
    - intros g o cs IH H. apply (IH false H).
    - intros o x _. apply safe_retag, F1.
    - cbn. auto.
    - intros k ids r IHr cs IHc b (Hg & Hr & Hc). destruct (IHc b Hc) as [C1 C2]. cbn. split; [auto|]. intros ->. split; [|auto]. intros Hk. apply guarded_subst; auto.
  Qed.
  Hypothesis Hs : forall x, rsafe env (env x).
  Lemma guarded_level n x : node_guarded (env x) -> guarded (level env (bot env) n x).
  Proof.
    intros H. pose proof (gd_structured env K G x) as S. destruct n as [|n]; cbn [level]; [unfold bot|];
      destruct (env x) as [| | | |g [o|] cs|]; cbn in *; try exact I; try contradiction; destruct g; auto.
  Qed.
  Lemma safe_level n : forall x, safe (level env (bot env) n x).
  Proof.
    induction n as [|n IH]; intros x; cbn [level].
    - unfold bot. pose proof (gd_good env K G x) as R. destruct (env x) as [| | | |g o cs|]; cbn; auto. cbn [rgood] in R. destruct R as (Hi & (H1 & H2 & H3) & _).
      apply (null_good _ H1 H2 H3).
    - apply safe_subst; [exact IH|intros y; apply guarded_level|apply Hs].
  Qed.
  Lemma safe_unfolding n r : rsafe env r -> safe (unfolding env (bot env) n r).
  Proof. apply safe_subst; [apply safe_level|intros y; apply guarded_level]. Qed.
  Lemma guarded_unfolding n r : rguarded env r -> guarded (unfolding env (bot env) n r).
  Proof. apply guarded_subst. intros y; apply guarded_level. Qed.
End good.
