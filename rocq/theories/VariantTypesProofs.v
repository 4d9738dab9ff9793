(** Proofs for C134. *)
From Coq Require Import List Arith Bool Lia.
From Verif Require Import Dynamic VariantTypes VariantTypesSpec.
Import ListNotations.

Section Proofs.
Context {T : Type} (same_type : T -> T -> bool) (same_type_spec : forall a b, same_type a b = true <-> a = b).

Lemma same_refl : forall a, same_type a a = true. Proof. intros. now apply same_type_spec. Qed.
Lemma type_at_nth : forall (types : list T) i, type_at_index i types = nth_error types i.
Proof. induction types as [|t types IH]; intros [|i]; cbn; auto. Qed.
Lemma index_of_le : forall t types, index_of same_type t types <= length types.
Proof. intros t types. induction types as [|u types IH]; cbn; [lia|]. destruct (same_type t u); lia. Qed.
Lemma index_of_in : forall t types, In t types -> nth_error types (index_of same_type t types) = Some t.
Proof.
  intros t types. induction types as [|u types IH]; cbn; [easy|]. intros H. destruct (same_type t u) eqn:E.
  - apply same_type_spec in E. now subst.
  - destruct H as [-> | H]; [rewrite same_refl in E; discriminate|]. rewrite Nat.add_1_r. cbn. auto.
Qed.
Lemma index_of_first : forall t types j, nth_error types j = Some t -> index_of same_type t types <= j.
Proof.
  intros t types. induction types as [|u types IH]; intros [|j] H; cbn in *; try discriminate.
  - injection H as ->. rewrite same_refl. lia.
  - destruct (same_type t u); [lia|]. specialize (IH _ H). lia.
Qed.
Lemma index_of_out : forall t types, ~ In t types -> index_of same_type t types = length types.
Proof.
  intros t types. induction types as [|u types IH]; cbn; [easy|]. intros H. destruct (same_type t u) eqn:E.
  - apply same_type_spec in E. subst. tauto.
  - rewrite IH by tauto. lia.
Qed.
Lemma count_zero : forall t types, tuple_count same_type t types = 0 <-> ~ In t types.
Proof.
  intros t types. induction types as [|u types IH]; cbn; [tauto|]. destruct (same_type t u) eqn:E.
  - apply same_type_spec in E. subst. split; [lia|tauto].
  - rewrite Nat.add_0_r, IH. assert (u <> t) by (intros ->; rewrite same_refl in E; discriminate). tauto.
Qed.
Lemma exactly_once_spec : forall t types, exactly_once same_type t types = true <-> only_at t types (index_of same_type t types).
Proof.
  intros t types. unfold exactly_once. rewrite Nat.eqb_eq. induction types as [|u types IH]; cbn.
  - split; [lia|]. intros H. specialize (H 0). cbn in H. destruct H as (_ & H). discriminate (H eq_refl).
  - destruct (same_type t u) eqn:E.
    + apply same_type_spec in E. subst u. rewrite Nat.add_1_r. split.
      * intros H. assert (Hz : tuple_count same_type t types = 0) by lia. apply count_zero in Hz. intros [|j]; cbn; [tauto|]. split; [|discriminate]. intros Hj. apply nth_error_In in Hj. contradiction.
      * intros H. f_equal. apply count_zero. intros Hin. apply In_nth_error in Hin as (j & Hj). specialize (H (S j)). cbn in H. apply H in Hj. discriminate.
    + assert (Hne : u <> t) by (intros ->; rewrite same_refl in E; discriminate). rewrite Nat.add_0_r, IH, Nat.add_1_r. unfold only_at. split; intros H j.
      * destruct j as [|j]; cbn; [split; [congruence|discriminate]|]. rewrite H. split; congruence.
      * specialize (H (S j)). cbn in H. rewrite H. split; congruence.
Qed.
Lemma only_at_index : forall t types i, only_at t types i -> index_of same_type t types = i.
Proof. intros t types i H. apply H. apply index_of_in. eapply nth_error_In, H, eq_refl. Qed.
Lemma only_at_exactly_once : forall t types i, only_at t types i <-> exactly_once same_type t types = true /\ index_of same_type t types = i.
Proof.
  intros t types i. split.
  - intros H. pose proof (only_at_index _ _ _ H) as E. rewrite exactly_once_spec, E. auto.
  - intros (H & <-). now apply exactly_once_spec.
Qed.

Section Conversion.
Variable conversion : T -> T -> option nat.
Local Notation resolve := (resolve conversion).
(** The best of the alternatives seen, and another as good if there is a tie. *)
Definition seen (a : T) (pre : list T) (best : option nat) (which : nat) (tie : bool) : Prop :=
  match best with
  | None => forall h, In h pre -> conversion a h = None
  | Some r => which < length pre /\ (exists h, nth_error pre which = Some h /\ conversion a h = Some r) /\
      (forall j h r', nth_error pre j = Some h -> conversion a h = Some r' -> r <= r') /\
      (tie = true -> exists j h, j <> which /\ nth_error pre j = Some h /\ conversion a h = Some r) /\
      (tie = false -> forall j h r', j <> which -> nth_error pre j = Some h -> conversion a h = Some r' -> r < r')
  end.
Lemma nth_snoc : forall (pre : list T) h j x, nth_error (pre ++ [h]) j = Some x -> (j < length pre /\ nth_error pre j = Some x) \/ (j = length pre /\ x = h).
Proof.
  intros pre h j x H. destruct (Nat.lt_ge_cases j (length pre)) as [L | L].
  - rewrite nth_error_app1 in H by auto. auto.
  - rewrite nth_error_app2 in H by auto. destruct (j - length pre) as [|d] eqn:E; cbn in H; [injection H as <-; right; split; [lia|auto]|destruct d; discriminate].
Qed.
Lemma nth_last : forall (pre : list T) h, nth_error (pre ++ [h]) (length pre) = Some h.
Proof. intros. rewrite nth_error_app2, Nat.sub_diag; auto. Qed.
Lemma nth_pre : forall (pre : list T) h j x, nth_error pre j = Some x -> nth_error (pre ++ [h]) j = Some x.
Proof. intros pre h j x H. rewrite nth_error_app1; auto. apply nth_error_Some. congruence. Qed.

Lemma resolve_spec : forall a types pre best which tie, seen a pre best which tie ->
  forall i, resolve a types (length pre) best which tie = Some i <-> best_match conversion a (pre ++ types) i.
Proof.
  intros a types. induction types as [|h types IH]; intros pre best which tie Hs i; cbn [VariantTypes.resolve].
  - rewrite app_nil_r. unfold best_match. destruct best as [r|]; cbn in Hs.
    + destruct Hs as (Hw & (h & Hh & Hr) & Hmin & Ht & Hnt). destruct tie.
      * split; [discriminate|]. intros (h' & r' & Hi & Hr' & Hb). destruct (Ht eq_refl) as (j & h2 & Hj & Hh2 & Hr2). exfalso.
        destruct (Nat.eq_dec i which) as [-> | Hne].
        { specialize (Hb _ _ _ Hj Hh2 Hr2). assert (r' = r) by congruence. lia. }
        { specialize (Hb which _ _ (fun e => Hne (eq_sym e)) Hh Hr). specialize (Hmin _ _ _ Hi Hr'). lia. }
      * split.
        { intros [= <-]. exists h, r. repeat split; eauto. }
        { intros (h' & r' & Hi & Hr' & Hb). f_equal. destruct (Nat.eq_dec which i) as [E | Hne]; [auto|]. specialize (Hb _ _ _ Hne Hh Hr). specialize (Hmin _ _ _ Hi Hr'). lia. }
    + split; [discriminate|]. intros (h' & r' & Hi & Hr' & _). apply nth_error_In in Hi. rewrite (Hs _ Hi) in Hr'. discriminate.
  - replace (pre ++ h :: types) with ((pre ++ [h]) ++ types) by (rewrite <- app_assoc; reflexivity).
    assert (Hl : S (length pre) = length (pre ++ [h])) by (rewrite app_length; cbn; lia). rewrite Hl.
    destruct (better (conversion a h) best) eqn:E1; [|destruct (better best (conversion a h)) eqn:E2].
    + apply IH. destruct (conversion a h) as [r|] eqn:Er; [|discriminate]. cbn. rewrite app_length. cbn. split; [lia|]. split; [exists h; split; [apply nth_last|exact Er]|].
      assert (Hlt : forall j h' r', nth_error pre j = Some h' -> conversion a h' = Some r' -> r < r').
      { intros j h' r' Hj Hr'. destruct best as [b|]; cbn in Hs, E1.
        - apply Nat.ltb_lt in E1. destruct Hs as (_ & _ & Hmin & _). specialize (Hmin _ _ _ Hj Hr'). lia.
        - apply nth_error_In in Hj. rewrite (Hs _ Hj) in Hr'. discriminate. }
      split; [|split; [discriminate|]].
      * intros j h' r' Hj Hr'. apply nth_snoc in Hj as [(_ & Hj) | (-> & ->)]; [specialize (Hlt _ _ _ Hj Hr'); lia|]. assert (r' = r) by congruence. lia.
      * intros _ j h' r' Hne Hj Hr'. apply nth_snoc in Hj as [(_ & Hj) | (-> & ->)]; [eauto|easy].
    + apply IH. destruct best as [b|]; [|discriminate]. cbn in Hs |- *. destruct Hs as (Hw & (h0 & Hh0 & Hr0) & Hmin & Ht & Hnt). rewrite app_length. cbn.
      assert (Hb : forall r', conversion a h = Some r' -> b < r') by (intros r' Hr'; rewrite Hr' in E2; cbn in E2; now apply Nat.ltb_lt in E2).
      split; [lia|]. split; [exists h0; split; [now apply nth_pre|auto]|]. split; [|split].
      * intros j h' r' Hj Hr'. apply nth_snoc in Hj as [(_ & Hj) | (-> & ->)]; [eauto|]. specialize (Hb _ Hr'). lia.
      * intros Et. destruct (Ht Et) as (j & h2 & Hj & Hh2 & Hr2). exists j, h2. split; [auto|]. split; [now apply nth_pre|auto].
      * intros Et j h' r' Hne Hj Hr'. apply nth_snoc in Hj as [(_ & Hj) | (-> & ->)]; eauto.
    + apply IH. destruct best as [b|]; cbn in Hs |- *.
      * destruct (conversion a h) as [r|] eqn:Er; [|discriminate]. cbn in E1, E2. apply Nat.ltb_ge in E1, E2. assert (r = b) by lia. subst r.
        destruct Hs as (Hw & (h0 & Hh0 & Hr0) & Hmin & Ht & Hnt). rewrite app_length. cbn. split; [lia|]. split; [exists h0; split; [now apply nth_pre|auto]|]. split; [|split; [|discriminate]].
        { intros j h' r' Hj Hr'. apply nth_snoc in Hj as [(_ & Hj) | (-> & ->)]; [eauto|]. assert (r' = b) by congruence. lia. }
        { intros _. exists (length pre), h. split; [lia|]. split; [apply nth_last|auto]. }
      * destruct (conversion a h) as [r|] eqn:Er; [discriminate|]. intros h' Hin. apply in_app_or in Hin as [Hin | [<- | []]]; auto.
Qed.
Lemma accepted_index_spec : forall a types i, accepted_index conversion a types = Some i <-> best_match conversion a types i.
Proof. intros. apply (resolve_spec a types [] None 0 false). intros h []. Qed.
Lemma accepted_index_lt : forall a types i, accepted_index conversion a types = Some i -> exists h, nth_error types i = Some h.
Proof. intros a types i H. apply accepted_index_spec in H as (h & r & H & _). eauto. Qed.
End Conversion.

Section Access.
Context {V : Type}.
Lemma value_as_object : forall types (h : heap V) o t v, has_object types h o t v -> exists c, value_as same_type t types h o = Fine c /\ c_val c = v /\ o_index o = Some (c_alt c).
Proof.
  intros types h o t v (i & a & n & -> & Hc & Ht). exists (Cell i v n). unfold value_as. cbn. unfold read. rewrite Hc. cbn. rewrite type_at_nth, Ht, same_refl. auto.
Qed.
Lemma get_index_object : forall types (h : heap V) o t v, has_object types h o t v -> exists i c, o_index o = Some i /\ get_index same_type i types h o = Fine (Gives c) /\ c_val c = v /\ c_alt c = i.
Proof.
  intros types h o t v H. destruct (value_as_object _ _ _ _ _ H) as (c & Hc & Hv & Hi). exists (c_alt c), c. split; [auto|]. unfold get_index. rewrite Hi, Nat.eqb_refl, type_at_nth.
  destruct H as (i & a & n & -> & _ & Ht). cbn in Hi. injection Hi as <-. cbn [negb]. rewrite Ht, Hc. auto.
Qed.
Lemma visit_impl_object : forall R (vis : nat -> cell V -> R) types h o t v, has_object types h o t v ->
  forall more index, (forall i, o_index o = Some i -> index <= i < index + more) ->
  exists i c, o_index o = Some i /\ visit_impl same_type vis types h o index more = Fine (Gives (vis i c)) /\ c_val c = v /\ c_alt c = i.
Proof.
  intros R vis types h o t v H more index Hr. destruct (get_index_object _ _ _ _ _ H) as (i & c & Hi & Hg & Hv & Ha). exists i, c. split; [exact Hi|]. split; [|auto].
  specialize (Hr _ Hi). revert index Hr. induction more as [|more IH]; intros index Hr; [lia|]. cbn [visit_impl]. rewrite Hi. destruct (Nat.eqb index i) eqn:E.
  - apply Nat.eqb_eq in E. subst index. rewrite Hg. reflexivity.
  - apply Nat.eqb_neq in E. apply IH. lia.
Qed.
Lemma visit_impl_none : forall R (vis : nat -> cell V -> R) types h o, o_index o = None -> forall more index, visit_impl same_type vis types h o index more = Fine Throws.
Proof. intros R vis types h o H more. induction more as [|more IH]; intros index; cbn [visit_impl]; [auto|]. rewrite H. apply IH. Qed.
End Access.
End Proofs.
