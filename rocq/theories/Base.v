(** Base: byte lists indexed by Z, machine arithmetic, outcomes.
    Nothing here models a particular /repo function; these are the basic notions all model files share. *)
From Coq Require Export ZArith List Bool Lia ZifyBool.
Export ListNotations.
Global Open Scope Z_scope.

(** Outcome of a C++ computation.  [UB]: undefined behaviour (out-of-bounds access, null dereference, signed
    overflow).  [NoFuel]: the loop bound given to the model was exhausted; a computation that is [NoFuel] for every
    bound does not terminate. *)
Inductive res (A : Type) : Type := Ok (a : A) | UB | NoFuel.
Arguments Ok {A} a. Arguments UB {A}. Arguments NoFuel {A}.

Definition bind {A B} (m : res A) (k : A -> res B) : res B :=
  match m with Ok a => k a | UB => UB | NoFuel => NoFuel end.
Notation "'let*' x ':=' m 'in' k" := (bind m (fun x => k))
  (at level 200, x pattern, m at level 100, k at level 200, right associativity).

(** A byte is a Z in [0,256). *)
Definition wf_byte (b : Z) : Prop := 0 <= b < 256.
Definition bytes (l : list Z) : Prop := Forall wf_byte l.

(** size_t arithmetic: 64 bit. *)
Definition u64 (x : Z) : Z := x mod 2^64.
Definition in_u64 (x : Z) : Prop := 0 <= x < 2^64.
Definition in_i64 (x : Z) : Prop := - 2^63 <= x < 2^63.
Definition in_i64b (x : Z) : bool := (- 2^63 <=? x) && (x <? 2^63).

(** Lengths, prefixes, suffixes, updates with Z indices. *)
Definition zlen {A} (l : list A) : Z := Z.of_nat (length l).
Definition ztake {A} (n : Z) (l : list A) : list A := firstn (Z.to_nat n) l.
Definition zdrop {A} (n : Z) (l : list A) : list A := skipn (Z.to_nat n) l.
Definition zrep {A} (n : Z) (x : A) : list A := repeat x (Z.to_nat n).

(** Reading one element; out of bounds is undefined behaviour. *)
Definition zget (l : list Z) (i : Z) : res Z :=
  if (0 <=? i) && (i <? zlen l)
  then match nth_error l (Z.to_nat i) with Some x => Ok x | None => UB end
  else UB.

(** memcpy / memmove of [bs] to offset [off] of [buf]; out of bounds is undefined behaviour. *)
Definition poke (buf : list Z) (off : Z) (bs : list Z) : list Z :=
  ztake off buf ++ bs ++ zdrop (off + zlen bs) buf.
Definition mem_write (buf : list Z) (off : Z) (bs : list Z) : res (list Z) :=
  if (0 <=? off) && (off + zlen bs <=? zlen buf) then Ok (poke buf off bs) else UB.
(** Reading [n] bytes at offset [off]. *)
Definition mem_read (buf : list Z) (off n : Z) : res (list Z) :=
  if (0 <=? off) && (0 <=? n) && (off + n <=? zlen buf) then Ok (ztake n (zdrop off buf)) else UB.

(** * Lemmas *)
Lemma zlen_nonneg {A} (l : list A) : 0 <= zlen l. Proof. unfold zlen; lia. Qed.
Lemma zlen_nil {A} : zlen (@nil A) = 0. Proof. reflexivity. Qed.
Lemma zlen_cons {A} (x : A) l : zlen (x :: l) = 1 + zlen l.
Proof. unfold zlen; cbn [length]; lia. Qed.
Lemma zlen_app {A} (l m : list A) : zlen (l ++ m) = zlen l + zlen m.
Proof. unfold zlen; rewrite app_length; lia. Qed.
Lemma zlen_rev {A} (l : list A) : zlen (rev l) = zlen l.
Proof. unfold zlen; rewrite rev_length; lia. Qed.
Lemma zlen_map {A B} (f : A -> B) l : zlen (map f l) = zlen l.
Proof. unfold zlen; rewrite map_length; lia. Qed.
Lemma zlen_zrep {A} n (x : A) : 0 <= n -> zlen (zrep n x) = n.
Proof. intros; unfold zlen, zrep; rewrite repeat_length; lia. Qed.
Lemma zlen_ztake {A} n (l : list A) : 0 <= n <= zlen l -> zlen (ztake n l) = n.
Proof. unfold zlen, ztake; intros; rewrite firstn_length; lia. Qed.
Lemma zlen_ztake_min {A} n (l : list A) : 0 <= n -> zlen (ztake n l) = Z.min n (zlen l).
Proof. unfold zlen, ztake; intros; rewrite firstn_length; lia. Qed.
Lemma zlen_zdrop {A} n (l : list A) : 0 <= n <= zlen l -> zlen (zdrop n l) = zlen l - n.
Proof. unfold zlen, zdrop; intros; rewrite skipn_length; lia. Qed.
Lemma zlen_zdrop_max {A} n (l : list A) : 0 <= n -> zlen (zdrop n l) = Z.max 0 (zlen l - n).
Proof. unfold zlen, zdrop; intros; rewrite skipn_length; lia. Qed.
Lemma ztake_0 {A} (l : list A) : ztake 0 l = []. Proof. reflexivity. Qed.
Lemma zdrop_0 {A} (l : list A) : zdrop 0 l = l. Proof. reflexivity. Qed.
Lemma ztake_neg {A} n (l : list A) : n <= 0 -> ztake n l = [].
Proof. intros; unfold ztake; replace (Z.to_nat n) with 0%nat by lia; reflexivity. Qed.
Lemma ztake_all {A} n (l : list A) : zlen l <= n -> ztake n l = l.
Proof. unfold zlen, ztake; intros; apply firstn_all2; lia. Qed.
Lemma zdrop_all {A} n (l : list A) : zlen l <= n -> zdrop n l = [].
Proof. unfold zlen, zdrop; intros; apply skipn_all2; lia. Qed.
Lemma zdrop_cons {A} n (x : A) l : 0 < n -> zdrop n (x :: l) = zdrop (n - 1) l.
Proof. intros; unfold zdrop; replace (Z.to_nat n) with (S (Z.to_nat (n - 1))) by lia; reflexivity. Qed.
Lemma ztake_cons {A} n (x : A) l : 0 < n -> ztake n (x :: l) = x :: ztake (n - 1) l.
Proof. intros; unfold ztake; replace (Z.to_nat n) with (S (Z.to_nat (n - 1))) by lia; reflexivity. Qed.
Lemma ztake_zdrop {A} n (l : list A) : ztake n l ++ zdrop n l = l.
Proof. apply firstn_skipn. Qed.
Lemma ztake_app_exact {A} n (l m : list A) : n = zlen l -> ztake n (l ++ m) = l.
Proof.
  intros ->; unfold ztake, zlen; rewrite Nat2Z.id, firstn_app, Nat.sub_diag, firstn_all.
  cbn; apply app_nil_r.
Qed.
Lemma zdrop_app_exact {A} n (l m : list A) : n = zlen l -> zdrop n (l ++ m) = m.
Proof.
  intros ->; unfold zdrop, zlen; rewrite Nat2Z.id, skipn_app, Nat.sub_diag, skipn_all; reflexivity.
Qed.
Lemma ztake_app_le {A} n (l m : list A) : n <= zlen l -> ztake n (l ++ m) = ztake n l.
Proof.
  unfold zlen, ztake; intros; rewrite firstn_app.
  replace (Z.to_nat n - length l)%nat with 0%nat by lia; cbn; apply app_nil_r.
Qed.
Lemma zdrop_app_le {A} n (l m : list A) : n <= zlen l -> zdrop n (l ++ m) = zdrop n l ++ m.
Proof.
  unfold zlen, zdrop; intros; rewrite skipn_app.
  replace (Z.to_nat n - length l)%nat with 0%nat by lia; reflexivity.
Qed.
Lemma ztake_app_ge {A} n (l m : list A) : zlen l <= n -> ztake n (l ++ m) = l ++ ztake (n - zlen l) m.
Proof.
  unfold zlen, ztake; intros; rewrite firstn_app, firstn_all2 by lia.
  f_equal; f_equal; lia.
Qed.
Lemma zdrop_app_ge {A} n (l m : list A) : zlen l <= n -> zdrop n (l ++ m) = zdrop (n - zlen l) m.
Proof.
  unfold zlen, zdrop; intros; rewrite skipn_app, skipn_all2 by lia.
  cbn [app]; f_equal; lia.
Qed.
Lemma skipn_skipn' {A} (l : list A) a b : skipn a (skipn b l) = skipn (b + a) l.
Proof. revert l; induction b as [|b IH]; intros [|x l]; cbn; auto using skipn_nil. Qed.
Lemma zdrop_zdrop {A} a b (l : list A) : 0 <= a -> 0 <= b -> zdrop a (zdrop b l) = zdrop (b + a) l.
Proof. unfold zdrop; intros; rewrite skipn_skipn'; f_equal; lia. Qed.
Lemma ztake_ztake {A} a b (l : list A) : 0 <= a <= b -> ztake a (ztake b l) = ztake a l.
Proof. unfold ztake; intros; rewrite firstn_firstn; f_equal; lia. Qed.
Lemma ztake_zdrop_comm {A} a b (l : list A) : 0 <= a -> 0 <= b -> zdrop a (ztake (a + b) l) = ztake b (zdrop a l).
Proof.
  unfold ztake, zdrop; intros; rewrite firstn_skipn_comm; f_equal; f_equal; lia.
Qed.
Lemma ztake_len_eq {A} (l m : list A) : ztake (zlen l) (l ++ m) = l.
Proof. apply ztake_app_exact; reflexivity. Qed.
Lemma zdrop_len_eq {A} (l m : list A) : zdrop (zlen l) (l ++ m) = m.
Proof. apply zdrop_app_exact; reflexivity. Qed.
Lemma zlen_0_nil {A} (l : list A) : zlen l = 0 -> l = [].
Proof. destruct l; [reflexivity|]; rewrite zlen_cons; pose proof (zlen_nonneg l); lia. Qed.
Lemma zlen_pos_cons {A} (l : list A) : 0 < zlen l -> exists x m, l = x :: m.
Proof. destruct l; [cbn; lia|]; eauto. Qed.

Lemma cons_inj {A} (x y : A) l m : x :: l = y :: m -> x = y /\ l = m.
Proof. intros H; inversion H; auto. Qed.
Lemma app_eq_len {A} (l1 l2 r1 r2 : list A) : zlen l1 = zlen l2 -> l1 ++ r1 = l2 ++ r2 -> l1 = l2 /\ r1 = r2.
Proof.
  intros Hl E. assert (l1 = l2) as ->.
  { rewrite <- (ztake_len_eq l1 r1), <- (ztake_len_eq l2 r2), Hl, E; reflexivity. }
  split; [reflexivity|]. eapply app_inv_head; eauto.
Qed.

Lemma bytes_app l m : bytes (l ++ m) <-> bytes l /\ bytes m.
Proof. apply Forall_app. Qed.
Lemma bytes_cons b l : bytes (b :: l) <-> wf_byte b /\ bytes l.
Proof. split; [intros H; inversion H; auto | intros [? ?]; constructor; auto]. Qed.
Lemma bytes_nil : bytes []. Proof. constructor. Qed.
Lemma bytes_ztake n l : bytes l -> bytes (ztake n l).
Proof. intros H. rewrite <- (ztake_zdrop n l) in H. apply bytes_app in H; tauto. Qed.
Lemma bytes_zdrop n l : bytes l -> bytes (zdrop n l).
Proof. intros H. rewrite <- (ztake_zdrop n l) in H. apply bytes_app in H; tauto. Qed.
Lemma bytes_rev l : bytes l -> bytes (rev l).
Proof. apply Forall_rev. Qed.
Lemma bytes_zrep n : bytes (zrep n 0).
Proof. apply Forall_forall; intros x Hx; apply repeat_spec in Hx; subst; split; lia. Qed.

Lemma mem_write_ok buf off bs :
  0 <= off -> off + zlen bs <= zlen buf -> mem_write buf off bs = Ok (poke buf off bs).
Proof. intros; unfold mem_write; replace (_ && _) with true by lia; reflexivity. Qed.
Lemma mem_read_ok buf off n :
  0 <= off -> 0 <= n -> off + n <= zlen buf -> mem_read buf off n = Ok (ztake n (zdrop off buf)).
Proof. intros; unfold mem_read; replace (_ && _ && _) with true by lia; reflexivity. Qed.
Lemma zlen_poke buf off bs : 0 <= off -> off + zlen bs <= zlen buf -> zlen (poke buf off bs) = zlen buf.
Proof.
  intros; unfold poke; pose proof (zlen_nonneg bs).
  rewrite !zlen_app, zlen_ztake, zlen_zdrop by lia; lia.
Qed.
Lemma poke_0 buf bs : poke buf 0 bs = bs ++ zdrop (zlen bs) buf.
Proof. reflexivity. Qed.
Lemma bytes_poke buf off bs : bytes buf -> bytes bs -> bytes (poke buf off bs).
Proof. intros; unfold poke; rewrite !bytes_app; auto using bytes_ztake, bytes_zdrop. Qed.

(** Case analysis over all bytes: a boolean fact checked on 0..255 holds of every byte. *)
Definition all_bytes : list Z := map Z.of_nat (seq 0 256).
Lemma byte_sweep (f : Z -> bool) : forallb f all_bytes = true -> forall b, wf_byte b -> f b = true.
Proof.
  intros H b [Hl Hu]; rewrite forallb_forall in H; apply H.
  unfold all_bytes; apply in_map_iff; exists (Z.to_nat b); split; [lia|].
  apply in_seq; lia.
Qed.

Ltac znorm :=
  rewrite ?zlen_app, ?zlen_cons, ?zlen_nil, ?zlen_rev, ?zlen_map in *.

Ltac bytes_lit := cbn; repeat (apply bytes_cons; split; [split; lia|]); apply bytes_nil.
