(** get_object_class_names: it ends, and what it finds. *)
From Verif Require Import Base CompilerPasses PassesSpec PassesProofs PassParams PassClass.
Local Open Scope string_scope.
Local Open Scope list_scope.

Definition candidates (tr : ptree) : list string := flat_map (fun m => map (qualified (pm_name m)) (map p_name (pm_assigns m) ++ flat_map snd (pm_imports m))) tr.
Lemma candidates_length tr : length (candidates tr) = length (flat_map (fun m => map p_name (pm_assigns m) ++ flat_map snd (pm_imports m)) tr).
Proof. unfold candidates. induction tr as [|m tr IH]; [reflexivity|]. cbn. rewrite !app_length, map_length, IH, !app_length. reflexivity. Qed.
Lemma add_nodup x s : NoDup s -> NoDup (add x s).
Proof. intros H. unfold add. destruct (mem x s) eqn:E; [exact H|]. constructor; [|exact H]. intros Hin. apply mem_in in Hin. congruence. Qed.
Lemma add_incl x s : incl s (add x s).
Proof. intros y Hy. apply add_in. auto. Qed.
(** ** loops *)
Lemma ofold_step {A S} (R : S -> S -> Prop) (f : S -> A -> out S) : (forall s, R s s) -> (forall a b c, R a b -> R b c -> R a c) -> forall l,
  (forall x s s', In x l -> f s x = Done s' -> R s s') ->
  forall s s', ofold f l s = Done s' -> R s s' /\ forall x, In x l -> exists s1 s2, R s s1 /\ f s1 x = Done s2 /\ R s2 s'.
Proof.
  intros Rr Rt. induction l as [|x l IH]; intros Hf s s' H; [injection H as <-; split; [apply Rr|intros x []]|]. cbn in H.
  destruct (f s x) as [s1| | |] eqn:E; cbn in H; try discriminate. fold (ofold f l s1) in H. pose proof (Hf x s s1 (or_introl eq_refl) E) as R1.
  destruct (IH (fun y s s' Hy => Hf y s s' (or_intror Hy)) s1 s' H) as [R2 K]. split; [eapply Rt; eauto|].
  intros y [<-|Hy]; [exists s, s1; auto|]. destruct (K y Hy) as (a & b & K1 & K2 & K3). exists a, b. split; [eapply Rt; eauto|auto].
Qed.
Lemma fold_step {A S} (R : S -> S -> Prop) (f : S -> A -> S) : (forall s, R s s) -> (forall a b c, R a b -> R b c -> R a c) -> forall l,
  (forall x s, In x l -> R s (f s x)) -> forall s, R s (fold_left f l s) /\ forall x, In x l -> exists s1, R s s1 /\ R (f s1 x) (fold_left f l s).
Proof.
  intros Rr Rt. induction l as [|x l IH]; intros Hf s; [split; [apply Rr|intros x []]|]. cbn. pose proof (Hf x s (or_introl eq_refl)) as R1.
  destruct (IH (fun y s Hy => Hf y s (or_intror Hy)) (f s x)) as [R2 K]. split; [eapply Rt; eauto|].
  intros y [<-|Hy]; [exists s; auto|]. destruct (K y Hy) as (a & K1 & K2). exists a. split; [eapply Rt; eauto|auto].
Qed.
Section rounds.
  Context (tr : ptree).
  Definition grows (s s' : list string) : Prop := incl s s' /\ (NoDup s -> NoDup s') /\ (incl s (candidates tr) -> incl s' (candidates tr)).
  Lemma grows_refl s : grows s s.
  Proof. split; [apply incl_refl|auto]. Qed.
  Lemma grows_trans a b c : grows a b -> grows b c -> grows a c.
  Proof. intros (A & B & C) (D & E & F). split; [eapply incl_tran; eauto|auto]. Qed.
  Lemma grows_add s x : In x (candidates tr) -> grows s (add x s).
  Proof. intros H. split; [apply add_incl|]. split; [apply add_nodup|]. intros I y Hy. apply add_in in Hy as [->|Hy]; auto. Qed.
  Lemma candidate_assign m a : In m tr -> In a (pm_assigns m) -> In (qualified (pm_name m) (p_name a)) (candidates tr).
  Proof. intros Hm Ha. apply in_flat_map. exists m. split; [exact Hm|]. apply in_map, in_or_app. left. apply in_map, Ha. Qed.
  Lemma candidate_import m i r : In m tr -> In i (pm_imports m) -> In r (snd i) -> In (qualified (pm_name m) r) (candidates tr).
  Proof. intros Hm Hi Hr. apply in_flat_map. exists m. split; [exact Hm|]. apply in_map, in_or_app. right. apply in_flat_map. eauto. Qed.
  Lemma scan_assign_grows m a s s' : In m tr -> In a (pm_assigns m) -> scan_assign tr (pm_name m) s a = Done s' -> grows s s'.
  Proof.
    intros Hm Ha H. pose proof (candidate_assign m a Hm Ha) as Hc. unfold scan_assign in H.
    destruct (p_spec a) as [[|q r ps| | | | |]|[|q r ps| | | | |] v|fs|]; try (injection H as <-; apply grows_refl).
    - destruct (existsb _ _); [injection H as <-; apply grows_refl|]. destruct (plookup _ _ _ _) as [b| | |]; cbn in H; try discriminate. injection H as <-.
      destruct (_ || _)%bool; [apply grows_add, Hc|apply grows_refl].
    - destruct (existsb _ _); [injection H as <-; apply grows_refl|]. destruct (plookup _ _ _ _) as [b| | |]; cbn in H; try discriminate. injection H as <-.
      destruct (_ || _)%bool; [apply grows_add, Hc|apply grows_refl].
    - injection H as <-. apply grows_add, Hc.
  Qed.
  (** what one round does *)
  Lemma scan_round s s' : scan tr s = Done s' -> grows s s' /\
    (forall m a, In m tr -> In a (pm_assigns m) -> exists s1 s2, grows s s1 /\ scan_assign tr (pm_name m) s1 a = Done s2 /\ grows s2 s') /\
    (forall m i r, In m tr -> In i (pm_imports m) -> In r (snd i) -> In (qualified (fst i) r) s -> In (qualified (pm_name m) r) s').
  Proof.
    intros H. unfold scan in H. destruct (ofold _ tr s) as [s0| | |] eqn:E; cbn [obind] in H; try discriminate. injection H as <-.
    pose proof (fun m (Hm : In m tr) => ofold_step grows (scan_assign tr (pm_name m)) grows_refl grows_trans (pm_assigns m) (fun a s s' Ha => scan_assign_grows m a s s' Hm Ha)) as K1.
    destruct (ofold_step grows _ grows_refl grows_trans tr (fun m s s' Hm Q => proj1 (K1 m Hm s s' Q)) s s0 E) as [G0 K0].
    set (f3 := fun (m : pmodule) (i : string * list string) (s : list string) (x : string) => if mem (qualified (fst i) x) s then add (qualified (pm_name m) x) s else s).
    assert (G3 : forall m i, In m tr -> In i (pm_imports m) -> forall r s, In r (snd i) -> grows s (f3 m i s r)).
    { intros m i Hm Hi r t Hr. unfold f3. destruct (mem _ t); [apply grows_add; eapply candidate_import; eauto|apply grows_refl]. }
    pose proof (fun m i Hm Hi => fold_step grows (f3 m i) grows_refl grows_trans (snd i) (fun r s Hr => G3 m i Hm Hi r s Hr)) as K3.
    pose proof (fun m Hm => fold_step grows (fun s i => fold_left (f3 m i) (snd i) s) grows_refl grows_trans (pm_imports m) (fun i s Hi => proj1 (K3 m i Hm Hi s))) as K4.
    pose proof (fold_step grows (fun s m => fold_left (fun s i => fold_left (f3 m i) (snd i) s) (pm_imports m) s) grows_refl grows_trans tr (fun m s Hm => proj1 (K4 m Hm s)) s0) as [G5 K5].
    fold (scan_imports tr s0) in G5. split; [eapply grows_trans; eauto|]. split.
    - intros m a Hm Ha. destruct (K0 m Hm) as (s1 & s2 & A & B & C). destruct (proj2 (K1 m Hm s1 s2 B) a Ha) as (s3 & s4 & D & E1 & F).
      exists s3, s4. split; [eapply grows_trans; eauto|]. split; [exact E1|]. eapply grows_trans; [exact F|]. eapply grows_trans; [exact C|exact G5].
    - intros m i r Hm Hi Hr Hin. destruct (K5 m Hm) as (s1 & A1 & B1). destruct (proj2 (K4 m Hm s1) i Hi) as (s2 & A2 & B2). destruct (proj2 (K3 m i Hm Hi s2) r Hr) as (s3 & A3 & B3).
      apply B1, B2, B3. unfold f3. assert (Hin3 : In (qualified (fst i) r) s3) by (apply A3, A2, A1, G0, Hin). apply mem_in in Hin3. rewrite Hin3. apply add_in. auto.
  Qed.
  Lemma scan_shape s : (exists s', scan tr s = Done s') \/ scan tr s = Throw.
  Proof.
    unfold scan. assert (K : forall {A S} (f : S -> A -> out S) l, (forall x s, (exists s', f s x = Done s') \/ f s x = Throw) -> forall s, (exists s', ofold f l s = Done s') \/ ofold f l s = Throw).
    { intros A S f l Hf. induction l as [|x l IH]; intros t; [left; exists t; reflexivity|]. cbn. destruct (Hf x t) as [(s' & ->)| ->]; [apply IH|right; reflexivity]. }
    destruct (K _ _ (fun s m => ofold (scan_assign tr (pm_name m)) (pm_assigns m) s) tr) with (s := s) as [(s' & ->)| ->].
    - intros m t. apply K. intros a u. unfold scan_assign. assert (P : forall md q r, (exists b, plookup tr md q r = Done b) \/ plookup tr md q r = Throw).
      { intros md q r. unfold plookup. destruct (pfind_module tr _); [|auto]. destruct (pfind _ r); eauto. }
      destruct (p_spec a) as [[|q r ps| | | | |]|[|q r ps| | | | |] v|fs|]; try (left; eexists; reflexivity).
      + destruct (existsb _ _); [eauto|]. destruct (P (pm_name m) q r) as [(b & ->)| ->]; cbn; eauto.
      + destruct (existsb _ _); [eauto|]. destruct (P (pm_name m) q r) as [(b & ->)| ->]; cbn; eauto.
    - left. eexists. reflexivity.
    - right. reflexivity.
  Qed.
  Lemma scan_loop_ends fuel : forall s, NoDup s -> incl s (candidates tr) -> (length (candidates tr) < fuel + length s)%nat ->
    scan_loop fuel tr s = Throw \/ exists s' s0, scan_loop fuel tr s = Done s' /\ scan tr s0 = Done s' /\ length s' = length s0 /\ NoDup s0.
  Proof.
    induction fuel as [|fuel IH]; intros s Hn Hi Hf.
    - exfalso. pose proof (NoDup_incl_length Hn Hi). lia.
    - cbn [scan_loop]. destruct (scan_shape s) as [(s' & E)|E]; rewrite E; cbn [obind]; [|auto]. destruct (scan_round s s' E) as ((G1 & G2 & G3) & _).
      destruct (Nat.ltb_spec (length s) (length s')) as [L|L].
      + apply IH; [auto|auto|lia].
      + right. exists s', s. split; [reflexivity|]. split; [exact E|]. split; [|exact Hn]. pose proof (NoDup_incl_length Hn G1). lia.
  Qed.
  Lemma names_ends : object_class_names tr = Throw \/ exists s', object_class_names tr = Done s'.
  Proof.
    unfold object_class_names, class_rounds. destruct (scan_loop_ends (S (length (flat_map (fun m => map p_name (pm_assigns m) ++ flat_map snd (pm_imports m)) tr))) []) as [E|(s' & s0 & E & _)]; eauto.
    - constructor.
    - intros x [].
    - rewrite <- candidates_length. cbn. lia.
  Qed.
  (** the result is closed under the rules *)
  Lemma names_closed s : object_class_names tr = Done s ->
    (forall m a, In m tr -> In a (pm_assigns m) -> exists s1 s2, (forall x, In x s1 <-> In x s) /\ scan_assign tr (pm_name m) s1 a = Done s2 /\ incl s2 s) /\
    (forall m i r, In m tr -> In i (pm_imports m) -> In r (snd i) -> In (qualified (fst i) r) s -> In (qualified (pm_name m) r) s).
  Proof.
    intros H. unfold object_class_names, class_rounds in H.
    destruct (scan_loop_ends (S (length (flat_map (fun m => map p_name (pm_assigns m) ++ flat_map snd (pm_imports m)) tr))) []) as [E|(s' & s0 & E & Es & El & Hn)]; [constructor|intros x []|rewrite <- candidates_length; cbn; lia|congruence|].
    rewrite E in H. injection H as ->. destruct (scan_round s0 s Es) as ((G1 & G2 & G3) & R1 & R2).
    assert (Hback : incl s s0) by (apply NoDup_length_incl; [exact Hn|lia|exact G1]).
    split.
    - intros m a Hm Ha. destruct (R1 m a Hm Ha) as (s1 & s2 & A & B & C). exists s1, s2. split; [|split; [exact B|apply C]].
      intros x. split; intros Hx; [|apply A, Hback, Hx]. apply C. apply (proj1 (scan_assign_grows m a s1 s2 Hm Ha B)), Hx.
    - intros m i r Hm Hi Hr Hin. eapply R2; eauto.
  Qed.
End rounds.
(** ** exactly the classes and objects *)
Section exact.
  Context (tr : ptree) (W : classes_ok tr) (Wa : aliases_ok tr) (Wg : governors_ok tr).
  Lemma target_plookup md r a q : target_of (forget_imports tr) md None r = Found q a -> plookup tr md None r = Done a /\ q = md.
  Proof. rewrite forget_target. destruct (plookup tr md None r); intros [= <- <-]. auto. Qed.
  Lemma plookup_target md q r a : plookup tr md q r = Done a -> target_of (forget_imports tr) md q r = Found (ref_module md q) a.
  Proof. intros E. rewrite forget_target, E. reflexivity. Qed.
  Lemma class_target q r a md : plookup tr md q r = Done a -> is_class a = true -> names_class tr (ref_module md q) r.
  Proof.
    intros E H. unfold is_class in H. destruct (p_spec a) as [| |fs|] eqn:Es; try discriminate. apply (nc_class tr _ r a fs); [|exact Es].
    apply (plookup_target (ref_module md q) None r a). exact E.
  Qed.
  (** everything is found *)
  Lemma complete_class s : object_class_names tr = Done s -> forall md r, names_class tr md r -> In (qualified md r) s.
  Proof.
    intros H. destruct (names_closed tr s H) as [C1 C2]. intros md r K. induction K as [md r a fs T Es|md r a q r' T Es K IH].
    - apply target_plookup in T as [T _]. destruct (plookup_found _ _ _ _ _ T) as (_ & m & Hm & Ha & Hmn). cbn in Hmn. subst md.
      destruct (C1 m a Hm Ha) as (s1 & s2 & S1 & S2 & S3). apply S3. unfold scan_assign in S2. rewrite Es in S2. injection S2 as <-.
      assert (En : p_name a = r).
      { unfold plookup in T. destruct (pfind_module tr _); [|discriminate]. destruct (pfind _ r) eqn:Ep; [|discriminate]. injection T as ->. eapply pfind_name; eauto. }
      rewrite <- En. apply add_in. auto.
    - apply target_plookup in T as [T _]. destruct (plookup_found _ _ _ _ _ T) as (_ & m & Hm & Ha & Hmn). cbn in Hmn. subst md.
      assert (En : p_name a = r).
      { unfold plookup in T. destruct (pfind_module tr _); [|discriminate]. destruct (pfind _ r) eqn:Ep; [|discriminate]. injection T as ->. eapply pfind_name; eauto. }
      pose proof (proj2 (co_free tr W) m a Hm Ha) as Hp. destruct (C1 m a Hm Ha) as (s1 & s2 & S1 & S2 & S3).
      assert (Hloc : (match q with Some x => x | None => pm_name m end) = pm_name m -> In (qualified (pm_name m) r) s).
      { intros Eq. rewrite Eq in IH. apply S3. unfold scan_assign in S2. rewrite Es, Hp in S2. cbn [existsb] in S2. destruct (plookup tr (pm_name m) q r') as [b| | |]; cbn [obind] in S2; try discriminate.
        injection S2 as <-. assert (Hmem : mem (qualified (pm_name m) r') s1 = true) by (apply mem_in, S1, IH). rewrite Hmem, orb_true_r, En. apply add_in. auto. }
      pose proof (Wa m a Hm Ha) as A. rewrite Es in A. destruct q as [q|]; [|apply Hloc; reflexivity]. destruct A as [->|(En2 & i & I1 & I2 & I3)]; [apply Hloc; reflexivity|].
      subst q. rewrite <- En, En2. eapply C2; eauto.
  Qed.
  Lemma complete_object s : object_class_names tr = Done s -> forall md r, names_object tr md r -> In (qualified md r) s.
  Proof.
    intros H md r (a & q & r' & ps & v & T & Es & K). pose proof (complete_class s H _ _ K) as Hin. destruct (names_closed tr s H) as [C1 C2].
    apply target_plookup in T as [T _]. destruct (plookup_found _ _ _ _ _ T) as (_ & m & Hm & Ha & Hmn). cbn in Hmn. subst md.
    assert (En : p_name a = r).
    { unfold plookup in T. destruct (pfind_module tr _); [|discriminate]. destruct (pfind _ r) eqn:Ep; [|discriminate]. injection T as ->. eapply pfind_name; eauto. }
    pose proof (proj2 (co_free tr W) m a Hm Ha) as Hp. destruct (C1 m a Hm Ha) as (s1 & s2 & S1 & S2 & S3).
    assert (Eq : (match q with Some x => x | None => pm_name m end) = pm_name m) by (pose proof (Wa m a Hm Ha) as A; rewrite Es in A; destruct q; auto). rewrite Eq in Hin.
    apply S3. unfold scan_assign in S2. rewrite Es, Hp in S2. cbn [existsb] in S2. destruct (plookup tr (pm_name m) q r') as [b| | |]; cbn [obind] in S2; try discriminate.
    injection S2 as <-. assert (Hmem : mem (qualified (pm_name m) r') s1 = true) by (apply mem_in, S1, Hin). rewrite Hmem, orb_true_r, En. apply add_in. auto.
  Qed.
  (** nothing else is *)
  Definition good (s : list string) : Prop := forall x, In x s -> exists m r, x = qualified m r /\ In m (map pm_name tr) /\ no_dot r /\ (names_class tr m r \/ names_object tr m r).
  Lemma good_mem s m r : good s -> mem (qualified m r) s = true -> names_class tr m r \/ names_object tr m r.
  Proof.
    intros H E. apply mem_in in E. destruct (H _ E) as (m' & r' & Eq & Hm' & Hd & He). apply qualified_inj in Eq; [|eapply module_no_dot; eauto|assumption]. destruct Eq; subst. exact He.
  Qed.
  Lemma good_add s m r : good s -> In m (map pm_name tr) -> no_dot r -> names_class tr m r \/ names_object tr m r -> good (add (qualified m r) s).
  Proof. intros H Hm Hr He x Hx. apply add_in in Hx as [->|Hx]; [exists m, r; auto|apply H, Hx]. Qed.
  Lemma not_object m a q r ps b : In m tr -> In a (pm_assigns m) -> (p_spec a = PTypeA (PRef q r ps) \/ exists w, p_spec a = PValueA (PRef q r ps) w) -> plookup tr (pm_name m) q r = Done b ->
    names_class tr (ref_module (pm_name m) q) r \/ names_object tr (ref_module (pm_name m) q) r -> names_class tr (ref_module (pm_name m) q) r.
  Proof.
    intros Hm Ha Hs Eb [K|(c & q' & r' & ps' & v & T & Ec & _)]; [exact K|]. exfalso.
    change (target_of (forget_imports tr) (ref_module (pm_name m) q) None r) with (target_of (forget_imports tr) (pm_name m) q r) in T.
    exact (Wg m a q r ps c _ _ Hm Ha Hs _ T Ec).
  Qed.
  Lemma scan_assign_good m a s s' : In m tr -> In a (pm_assigns m) -> good s -> scan_assign tr (pm_name m) s a = Done s' -> good s'.
  Proof.
    intros Hm Ha Hs H. assert (Hmn : In (pm_name m) (map pm_name tr)) by (apply in_map, Hm).
    pose proof (plookup_local tr m a (proj1 (co_modules tr W)) Hm (proj1 (co_names tr W m Hm)) Ha) as El.
    assert (Hnd : no_dot (p_name a)) by (destruct (co_names tr W m Hm) as [_ Fd]; rewrite Forall_forall in Fd; apply Fd, Ha).
    pose proof (proj2 (co_free tr W) m a Hm Ha) as Hp. apply plookup_target in El. cbn [ref_module] in El.
    unfold scan_assign in H. destruct (p_spec a) as [t|t v|fs|] eqn:Es.
    - destruct t as [|q r ps| | | | |]; try (injection H as <-; exact Hs). rewrite Hp in H. cbn [existsb] in H.
      destruct (plookup tr (pm_name m) q r) as [b| | |] eqn:Eb; cbn [obind] in H; try discriminate. injection H as <-.
      pose proof (param_free_type tr W m a q r ps Hm Ha Es). subst ps.
      destruct (is_class b || mem (qualified (pm_name m) r) s)%bool eqn:Ec; [|exact Hs]. apply orb_true_iff in Ec as [Ec|Ec].
      + apply good_add; auto. left. eapply nc_alias; eauto. eapply class_target; eauto.
      + assert (Hcase : (match q with Some x => x | None => pm_name m end) = pm_name m \/ r = p_name a).
        { destruct q as [q|]; [|auto]. destruct (co_alias tr W m a q r [] Hm Ha Es) as [->| ->]; auto. }
        destruct Hcase as [Hq| ->].
        * apply good_add; auto. left. eapply nc_alias; eauto. rewrite Hq. pose proof (good_mem s (pm_name m) r Hs Ec) as G.
          change (match q with Some x => x | None => pm_name m end) with (ref_module (pm_name m) q) in Hq. rewrite <- Hq in G |- *. eapply not_object; eauto.
        * intros x Hx. apply add_in in Hx as [->|Hx]; [apply Hs, mem_in, Ec|apply Hs, Hx].
    - destruct t as [|q r ps| | | | |]; try (injection H as <-; exact Hs). rewrite Hp in H. cbn [existsb] in H.
      destruct (plookup tr (pm_name m) q r) as [b| | |] eqn:Eb; cbn [obind] in H; try discriminate. injection H as <-.
      destruct (is_class b || mem (qualified (pm_name m) r) s)%bool eqn:Ec; [|exact Hs]. apply good_add; auto. right. exists a, q, r, ps, v. split; [exact El|]. split; [exact Es|].
      change (match q with Some x => x | None => pm_name m end) with (ref_module (pm_name m) q). apply orb_true_iff in Ec as [Ec|Ec]; [eapply class_target; eauto|].
      assert (Eq : ref_module (pm_name m) q = pm_name m) by (pose proof (Wa m a Hm Ha) as A; rewrite Es in A; destruct q; auto).
      eapply not_object; eauto. rewrite Eq. apply (good_mem s); assumption.
    - injection H as <-. apply good_add; auto. left. eapply nc_class; eauto.
    - injection H as <-. exact Hs.
  Qed.
  Lemma names_good s : object_class_names tr = Done s -> good s.
  Proof.
    assert (Hscan : forall s s', good s -> scan tr s = Done s' -> good s').
    { intros t t' Ht H. unfold scan in H. destruct (ofold _ tr t) as [s1| | |] eqn:E; cbn in H; try discriminate. injection H as <-.
      destruct (ofold_inv (fun _ => good) _ tr (fun d m s s' Hm P Q => ofold_inv (fun _ => good) _ (pm_assigns m) (fun d a s s' Ha Hg Hq => ex_intro _ d (conj (le_n d) (scan_assign_good m a s s' Hm Ha Hg Hq))) d s s' P Q) 0 t s1 Ht E) as (_ & _ & P1).
      assert (K : exists d', (0 <= d')%nat /\ good (scan_imports tr s1)).
      { unfold scan_imports. eapply (fold_inv (fun _ => good)); [|exact P1]. clear -W Wa Wg. intros d m s Hm Hs.
        eapply (fold_inv (fun _ => good)); [|exact Hs]. clear d s Hs. intros d i s Hi Hs. eapply (fold_inv (fun _ => good)); [|exact Hs]. clear d s Hs. intros d r s Hr Hs.
        exists d. split; [lia|]. destruct (mem (qualified (fst i) r) s) eqn:E; [|exact Hs]. pose proof (good_mem s _ _ Hs E) as He.
        pose proof (co_imports tr W m i r Hm Hi Hr) as Ei. apply pfind_name in Ei as [_ Ei].
        pose proof (plookup_local tr m _ (proj1 (co_modules tr W)) Hm (proj1 (co_names tr W m Hm)) Ei) as El. cbn [p_name] in El. apply plookup_target in El. cbn [ref_module] in El.
        apply good_add; [exact Hs|apply in_map, Hm| |].
        - destruct (co_names tr W m Hm) as [_ Fd]. rewrite Forall_forall in Fd. apply (Fd _ Ei).
        - left. eapply nc_alias; [exact El|reflexivity|]. destruct He as [He|He]; [exact He|].
          assert (Hb : exists b, plookup tr (pm_name m) (Some (fst i)) r = Done b).
          { destruct He as (b & _ & _ & _ & _ & T & _). apply target_plookup in T as [T _]. exists b. exact T. }
          destruct Hb as (b & Hb). apply (not_object m _ (Some (fst i)) r [] b Hm Ei (or_introl eq_refl) Hb). right. exact He. }
      destruct K as (_ & _ & K). exact K. }
    intros H. unfold object_class_names in H. revert H. generalize (class_rounds tr). intros fuel. assert (H0 : good []) by (intros x []). revert H0. generalize (@nil string).
    induction fuel as [|fuel IH]; intros t Ht H; [discriminate|]. cbn [scan_loop] in H. destruct (scan tr t) as [s1| | |] eqn:E; cbn [obind] in H; try discriminate.
    destruct (Nat.ltb _ _); [eapply IH; [|exact H]; eauto|]. injection H as <-. eauto.
  Qed.
End exact.
