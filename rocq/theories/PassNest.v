(** Proofs about split_nested_structures. *)
From Verif Require Import Base CompilerPasses PassesSpec PassesProofs PassParams NamesSpec PropertiesNames EnumSpec PropertiesEnum.
Local Open Scope string_scope.
Local Open Scope list_scope.

(** ** the made up names *)
Lemma to_string_inj a b : in_i64 a -> in_i64 b -> to_string a = to_string b -> a = b.
Proof. intros Ha Hb H. apply to_string_signed in Ha, Hb. congruence. Qed.
Definition prefixes := ["UnnamedSet"; "UnnamedSequence"; "UnnamedEnum"; "UnnamedChoice"].
Lemma prefix_inj p q a b : In p prefixes -> In q prefixes -> (p ++ a)%string = (q ++ b)%string -> a = b.
Proof. unfold prefixes. cbn [In]. intros Hp Hq. repeat destruct Hp as [<-|Hp]; try destruct Hp; repeat destruct Hq as [<-|Hq]; try destruct Hq; cbn; intros [=]; auto. Qed.
Lemma unnamed_in t p : unnamed_prefix t = Some p -> In p prefixes.
Proof. destruct t as [[|] ?| |[|] ?| | | |]; cbn; intros [= <-]; unfold prefixes; cbn; auto. Qed.
Lemma unnamed_none t : unnamed_prefix t = None <-> ~ structure t.
Proof. destruct t as [[|] ?| |[|] ?| | | |]; cbn; split; try discriminate; auto; try tauto. all: intros H; destruct (H I). Qed.
Inductive gen_from : Z -> list (string * ptyp) -> Prop :=
| gf_nil n : gen_from n []
| gf_cons n p u l : In p prefixes -> gen_from (n + 1) l -> gen_from n (((p ++ to_string n)%string, u) :: l).
Lemma gen_from_app n l l' : gen_from n l -> gen_from (n + Z.of_nat (length l)) l' -> gen_from n (l ++ l').
Proof.
  induction 1 as [n|n p u l Hp H IH]; cbn [app length]; intros H'; [rewrite Z.add_0_r in H'; exact H'|]. constructor; [exact Hp|]. apply IH.
  replace (n + 1 + Z.of_nat (length l))%Z with (n + Z.of_nat (S (length l)))%Z by lia. exact H'.
Qed.
Lemma gen_from_in n l x u : gen_from n l -> In (x, u) l -> exists p i, In p prefixes /\ x = (p ++ to_string i)%string /\ (n <= i < n + Z.of_nat (length l))%Z.
Proof.
  induction 1 as [n|n p v l Hp H IH]; [intros []|]. intros [[= <- <-]|Hin].
  - exists p, n. split; [exact Hp|]. split; [reflexivity|]. cbn [length]. lia.
  - destruct (IH Hin) as (q & i & H1 & H2 & H3). exists q, i. split; [exact H1|]. split; [exact H2|]. cbn [length]. lia.
Qed.
Lemma gen_from_nodup n l : (0 <= n)%Z -> (n + Z.of_nat (length l) < 2^31)%Z -> gen_from n l -> NoDup (map fst l).
Proof.
  intros H0 H1 H. revert H0 H1. induction H as [n|n p v l Hp H IH]; cbn [length map fst]; intros H0 H1; [constructor|]. constructor; [|apply IH; lia].
  intros Hin. apply in_map_iff in Hin as ([y u] & E & Hin). cbn in E. subst y. destruct (gen_from_in _ _ _ _ H Hin) as (q & i & Hq & E & Hi).
  apply (prefix_inj p q _ _ Hp Hq) in E. apply to_string_inj in E; unfold in_i64; lia.
Qed.

(** ** the relation *)
Inductive ndirect (tab : list (string * ptyp)) (md : string) : ptyp -> ptyp -> Prop :=
| nd_leaf e k : ndirect tab md (PLeaf e k) (PLeaf e k)
| nd_ref m r : ~ made_up r -> ndirect tab md (PRef m r []) (PRef m r [])
| nd_field m c fs : ~ made_up c -> ndirect tab md (PField m c fs) (PField m c fs)
| nd_record s cs cs' : Forall2 (ncomp tab md) cs cs' -> ndirect tab md (PRecord s cs) (PRecord s cs')
| nd_list s t t' : nrel tab md t t' -> ndirect tab md (PListOf s t) (PListOf s t')
| nd_choice l l' : Forall2 (fun a b => fst a = fst b /\ ndirect tab md (snd a) (snd b)) l l' -> ndirect tab md (PChoice l) (PChoice l')
| nd_tagged g t t' : nrel tab md t t' -> ndirect tab md (PTagged g t) (PTagged g t')
with nrel (tab : list (string * ptyp)) (md : string) : ptyp -> ptyp -> Prop :=
| nr_direct t t' : ndirect tab md t t' -> nrel tab md t t'
| nr_hoist name u u' : In (name, u') tab -> ndirect tab md u u' -> nrel tab md u (PRef (Some md) name [])
with ncomp (tab : list (string * ptyp)) (md : string) : pcomp -> pcomp -> Prop :=
| nc_comp n t t' o d : ndirect tab md t t' -> ncomp tab md (PComp n t o d) (PComp n t' o d)
| nc_compof t : ndirect tab md t t -> ncomp tab md (PCompOf t) (PCompOf t).
Lemma ndirect_self tab md t : param_free t -> no_made_up t -> ndirect tab md t t.
Proof.
  induction t as [e k|m r ps IH|s cs IH|s t IH|l IH|g t IH|m c fs] using ptyp_induct; cbn [param_free no_made_up]; intros Hp Hn.
  - constructor.
  - subst ps. constructor. exact Hn.
  - constructor. apply fold_and in Hp, Hn. revert Hp Hn. induction IH as [|c l Hc _ IHl]; intros Hp Ha; [constructor|].
    inversion Hp as [|? ? P1 P2]; subst. inversion Ha as [|? ? A1 A2]; subst. constructor; [|apply IHl; assumption].
    destruct c; cbn in *; constructor; apply Hc; assumption.
  - constructor. apply nr_direct, IH; assumption.
  - constructor. apply fold_and in Hp, Hn. revert Hp Hn. induction IH as [|c l Hc _ IHl]; intros Hp Ha; [constructor|].
    inversion Hp as [|? ? P1 P2]; subst. inversion Ha as [|? ? A1 A2]; subst. constructor; [|apply IHl; assumption].
    split; [reflexivity|apply Hc; assumption].
  - constructor. apply nr_direct, IH; assumption.
  - constructor. exact Hn.
Qed.
(** what the state becomes *)
Definition extends (s s' : nstate) (new : list (string * ptyp)) : Prop :=
  snd s' = snd s ++ new /\ fst s' = (fst s + Z.of_nat (length new))%Z /\ gen_from (fst s) new /\ Forall (fun p => flat (snd p)) new.
Lemma extends_refl s : extends s s [].
Proof. repeat split; [rewrite app_nil_r; reflexivity|cbn; lia|constructor|constructor]. Qed.
Lemma extends_trans s s1 s2 a b : extends s s1 a -> extends s1 s2 b -> extends s s2 (a ++ b).
Proof.
  intros (A1 & A2 & A3 & A4) (B1 & B2 & B3 & B4). split; [rewrite B1, A1, app_assoc; reflexivity|]. split; [rewrite B2, A2, app_length; lia|].
  split; [apply gen_from_app; [exact A3|rewrite <- A2; exact B3]|apply Forall_app; auto].
Qed.
Definition nested_to (md : string) (t t' : ptyp) (s s' : nstate) : Prop :=
  exists new, extends s s' new /\ flat t' /\ forall tab, incl new tab -> ndirect tab md t t'.
Lemma hoist_rel md t t1 t2 s s1 s2 : nested_to md t t1 s s1 -> hoist md t1 s1 = (t2, s2) ->
  exists new, extends s s2 new /\ (~ structure t2 /\ flat t2) /\ forall tab, incl new tab -> nrel tab md t t2.
Proof.
  intros (new & He & Hf & Hr) H. unfold hoist in H. destruct (unnamed_prefix t1) as [p|] eqn:E.
  - injection H as <- <-. exists (new ++ [((p ++ to_string (fst s1))%string, t1)]). split; [|split; [split; [intros []|exact I]|]].
    + eapply extends_trans; [exact He|]. split; [reflexivity|]. split; [reflexivity|]. split; [|constructor; [exact Hf|constructor]].
      constructor; [eapply unnamed_in; eauto|constructor].
    + intros tab Hi. eapply nr_hoist; [apply Hi, in_or_app; right; left; reflexivity|]. apply Hr. intros x Hx. apply Hi, in_or_app. auto.
  - injection H as <- <-. exists new. split; [exact He|]. split; [split; [apply unnamed_none, E|exact Hf]|]. intros tab Hi. apply nr_direct, Hr, Hi.
Qed.
Lemma find_nested_rel md t : forall s t' s', param_free t -> no_made_up t -> find_nested md t s = (t', s') -> nested_to md t t' s s'.
Proof.
  induction t as [e k|m r ps IH|st cs IH|st t IH|l IH|g t IH|m c fs] using ptyp_induct; cbn [find_nested param_free no_made_up]; intros s t' s' Hp Hn H.
  - injection H as <- <-. exists []. split; [apply extends_refl|]. split; [exact I|]. intros; constructor.
  - injection H as <- <-. subst ps. exists []. split; [apply extends_refl|]. split; [exact I|]. intros; constructor; exact Hn.
  - destruct (smap _ cs s) as [cs' s1] eqn:E. injection H as <- <-. apply fold_and in Hp, Hn. cbn [flat].
    assert (K : exists new, extends s s1 new /\ Forall (fun c => match c with PComp _ t _ _ => flat t | PCompOf t => True end) cs' /\ forall tab, incl new tab -> Forall2 (ncomp tab md) cs cs').
    { revert s cs' s1 Hp Hn E. induction IH as [|c l Hc _ IHl]; intros s cs' s1 Hp Hn E.
      - injection E as <- <-. exists []. split; [apply extends_refl|]. split; constructor.
      - inversion Hp as [|? ? P1 P2]; subst. inversion Hn as [|? ? N1 N2]; subst. cbn [smap] in E. destruct c as [x t o d|t].
        + destruct (find_nested md t s) as [t' s2] eqn:Et. match type of E with context [smap ?f l s2] => destruct (smap f l s2) as [l' s3] eqn:El end. injection E as <- <-.
          cbn in P1, N1, Hc. destruct (Hc s t' s2 P1 N1 Et) as (n1 & E1 & F1 & R1). destruct (IHl s2 l' s3 P2 N2 El) as (n2 & E2 & F2 & R2).
          exists (n1 ++ n2). split; [eapply extends_trans; eauto|]. split; [constructor; assumption|]. intros tab Hi. apply incl_app_inv in Hi as [I1 I2]. constructor; [constructor; apply R1, I1|apply R2, I2].
        + match type of E with context [smap ?f l s] => destruct (smap f l s) as [l' s3] eqn:El end. injection E as <- <-.
          destruct (IHl s l' s3 P2 N2 El) as (n2 & E2 & F2 & R2). exists n2. split; [exact E2|]. split; [constructor; [exact I|exact F2]|].
          intros tab Hi. constructor; [constructor; apply ndirect_self; assumption|apply R2, Hi]. }
    destruct K as (new & K1 & K2 & K3). exists new. split; [exact K1|]. split; [apply fold_and; exact K2|]. intros tab Hi. constructor. apply K3, Hi.
  - destruct (find_nested md t s) as [t1 s1] eqn:Et. destruct (hoist md t1 s1) as [t2 s2] eqn:Eh. injection H as <- <-.
    destruct (hoist_rel md t t1 t2 s s1 s2 (IH _ _ _ Hp Hn Et) Eh) as (new & K1 & K2 & K3). exists new. split; [exact K1|]. split; [exact K2|]. intros tab Hi. constructor. apply K3, Hi.
  - destruct (smap _ l s) as [l' s1] eqn:E. injection H as <- <-. apply fold_and in Hp, Hn. cbn [flat].
    assert (K : exists new, extends s s1 new /\ Forall (fun a => flat (snd a)) l' /\ forall tab, incl new tab -> Forall2 (fun a b => fst a = fst b /\ ndirect tab md (snd a) (snd b)) l l').
    { revert s l' s1 Hp Hn E. induction IH as [|c l Hc _ IHl]; intros s l' s1 Hp Hn E.
      - injection E as <- <-. exists []. split; [apply extends_refl|]. split; constructor.
      - inversion Hp as [|? ? P1 P2]; subst. inversion Hn as [|? ? N1 N2]; subst. cbn [smap] in E.
        destruct (find_nested md (snd c) s) as [t' s2] eqn:Et. match type of E with context [smap ?f l s2] => destruct (smap f l s2) as [l2 s3] eqn:El end. injection E as <- <-.
        cbn in P1, N1, Hc. destruct (Hc s t' s2 P1 N1 Et) as (n1 & E1 & F1 & R1). destruct (IHl s2 l2 s3 P2 N2 El) as (n2 & E2 & F2 & R2).
        exists (n1 ++ n2). split; [eapply extends_trans; eauto|]. split; [constructor; assumption|]. intros tab Hi. apply incl_app_inv in Hi as [I1 I2]. constructor; [split; [reflexivity|apply R1, I1]|apply R2, I2]. }
    destruct K as (new & K1 & K2 & K3). exists new. split; [exact K1|]. split; [apply fold_and; exact K2|]. intros tab Hi. constructor. apply K3, Hi.
  - destruct (find_nested md t s) as [t1 s1] eqn:Et. destruct (hoist md t1 s1) as [t2 s2] eqn:Eh. injection H as <- <-.
    destruct (hoist_rel md t t1 t2 s s1 s2 (IH _ _ _ Hp Hn Et) Eh) as (new & K1 & K2 & K3). exists new. split; [exact K1|]. split; [exact K2|]. intros tab Hi. constructor. apply K3, Hi.
  - injection H as <- <-. exists []. split; [apply extends_refl|]. split; [exact I|]. intros; constructor; exact Hn.
Qed.

(** ** modules *)
Definition arel (tab : list (string * ptyp)) (md : string) (a a' : passign) : Prop :=
  p_name a' = p_name a /\ p_params a' = p_params a /\
  match p_spec a with PTypeA t => exists t', p_spec a' = PTypeA t' /\ ndirect tab md t t' /\ flat t' | s => p_spec a' = s end.
Definition nassign_ok (a : passign) : Prop := p_params a = [] /\ ~ made_up (p_name a) /\
  match p_spec a with
  | PTypeA t => param_free t /\ no_made_up t
  | PClassA fs => forall f t, In f fs -> f_type f = Some t -> param_free t /\ no_made_up t
  | _ => True
  end.
Definition entry (p : string * ptyp) : passign := PAssign (fst p) (PTypeA (snd p)) [].
Lemma gen_made_up n l p : gen_from n l -> In p l -> made_up (fst p).
Proof. destruct p as [x u]. intros H Hp. destruct (gen_from_in _ _ _ _ H Hp) as (q & i & H1 & H2 & _). exists q, i. auto. Qed.
Lemma pfind_front l r : ~ made_up r -> (forall p, In p l -> made_up (fst p)) -> pfind (map entry l) r = None.
Proof.
  intros Hr. induction l as [|p l IH]; intros H; [reflexivity|]. cbn. destruct (String.eqb_spec (fst p) r) as [E|]; [|apply IH; intros q Hq; apply H; right; exact Hq].
  destruct Hr. rewrite <- E. apply H. left. reflexivity.
Qed.
Lemma pfind_app2 l l' r : pfind (l ++ l') r = match pfind l r with Some a => Some a | None => pfind l' r end.
Proof. induction l as [|a l IH]; cbn; [reflexivity|]. destruct (String.eqb (p_name a) r); [reflexivity|exact IH]. Qed.
Lemma split_nested_rel md l : forall n l' n', Forall nassign_ok l -> split_nested md l n = (l', n') -> exists tab,
  gen_from n tab /\ n' = (n + Z.of_nat (length tab))%Z /\ Forall (fun p => flat (snd p)) tab /\
  (forall tab', incl tab tab' ->
    (forall b, In b l' -> (exists p, In p tab /\ b = entry p) \/ exists a, In a l /\ arel tab' md a b) /\
    (forall r, ~ made_up r -> match pfind l r with None => pfind l' r = None | Some a => exists a', pfind l' r = Some a' /\ arel tab' md a a' end)) /\
  (forall p, In p tab -> In (entry p) l').
Proof.
  induction l as [|a l IH]; intros n l' n' Hok H.
  - injection H as <- <-. exists []. split; [constructor|]. split; [cbn; lia|]. split; [constructor|]. split; [|intros p []]. intros tab' _. split; [intros b []|reflexivity].
  - inversion Hok as [|? ? Ha Hl]; subst. cbn [split_nested] in H. destruct Ha as (Hp & Hnm & Hs).
    assert (K : forall front a' n1 new, gen_from n new -> n1 = (n + Z.of_nat (length new))%Z -> Forall (fun p => flat (snd p)) new -> (forall tab', incl new tab' -> arel tab' md a a') -> front = map entry (rev new) ->
      (let '(l', n) := split_nested md l n1 in (front ++ a' :: l', n)) = (l', n') -> exists tab,
        gen_from n tab /\ n' = (n + Z.of_nat (length tab))%Z /\ Forall (fun p => flat (snd p)) tab /\
        (forall tab', incl tab tab' ->
          (forall b, In b l' -> (exists p, In p tab /\ b = entry p) \/ exists a0, In a0 (a :: l) /\ arel tab' md a0 b) /\
          (forall r, ~ made_up r -> match pfind (a :: l) r with None => pfind l' r = None | Some a0 => exists a1, pfind l' r = Some a1 /\ arel tab' md a0 a1 end)) /\
        (forall p, In p tab -> In (entry p) l')).
    { intros front a' n1 new G1 G2 G3 G4 -> E. destruct (split_nested md l n1) as [l2 n2] eqn:El. injection E as <- <-.
      destruct (IH n1 l2 n2 Hl El) as (tab & T1 & T2 & T3 & T4 & T5). exists (new ++ tab).
      split; [apply gen_from_app; [exact G1|rewrite <- G2; exact T1]|]. split; [rewrite T2, G2, app_length; lia|]. split; [apply Forall_app; auto|]. split.
      - intros tab' Hi. apply incl_app_inv in Hi as [I1 I2]. destruct (T4 tab' I2) as [T6 T7]. pose proof (G4 tab' I1) as Har. split.
        + intros b Hb. apply in_app_iff in Hb as [Hb|[<-|Hb]].
          * left. apply in_map_iff in Hb as (p & <- & Hp'). exists p. split; [apply in_or_app; left; apply in_rev, Hp'|reflexivity].
          * right. exists a. split; [left; reflexivity|exact Har].
          * destruct (T6 b Hb) as [(p & P1 & P2)|(a0 & P1 & P2)]; [left; exists p; split; [apply in_or_app; right; exact P1|exact P2]|right; exists a0; split; [right; exact P1|exact P2]].
        + intros r Hr. rewrite pfind_app2, pfind_front; [|exact Hr|intros p Hp'; apply in_rev in Hp'; exact (gen_made_up _ _ _ G1 Hp')].
          cbn [pfind]. rewrite (proj1 Har). destruct (String.eqb (p_name a) r); [exists a'; auto|apply T7, Hr].
      - intros p Hp'. apply in_app_iff in Hp' as [Hp'|Hp']; apply in_or_app; [left; apply in_map, in_rev; rewrite rev_involutive; exact Hp'|right; right; apply T5, Hp']. }
    destruct (p_spec a) as [t|t v|fs|] eqn:Es.
    + destruct (find_nested md t (n, [])) as [t' [n1 nested]] eqn:Ef. destruct Hs as [Hs1 Hs2].
      destruct (find_nested_rel md t (n, []) t' (n1, nested) Hs1 Hs2 Ef) as (new & (E1 & E2 & E3 & E4) & Hfl & Hnd). cbn in E1, E2, E3. subst nested.
      eapply (K _ _ n1 new); eauto. intros tab' Hi. unfold arel. cbn. rewrite Es. split; [reflexivity|]. split; [reflexivity|]. exists t'. auto.
    + eapply (K [] a n []); eauto; [constructor|cbn; lia|]. intros tab' _. unfold arel. rewrite Es. auto.
    + eapply (K [] a n []); eauto; [constructor|cbn; lia|]. intros tab' _. unfold arel. rewrite Es. auto.
    + eapply (K [] a n []); eauto; [constructor|cbn; lia|]. intros tab' _. unfold arel. rewrite Es. auto.
Qed.
(** the tree: every module has a table *)
Lemma nest_all_rel tr : forall n tr' n', (forall m a, In m tr -> In a (pm_assigns m) -> nassign_ok a) -> nest_all tr n = (tr', n') ->
  (n <= n')%Z /\ Forall2 (fun m m' => pm_name m' = pm_name m /\ pm_imports m' = pm_imports m /\ exists k k', (n <= k)%Z /\ (k' <= n')%Z /\ split_nested (pm_name m) (pm_assigns m) k = (pm_assigns m', k')) tr tr'.
Proof.
  induction tr as [|m tr IH]; intros n tr' n' Hok H.
  - injection H as <- <-. split; [lia|constructor].
  - cbn [nest_all] in H. destruct (split_nested (pm_name m) (pm_assigns m) n) as [l n1] eqn:E1. destruct (nest_all tr n1) as [tr2 n2] eqn:E2. injection H as <- <-.
    destruct (IH n1 tr2 n2 (fun x a Hx => Hok x a (or_intror Hx)) E2) as [L F].
    assert (Hl : Forall nassign_ok (pm_assigns m)) by (apply Forall_forall; intros a Ha; apply (Hok m a); [left; reflexivity|exact Ha]).
    destruct (split_nested_rel _ _ _ _ _ Hl E1) as (tab & _ & Hn1 & _). split; [lia|]. constructor.
    + cbn. split; [reflexivity|]. split; [reflexivity|]. exists n, n1. split; [lia|]. split; [lia|exact E1].
    + eapply Forall2_weaken; [|exact F]. intros x y (A & B & k & k' & C & D & G). split; [exact A|]. split; [exact B|]. exists k, k'. split; [lia|]. split; [exact D|exact G].
Qed.

Record mrel (m m' : pmodule) (tab : list (string * ptyp)) : Prop := {
  mr_name : pm_name m' = pm_name m;
  mr_imports : pm_imports m' = pm_imports m;
  mr_user : forall r, ~ made_up r -> match pfind (pm_assigns m) r with
                                      | None => pfind (pm_assigns m') r = None
                                      | Some a => exists a', pfind (pm_assigns m') r = Some a' /\ arel tab (pm_name m) a a'
                                      end;
  mr_new : forall p, In p tab -> pfind (pm_assigns m') (fst p) = Some (entry p);
  mr_all : forall b, In b (pm_assigns m') -> (exists p, In p tab /\ b = entry p) \/ exists a, In a (pm_assigns m) /\ arel tab (pm_name m) a b;
  mr_flat : Forall (fun p => flat (snd p)) tab;
  mr_made_up : forall p, In p tab -> made_up (fst p) }.
Lemma mrel_intro m m' k k' : Forall nassign_ok (pm_assigns m) -> (0 <= k)%Z -> (k' < 2^31)%Z -> pm_name m' = pm_name m -> pm_imports m' = pm_imports m ->
  split_nested (pm_name m) (pm_assigns m) k = (pm_assigns m', k') -> exists tab, mrel m m' tab.
Proof.
  intros Hok Hk Hk' Hn Hi H. destruct (split_nested_rel _ _ _ _ _ Hok H) as (tab & T1 & T2 & T3 & T4 & T5). exists tab.
  destruct (T4 tab (incl_refl tab)) as [T6 T7]. constructor; auto.
  - intros p Hp. destruct (pfind (pm_assigns m') (fst p)) as [b|] eqn:Eb.
    + apply pfind_name in Eb as [B1 B2]. f_equal. destruct (T6 b B2) as [(q & Q1 & ->)|(a & A1 & A2 & _)].
      * assert (Hnd : NoDup (map fst tab)) by (eapply gen_from_nodup; eauto; lia). cbn in B1.
        assert (q = p) as ->; [|reflexivity]. clear -Hnd Q1 Hp B1. induction tab as [|x tab IH]; [destruct Hp|]. cbn in Hnd. inversion Hnd as [|? ? N1 N2]; subst.
        destruct Hp as [->|Hp], Q1 as [->|Q1]; [reflexivity| | |apply IH; assumption].
        -- destruct N1. rewrite <- B1. apply in_map, Q1.
        -- destruct N1. rewrite B1. apply in_map, Hp.
      * exfalso. rewrite Forall_forall in Hok. destruct (Hok a A1) as (_ & Hm & _). apply Hm. rewrite <- A2, B1. exact (gen_made_up _ _ _ T1 Hp).
    + exfalso. pose proof (T5 p Hp) as Hin. clear -Eb Hin. induction (pm_assigns m') as [|b l IH]; [destruct Hin|]. cbn in Eb.
      destruct (String.eqb_spec (p_name b) (fst p)) as [|Hne]; [discriminate|]. destruct Hin as [->|Hin]; [apply Hne; reflexivity|apply IH; assumption].
  - intros p Hp. exact (gen_made_up _ _ _ T1 Hp).
Qed.
Lemma nesting_ok_assign tr m a : nesting_ok tr -> In m tr -> In a (pm_assigns m) -> nassign_ok a.
Proof.
  intros (_ & W1 & W2) Hm Ha. specialize (W1 m a Hm Ha). destruct (W2 m a Hm Ha) as (P1 & P2 & P3). split; [exact P1|]. split; [exact P2|].
  destruct (p_spec a); auto. intros f t0 Hf Ht. split; [eapply W1; eauto|eapply P3; eauto].
Qed.
Lemma nest_tables tr n tr' n' : nesting_ok tr -> (0 <= n)%Z -> (n' < 2^31)%Z -> nest_all tr n = (tr', n') ->
  exists tabs, Forall2 (fun m m' => mrel m m' (tabs (pm_name m))) tr tr' /\ forall q, ~ In q (map pm_name tr) -> tabs q = [].
Proof.
  intros W H0 H1 H. destruct (nest_all_rel tr n tr' n' (fun m a => nesting_ok_assign tr m a W) H) as [_ F].
  assert (F2 : Forall2 (fun m m' => exists tab, mrel m m' tab) tr tr').
  { assert (Hok : Forall (fun m => Forall nassign_ok (pm_assigns m)) tr).
    { apply Forall_forall. intros m Hm. apply Forall_forall. intros a Ha. eapply nesting_ok_assign; eauto. }
    clear W H. induction F as [|m m' tr tr' (A & B & k & k' & C & D & G) _ IH]; constructor; inversion Hok; subst; [|apply IH; assumption].
    eapply (mrel_intro m m' k k'); eauto; lia. }
  destruct W as (Hnd & _). clear F H. revert Hnd. induction F2 as [|m m' tr tr' (tab & Hm) _ IH]; intros Hnd; [exists (fun _ => []); split; [constructor|reflexivity]|].
  cbn in Hnd. inversion Hnd as [|? ? N1 N2]; subst. destruct (IH N2) as (tabs & F & Fn). exists (fun q => if String.eqb q (pm_name m) then tab else tabs q).
  split; [|intros q Hq; destruct (String.eqb_spec q (pm_name m)) as [->|]; [destruct Hq; left; reflexivity|apply Fn; intros Hin; apply Hq; right; exact Hin]]. constructor.
  - rewrite String.eqb_refl. exact Hm.
  - clear -F N1. revert N1. induction F as [|x x' tr tr' Hx _ IH]; intros N1; constructor; [|apply IH; intros H; apply N1; right; exact H].
    destruct (String.eqb_spec (pm_name x) (pm_name m)) as [E|]; [|exact Hx]. destruct N1. left. exact E.
Qed.
(** ** the meaning *)
Section simulation.
  Context (tr tr' : ptree) (tabs : string -> list (string * ptyp)) (W : nesting_ok tr) (F : Forall2 (fun m m' => mrel m m' (tabs (pm_name m))) tr tr').
  Lemma nest_module q : match pfind_module tr q with
    | None => pfind_module tr' q = None
    | Some x => exists x', pfind_module tr' q = Some x' /\ mrel x x' (tabs q)
    end.
  Proof.
    clear W. induction F as [|m m' T T' H1 F' IH]; [reflexivity|]. cbn. rewrite (mr_name _ _ _ H1). destruct (String.eqb_spec (pm_name m) q) as [E|]; [|exact (IH F')].
    exists m'. subst q. auto.
  Qed.
  Lemma nest_target md m r : ~ made_up r ->
    match target_of tr md m r with
    | Found q a => exists a', target_of tr' md m r = Found q a' /\ arel (tabs q) q a a' /\ nassign_ok a
    | Imported q => target_of tr' md m r = Imported q
    | Nowhere => target_of tr' md m r = Nowhere
    end.
  Proof.
    intros Hr. unfold target_of. set (q := match m with Some x => x | None => md end). pose proof (nest_module q) as K. destruct (pfind_module tr q) as [x|] eqn:E; [|rewrite K; reflexivity].
    destruct K as (x' & K & R). rewrite K. pose proof (mr_user _ _ _ R r Hr) as U. pose proof (pfind_module_name _ _ _ E) as Hq.
    destruct (pfind (pm_assigns x) r) as [a|] eqn:Ea.
    - destruct U as (a' & U1 & U2). rewrite U1. exists a'. rewrite (mr_name _ _ _ R), Hq in *. split; [reflexivity|]. split; [exact U2|].
      apply pfind_name in Ea as [_ Ea]. eapply nesting_ok_assign; eauto. eapply pfind_module_in; eauto.
    - rewrite U, (mr_imports _ _ _ R). destruct (find_import (pm_imports x) r); reflexivity.
  Qed.
  Context (Fn : forall q, ~ In q (map pm_name tr) -> tabs q = []).
  (** a name in the table of q *)
  Lemma nest_entry q p md : In p (tabs q) -> target_of tr' md (Some q) (fst p) = Found q (entry p).
  Proof.
    intros Hp. unfold target_of. pose proof (nest_module q) as K. destruct (pfind_module tr q) as [x|] eqn:E.
    - destruct K as (x' & K & R). rewrite K, (mr_new _ _ _ R p Hp). rewrite (mr_name _ _ _ R), (pfind_module_name _ _ _ E). reflexivity.
    - exfalso. rewrite Fn in Hp; [destruct Hp|]. clear -E. intros Hin. apply in_map_iff in Hin as (x & <- & Hx). induction tr as [|y T IH]; [destruct Hx|].
      cbn in E. destruct (String.eqb_spec (pm_name y) (pm_name x)) as [|Hne]; [discriminate|]. destruct Hx as [->|Hx]; [apply Hne; reflexivity|apply IH; assumption].
  Qed.
  Lemma hoist_step k md name u' : In (name, u') (tabs md) -> den (S k) tr' md [] (PRef (Some md) name []) = den k tr' md [] u'.
  Proof. intros H. pose proof (nest_entry md (name, u') md H) as E. cbn [fst] in E. cbn [den]. rewrite E. reflexivity. Qed.
  Lemma head_same tab q body body' : ndirect tab q body body' -> (exists m c, ~ made_up c /\ body = PRef m c [] /\ body' = PRef m c []) \/ (~ bare_ref body /\ ~ bare_ref body').
  Proof. intros H. inversion H; subst; eauto 8. Qed.
  Lemma forward_direct n : (forall k md t t', (2 * n <= k)%nat -> nrel (tabs md) md t t' -> dle (den n tr md [] t) (den k tr' md [] t')) ->
    forall k md t t', (2 * n <= k)%nat -> ndirect (tabs md) md t t' -> dle (den (S n) tr md [] t) (den (S k) tr' md [] t').
  Proof.
    intros IH k md t t' Hk D. inversion D as [e q|m r Hs|m c fs Hs|s cs cs' G|s t1 t1' P|l l' G|g t1 t1' P]; subst; clear D; cbn [den].
    - constructor.
    - assert (E' : match m with None => env_find [] r | Some _ => None end = None) by (destruct m; reflexivity). rewrite E'.
      pose proof (nest_target md m r Hs) as T. destruct (target_of tr md m r) as [q a|q|].
      + destruct T as (a' & T & (_ & Hp & R) & (Hp0 & _ & Hok)). rewrite T, Hp, Hp0. destruct (p_spec a) as [body| | |]; [|rewrite R; constructor..].
        destruct R as (body' & -> & R & _). cbn. apply IH; [exact Hk|apply nr_direct, R].
      + rewrite T. apply IH; [exact Hk|apply nr_direct; constructor; exact Hs].
      + rewrite T. constructor.
    - assert (E' : match m with None => env_find [] c | Some _ => None end = None) by (destruct m; reflexivity). rewrite E'.
      pose proof (nest_target md m c Hs) as T. destruct (target_of tr md m c) as [q a|q|].
      + destruct T as (a' & T & (_ & Hp & R) & (Hp0 & _ & Hok)). rewrite T, Hp, Hp0. destruct (p_spec a) as [body| |fields|]; [|rewrite R; constructor| |rewrite R; constructor].
        * destruct R as (body' & -> & R & _). destruct (head_same _ _ _ _ R) as [(m' & c' & Hc' & -> & ->)|[B1 B2]].
          -- apply IH; [exact Hk|]. apply nr_direct. constructor. exact Hc'.
          -- destruct body; cbn in B1; try tauto; destruct body'; cbn in B2; try tauto; constructor.
        * rewrite R. destruct fs as [|f [|]]; try constructor. destruct (find _ fields) as [x|] eqn:Ef; [|constructor].
          destruct (f_type x) as [t|] eqn:Eft; [|constructor]. apply find_some in Ef as [Ef _]. destruct (Hok x t Ef Eft). apply IH; [exact Hk|]. apply nr_direct, ndirect_self; assumption.
      + rewrite T. apply IH; [exact Hk|apply nr_direct; constructor; exact Hs].
      + rewrite T. constructor.
    - constructor. eapply Forall2_map_rel; [|exact G]. intros x y C. inversion C; subst; constructor; apply IH; auto; apply nr_direct; assumption.
    - constructor. apply IH; assumption.
    - constructor. eapply Forall2_map_rel; [|exact G]. intros x y [C1 C2]. split; [exact C1|]. apply IH; [assumption|apply nr_direct, C2].
    - constructor. apply IH; assumption.
  Qed.
  Lemma nforward n : forall k md t t', (2 * n <= k)%nat -> nrel (tabs md) md t t' -> dle (den n tr md [] t) (den k tr' md [] t').
  Proof.
    induction n as [|n IH]; intros k md t t' Hk H; [constructor|]. destruct k as [|[|k]]; [lia..|]. inversion H as [? ? D|name u u' Hin D]; subst.
    - apply (forward_direct n IH); [lia|exact D].
    - rewrite (hoist_step _ _ _ _ Hin). apply (forward_direct n IH); [lia|exact D].
  Qed.
  Lemma nbackward n : forall k md t t', (n <= k)%nat -> nrel (tabs md) md t t' -> dle (den n tr' md [] t') (den k tr md [] t).
  Proof.
    induction n as [|n IH]; intros k md t t' Hk' H; [constructor|]. destruct k as [|k]; [lia|]. assert (Hk : (n <= k)%nat) by lia. inversion H as [? ? D|name u u' Hin D]; subst.
    2: { rewrite (hoist_step _ _ _ _ Hin). apply IH; [lia|apply nr_direct, D]. }
    clear H. inversion D as [e q|m r Hs|m c fs Hs|s cs cs' G|s t1 t1' P|l l' G|g t1 t1' P]; subst; clear D; cbn [den].
    - constructor.
    - assert (E' : match m with None => env_find [] r | Some _ => None end = None) by (destruct m; reflexivity). rewrite E'.
      pose proof (nest_target md m r Hs) as T. destruct (target_of tr md m r) as [q a|q|].
      + destruct T as (a' & T & (_ & Hp & R) & (Hp0 & _ & Hok)). rewrite T, Hp, Hp0. destruct (p_spec a) as [body| | |]; [|rewrite R; constructor..].
        destruct R as (body' & -> & R & _). cbn. apply IH; [exact Hk|apply nr_direct, R].
      + rewrite T. apply IH; [exact Hk|apply nr_direct; constructor; exact Hs].
      + rewrite T. constructor.
    - assert (E' : match m with None => env_find [] c | Some _ => None end = None) by (destruct m; reflexivity). rewrite E'.
      pose proof (nest_target md m c Hs) as T. destruct (target_of tr md m c) as [q a|q|].
      + destruct T as (a' & T & (_ & Hp & R) & (Hp0 & _ & Hok)). rewrite T, Hp, Hp0. destruct (p_spec a) as [body| |fields|]; [|rewrite R; constructor| |rewrite R; constructor].
        * destruct R as (body' & -> & R & _). destruct (head_same _ _ _ _ R) as [(m' & c' & Hc' & -> & ->)|[B1 B2]].
          -- apply IH; [exact Hk|]. apply nr_direct. constructor. exact Hc'.
          -- destruct body; cbn in B1; try tauto; destruct body'; cbn in B2; try tauto; constructor.
        * rewrite R. destruct fs as [|f [|]]; try constructor. destruct (find _ fields) as [x|] eqn:Ef; [|constructor].
          destruct (f_type x) as [t|] eqn:Eft; [|constructor]. apply find_some in Ef as [Ef _]. destruct (Hok x t Ef Eft). apply IH; [exact Hk|]. apply nr_direct, ndirect_self; assumption.
      + rewrite T. apply IH; [exact Hk|apply nr_direct; constructor; exact Hs].
      + rewrite T. constructor.
    - constructor. eapply Forall2_map_rel'; [|exact G]. intros x y C. inversion C; subst; constructor; apply IH; auto; apply nr_direct; assumption.
    - constructor. apply IH; assumption.
    - constructor. eapply Forall2_map_rel'; [|exact G]. intros x y [C1 C2]. split; [symmetry; exact C1|]. apply IH; [assumption|apply nr_direct, C2].
    - constructor. apply IH; assumption.
  Qed.
  Lemma nest_same md t t' : nrel (tabs md) md t t' -> same_meaning tr md t tr' md t'.
  Proof.
    intros H. split; intros n.
    - exists (2 * n)%nat. apply (nforward n (2 * n) md t t' (le_n _) H).
    - exists n. apply (nbackward n n md t t' (le_n _) H).
  Qed.
End simulation.
