(** A check of the conditions of ExpressSpec.v, for examples. *)
From Coq Require Import List String Ascii ZArith Bool Lia.
From Verif Require Import Base CompilerNames ParserTree HeaderSpec CppSpec Header HeaderRun HeaderCheck ExpressSpec ExpressNames ExpressCreate.
Import ListNotations.
Local Open Scope string_scope.
Local Open Scope list_scope.

(** All types that t leads to, if [fuel] is enough to tell. *)
Definition targets (tr : list module) (N x : string) : list (module * type) :=
  flat_map (fun m => if String.eqb (m_name m) N then flat_map (fun p => if String.eqb (fst p) x then [(m, snd p)] else []) (types_of m) else []) tr.
Definition gather {A} (f : A -> option (list type)) : list A -> option (list type) :=
  fix go l := match l with [] => Some [] | x :: l => match f x, go l with Some a, Some b => Some (a ++ b) | _, _ => None end end.
Fixpoint all_leads (fuel : nat) (tr : list module) (m : module) (t : type) : option (list type) :=
  match fuel with
  | O => None
  | S fuel =>
      match t with
      | TTagged _ _ u => all_leads fuel tr m u
      | TRef (Defined mo x _) => gather (fun p => all_leads fuel tr (fst p) (snd p)) (targets tr (match mo with Some N => N | None => m_name m end) x)
      | _ => Some [t]
      end
  end.
Lemma gather_in {A} (f : A -> option (list type)) l : forall r x, gather f l = Some r -> In x l -> exists a, f x = Some a /\ incl a r.
Proof.
  induction l as [|y l IH]; intros r x H I; [destruct I|]. cbn in H. destruct (f y) as [a|] eqn:Fy; [|discriminate]. destruct (gather f l) as [b|] eqn:G; [|discriminate]. injection H as <-. destruct I as [->|I].
  - exists a. split; [exact Fy|]. apply incl_appl, incl_refl.
  - destruct (IH b x eq_refl I) as (a' & F & In'). exists a'. split; [exact F|]. apply incl_appr, In'.
Qed.
Lemma all_leads_in tr m t r : leads tr m t r -> forall fuel l, all_leads fuel tr m t = Some l -> In r l.
Proof.
  induction 1 as [m r R N|m g kw u r L IH|m mo x ps m' u r A E L IH]; intros fuel l H; (destruct fuel as [|fuel]; [discriminate|]); cbn [all_leads] in H.
  - destruct r; try (injection H as <-; left; reflexivity); [destruct (N _ _ _ eq_refl)|discriminate].
  - apply (IH fuel l H).
  - assert (I : In (m', u) (targets tr (match mo with Some N => N | None => m_name m end) x)).
    { apply assigned_types in A. destruct A as (A1 & A2). unfold targets. apply in_flat_map. exists m'. split; [exact A1|]. rewrite E, String.eqb_refl. apply in_flat_map. exists (x, u). split; [exact A2|]. cbn. rewrite String.eqb_refl. left. reflexivity. }
    destruct (gather_in _ _ _ _ H I) as (a & Ha & Hi). apply Hi. apply (IH fuel a Ha).
Qed.
(** All classes. *)
Fixpoint owns (n : string) (t : type) : list (string * type) :=
  (n, t) :: match t with
            | TRecord _ cs _ => flat_map (fun c => match c with Comp x u _ _ _ => owns (capitalised x) u end) cs
            | TChoice alts => flat_map (fun a => owns (capitalised (fst a)) (snd a)) alts
            | TTagged _ _ u => owns n u
            | _ => []
            end.
Lemma owns_self n t : In (n, t) (owns n t). Proof. destruct t; left; reflexivity. Qed.
Lemma owns_trans t : forall n0 n u, In (n, u) (owns n0 t) -> incl (owns n u) (owns n0 t).
Proof.
  induction t as [t IH] using type_child_ind. intros n0 n u I. destruct t as [k|ns|vs e|d fl|alts|set cs ext|set z v|g kw v|d]; cbn [owns] in I; destruct I as [[= <- <-]|I]; try apply incl_refl; try destruct I.
  - apply in_flat_map in I. destruct I as ([x w] & Ix & I). cbn [fst snd] in I. intros y Hy. cbn [owns]. right. apply in_flat_map. exists (x, w). split; [exact Ix|]. cbn [fst snd]. apply (IH w ltac:(econstructor; exact Ix) _ n u I y Hy).
  - apply in_flat_map in I. destruct I as ([x w o d co] & Ix & I). intros y Hy. cbn [owns]. right. apply in_flat_map. exists (Comp x w o d co). split; [exact Ix|]. apply (IH w ltac:(econstructor; exact Ix) _ n u I y Hy).
  - intros y Hy. cbn [owns]. right. apply (IH v ltac:(constructor) n0 n u I y Hy).
Qed.
Definition all_owners (tr : list module) : list (string * type) := flat_map (fun m => flat_map (fun p => owns (fst p) (snd p)) (types_of m)) tr.
Lemma owner_in tr n t : owner tr n t -> In (n, t) (all_owners tr).
Proof.
  intros O. assert (X : exists m x t0, assigned tr m x t0 /\ In (n, t) (owns x t0)).
  { induction O as [m x t A|n set cs ext x u o d co O IH I|n alts x u O IH I|n g kw u O IH].
    - exists m, x, t. split; [exact A|apply owns_self].
    - destruct IH as (m & y & t0 & A & J). exists m, y, t0. split; [exact A|]. apply (owns_trans _ _ _ _ J). right. apply in_flat_map. exists (Comp x u o d co). split; [exact I|apply owns_self].
    - destruct IH as (m & y & t0 & A & J). exists m, y, t0. split; [exact A|]. apply (owns_trans _ _ _ _ J). right. apply in_flat_map. exists (x, u). split; [exact I|apply owns_self].
    - destruct IH as (m & y & t0 & A & J). exists m, y, t0. split; [exact A|]. apply (owns_trans _ _ _ _ J). right. apply owns_self. }
  destruct X as (m & x & t0 & A & I). apply assigned_types in A. destruct A as (A1 & A2). apply in_flat_map. exists m. split; [exact A1|]. apply in_flat_map. exists (x, t0). auto.
Qed.

Definition free_b (used : list string) (n : string) : bool := negb (in_b n used) && negb (starts_with "DefaultValue" n).
Lemma free_check used n : free_b used n = true -> free used n.
Proof. intros H. apply andb_true_iff in H. destruct H as (A & B). split; [apply in_check, negb_true_iff, A|]. intros r ->. rewrite starts_with_app in B. discriminate. Qed.
Definition class_b (n : string) (t : type) : bool :=
  match t with
  | TRecord set cs ext =>
      let names := map comp_name cs in let capitals := map capitalised names in
      nodup_b (names ++ capitals) && negb (in_b n (names ++ capitals ++ struct_names)) && forallb (fun x => negb (made_up_b x)) names &&
      forallb (free_b (library_names ++ struct_names)) (names ++ capitals)
  | TChoice alts =>
      let capitals := map (fun a => capitalised (fst a)) alts in
      nodup_b capitals && negb (in_b n (capitals ++ choice_names)) && forallb (free_b (library_names ++ choice_names)) capitals
  | _ => true
  end.
Definition written_b (t : type) : bool :=
  match t with
  | TListOf _ _ u => forallb (fun v => negb (structure v)) (subs u)
  | TRecord _ cs _ => forallb (fun c => match c with Comp _ u _ (Some _) _ => negb (enumeration (behind_tags u)) | _ => true end) cs
  | TSimple k => has_class k
  | _ => true
  end.
Definition values_b (fuel : nat) (tr : list module) (m : module) : bool :=
  forallb (fun a => match a_specific a with AValue t _ => match all_leads fuel tr m t with Some l => forallb (fun r => negb (enumeration r)) l | None => false end | _ => true end) (m_assigns m).
Definition reference_b (fuel : nat) (tr : list module) (m : module) (u : type) : bool :=
  match u with
  | TRef (Defined mo x ps) =>
      match all_leads fuel tr m u with
      | Some l => negb (existsb list_or_enumeration l) ||
          match mo with None => true | Some N => String.eqb N (m_name m) end && forallb (fun p => negb (String.eqb (fst p) x) || list_or_enumeration (snd p)) (types_of m)
      | None => false
      end
  | _ => true
  end.
Definition tags_b (t : type) : bool := match t with TTagged _ _ (TTagged _ _ u) => negb (reference (behind_tags u)) | _ => true end.
Definition order_b (earlier : list string) (m : module) (before : list string) (u : type) : bool :=
  match u with
  | TRef (Defined mo x _) => match mo with None => true | Some N => String.eqb N (m_name m) end && in_b x before || match mo with Some N => in_b N earlier | None => false end
  | _ => true
  end.
Fixpoint order_assigns (earlier : list string) (m : module) (before : list string) (l : list assignment) : bool :=
  match l with
  | [] => true
  | a :: l => match a_specific a with AType t => forallb (order_b earlier m before) (subs t) | _ => true end && order_assigns earlier m (before ++ [a_name a]) l
  end.
Fixpoint order_modules (earlier : list string) (l : list module) : bool :=
  match l with [] => true | m :: l => order_assigns earlier m [] (m_assigns m) && order_modules (earlier ++ [m_name m]) l end.
Definition expressible_b (fuel : nat) (tr : list module) : bool :=
  nodup_b (map m_name tr) && forallb (fun m => negb (in_b (m_name m) library_names)) tr &&
  forallb (fun m => forallb (fun a => free_b library_names (a_name a) && negb (made_up_b (a_name a))) (m_assigns m)) tr &&
  forallb (fun p => class_b (fst p) (snd p)) (all_owners tr) &&
  forallb written_b (all_types tr) &&
  forallb (values_b fuel tr) tr &&
  forallb (fun m => forallb (fun p => forallb (reference_b fuel tr m) (subs (snd p)) && tags_b (snd p)) (types_of m)) tr &&
  order_modules [] tr.
Lemma in_yes x l : in_b x l = true -> In x l.
Proof. intros H. apply existsb_exists in H. destruct H as (y & I & E). apply String.eqb_eq in E. subst y. exact I. Qed.
Lemma order_assigns_check earlier m l : forall before, order_assigns earlier m before l = true -> forall p a q t, l = p ++ a :: q -> a_specific a = AType t -> forallb (order_b earlier m (before ++ map a_name p)) (subs t) = true.
Proof.
  induction l as [|b l IH]; intros before H p a q t E Ht; [destruct p; discriminate|]. cbn [order_assigns] in H. apply andb_true_iff in H. destruct H as (H1 & H2). destruct p as [|c p].
  - injection E as <- _. rewrite Ht in H1. cbn [map]. rewrite app_nil_r. exact H1.
  - injection E as <- E. cbn [map]. specialize (IH _ H2 p a q t E Ht). rewrite <- app_assoc in IH. exact IH.
Qed.
Lemma order_modules_check l : forall earlier, order_modules earlier l = true -> forall p m q, l = p ++ m :: q -> order_assigns (earlier ++ map m_name p) m [] (m_assigns m) = true.
Proof.
  induction l as [|b l IH]; intros earlier H p m q E; [destruct p; discriminate|]. cbn [order_modules] in H. apply andb_true_iff in H. destruct H as (H1 & H2). destruct p as [|c p].
  - injection E as <- _. cbn [map]. rewrite app_nil_r. exact H1.
  - injection E as <- E. cbn [map]. specialize (IH _ H2 p m q E). rewrite <- app_assoc in IH. exact IH.
Qed.
Lemma expressible_check fuel tr : expressible_b fuel tr = true -> expressible tr.
Proof.
  unfold expressible_b. rewrite !andb_true_iff. intros (((((((A & B) & C) & D) & F) & G) & H) & O). rewrite forallb_forall in B, C, D, F, G, H. apply nodup_check in A.
  assert (FT : forall t, occurs tr t -> written_b t = true) by (intros t Ot; apply F, occurs_types, Ot).
  assert (DT : forall n t, owner tr n t -> class_b n t = true) by (intros n t Ot; apply (D (n, t)), owner_in, Ot).
  constructor.
  - split; [exact A|]. intros m Hm. apply in_check, negb_true_iff, B, Hm.
  - intros m a Hm Ha. specialize (C m Hm). rewrite forallb_forall in C. specialize (C a Ha). apply andb_true_iff in C. destruct C as (C1 & C2). split; [apply free_check, C1|apply made_up_check, negb_true_iff, C2].
  - intros n set cs ext Ow. apply DT in Ow. cbn [class_b] in Ow. rewrite !andb_true_iff, !forallb_forall in Ow. destruct Ow as (((O1 & O2) & O3) & O4). cbv zeta. split; [apply nodup_check, O1|]. split; [apply in_check, negb_true_iff, O2|].
    split; [intros x Ix; apply made_up_check, negb_true_iff, O3, Ix|]. intros x Ix. apply free_check, O4, Ix.
  - intros n alts Ow. apply DT in Ow. cbn [class_b] in Ow. rewrite !andb_true_iff, !forallb_forall in Ow. destruct Ow as ((O1 & O2) & O3). cbv zeta. split; [apply nodup_check, O1|]. split; [apply in_check, negb_true_iff, O2|]. intros x Ix. apply free_check, O3, Ix.
  - intros set x u v Ot I. apply FT in Ot. cbn in Ot. rewrite forallb_forall in Ot. apply negb_true_iff, Ot, inside_subs, I.
  - intros set cs ext x u o v co Ot I. apply FT in Ot. cbn in Ot. rewrite forallb_forall in Ot. apply negb_true_iff, (Ot _ I).
  - intros m x t v ps r Hm I L. specialize (G m Hm). unfold values_b in G. rewrite forallb_forall in G. specialize (G _ I). cbn in G. destruct (all_leads fuel tr m t) as [l|] eqn:Al; [|discriminate]. rewrite forallb_forall in G. apply negb_true_iff, G, (all_leads_in _ _ _ _ L _ _ Al).
  - intros k Ot. apply (FT _ Ot).
  - intros m n t mo x ps r As I L Lr. pose proof (assigned_types _ _ _ _ As) as (A1 & A2). specialize (H m A1). rewrite forallb_forall in H. specialize (H _ A2). apply andb_true_iff in H. destruct H as (H & _). rewrite forallb_forall in H. specialize (H _ (inside_subs _ _ I)).
    unfold reference_b in H. destruct (all_leads fuel tr m _) as [l|] eqn:Al; [|discriminate]. apply orb_true_iff in H. destruct H as [H|H].
    + exfalso. apply negb_true_iff in H. assert (X : existsb list_or_enumeration l = true); [|congruence]. apply existsb_exists. exists r. split; [apply (all_leads_in _ _ _ _ L _ _ Al)|exact Lr].
    + apply andb_true_iff in H. destruct H as (H1 & H2). assert (Mo : mo = None \/ mo = Some (m_name m)) by (destruct mo as [N|]; [right; f_equal; apply String.eqb_eq, H1|left; reflexivity]). split; [|exact Mo].
      inversion L as [? ? X| |? ? ? ? m' u ? A' E' L']; subst; [discriminate|]. assert (E2 : m_name m' = m_name m) by (destruct Mo as [-> | ->]; exact E').
      assert (m' = m) as -> by (apply (named_same m_name tr m' m A (proj1 A') A1 E2)). rewrite forallb_forall in H2. pose proof (assigned_types _ _ _ _ A') as (_ & A3). specialize (H2 _ A3). cbn in H2. rewrite String.eqb_refl in H2. cbn in H2.
      inversion L'; subst; try discriminate. exact A'.
  - intros m x g kw g' kw' u As. apply assigned_types in As. destruct As as (A1 & A2). specialize (H m A1). rewrite forallb_forall in H. specialize (H _ A2). apply andb_true_iff in H. apply negb_true_iff, (proj2 H).
  - intros pre m post before a after t mo x ps E Ea Ht I. pose proof (order_modules_check _ _ O _ _ _ E) as X. pose proof (order_assigns_check _ _ _ _ X _ _ _ _ Ea Ht) as Y. rewrite forallb_forall in Y. specialize (Y _ (inside_subs _ _ I)). cbn [order_b app] in Y. apply orb_true_iff in Y. destruct Y as [Y|Y].
    + left. apply andb_true_iff in Y. destruct Y as (Y1 & Y2). split; [destruct mo as [N|]; [right; f_equal; apply String.eqb_eq, Y1|left; reflexivity]|apply in_yes, Y2].
    + right. destruct mo as [N|]; [|discriminate]. exists N. split; [reflexivity|apply in_yes, Y].
Qed.
Definition has_value (m : module) (x : string) : bool := existsb (fun a => String.eqb (a_name a) x && match a_specific a with AValue _ _ => true | _ => false end) (m_assigns m).
Fixpoint imports_order (pre l : list module) : bool :=
  match l with
  | [] => true
  | m :: l => forallb (fun i => forallb (fun x => existsb (fun m' => String.eqb (m_name m') (i_module i) && has_value m' x) pre) (i_values i)) (m_imports m) && imports_order (pre ++ [m]) l
  end.
Definition imports_b (tr : list module) : bool :=
  forallb (fun m => nodup_b (imported_values m ++ map a_name (m_assigns m)) && forallb (fun x => free_b library_names x && negb (made_up_b x) && negb (in_b x (map m_name tr))) (imported_values m)) tr && imports_order [] tr.
Lemma imports_order_check l : forall earlier, imports_order earlier l = true -> forall p m q, l = p ++ m :: q ->
  forallb (fun i => forallb (fun x => existsb (fun m' => String.eqb (m_name m') (i_module i) && has_value m' x) (earlier ++ p)) (i_values i)) (m_imports m) = true.
Proof.
  induction l as [|b l IH]; intros earlier H p m q E; [destruct p; discriminate|]. cbn [imports_order] in H. apply andb_true_iff in H. destruct H as (H1 & H2). destruct p as [|c p].
  - injection E as <- _. rewrite app_nil_r. exact H1.
  - injection E as <- E. specialize (IH _ H2 p m q E). rewrite <- app_assoc in IH. exact IH.
Qed.
Lemma imports_check tr : imports_b tr = true -> imports_expressible tr.
Proof.
  unfold imports_b. rewrite andb_true_iff, forallb_forall. intros (A & B). constructor.
  - intros m Hm. specialize (A m Hm). apply andb_true_iff in A. destruct A as (A1 & A2). split; [apply nodup_check, A1|]. rewrite forallb_forall in A2. intros x Ix. specialize (A2 x Ix). rewrite !andb_true_iff in A2. destruct A2 as ((A2 & A3) & A4).
    split; [apply free_check, A2|]. split; [apply made_up_check, negb_true_iff, A3|apply in_check, negb_true_iff, A4].
  - intros pre m post i x E Ii Ix. pose proof (imports_order_check _ _ B _ _ _ E) as H. rewrite forallb_forall in H. specialize (H i Ii). rewrite forallb_forall in H. specialize (H x Ix). apply existsb_exists in H. destruct H as (m' & I' & H).
    apply andb_true_iff in H. destruct H as (H1 & H2). apply String.eqb_eq in H1. unfold has_value in H2. apply existsb_exists in H2. destruct H2 as ([y [t|t v|cf|] ps] & Ia & H2); cbn in H2; apply andb_true_iff in H2; destruct H2 as (H2 & H3); try discriminate. apply String.eqb_eq in H2. subst y.
    exists m', t, v, ps. auto.
Qed.
