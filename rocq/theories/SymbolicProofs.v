(** Proofs about symbolic reduction (C01, C02). *)
From Verif Require Import PyBase PyLemmas SymbolicModel SymbolicSpec.
From Coq Require Import Sorting.Permutation Sorting.Sorted.

(** ** sorting *)
Lemma insert_by_perm {A} (lt : A -> A -> bool) x l : Permutation (x :: l) (insert_by lt x l).
Proof.
  induction l as [|y l IH]; simpl; [apply Permutation_refl|].
  destruct (lt y x); [|apply Permutation_refl].
  eapply perm_trans; [apply perm_swap|]. apply perm_skip. exact IH.
Qed.
Lemma sort_by_perm {A} (lt : A -> A -> bool) l : Permutation l (sort_by lt l).
Proof.
  induction l as [|x l IH]; simpl; [constructor|].
  eapply perm_trans; [apply perm_skip; exact IH | apply insert_by_perm].
Qed.
Lemma sort_by_in {A} (lt : A -> A -> bool) l x : In x (sort_by lt l) <-> In x l.
Proof.
  split; apply Permutation_in; [apply Permutation_sym|]; apply sort_by_perm.
Qed.

Lemma sort_base_sorted l :
  NoDup (map base l) ->
  StronglySorted (fun a b => str_ltb (base a) (base b) = true) (sort_by base_lt l).
Proof.
  induction l as [|x l IH]; simpl; intros ND; [constructor|].
  inversion ND as [|? ? Hx ND']; subst. specialize (IH ND').
  assert (Hn : forall y, In y (sort_by base_lt l) -> base y <> base x).
  { intros y Hy E. apply sort_by_in in Hy. apply Hx. rewrite <- E. apply in_map; exact Hy. }
  revert IH Hn. generalize (sort_by base_lt l) as m. clear.
  induction m as [|y m IHm]; simpl; intros S Hn.
  - repeat constructor.
  - unfold base_lt at 1. destruct (str_ltb (base y) (base x)) eqn:E.
    + inversion S as [|? ? S' F]; subst. constructor.
      * apply IHm; [exact S' | intros z Hz; apply Hn; auto].
      * apply Forall_forall. intros z Hz.
        assert (Hz' : In z (x :: m)).
        { eapply Permutation_in; [apply Permutation_sym, (insert_by_perm base_lt)|exact Hz]. }
        destruct Hz' as [<-|Hz']; [exact E|]. rewrite Forall_forall in F. auto.
    + assert (L : str_ltb (base x) (base y) = true).
      { destruct (str_ltb (base x) (base y)) eqn:E2; [reflexivity|].
        exfalso. apply (Hn y); [auto|]. apply str_ltb_total; assumption. }
      inversion S as [|? ? S' F]; subst. constructor; [exact S|].
      constructor; [exact L|]. rewrite Forall_forall in *. intros z Hz.
      eapply str_ltb_trans; [exact L | apply F; exact Hz].
Qed.

Lemma before_irrefl a : ~ before a a.
Proof.
  intros [H|[_ H]]; [eapply Qclt_not_eq; eauto | rewrite str_ltb_irrefl in H; discriminate].
Qed.
Lemma before_trans a b c : before a b -> before b c -> before a c.
Proof.
  intros [H1|[E1 H1]] [H2|[E2 H2]].
  - left. eapply Qclt_trans; eauto.
  - left. rewrite <- E2. exact H1.
  - left. rewrite E1. exact H2.
  - right. split; [congruence | eapply str_ltb_trans; eauto].
Qed.

Lemma sort_expo_sorted l :
  StronglySorted (fun a b => str_ltb (base a) (base b) = true) l ->
  StronglySorted before (sort_by expo_gt l).
Proof.
  induction l as [|x l IH]; simpl; intros S; [constructor|].
  inversion S as [|? ? S' F]; subst. specialize (IH S').
  assert (Hb : forall y, In y (sort_by expo_gt l) -> str_ltb (base x) (base y) = true).
  { intros y Hy. apply sort_by_in in Hy. rewrite Forall_forall in F. auto. }
  revert IH Hb. generalize (sort_by expo_gt l) as m. clear.
  induction m as [|y m IHm]; simpl; intros S Hb.
  - repeat constructor.
  - unfold expo_gt at 1. destruct (qc_ltb_spec (expo x) (expo y)) as [L|L].
    + inversion S as [|? ? S' F]; subst. constructor.
      * apply IHm; [exact S' | intros z Hz; apply Hb; auto].
      * apply Forall_forall. intros z Hz.
        assert (Hz' : In z (x :: m)).
        { eapply Permutation_in; [apply Permutation_sym, (insert_by_perm expo_gt)|exact Hz]. }
        destruct Hz' as [<-|Hz']; [left; exact L|]. rewrite Forall_forall in F. auto.
    + assert (B : before x y).
      { destruct (Qclt_le_dec (expo y) (expo x)) as [L2|L2]; [left; exact L2|].
        right. split; [|apply Hb; auto]. apply Qcle_antisym; [exact L2|].
        apply Qcnot_lt_le. exact L. }
      inversion S as [|? ? S' F]; subst. constructor; [exact S|].
      constructor; [exact B|]. rewrite Forall_forall in *. intros z Hz.
      eapply before_trans; [exact B | apply F; exact Hz].
Qed.

Lemma sorted_unique {A} (R : A -> A -> Prop)
      (irr : forall a, ~ R a a) (tr : forall a b c, R a b -> R b c -> R a c) l :
  forall m, StronglySorted R l -> StronglySorted R m ->
  (forall x, In x l <-> In x m) -> l = m.
Proof.
  induction l as [|x l IH]; intros [|y m] Sl Sm E.
  - reflexivity.
  - exfalso. destruct (proj2 (E y)); simpl; auto.
  - exfalso. destruct (proj1 (E x)); simpl; auto.
  - inversion Sl as [|? ? Sl' Fl]; inversion Sm as [|? ? Sm' Fm]; subst.
    rewrite Forall_forall in Fl, Fm.
    assert (x = y).
    { destruct (proj1 (E x) (or_introl eq_refl)) as [H|H]; [auto|].
      destruct (proj2 (E y) (or_introl eq_refl)) as [H'|H']; [auto|].
      exfalso. eapply irr, tr; [apply Fl, H' | apply Fm, H]. }
    subst y. f_equal. apply IH; auto. intros z. split; intros Hz.
    + destruct (proj1 (E z) (or_intror Hz)) as [<-|H]; [|exact H].
      exfalso. eapply irr, Fl, Hz.
    + destruct (proj2 (E z) (or_intror Hz)) as [<-|H]; [|exact H].
      exfalso. eapply irr, Fm, Hz.
Qed.

(** ** monomials *)
Lemma mono_coef_app a b : mono_coef (a ++ b) = (mono_coef a * mono_coef b)%Qc.
Proof. induction a as [|t a IH]; simpl; [ring|]. rewrite IH. ring. Qed.
Lemma mono_expo_app x a b : mono_expo x (a ++ b) = (mono_expo x a + mono_expo x b)%Qc.
Proof.
  induction a as [|t a IH]; simpl; [ring|]. rewrite IH.
  destruct (str_eqb (base t) x); ring.
Qed.
Lemma mono_coef_perm a b : Permutation a b -> mono_coef a = mono_coef b.
Proof.
  induction 1; simpl; try congruence; ring.
Qed.
Lemma mono_expo_perm x a b : Permutation a b -> mono_expo x a = mono_expo x b.
Proof.
  induction 1; simpl; try congruence.
  - rewrite IHPermutation. reflexivity.
  - destruct (str_eqb (base x0) x), (str_eqb (base y) x); try reflexivity; ring.
Qed.
Lemma mono_coef_nonzero ts : Forall term_ok ts -> mono_coef ts <> 0%Qc.
Proof.
  induction 1 as [|t ts (_ & Hc & _) _ IH]; simpl.
  - discriminate.
  - intros E. apply Qcmult_integral in E as [E|E]; auto.
Qed.
Lemma mono_expo_in b ts : mono_expo b ts <> 0%Qc -> exists t, In t ts /\ base t = b.
Proof.
  induction ts as [|t ts IH]; simpl; intros H; [congruence|].
  destruct (str_eqb_spec (base t) b) as [E|E].
  - exists t; auto.
  - destruct (IH H) as (u & Hu & E'). exists u; auto.
Qed.

(** ** the accumulator *)
Definition acc_coef (a : acc) : Qc := fold_right (fun kv c => fst (snd kv) * c)%Qc 1%Qc a.
Definition acc_expo (b : str) (a : acc) : Qc :=
  fold_right (fun kv e => if str_eqb (fst kv) b then snd (snd kv) + e else e)%Qc 0%Qc a.

Lemma acc_add_coef a t : acc_coef (acc_add a t) = (acc_coef a * coef t)%Qc.
Proof.
  induction a as [|[b [c e]] a IH]; simpl; [ring|].
  destruct (str_eqb b (base t)); simpl; [ring|]. rewrite IH. ring.
Qed.
Lemma acc_add_expo x a t :
  acc_expo x (acc_add a t) = (acc_expo x a + (if str_eqb (base t) x then expo t else 0))%Qc.
Proof.
  induction a as [|[b [c e]] a IH]; simpl.
  - destruct (str_eqb (base t) x); ring.
  - destruct (str_eqb_spec b (base t)) as [->|N]; simpl.
    + destruct (str_eqb (base t) x); ring.
    + rewrite IH. destruct (str_eqb b x); ring.
Qed.
Lemma acc_add_keys a t x :
  In x (map fst (acc_add a t)) <-> In x (map fst a) \/ x = base t.
Proof.
  induction a as [|[b [c e]] a IH]; simpl.
  - intuition.
  - destruct (str_eqb_spec b (base t)) as [->|N]; simpl; [intuition|].
    rewrite IH. intuition.
Qed.
Lemma acc_add_nodup a t : NoDup (map fst a) -> NoDup (map fst (acc_add a t)).
Proof.
  induction a as [|[b [c e]] a IH]; simpl; intros H.
  - repeat constructor; auto.
  - inversion H as [|? ? H1 H2]; subst.
    destruct (str_eqb_spec b (base t)) as [->|N]; simpl; [exact H|].
    constructor; [|auto]. rewrite acc_add_keys. intros [H'|H']; auto.
Qed.

Lemma acc_fold_coef ts a : acc_coef (fold_left acc_add ts a) = (acc_coef a * mono_coef ts)%Qc.
Proof.
  revert a; induction ts as [|t ts IH]; simpl; intros a; [ring|].
  rewrite IH, acc_add_coef. ring.
Qed.
Lemma acc_fold_expo x ts a :
  acc_expo x (fold_left acc_add ts a) = (acc_expo x a + mono_expo x ts)%Qc.
Proof.
  revert a; induction ts as [|t ts IH]; simpl; intros a; [ring|].
  rewrite IH, acc_add_expo. destruct (str_eqb (base t) x); ring.
Qed.
Lemma acc_fold_keys ts a x :
  In x (map fst (fold_left acc_add ts a)) <-> In x (map fst a) \/ In x (map base ts).
Proof.
  revert a; induction ts as [|t ts IH]; simpl; intros a; [intuition|].
  rewrite IH, acc_add_keys. intuition.
Qed.
Lemma acc_fold_nodup ts a :
  NoDup (map fst a) -> NoDup (map fst (fold_left acc_add ts a)).
Proof.
  revert a; induction ts as [|t ts IH]; simpl; intros a H; [exact H|].
  apply IH, acc_add_nodup, H.
Qed.
Lemma acc_expo_lookup a kv :
  NoDup (map fst a) -> In kv a -> acc_expo (fst kv) a = snd (snd kv).
Proof.
  induction a as [|[b [c e]] a IH]; simpl; intros ND H; [contradiction|].
  inversion ND as [|? ? N ND']; subst.
  assert (Z : forall x, ~ In x (map fst a) -> acc_expo x a = 0%Qc).
  { clear. intros x. induction a as [|[b' [c' e']] a IH]; simpl; intros H; [reflexivity|].
    destruct (str_eqb_spec b' x) as [->|]; [exfalso; auto | auto]. }
  destruct H as [<-|H]; simpl.
  - rewrite str_eqb_refl, Z by assumption. ring.
  - destruct (str_eqb_spec b (fst kv)) as [->|]; [|auto].
    exfalso. apply N. apply in_map; exact H.
Qed.
Lemma acc_expo_notin a b : ~ In b (map fst a) -> acc_expo b a = 0%Qc.
Proof.
  induction a as [|[b' [c' e']] a IH]; simpl; intros H; [reflexivity|].
  destruct (str_eqb_spec b' b) as [->|]; [exfalso; auto | auto].
Qed.

(** ** reduction *)
Definition keepvar (kv : str * (Qc * Qc)) : bool :=
  negb (str_eqb (fst kv) (s "1")) && negb (qc_eqb (snd (snd kv)) 0).
Definition variables (ts : list operand) : list operand :=
  sort_by expo_gt (sort_by base_lt
    (map (fun kv => var_term (fst kv) (snd (snd kv)))
         (filter keepvar (fold_left acc_add ts [])))).

Lemma base_valid_nonempty b : base_is_valid b = true -> b <> [].
Proof. intros H ->. discriminate H. Qed.

Lemma term_factory_ok c b e t : term_factory c b e = Ok t -> term_ok t.
Proof.
  unfold term_factory. intros H.
  assert (O : forall q, or1 q <> 0%Qc).
  { intros q. unfold or1. destruct (qc_eqb_spec q 0) as [|N]; [discriminate | exact N]. }
  destruct b as [b|].
  - destruct (base_is_valid b) eqn:V; [|discriminate]. injection H as <-.
    unfold term_ok, mk_operand; simpl. pose proof (base_valid_nonempty b V).
    destruct b; [contradiction|]. auto.
  - injection H as <-. unfold term_ok, mk_operand; simpl. auto.
Qed.

Lemma term_factory_var b e :
  base_is_valid b = true -> e <> 0%Qc -> term_factory 1%Qc (Some b) e = Ok (var_term b e).
Proof.
  intros V E. unfold term_factory. rewrite V. unfold mk_operand, var_term. f_equal.
  pose proof (base_valid_nonempty b V). destruct b; [contradiction|].
  unfold or1. destruct (qc_eqb_spec e 0); [contradiction|].
  reflexivity.
Qed.
Lemma term_factory_const c :
  c <> 0%Qc -> term_factory c None 1%Qc = Ok (const_term c).
Proof.
  intros E. unfold term_factory, mk_operand, const_term, or1.
  destruct (qc_eqb_spec c 0); [contradiction|]. reflexivity.
Qed.

Lemma fold_left_mult l f : fold_left Qcmult l f = (f * fold_right Qcmult 1%Qc l)%Qc.
Proof.
  revert f; induction l as [|x l IH]; simpl; intros f; [ring|]. rewrite IH. ring.
Qed.

Definition assemble (c : Qc) (vs : list operand) : list operand :=
  match vs with
  | [] => [const_term c]
  | _ => if qc_eqb c 1 then vs else const_term c :: vs
  end.

Lemma reduce_eq ts :
  ts <> [] -> Forall term_ok ts ->
  reduce ts = Ok (assemble (mono_coef ts) (variables ts)).
Proof.
  intros NE F. unfold reduce.
  set (a := fold_left acc_add ts []).
  assert (Hm : mapM (fun kv => term_factory 1%Qc (Some (fst kv)) (snd (snd kv)))
                 (filter keepvar a)
               = Ok (map (fun kv => var_term (fst kv) (snd (snd kv))) (filter keepvar a))).
  { apply (mapM_ok _ (fun kv : str * (Qc * Qc) => var_term (fst kv) (snd (snd kv)))). intros kv Hkv. apply filter_In in Hkv as [Hin Hk].
    unfold keepvar in Hk. apply andb_true_iff in Hk as [_ Hk].
    apply term_factory_var.
    - assert (In (fst kv) (map base ts)) as Hb.
      { assert (H : In (fst kv) (map fst a)) by (apply in_map; exact Hin).
        unfold a in H. apply acc_fold_keys in H as [[]|H]. exact H. }
      apply in_map_iff in Hb as (t & <- & Ht).
      rewrite Forall_forall in F. apply F in Ht. apply Ht.
    - destruct (qc_eqb_spec (snd (snd kv)) 0); [discriminate | assumption]. }
  change (fun kv : str * (Qc * Qc) => negb (str_eqb (fst kv) (s "1")) && negb (qc_eqb (snd (snd kv)) 0))
    with keepvar.
  rewrite Hm. cbn [bind].
  assert (Ha : acc_coef a = mono_coef ts).
  { unfold a. rewrite acc_fold_coef. simpl. ring. }
  assert (Hc : forall f fs, map (fun kv : str * (Qc * Qc) => fst (snd kv)) a = f :: fs ->
               fold_left Qcmult fs f = mono_coef ts).
  { intros f fs E. rewrite fold_left_mult, <- Ha.
    assert (G : forall l : acc, acc_coef l = fold_right Qcmult 1%Qc (map (fun kv => fst (snd kv)) l)).
    { induction l; simpl; congruence. }
    rewrite G, E. reflexivity. }
  destruct (map (fun kv : str * (Qc * Qc) => fst (snd kv)) a) as [|f fs] eqn:E.
  - exfalso. destruct ts as [|t ts]; [congruence|].
    assert (H : In (base t) (map fst a)).
    { unfold a. apply acc_fold_keys. right. left. reflexivity. }
    destruct a; [exact H | discriminate].
  - rewrite (Hc f fs eq_refl).
    rewrite term_factory_const by (apply mono_coef_nonzero; exact F).
    cbn [bind]. fold (variables ts). unfold assemble, variables, a.
    destruct (sort_by expo_gt _); reflexivity || (destruct (qc_eqb _ _); reflexivity).
Qed.

Lemma variables_in ts t :
  Forall term_ok ts ->
  (In t (variables ts) <->
   t = var_term (base t) (mono_expo (base t) ts) /\ base t <> one_base
   /\ mono_expo (base t) ts <> 0%Qc).
Proof.
  intros F. unfold variables. rewrite !sort_by_in, in_map_iff.
  set (a := fold_left acc_add ts []).
  assert (ND : NoDup (map fst a)) by (apply acc_fold_nodup; constructor).
  assert (He : forall b, acc_expo b a = mono_expo b ts).
  { intros b. unfold a. rewrite acc_fold_expo. simpl. ring. }
  split.
  - intros (kv & <- & Hkv). apply filter_In in Hkv as [Hin Hk]. simpl.
    rewrite <- He, (acc_expo_lookup a kv ND Hin).
    unfold keepvar in Hk. apply andb_true_iff in Hk as [H1 H2].
    apply negb_true_iff in H1, H2. apply str_eqb_neq in H1. apply qc_eqb_neq in H2.
    auto.
  - intros (E & N1 & N0).
    destruct (in_dec str_eq_dec (base t) (map fst a)) as [Hin|Hout].
    + apply in_map_iff in Hin as (kv & Ek & Hin). exists kv.
      pose proof (acc_expo_lookup a kv ND Hin) as L. rewrite He, Ek in L.
      split; [rewrite Ek, <- L; symmetry; exact E|].
      apply filter_In. split; [exact Hin|]. unfold keepvar.
      apply andb_true_iff. split; apply negb_true_iff.
      * apply str_eqb_neq. rewrite Ek. exact N1.
      * apply qc_eqb_neq. rewrite <- L. exact N0.
    + exfalso. apply N0. rewrite <- He. apply acc_expo_notin. exact Hout.
Qed.

Lemma filter_nodup_map {A B} (f : A -> B) (p : A -> bool) l :
  NoDup (map f l) -> NoDup (map f (filter p l)).
Proof.
  induction l as [|x l IH]; simpl; intros H; [constructor|].
  inversion H as [|? ? N H']; subst. destruct (p x); simpl; [|auto].
  constructor; [|auto]. intros Hin. apply N.
  apply in_map_iff in Hin as (y & <- & Hy). apply filter_In in Hy as [Hy _].
  apply in_map; exact Hy.
Qed.

Lemma variables_nodup ts : NoDup (map base (variables ts)).
Proof.
  unfold variables.
  eapply Permutation_NoDup; [apply Permutation_map, sort_by_perm|].
  eapply Permutation_NoDup; [apply Permutation_map, sort_by_perm|].
  rewrite map_map. simpl. apply filter_nodup_map. apply acc_fold_nodup. constructor.
Qed.
Lemma variables_sorted ts : StronglySorted before (variables ts).
Proof.
  unfold variables. apply sort_expo_sorted, sort_base_sorted.
  rewrite map_map. simpl. apply filter_nodup_map. apply acc_fold_nodup. constructor.
Qed.
Lemma variables_forall ts : Forall term_ok ts ->
  Forall (fun t => exists b e, t = var_term b e /\ b <> one_base /\ e <> 0%Qc
                               /\ base_is_valid b = true) (variables ts).
Proof.
  intros F. apply Forall_forall. intros t Ht. apply variables_in in Ht as (E & N1 & N0); [|exact F].
  exists (base t), (mono_expo (base t) ts). repeat split; auto.
  apply mono_expo_in in N0 as (u & Hu & <-). rewrite Forall_forall in F. apply F in Hu. apply Hu.
Qed.

Lemma reduce_canonical ts r :
  ts <> [] -> Forall term_ok ts -> reduce ts = Ok r -> canonical r.
Proof.
  intros NE F H. rewrite reduce_eq in H by assumption. injection H as <-.
  exists (mono_coef ts), (variables ts). repeat split.
  - apply mono_coef_nonzero; exact F.
  - apply variables_forall; exact F.
  - apply variables_sorted.
  - apply variables_nodup.
Qed.

Lemma canonical_ok r : canonical r -> r <> [] /\ Forall term_ok r.
Proof.
  intros (c & vs & -> & Hc & F & _ & _).
  assert (FV : Forall term_ok vs).
  { eapply Forall_impl; [|exact F]. intros t (b & e & -> & _ & He & Hv).
    unfold term_ok; simpl. repeat split; auto; discriminate. }
  assert (FC : term_ok (const_term c)).
  { unfold term_ok; simpl. repeat split; auto; discriminate. }
  destruct vs as [|v vs].
  - split; [discriminate | auto].
  - destruct (qc_eqb c 1); split; try discriminate; auto.
Qed.

Lemma mono_coef_vars vs :
  Forall (fun t => exists b e, t = var_term b e /\ b <> one_base /\ e <> 0%Qc
                               /\ base_is_valid b = true) vs -> mono_coef vs = 1%Qc.
Proof.
  induction 1 as [|t vs (b & e & -> & _) _ IH]; simpl; [reflexivity|]. rewrite IH. reflexivity.
Qed.
Lemma mono_expo_single vs t :
  NoDup (map base vs) -> In t vs -> mono_expo (base t) vs = expo t.
Proof.
  induction vs as [|u vs IH]; simpl; intros ND H; [contradiction|].
  inversion ND as [|? ? N ND']; subst. destruct H as [->|H].
  - rewrite str_eqb_refl.
    assert (Z : mono_expo (base t) vs = 0%Qc).
    { clear - N. induction vs as [|u vs IH]; simpl in *; [reflexivity|].
      destruct (str_eqb_spec (base u) (base t)) as [E|E]; [exfalso; auto|]. auto. }
    rewrite Z. ring.
  - destruct (str_eqb_spec (base u) (base t)) as [E|E]; [|auto].
    exfalso. apply N. rewrite E. apply in_map; exact H.
Qed.

Lemma assemble_mono c vs :
  mono_coef vs = 1%Qc -> mono_coef (assemble c vs) = c.
Proof.
  intros H. unfold assemble. destruct vs as [|v vs]; [simpl; ring|].
  destruct (qc_eqb_spec c 1) as [->|N]; [exact H|].
  change (mono_coef (const_term c :: v :: vs)) with (c * mono_coef (v :: vs))%Qc.
  rewrite H. ring.
Qed.
Lemma assemble_expo b c vs : b <> one_base -> mono_expo b (assemble c vs) = mono_expo b vs.
Proof.
  intros H. unfold assemble.
  assert (K : mono_expo b (const_term c :: vs) = mono_expo b vs).
  { cbn [mono_expo fold_right base const_term].
    destruct (str_eqb_spec one_base b); [congruence | reflexivity]. }
  destruct vs as [|v vs]; [exact K|].
  destruct (qc_eqb c 1); [reflexivity|exact K].
Qed.

Lemma reduce_same ts r :
  ts <> [] -> Forall term_ok ts -> reduce ts = Ok r -> same_monomial r ts.
Proof.
  intros NE F H. rewrite reduce_eq in H by assumption. injection H as <-.
  split.
  - apply assemble_mono, mono_coef_vars, variables_forall, F.
  - intros b Nb. rewrite assemble_expo by exact Nb.
    destruct (qc_eqb_spec (mono_expo b ts) 0) as [E|E].
    + rewrite E. destruct (qc_eqb_spec (mono_expo b (variables ts)) 0) as [|N]; [assumption|].
      exfalso. apply mono_expo_in in N as (t & Ht & <-).
      apply variables_in in Ht as (_ & _ & N0); auto.
    + assert (Hin : In (var_term b (mono_expo b ts)) (variables ts)).
      { apply variables_in; [exact F|]. simpl. auto. }
      apply (mono_expo_single _ _ (variables_nodup ts)) in Hin. exact Hin.
Qed.

Lemma reduce_unique ts us :
  ts <> [] -> us <> [] -> Forall term_ok ts -> Forall term_ok us ->
  same_monomial ts us -> reduce ts = reduce us.
Proof.
  intros N1 N2 F1 F2 [Ec Ee]. rewrite !reduce_eq by assumption. f_equal. rewrite Ec. f_equal.
  apply (sorted_unique before before_irrefl before_trans).
  - apply variables_sorted.
  - apply variables_sorted.
  - intros t. rewrite !variables_in by assumption.
    destruct (str_eq_dec (base t) one_base) as [E|N].
    + split; intros (_ & H & _); contradiction.
    + rewrite (Ee _ N). reflexivity.
Qed.

Lemma same_monomial_refl a : same_monomial a a.
Proof. split; auto. Qed.
Lemma same_monomial_sym a b : same_monomial a b -> same_monomial b a.
Proof. intros [H1 H2]. split; [auto | intros x Hx; symmetry; auto]. Qed.
Lemma same_monomial_trans a b c : same_monomial a b -> same_monomial b c -> same_monomial a c.
Proof. intros [H1 H2] [H3 H4]. split; [congruence | intros x Hx; rewrite H2, H4; auto]. Qed.
Lemma same_monomial_app a b c d :
  same_monomial a b -> same_monomial c d -> same_monomial (a ++ c) (b ++ d).
Proof.
  intros [H1 H2] [H3 H4]. split.
  - rewrite !mono_coef_app. congruence.
  - intros x Hx. rewrite !mono_expo_app, H2, H4; auto.
Qed.
Lemma same_monomial_swap a b : same_monomial (a ++ b) (b ++ a).
Proof.
  split; [rewrite !mono_coef_app; ring | intros x _; rewrite !mono_expo_app; ring].
Qed.

Lemma reduce_ok ts : ts <> [] -> Forall term_ok ts -> exists r, reduce ts = Ok r.
Proof. intros. eexists. apply reduce_eq; assumption. Qed.

(** A canonical list is a fixed point of reduction. *)
Lemma canonical_fixed r : canonical r -> reduce r = Ok r.
Proof.
  intros C. destruct (canonical_ok r C) as [NE F]. rewrite reduce_eq by assumption. f_equal.
  destruct C as (c & vs & E & Hc & Fv & Sv & Nv). fold (assemble c vs) in E.
  assert (Mc : mono_coef r = c) by (rewrite E; apply assemble_mono, mono_coef_vars, Fv).
  rewrite Mc. transitivity (assemble c vs); [f_equal|symmetry; exact E].
  apply (sorted_unique before before_irrefl before_trans); [apply variables_sorted | exact Sv |].
  intros t. rewrite variables_in by exact F. split.
  - intros (Et & N1 & N0). rewrite E in Et, N0. rewrite assemble_expo in Et, N0 by exact N1.
    apply mono_expo_in in N0 as (u & Hu & Eu).
    rewrite Et, <- Eu, (mono_expo_single vs u Nv Hu).
    rewrite Forall_forall in Fv. destruct (Fv u Hu) as (b & e & -> & _). exact Hu.
  - intros Ht. rewrite Forall_forall in Fv. destruct (Fv t Ht) as (b & e & Et & N1 & N0 & _).
    assert (M : mono_expo (base t) r = expo t).
    { rewrite E, assemble_expo by (rewrite Et; exact N1). apply mono_expo_single; assumption. }
    rewrite M. rewrite Et. simpl. auto.
Qed.

Lemma list_eqb_refl {A} (eqb : A -> A -> bool) l :
  (forall x, eqb x x = true) -> list_eqb eqb l l = true.
Proof. intros H. induction l; simpl; [reflexivity|]. rewrite H. exact IHl. Qed.
Lemma eeq_refl r : eeq r r = true.
Proof.
  unfold eeq. rewrite Nat.eqb_refl. simpl. apply list_eqb_refl.
  intros o. unfold operand_eqb. rewrite str_eqb_refl, !qc_eqb_refl. reflexivity.
Qed.

(** [==] on expressions whose numbers are doubles decides the monomial. *)
Definition doubles (t : operand) : Prop := fl (coef t) = coef t /\ fl (expo t) = expo t.
Lemma eeq_same a b :
  Forall doubles a -> Forall doubles b -> eeq a b = true -> same_monomial a b.
Proof.
  intros Fa Fb H. unfold eeq in H. apply andb_true_iff in H as [_ H].
  assert (K : same_monomial (sort_by key_lt a) (sort_by key_lt b)).
  { assert (Fa' : Forall doubles (sort_by key_lt a)).
    { rewrite Forall_forall in *. intros t Ht. apply Fa. apply sort_by_in in Ht. exact Ht. }
    assert (Fb' : Forall doubles (sort_by key_lt b)).
    { rewrite Forall_forall in *. intros t Ht. apply Fb. apply sort_by_in in Ht. exact Ht. }
    revert H Fa' Fb'. generalize (sort_by key_lt a) (sort_by key_lt b). clear.
    induction l as [|x l IH]; intros [|y m]; simpl; intros H Fa Fb; try discriminate.
    - apply same_monomial_refl.
    - apply andb_true_iff in H as [H1 H2]. inversion Fa as [|? ? [X1 X2] Fa']; subst.
      inversion Fb as [|? ? [Y1 Y2] Fb']; subst.
      destruct (IH m H2 Fa' Fb') as [I1 I2].
      unfold operand_eqb in H1. apply andb_true_iff in H1 as [H1 Hc].
      apply andb_true_iff in H1 as [Hb He].
      apply str_eqb_eq in Hb. apply qc_eqb_eq in Hc, He.
      rewrite X1, Y1 in Hc. rewrite X2, Y2 in He.
      split; simpl.
      + rewrite Hc, I1. reflexivity.
      + intros z Hz. rewrite Hb, He, (I2 z Hz). reflexivity. }
  assert (Pa := sort_by_perm key_lt a). assert (Pb := sort_by_perm key_lt b).
  destruct K as [K1 K2]. split.
  - rewrite (mono_coef_perm _ _ Pa), (mono_coef_perm _ _ Pb). exact K1.
  - intros x Hx. rewrite (mono_expo_perm x _ _ Pa), (mono_expo_perm x _ _ Pb). auto.
Qed.
