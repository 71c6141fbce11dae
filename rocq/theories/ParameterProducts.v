(** * The value of a product of powers *)
From Verif Require Import PyBase PyLemmas SymbolicModel SymbolicSpec SymbolicProofs SymbolicParse SymbolicRoundTrip ParameterSpec ParameterModel.
From Coq Require Import Lia Sorted.
Local Open Scope Qc_scope.

Lemma isint_add a b : q_isint a = true -> q_isint b = true -> q_isint (a + b) = true /\ qnum (a + b) = (qnum a + qnum b)%Z.
Proof. intros Ha Hb. apply isint_zq in Ha, Hb. rewrite Ha, Hb, zq_add, !zq_num. split; [apply zq_isint|reflexivity]. Qed.
Lemma isint_0 : q_isint 0 = true.
Proof. reflexivity. Qed.
Lemma qcpower_sub q n m : q <> 0 -> (m <= n)%nat -> Qcpower q n * / Qcpower q m = Qcpower q (n - m).
Proof.
  intros Q L. replace n with ((n - m) + m)%nat at 1 by lia. rewrite qcpower_add. rewrite <- Qcmult_assoc, Qcmult_inv_r; [apply Qcmult_1_r|apply qcpower_nonzero, Q].
Qed.
Lemma qpowz_of_nat q n : qpowz q (Z.of_nat n) = Qcpower q n.
Proof. destruct n; [reflexivity|]. cbn [Z.of_nat qpowz]. rewrite SuccNat2Pos.id_succ. reflexivity. Qed.
Lemma qpowz_add_nat q n z : q <> 0 -> qpowz q (z + Z.of_nat n) = qpowz q z * Qcpower q n.
Proof.
  intros Q. destruct (Z_le_gt_dec 0 z) as [P|P].
  - rewrite <- (Z2Nat.id z P), <- Nat2Z.inj_add, !qpowz_of_nat. apply qcpower_add.
  - assert (E : z = (- Z.of_nat (Z.to_nat (- z)))%Z) by lia. set (m := Z.to_nat (- z)) in *. clearbody m. subst z.
    rewrite qpowz_opp, qpowz_of_nat. destruct (Nat.le_gt_cases m n) as [L|L].
    + replace (- Z.of_nat m + Z.of_nat n)%Z with (Z.of_nat (n - m)) by lia. rewrite qpowz_of_nat, <- (qcpower_sub q n m Q L). apply Qcmult_comm.
    + replace (- Z.of_nat m + Z.of_nat n)%Z with (- Z.of_nat (m - n))%Z by lia. rewrite qpowz_opp, qpowz_of_nat, <- (qcpower_sub q m n Q) by lia.
      rewrite Qcinv_mult_distr, qcinv_inv. reflexivity.
Qed.
Lemma qpowz_add q a b : q <> 0 -> qpowz q (a + b) = qpowz q a * qpowz q b.
Proof.
  intros Q. destruct (Z_le_gt_dec 0 b) as [P|P].
  - rewrite <- (Z2Nat.id b P), qpowz_of_nat. apply qpowz_add_nat, Q.
  - assert (E : b = (- Z.of_nat (Z.to_nat (- b)))%Z) by lia. set (m := Z.to_nat (- b)) in *. clearbody m. subst b.
    rewrite qpowz_opp, qpowz_of_nat.
    pose proof (qpowz_add_nat q m (a - Z.of_nat m) Q) as H. replace (a - Z.of_nat m + Z.of_nat m)%Z with a in H by lia.
    rewrite H. replace (a + - Z.of_nat m)%Z with (a - Z.of_nat m)%Z by lia.
    rewrite <- Qcmult_assoc, Qcmult_inv_r; [symmetry; apply Qcmult_1_r|apply qcpower_nonzero, Q].
Qed.

(** product of powers over a list of symbols *)
Fixpoint powers (v : str -> Qc) (l : list str) (f : str -> Qc) : Qc :=
  match l with [] => 1 | b :: l' => qpowz (v b) (qnum (f b)) * powers v l' f end.
Lemma powers_ext v l f g : (forall b, In b l -> f b = g b) -> powers v l f = powers v l g.
Proof. induction l as [|b l IH]; cbn [powers]; intros H; [reflexivity|]. rewrite (H b), IH; auto using in_cons, in_eq. Qed.
Lemma qpow_zero x : qpowz x (qnum 0) = 1.
Proof. reflexivity. Qed.
Lemma powers_zero v l f : (forall b, In b l -> f b = 0) -> powers v l f = 1.
Proof. induction l as [|b l IH]; cbn [powers]; intros H; [reflexivity|]. rewrite (H b), IH, qpow_zero by (intros; auto using in_cons, in_eq). ring. Qed.
Lemma powers_nonzero v l f : (forall b, In b l -> v b <> 0) -> powers v l f <> 0.
Proof.
  induction l as [|b l IH]; cbn [powers]; intros H; [intros E; discriminate|]. apply qc_mul_nonzero; [apply qpowz_nonzero, H; left; reflexivity|]. apply IH. intros; auto using in_cons.
Qed.
Lemma powers_add v l f g : (forall b, In b l -> v b <> 0) -> (forall b, In b l -> q_isint (f b) = true) -> (forall b, In b l -> q_isint (g b) = true) ->
  powers v l (fun b => f b + g b) = powers v l f * powers v l g.
Proof.
  induction l as [|b l IH]; cbn [powers]; intros H F G; [ring|]. rewrite IH by (intros; auto using in_cons).
  destruct (isint_add (f b) (g b)) as (_ & ->); [apply F; left; reflexivity|apply G; left; reflexivity|]. rewrite qpowz_add by (apply H; left; reflexivity). ring.
Qed.
Lemma powers_scale v l f e : (forall b, In b l -> v b <> 0) -> (forall b, In b l -> q_isint (f b) = true) -> q_isint e = true ->
  powers v l (fun b => e * f b) = qpowz (powers v l f) (qnum e).
Proof.
  induction l as [|b l IH]; cbn [powers]; intros H F E; [symmetry; apply qpowz_1_l|]. rewrite IH by (intros; auto using in_cons). rewrite qpowz_mult. f_equal.
  destruct (isint_mul e (f b) E) as (_ & ->); [apply F; left; reflexivity|]. rewrite Z.mul_comm. apply qpowz_mul, H. left. reflexivity.
Qed.
Lemma powers_opp v l f : (forall b, In b l -> v b <> 0) -> (forall b, In b l -> q_isint (f b) = true) ->
  powers v l (fun b => - f b) = / powers v l f.
Proof.
  induction l as [|b l IH]; cbn [powers]; intros H F; [reflexivity|]. rewrite IH by (intros; auto using in_cons). rewrite Qcinv_mult_distr. f_equal.
  destruct (isint_opp (f b)) as (_ & ->); [apply F; left; reflexivity|]. apply qpowz_opp.
Qed.
Lemma powers_single v l b0 e : NoDup l -> In b0 l -> powers v l (fun b => if str_eqb b0 b then e else 0) = qpowz (v b0) (qnum e).
Proof.
  induction l as [|b l IH]; cbn [powers]; intros ND I0; [destruct I0|]; inversion ND as [|? ? N ND']; subst; destruct I0 as [->|I].
  - rewrite str_eqb_refl, powers_zero; [ring|]. intros b' I'. destruct (str_eqb b0 b') eqn:E; [|reflexivity]. apply str_eqb_eq in E. subst. contradiction.
  - destruct (str_eqb b0 b) eqn:E; [apply str_eqb_eq in E; subst; contradiction|]. rewrite IH, qpow_zero by assumption. ring.
Qed.

(** ** written expressions *)
Section Written.
Variable v : str -> Qc.
Variable l : list str.
Hypothesis nd : NoDup l.
Hypothesis nz : forall b, In b l -> v b <> 0.
Set Default Proof Using "nd nz".
Lemma inverted_mult inv a b : inverted inv (a * b) = inverted inv a * inverted inv b.
Proof. destruct inv; [apply Qcinv_mult_distr|reflexivity]. Qed.
Lemma inverted_powers inv f : (forall b, In b l -> q_isint (f b) = true) -> inverted inv (powers v l f) = powers v l (fun b => signed inv (f b)).
Proof. intros F. destruct inv; cbn; [symmetry; apply powers_opp; assumption|reflexivity]. Qed.
Lemma signed_int inv a : q_isint a = true -> q_isint (signed inv a) = true.
Proof. intros H. destruct inv; [apply isint_opp, H|exact H]. Qed.
Lemma written_powers :
  (forall f, factor_integral f = true -> incl (factor_symbols f) l ->
    (forall b, q_isint (factor_expo b f) = true) /\ factor_value v f = factor_coef f * powers v l (fun b => factor_expo b f)) /\
  (forall w, written_integral w = true -> incl (written_symbols w) l -> forall inv,
    (forall b, q_isint (written_expo b inv w) = true) /\ written_value v inv w = written_coef inv w * powers v l (fun b => written_expo b inv w)).
Proof.
  apply written_ind2.
  - intros b e I S. cbn in *. split; [intros b'; destruct (str_eqb b b'); [exact I|reflexivity]|].
    rewrite powers_single; [ring|exact nd|apply S; left; reflexivity].
  - intros c _ _. cbn. split; [reflexivity|]. rewrite powers_zero by reflexivity. ring.
  - intros x IH e I S. cbn in I, S |- *. apply andb_true_iff in I as (Ie & Ix). destruct (IH Ix S false) as (Hi & Hv). split.
    + intros b. apply isint_mul; [exact Ie|apply Hi].
    + rewrite Hv, qpowz_mult. f_equal. symmetry. apply powers_scale; [exact nz|intros; apply Hi|exact Ie].
  - intros f IH I S inv. cbn in I, S |- *. destruct (IH I S) as (Hi & Hv). split; [intros b; apply signed_int, Hi|].
    rewrite Hv, inverted_mult, inverted_powers by (intros; apply Hi). reflexivity.
  - intros f IHf o r IHr I S inv. cbn in I, S |- *. apply andb_true_iff in I as (If & Ir).
    destruct (IHf If (fun b H => S b (in_or_app _ _ _ (or_introl H)))) as (Hi & Hv).
    destruct (IHr Ir (fun b H => S b (in_or_app _ _ _ (or_intror H))) (is_over o)) as (Hi' & Hv'). split.
    + intros b. apply isint_add; [apply signed_int, Hi|apply Hi'].
    + rewrite Hv, Hv', inverted_mult, inverted_powers by (intros; apply Hi).
      rewrite powers_add; [ring|exact nz|intros; apply signed_int, Hi|intros; apply Hi'].
Qed.

(** ** lists of terms *)
Definition term_value (t : operand) : Qc := if str_eqb (base t) one_base then coef t else coef t * qpowz (v (base t)) (qnum (expo t)).
Hypothesis no_one : ~ In one_base l.
Lemma terms_powers ts : Forall (fun t => base t = one_base \/ In (base t) l /\ q_isint (expo t) = true) ts ->
  (forall b, In b l -> q_isint (mono_expo b ts) = true) /\
  product (map term_value ts) = mono_coef ts * powers v l (fun b => mono_expo b ts).
Proof using nd nz no_one.
  induction 1 as [|t ts H F (IHi & IHv)].
  - split; [reflexivity|]. cbn [map product]. rewrite powers_zero by reflexivity. unfold mono_coef. cbn [fold_right]. ring.
  - assert (E : forall b, mono_expo b (t :: ts) = (if str_eqb (base t) b then expo t else 0) + mono_expo b ts).
    { intros b. unfold mono_expo. cbn [fold_right]. destruct (str_eqb (base t) b); [reflexivity|]. ring. }
    assert (Hi : forall b, In b l -> q_isint (if str_eqb (base t) b then expo t else 0) = true).
    { intros b I. destruct (str_eqb (base t) b) eqn:Q; [|reflexivity]. apply str_eqb_eq in Q. subst b.
      destruct H as [H|(_ & H)]; [rewrite H in I; contradiction|exact H]. }
    split; [intros b I; rewrite E; apply isint_add; [apply Hi, I|apply IHi, I]|].
    cbn [map product]. rewrite IHv. rewrite (powers_ext v l _ _ (fun b _ => E b)).
    rewrite powers_add by assumption. unfold mono_coef at 2. cbn [fold_right]. fold (mono_coef ts). unfold term_value.
    destruct H as [H|(H & _)].
    + rewrite H, str_eqb_refl. rewrite (powers_zero v l (fun b => if str_eqb one_base b then expo t else 0)); [ring|].
      intros b I. destruct (str_eqb one_base b) eqn:Q; [|reflexivity]. apply str_eqb_eq in Q. subst. contradiction.
    + destruct (str_eqb (base t) one_base) eqn:Q; [apply str_eqb_eq in Q; rewrite Q in H; contradiction|].
      rewrite powers_single by assumption. ring.
Qed.
End Written.
Unset Default Proof Using.

(** ** canonical expressions *)
Lemma symbols_expo : (forall f b, ~ In b (factor_symbols f) -> factor_expo b f = 0) /\
  (forall w b inv, ~ In b (written_symbols w) -> written_expo b inv w = 0).
Proof.
  apply written_ind2.
  - intros b e b' N. cbn. destruct (str_eqb b b') eqn:E; [|reflexivity]. apply str_eqb_eq in E. subst. exfalso. apply N. left. reflexivity.
  - reflexivity.
  - intros x IH e b N. cbn [factor_expo]. rewrite IH by exact N. ring.
  - intros f IH b inv N. cbn [written_expo]. rewrite IH by exact N. destruct inv; reflexivity.
  - intros f IHf o r IHr b inv N. cbn [written_expo]. cbn in N. rewrite in_app_iff in N. rewrite IHf, IHr by tauto. destruct inv; reflexivity.
Qed.
Lemma mono_expo_unique r : NoDup (map base r) -> forall t, In t r -> mono_expo (base t) r = expo t.
Proof.
  induction r as [|u r IH]; cbn [map]; intros ND t I; [destruct I|]. inversion ND as [|? ? N ND']; subst.
  assert (Z : forall b, ~ In b (map base r) -> mono_expo b r = 0).
  { clear. induction r as [|u r IH]; intros b N; [reflexivity|]. unfold mono_expo. cbn [fold_right]. cbn in N.
    destruct (str_eqb (base u) b) eqn:E; [apply str_eqb_eq in E; subst; exfalso; apply N; left; reflexivity|]. apply IH. tauto. }
  unfold mono_expo. cbn [fold_right]. fold (mono_expo (base t) r). destruct I as [<-|I].
  - rewrite str_eqb_refl, (Z _ N). ring.
  - destruct (str_eqb (base u) (base t)) eqn:E; [apply str_eqb_eq in E; exfalso; apply N; rewrite E; apply in_map, I|]. apply IH; assumption.
Qed.
Lemma canonical_bases r : canonical r -> NoDup (map base r) /\
  Forall (fun t => (base t = one_base /\ expo t = 1 /\ coef t <> 0) \/ (base t <> one_base /\ expo t <> 0 /\ coef t = 1)) r.
Proof.
  intros (c & vs & -> & C & F & _ & ND).
  assert (FV : Forall (fun t => (base t = one_base /\ expo t = 1 /\ coef t <> 0) \/ (base t <> one_base /\ expo t <> 0 /\ coef t = 1)) vs).
  { eapply Forall_impl; [|exact F]. intros t (b & e & -> & B & E & _). right. cbn. split; [exact B|split; [exact E|reflexivity]]. }
  assert (NO : ~ In one_base (map base vs)).
  { rewrite in_map_iff. intros (t & E & I). rewrite Forall_forall in F. destruct (F t I) as (b & e & -> & B & _). apply B; exact E. }
  destruct vs as [|u vs].
  - cbn. split; [constructor; [intros []|constructor]|]. constructor; [left; split; [reflexivity|split; [reflexivity|exact C]]|constructor].
  - destruct (qc_eqb c 1); [split; assumption|]. cbn [map]. split; [constructor; assumption|].
    constructor; [left; split; [reflexivity|split; [reflexivity|exact C]]|exact FV].
Qed.
Lemma canonical_value v w r : canonical r -> written_integral w = true -> (forall b, In b (written_symbols w) -> v b <> 0) ->
  ~ In one_base (written_symbols w) ->
  mono_coef r = written_coef false w -> (forall b, b <> one_base -> mono_expo b r = written_expo b false w) ->
  Forall (fun t => (base t = one_base /\ expo t = 1 /\ coef t <> 0) \/
    (base t <> one_base /\ In (base t) (written_symbols w) /\ q_isint (expo t) = true /\ coef t <> 0)) r /\
  product (map (term_value v) r) = written_value v false w.
Proof.
  intros C WI NZ NO MC ME. destruct (canonical_bases r C) as (ND & F).
  set (l := nodup str_eq_dec (written_symbols w)).
  assert (NDl : NoDup l) by apply NoDup_nodup.
  assert (IL : forall b, In b l <-> In b (written_symbols w)) by (intros b; apply nodup_In).
  assert (NZl : forall b, In b l -> v b <> 0) by (intros b I; apply NZ, IL, I).
  destruct (proj2 (written_powers v l NDl NZl) w WI (fun b I => proj2 (IL b) I) false) as (WE & WV).
  assert (G : Forall (fun t => (base t = one_base /\ expo t = 1 /\ coef t <> 0) \/
    (base t <> one_base /\ In (base t) (written_symbols w) /\ q_isint (expo t) = true /\ coef t <> 0)) r).
  { rewrite Forall_forall in F |- *. intros t I. destruct (F t I) as [H|(H1 & H2 & H3)]; [left; exact H|]. right.
    assert (X : expo t = written_expo (base t) false w) by (rewrite <- (ME _ H1); symmetry; apply mono_expo_unique; assumption).
    split; [exact H1|]. split; [|split; [rewrite X; apply WE|rewrite H3; discriminate]].
    destruct (in_dec str_eq_dec (base t) (written_symbols w)) as [Y|N]; [exact Y|]. exfalso. apply H2. rewrite X. apply symbols_expo, N. }
  split; [exact G|].
  destruct (terms_powers v l NDl NZl) with (ts := r) as (_ & ->).
  - intros I. apply NO, IL, I.
  - rewrite Forall_forall in G |- *. intros t I. destruct (G t I) as [(H & _)|(_ & H & H' & _)]; [left; exact H|right]. split; [apply IL, H|exact H'].
  - rewrite WV, MC. f_equal. apply powers_ext. intros b I. apply ME. intros ->. apply NO, IL, I.
Qed.
