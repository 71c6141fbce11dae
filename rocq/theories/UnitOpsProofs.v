(** Proofs about the algebra of units: exponents, then valuations. *)
From Verif Require Import PyBase PyLemmas SymbolicModel SymbolicSpec SymbolicProofs SymbolicRegex SymbolicParse SymbolicTotal SymbolicRoundTrip SymbolicAlgebra MetricModel MetricSpec MetricProofs MetricProofs2 UnitModel UnitOpsModel UnitOpsSpec.
From Coq Require Import Sorting.Sorted Permutation Lqa.

(** ** exponents *)
Lemma zq_nonzero z : z <> 0%Z -> zq z <> 0%Qc.
Proof. intros H E. apply H. rewrite <- zq_0 in E. apply (f_equal qnum) in E. rewrite !zq_num in E. exact E. Qed.
Lemma parts_add k a b : parts k a -> parts k b -> parts k (a + b).
Proof. intros (x & H) (y & H'). exists (x + y)%Z. rewrite <- zq_add, <- H, <- H'. ring. Qed.
Lemma parts_opp k a : parts k a -> parts k (- a).
Proof. intros (x & H). exists (- x)%Z. rewrite <- zq_opp, <- H. ring. Qed.
Lemma parts_sub k a b : parts k a -> parts k b -> parts k (a - b).
Proof. intros H H'. apply parts_add; [exact H|]. apply parts_opp, H'. Qed.
Lemma parts_mul k l a b : parts k a -> parts l b -> parts (k * l) (a * b).
Proof. intros (x & H) (y & H'). exists (x * y)%Z. rewrite <- zq_mul, <- H, <- H', Pos2Z.inj_mul, <- zq_mul. ring. Qed.
Lemma parts_zero k : parts k 0.
Proof. exists 0%Z. rewrite zq_0. ring. Qed.
Lemma parts_int k z : parts k (zq z).
Proof. exists (z * Zpos k)%Z. apply zq_mul. Qed.
Lemma parts_more k l a : parts k a -> parts (k * l) a.
Proof. intros H. replace a with (a * zq 1)%Qc by (rewrite zq_1; ring). apply parts_mul; [exact H|]. apply parts_int. Qed.
Lemma parts_mono_expo k x ts : Forall (fun t => parts k (expo t)) ts -> parts k (mono_expo x ts).
Proof.
  induction 1 as [|t ts H _ IH]; cbn; [apply parts_zero|]. destruct (str_eqb (base t) x); [apply parts_add; assumption|exact IH].
Qed.
(** the denominator divides k *)
Lemma parts_num k a : parts k a -> exists j, Zpos k = (Zpos (qden a) * j)%Z /\ (a * zq (Zpos k))%Qc = zq (qnum a * j).
Proof.
  intros (z & H). pose proof (mkq_this a) as E. rewrite <- E in H. unfold zq in H at 1. rewrite mkq_mul in H. unfold zq in H.
  apply (f_equal this) in H. cbn [this mkq Q2Qc] in H. apply Qred_eq_iff in H. unfold Qeq in H. cbn [Qnum Qden] in H.
  rewrite Pos.mul_1_r, Z.mul_1_r in H.
  assert (G : Znumtheory.rel_prime (Zpos (qden a)) (qnum a)).
  { apply Znumtheory.rel_prime_sym. pose proof (canon a) as C. apply Qred_iff in C. unfold qnum, qden.
    apply Znumtheory.Zgcd_1_rel_prime. exact C. }
  assert (D : Z.divide (Zpos (qden a)) (Zpos k)).
  { apply (Znumtheory.Gauss _ (qnum a)); [|exact G]. exists z. exact H. }
  destruct D as (j & D). exists j. split; [lia|].
  rewrite <- E at 1. unfold zq. rewrite mkq_mul. apply mkq_eq. rewrite D. lia.
Qed.
Lemma parts_short a : parts 8 a -> short_den a = true.
Proof.
  intros H. destruct (parts_num 8 a H) as (j & D & _). unfold short_den. apply Pos.leb_le.
  assert (j > 0)%Z by nia. nia.
Qed.
(** powers of two *)
Lemma fl_pos_dyadic n k : (0 <= k)%Z -> (Zpos n < 2 ^ 53)%Z -> fl_pos n (Z.to_pos (2 ^ k)) = mkq (Zpos n) (Z.to_pos (2 ^ k)).
Proof.
  intros Hk Hn. destruct (Z.eq_dec k 0) as [->|Nk]; [apply fl_pos_int, Hn|]. unfold fl_pos.
  assert (P : (0 < 2 ^ k)%Z) by (apply Z.pow_pos_nonneg; lia).
  assert (L1 : (2 ^ Z.log2 (Zpos n) <= Zpos n < 2 ^ (Z.succ (Z.log2 (Zpos n))))%Z) by (apply Z.log2_spec; lia).
  assert (L0 : (0 <= Z.log2 (Zpos n))%Z) by apply Z.log2_nonneg.
  assert (Lb : (Z.log2 (Zpos n) < 53)%Z) by (apply Z.log2_lt_pow2; lia).
  rewrite Z2Pos.id by exact P. rewrite Z.log2_pow2 by exact Hk.
  set (e := (Z.log2 (Zpos n) - k - 52)%Z).
  assert (B : (2 ^ 52 * 2 ^ k <=? Zpos n * 2 ^ (- e))%Z = true).
  { apply Z.leb_le. replace (2 ^ 52 * 2 ^ k)%Z with (2 ^ Z.log2 (Zpos n) * 2 ^ (- e))%Z.
    - apply Z.mul_le_mono_nonneg_r; [apply Z.pow_nonneg; lia|lia].
    - rewrite <- !Z.pow_add_r by lia. f_equal. lia. }
  assert (R : round_half_even (Zpos n * 2 ^ (- e)) (Z.to_pos (2 ^ k)) = (Zpos n * 2 ^ (- e - k))%Z).
  { replace (Zpos n * 2 ^ (- e))%Z with (Zpos n * 2 ^ (- e - k) * Zpos (Z.to_pos (2 ^ k)))%Z; [apply round_half_even_exact|].
    rewrite Z2Pos.id by exact P. rewrite <- Z.mul_assoc, <- Z.pow_add_r by lia. do 2 f_equal. lia. }
  assert (E0 : (0 <=? e)%Z = false) by (apply Z.leb_gt; lia). rewrite E0.
  rewrite Z2Pos.id by exact P. rewrite B, E0. rewrite R. apply mkq_eq.
  rewrite !Z2Pos.id by first [exact P | apply Z.pow_pos_nonneg; lia].
    rewrite <- Z.mul_assoc, <- Z.pow_add_r by lia. do 2 f_equal. lia.
Qed.
Lemma double_parts a : parts 8 a -> (Z.abs (qnum a) < 2 ^ 53)%Z -> is_double a = true.
Proof.
  intros H B. destruct (parts_num _ _ H) as (j & D & _).
  assert (exists i, (0 <= i)%Z /\ qden a = Z.to_pos (2 ^ i)) as (i & Hi & E).
  { assert (0 < j)%Z as J by nia. assert (1 <= Zpos (qden a) <= 8)%Z as R by (clear B; nia).
    assert (qden a = 1 \/ qden a = 2 \/ qden a = 4 \/ qden a = 8)%positive as [E|[E|[E|E]]].
    { destruct (Pos.eq_dec (qden a) 3) as [E3|?]; [rewrite E3 in D; lia|]. destruct (Pos.eq_dec (qden a) 5) as [E5|?]; [rewrite E5 in D; lia|].
      destruct (Pos.eq_dec (qden a) 6) as [E6|?]; [rewrite E6 in D; lia|]. destruct (Pos.eq_dec (qden a) 7) as [E7|?]; [rewrite E7 in D; lia|]. lia. }
    1: exists 0%Z. 2: exists 1%Z. 3: exists 2%Z. 4: exists 3%Z.
    all: rewrite E; split; [lia|reflexivity]. }
  unfold is_double. apply qc_eqb_eq. unfold fl. transitivity (mkq (qnum a) (qden a)); [|apply mkq_this]. rewrite E. destruct (qnum a) as [|n|n].
  - apply Qc_is_canon. reflexivity.
  - apply fl_pos_dyadic; [exact Hi|]. exact B.
  - rewrite fl_pos_dyadic; [rewrite mkq_opp; reflexivity|exact Hi|]. exact B.
Qed.
Lemma num_bound a B : (0 <= B)%Z -> (zq (- B) <= a)%Qc -> (a <= zq B)%Qc -> (Z.abs (qnum a) <= B * Zpos (qden a))%Z.
Proof.
  intros HB H1 H2. rewrite <- (mkq_this a) in H1, H2. unfold zq, mkq, Qcle in H1, H2. cbn [this Q2Qc] in H1, H2.
  rewrite !Qred_correct in H1, H2. unfold Qle in H1, H2. cbn [Qnum Qden] in H1, H2. lia.
Qed.
Lemma parts_small_double a : parts 8 a -> (zq (- 2 ^ 48) <= a)%Qc -> (a <= zq (2 ^ 48))%Qc -> is_double a = true.
Proof.
  intros H H1 H2. apply double_parts; [exact H|]. pose proof (num_bound a (2 ^ 48) ltac:(lia) H1 H2) as N.
  destruct (parts_num _ _ H) as (j & D & _). assert (0 < j)%Z as J by nia. assert (Zpos (qden a) <= 8)%Z as R by (clear N; nia). lia.
Qed.

Lemma bound_mul a b A B : (zq (- A) <= a)%Qc -> (a <= zq A)%Qc -> (zq (- B) <= b)%Qc -> (b <= zq B)%Qc ->
  (zq (- (A * B)) <= a * b)%Qc /\ (a * b <= zq (A * B))%Qc.
Proof.
  unfold Qcle, zq, mkq, Qcmult. cbn [this Q2Qc]. rewrite !Qred_correct.
  rewrite !Zopp_mult_distr_l. change (- A * B # 1)%Q with ((- A # 1) * (B # 1))%Q. change (A * B # 1)%Q with ((A # 1) * (B # 1))%Q.
  change (- A # 1)%Q with (- (A # 1))%Q. change (- B # 1)%Q with (- (B # 1))%Q.
  generalize (this a) (this b) (A # 1)%Q (B # 1)%Q. intros x y X Y H1 H2 H3 H4. split; nra.
Qed.

(** ** plain terms: powers of symbols, without coefficient *)
Definition plain_term (k : positive) (t : operand) : Prop :=
  isterm t = true /\ coef t = 1%Qc /\ expo t <> 0%Qc /\ parts k (expo t) /\ writable (base t).
Definition plain (k : positive) (ts : list operand) : Prop := Forall (plain_term k) ts.
Definition raise (p : Qc) (t : operand) : operand := {| coef := 1; base := base t; expo := (expo t * p)%Qc; isterm := true |}.
Lemma writable_valid b : writable b -> base_is_valid b = true.
Proof. intros [->|[H _]]; [reflexivity|apply symbol_valid, H]. Qed.
Lemma plain_ok k ts : plain k ts -> Forall term_ok ts.
Proof.
  apply Forall_impl. intros t (H1 & H2 & H3 & _ & H5). split; [exact H1|]. split; [rewrite H2; discriminate|]. split; [exact H3|]. apply writable_valid, H5.
Qed.
Lemma plain_expos k ts : plain k ts -> Forall (fun t => parts k (expo t)) ts.
Proof. apply Forall_impl. intros t (_ & _ & _ & H & _). exact H. Qed.
Lemma plain_coef k ts : plain k ts -> mono_coef ts = 1%Qc.
Proof. induction 1 as [|t ts (_ & H & _) _ IH]; [reflexivity|]. cbn. fold (mono_coef ts). rewrite H, IH. ring. Qed.
Lemma plain_app k a b : plain k a -> plain k b -> plain k (a ++ b).
Proof. intros. apply Forall_app. auto. Qed.

(** reducing plain terms: the canonical, printable form with the same totals *)
Record reduced_to (k : positive) (ts r : list operand) : Prop := {
  rt_reduce : reduce ts = Ok r;
  rt_canonical : canonical r;
  rt_plain : plain k r;
  rt_coef : mono_coef r = 1%Qc;
  rt_expo : forall x, x <> one_base -> mono_expo x r = mono_expo x ts;
  rt_base : forall t, In t r -> base t = one_base \/ exists u, In u ts /\ base u = base t }.
Lemma reduce_plain k ts : ts <> [] -> plain k ts -> exists r, reduced_to k ts r.
Proof.
  intros N P. pose proof (plain_ok k ts P) as F. destruct (reduce_ok ts N F) as (r & R). exists r.
  pose proof (reduce_canonical _ _ N F R) as C. destruct (reduce_same _ _ N F R) as [S1 S2]. rewrite (plain_coef k ts P) in S1.
  cut (Forall (plain_term k) r); [intros PR; constructor; auto|apply Forall_forall; intros t Ht].
  { intros t Ht. destruct (str_eq_dec (base t) one_base) as [E|E]; [left; exact E|right].
    assert (NZ : mono_expo (base t) ts <> 0%Qc).
    { rewrite <- S2 by exact E. destruct C as (c & vs & Er & _ & Fv & _ & Nv). assert (Hv : In t vs).
      { subst r. destruct vs as [|v vs]; [destruct Ht as [<-|[]]; exfalso; apply E; reflexivity|]. destruct (qc_eqb c 1); [exact Ht|].
        destruct Ht as [<-|Ht]; [exfalso; apply E; reflexivity|exact Ht]. }
      subst r. change (mono_expo (base t) (assemble c vs) <> 0%Qc). rewrite assemble_expo by exact E.
      rewrite (mono_expo_single vs t Nv Hv). apply (proj1 (Forall_forall _ _) PR t Ht). }
    apply mono_expo_in in NZ. exact NZ. }
  destruct C as (c & vs & E & Nc & Fv & Sv & Nv).
  assert (V : Forall (plain_term k) vs).
  { apply Forall_forall. intros v Hv. pose proof (proj1 (Forall_forall _ _) Fv v Hv) as (b & e & Ev & Nb & Ne & Vb). subst v.
    assert (EX : mono_expo b ts = e).
    { rewrite <- S2 by exact Nb. subst r. change (mono_expo b (assemble c vs) = e). rewrite assemble_expo by exact Nb.
      exact (mono_expo_single vs (var_term b e) Nv Hv). }
    split; [reflexivity|]. split; [reflexivity|]. split; [exact Ne|]. split.
    - cbn [expo var_term]. rewrite <- EX. apply parts_mono_expo, plain_expos, P.
    - assert (NZ : mono_expo b ts <> 0%Qc) by congruence. apply mono_expo_in in NZ as (u & Hu & Eu).
      pose proof (proj1 (Forall_forall _ _) P u Hu) as (_ & _ & _ & _ & W). cbn [base var_term]. rewrite <- Eu. exact W. }
  assert (EC : c = 1%Qc).
  { rewrite <- S1. subst r. symmetry. apply (assemble_mono c vs), mono_coef_vars, Fv. }
  subst c r. rewrite Forall_forall in V. destruct vs as [|v vs].
  - destruct Ht as [<-|[]]. split; [reflexivity|]. split; [reflexivity|]. split; [discriminate|]. split; [exact (parts_int k 1)|]. left. reflexivity.
  - change (qc_eqb 1 1) with true in Ht. apply V, Ht.
Qed.
Lemma plain_printable r : canonical r -> plain 8 r -> printable r = true.
Proof.
  intros C P. apply forallb_forall. intros t Ht. pose proof (proj1 (Forall_forall _ _) P t Ht) as (H1 & H2 & H3 & H4 & H5).
  unfold printable_term. destruct (str_eqb_spec (base t) one_base) as [E|E].
  - rewrite H2. reflexivity.
  - destruct H5 as [H5|(H5 & H6)]; [contradiction|]. rewrite H5, H6, (parts_short _ H4). cbn. rewrite (proj2 (qc_eqb_neq _ _) H3). reflexivity.
Qed.
Lemma plain_more k l ts : plain k ts -> plain (k * l) ts.
Proof. apply Forall_impl. intros t (H1 & H2 & H3 & H4 & H5). repeat (split; [assumption|]). split; [apply parts_more, H4|exact H5]. Qed.

Section Ops.
Set Default Proof Using "Type".
Variable libm : Qc -> Qc -> option Qc.
Lemma fr_pow_one p : fr_pow libm 1 p = Ok 1%Qc.
Proof.
  unfold fr_pow. destruct (q_isint p).
  - change (qc_eqb 1 0) with false. cbn [andb]. rewrite qpowz_1_l. reflexivity.
  - rewrite fl_1. unfold float_pow. rewrite qc_eqb_refl. reflexivity.
Qed.
Lemma op_pow_plain k t p : plain_term k t -> p <> 0%Qc -> op_pow libm t p = Ok (raise p t).
Proof.
  intros (H1 & H2 & H3 & _ & H5) P. unfold op_pow. rewrite H2, fr_pow_one. cbn [bind]. unfold mk_operand, raise.
  rewrite or1_id by discriminate. rewrite or1_id by (apply qc_mul_nonzero; assumption). rewrite H1.
  pose proof (base_valid_nonempty _ (writable_valid _ H5)). destruct (base t); [contradiction|reflexivity].
Qed.
Lemma op_powf_plain k t p : plain_term k t -> p <> 0%Qc -> is_double (expo t) = true -> is_double (expo t * p)%Qc = true ->
  op_powf libm t p = Ok (raise p t).
Proof.
  intros (H1 & H2 & H3 & _ & H5) P D1 D2. rewrite (op_powf_exact libm) by (try assumption; apply base_valid_nonempty, writable_valid, H5).
  unfold raise. rewrite H1. reflexivity.
Qed.
Lemma raise_plain k l t p : plain_term k t -> p <> 0%Qc -> parts l p -> plain_term (k * l) (raise p t).
Proof.
  intros (H1 & H2 & H3 & H4 & H5) P L. split; [reflexivity|]. split; [reflexivity|]. split; [apply qc_mul_nonzero; assumption|].
  split; [apply parts_mul; assumption|exact H5].
Qed.
Lemma mapM_const {A B} (f : A -> result B) (g : A -> B) l : (forall a, In a l -> f a = Ok (g a)) -> mapM f l = Ok (map g l).
Proof.
  induction l as [|a l IH]; cbn; intros H; [reflexivity|]. rewrite (H a (or_introl eq_refl)). cbn. rewrite IH by auto. reflexivity.
Qed.
Lemma raise_expo p x ts : mono_expo x (map (raise p) ts) = (p * mono_expo x ts)%Qc.
Proof. induction ts as [|t ts IH]; cbn; [ring|]. fold (mono_expo x ts) (mono_expo x (map (raise p) ts)). rewrite IH. destruct (str_eqb (base t) x); ring. Qed.
Lemma pow_list k ts p : plain k ts -> p <> 0%Qc -> mapM (fun t => op_pow libm t p) ts = Ok (map (raise p) ts).
Proof. intros P N. apply mapM_const. intros t Ht. apply (op_pow_plain k); [|exact N]. exact (proj1 (Forall_forall _ _) P t Ht). Qed.
Lemma raise_list_plain k l ts p : plain k ts -> p <> 0%Qc -> parts l p -> plain (k * l) (map (raise p) ts).
Proof. intros P N L. apply Forall_map. eapply Forall_impl; [|exact P]. intros t H. apply raise_plain; assumption. Qed.

Lemma emul_plain a b : canonical a -> canonical b -> plain 8 a -> plain 8 b ->
  exists r, emul libm a b = Ok r /\ reduced_to 8 (a ++ b) r.
Proof.
  intros Ca Cb Pa Pb. destruct (canonical_ok a Ca) as [Na _]. destruct (canonical_ok b Cb) as [Nb _].
  destruct (reduce_plain 8 (a ++ b)) as (r & R); [destruct a; [congruence|discriminate]|apply plain_app; assumption|].
  exists r. split; [|exact R]. unfold emul. destruct b as [|t b']; [congruence|]. rewrite (rt_reduce _ _ _ R). cbn [bind].
  apply of_terms_printable; [apply R|]. apply plain_printable; apply R.
Qed.
Lemma ediv_plain a b : canonical a -> canonical b -> plain 8 a -> plain 8 b ->
  exists r, ediv libm a b = Ok r /\ reduced_to 8 (a ++ map (raise (zq (-1))) b) r.
Proof.
  intros Ca Cb Pa Pb. destruct (canonical_ok a Ca) as [Na _]. destruct (canonical_ok b Cb) as [Nb _].
  destruct (reduce_plain 8 (a ++ map (raise (zq (-1))) b)) as (r & R); [destruct a; [congruence|discriminate]| |].
  { apply plain_app; [assumption|]. apply (raise_list_plain 8 1); [exact Pb|discriminate|apply parts_int]. }
  exists r. split; [|exact R]. unfold ediv. destruct b as [|t b']; [congruence|]. rewrite (pow_list 8) by first [exact Pb|discriminate]. cbn [bind].
  rewrite (rt_reduce _ _ _ R). cbn [bind].
  apply of_terms_printable; [apply R|]. apply plain_printable; apply R.
Qed.
(** raising to a double *)
Definition tame (p : Qc) (ts : list operand) : Prop := Forall (fun t => is_double (expo t) = true /\ is_double (expo t * p)%Qc = true) ts.
Lemma powf_list k ts p : plain k ts -> p <> 0%Qc -> tame p ts -> mapM (fun t => op_powf libm t p) ts = Ok (map (raise p) ts).
Proof.
  intros P N T. apply mapM_const. intros t Ht. unfold tame in T. rewrite Forall_forall in T. destruct (T t Ht).
  apply (op_powf_plain k); try assumption. exact (proj1 (Forall_forall _ _) P t Ht).
Qed.
Lemma epow_plain k l ts p : ts <> [] -> plain k ts -> p <> 0%Qc -> parts l p -> (exists j, 8 = k * l * j)%positive -> is_double p = true -> tame p ts ->
  exists r, epow libm ts p = Ok r /\ reduced_to 8 (map (raise p) ts) r.
Proof.
  intros Ne P N L (j & J) D T. destruct (reduce_plain 8 (map (raise p) ts)) as (r & R).
  { destruct ts; [congruence|discriminate]. }
  { rewrite J. apply plain_more, raise_list_plain; assumption. }
  exists r. split; [|exact R]. unfold epow. rewrite (is_double_fl p D), (proj2 (qc_eqb_neq _ _) N), (powf_list k) by assumption. cbn [bind].
  rewrite (rt_reduce _ _ _ R). cbn [bind]. apply of_terms_printable; [apply R|]. apply plain_printable; apply R.
Qed.
(** an expression from a list of plain terms *)
Definition tidy (t : operand) : operand := if str_eqb (base t) one_base then const_term (coef t) else t.
Lemma format_tidy t : format_term (tidy t) = format_term t.
Proof.
  unfold tidy, format_term. change (s "1") with one_base. destruct (str_eqb_spec (base t) one_base) as [E|E].
  - rewrite str_eqb_refl. unfold format_coefficient. cbn [coef base const_term]. rewrite E, str_eqb_refl. reflexivity.
  - rewrite (proj2 (str_eqb_neq _ _) E). reflexivity.
Qed.
Lemma of_terms_plain ts : ts <> [] -> plain 8 ts -> exists r, expression_of_terms libm ts = Ok r /\ reduced_to 8 ts r.
Proof.
  intros N P. destruct (reduce_plain 8 ts N P) as (r & R). exists r. split; [|exact R].
  unfold expression_of_terms. replace (standard_terms ts) with (standard_terms (map tidy ts))
    by (unfold standard_terms; rewrite map_map; f_equal; apply map_ext; intros t; rewrite format_tidy; reflexivity).
  assert (Q : Forall simple_term (map tidy ts) /\ printable (map tidy ts) = true /\ same_monomial (map tidy ts) ts).
  { clear N R. induction P as [|t ts Pt P IH]; [split; [constructor|split; [reflexivity|apply same_monomial_refl]]|].
    destruct IH as (I1 & I2 & I3 & I4). destruct Pt as (H1 & H2 & H3 & H4 & H5). cbn [map]. unfold tidy at 1 3 5. destruct (str_eqb_spec (base t) one_base) as [E|E].
    - rewrite H2. split; [constructor; [left; eexists; reflexivity|exact I1]|]. split; [exact I2|]. split.
      + cbn. fold (mono_coef ts) (mono_coef (map tidy ts)). rewrite H2, I3. reflexivity.
      + intros x Hx. cbn [mono_expo fold_right]. fold (mono_expo x ts) (mono_expo x (map tidy ts)). cbn [base const_term]. rewrite E, (I4 x Hx), (proj2 (str_eqb_neq one_base x)) by congruence. reflexivity.
    - split; [constructor; [right; exists (base t), (expo t); split; [|exact E]; destruct t; cbn in *; subst; reflexivity|exact I1]|].
      split.
      + change (printable_term t && printable (map tidy ts) = true). rewrite I2, andb_true_r. unfold printable_term. rewrite (proj2 (str_eqb_neq _ _) E).
        destruct H5 as [H5|(H5 & H6)]; [contradiction|]. rewrite H5, H6, (parts_short _ H4). cbn. rewrite (proj2 (qc_eqb_neq _ _) H3). reflexivity.
      + split; [cbn; fold (mono_coef ts) (mono_coef (map tidy ts)); rewrite I3; reflexivity|].
        intros x Hx. cbn. fold (mono_expo x ts) (mono_expo x (map tidy ts)). rewrite (I4 x Hx). reflexivity. }
  destruct Q as (Q1 & Q2 & Q3). destruct ts as [|t ts]; [congruence|]. cbn [map] in *.
  destruct (star_text _ _ Q1 Q2) as [E O]. rewrite E. clear E.
  destruct (expression_meaning libm _ O) as (r' & -> & C' & M1 & M2). f_equal.
  destruct (star_blank (tidy t) (map tidy ts)) as [K1 K2]. destruct (blank_meaning _ _ Q1) as [B1 B2].
  apply canonical_eq; [exact C'|apply R|]. destruct Q3 as (S1 & S2). split.
  - rewrite M1, K1, B1, S1, (rt_coef _ _ _ R), (plain_coef 8) by exact P. reflexivity.
  - intros x Hx. rewrite M2, K2, B2, S2, (rt_expo _ _ _ R x Hx) by exact Hx. reflexivity.
Qed.
End Ops.
