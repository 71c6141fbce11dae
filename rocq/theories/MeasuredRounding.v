(** * Lemmas for C78: rounding.
    *)
From Verif Require Import PyBase PyLemmas ContainerModel Nd IndexModel IndexSpec IndexProofs2 MeasuredModel MeasuredSpec MeasuredProofs MeasuredProofs2.
From Coq Require Import Lia Lqa.
Local Open Scope Qc_scope.

(** rounding, in terms of numbers only *)
Lemma this_q (q : Qc) : Qeq (this q) (qnum q # qden q).
Proof. unfold qnum, qden; destruct (this q); reflexivity. Qed.
Lemma zq_q z : Qeq (this (zq z)) (inject_Z z).
Proof. unfold zq, mkq, Q2Qc. cbn [this]. rewrite Qred_correct. reflexivity. Qed.
Lemma half_q : Qeq (this (mkq 1 2)) (1 # 2).
Proof. reflexivity. Qed.
Lemma add_q (a b : Qc) : Qeq (this (a + b)) (this a + this b)%Q.
Proof. unfold Qcplus. cbn [this Q2Qc]. apply Qred_correct. Qed.
Lemma opp_q (a : Qc) : Qeq (this (- a)) (- this a)%Q.
Proof. unfold Qcopp. cbn [this Q2Qc]. apply Qred_correct. Qed.
Lemma sub_q (a b : Qc) : Qeq (this (a - b)) (this a - this b)%Q.
Proof. unfold Qcminus. rewrite add_q, opp_q. reflexivity. Qed.
Lemma zq_S z : Qeq (this (zq (z + 1))) (this (zq z) + 1)%Q.
Proof. rewrite !zq_q, inject_Z_plus. reflexivity. Qed.
Lemma one_q : Qeq (this 1) 1.
Proof. reflexivity. Qed.
Lemma zero_q : Qeq (this 0) 0.
Proof. reflexivity. Qed.
Lemma floor_bounds (q : Qc) : (this (zq (floor_q q)) <= this q)%Q /\ (this q < this (zq (floor_q q)) + 1)%Q.
Proof.
  assert (P : (0 < Z.pos (qden q))%Z) by lia. pose proof (Z.mul_div_le (qnum q) _ P). pose proof (Z.mul_succ_div_gt (qnum q) _ P).
  rewrite <- zq_S, !zq_q, this_q. unfold floor_q, Qle, Qlt, inject_Z. cbn [Qnum Qden]. split; nia.
Qed.
Lemma ceil_floor q : ceil_q q = (- floor_q (- q))%Z.
Proof.
  unfold ceil_q, floor_q. assert (E : qnum (- q) = (- qnum q)%Z /\ qden (- q) = qden q).
  { unfold Qcopp, qnum, qden. cbn [this Q2Qc]. rewrite Qred_opp. cbn. rewrite (canon q). auto. }
  destruct E as [-> ->]. reflexivity.
Qed.
Ltac qc := unfold Qcle, Qclt in *; rewrite ?add_q, ?sub_q, ?opp_q, ?zq_S, ?half_q, ?one_q, ?zero_q in *.
Lemma trunc_floor q : 0 <= q -> trunc_q q = floor_q q.
Proof.
  intro H. unfold trunc_q, floor_q. apply Z.quot_div_nonneg; [|lia]. qc. rewrite this_q in H. unfold Qle in H. cbn in H. lia.
Qed.
Lemma trunc_ceil q : q <= 0 -> trunc_q q = ceil_q q.
Proof.
  intro H. unfold trunc_q, ceil_q. rewrite <- (Z.opp_involutive (qnum q)) at 1. rewrite Z.quot_opp_l by lia. f_equal.
  apply Z.quot_div_nonneg; [|lia]. qc. rewrite this_q in H. unfold Qle in H. cbn in H. lia.
Qed.
Lemma floor_rounds q : rounds Rfloor q (floor_q q).
Proof. pose proof (floor_bounds q) as [A B]. split; qc; assumption. Qed.
Lemma ceil_rounds q : rounds Rceil q (ceil_q q).
Proof.
  rewrite ceil_floor. pose proof (floor_bounds (- q)) as [A B]. rewrite opp_q in A, B. rewrite zq_q in A, B. split; qc; rewrite zq_q, inject_Z_opp; lra.
Qed.
Lemma qc_eq (a b : Qc) : a = b <-> Qeq (this a) (this b).
Proof. split; [intros ->; reflexivity|apply Qc_is_canon]. Qed.
Lemma rounded_spec r q : exists z, rounded r q = zq z /\ rounds r q z.
Proof.
  eexists. split; [reflexivity|]. destruct r.
  - unfold round_q. pose proof (floor_bounds q) as [A B]. set (f := floor_q q) in *. unfold Qccompare. destruct (Qcompare_spec (this (q - zq f)) (this (mkq 1 2))) as [C|C|C].
    + rewrite sub_q, half_q in C. destruct (Z.even f) eqn:E.
      * split; [split; qc; lra|]. intros _. apply Z.even_spec. exact E.
      * split; [split; qc; lra|]. intros _. apply Z.even_spec. rewrite Z.even_add, E. reflexivity.
    + rewrite sub_q, half_q in C. split; [split; qc; lra|]. intros [D|D]; apply qc_eq in D; qc; lra.
    + rewrite sub_q, half_q in C. split; [split; qc; lra|]. intros [D|D]; apply qc_eq in D; qc; lra.
  - apply floor_rounds.
  - apply ceil_rounds.
  - split; intro H; [rewrite trunc_floor by exact H; apply floor_rounds|rewrite trunc_ceil by exact H; apply ceil_rounds].
Qed.
Lemma rounds_unique r q z z' : rounds r q z -> rounds r q z' -> z = z'.
Proof.
  assert (L : forall a b, (inject_Z a < inject_Z b + 1)%Q -> (a <= b)%Z).
  { intros a b H. change 1%Q with (inject_Z 1) in H. rewrite <- (inject_Z_plus b 1) in H. rewrite <- Zlt_Qlt in H. lia. }
  assert (F : forall a b, zq a <= q -> q < zq b + 1 -> (a <= b)%Z).
  { intros a b H1 H2. apply L. qc. rewrite !zq_q in *. lra. }
  assert (G : forall a b, zq a - 1 < q -> q <= zq b -> (a <= b)%Z).
  { intros a b H1 H2. apply L. qc. rewrite !zq_q in *. lra. }
  destruct r; cbn [rounds].
  - intros [[A1 A2] A3] [[B1 B2] B3]. qc.
    assert (K : forall a b, (inject_Z a <= inject_Z b + 1)%Q -> (a <= b + 1)%Z).
    { intros a b H. change 1%Q with (inject_Z 1) in H. rewrite <- (inject_Z_plus b 1) in H. rewrite <- Zle_Qle in H. exact H. }
    assert (X1 : (z <= z' + 1)%Z) by (apply K; rewrite !zq_q in *; lra). assert (X2 : (z' <= z + 1)%Z) by (apply K; rewrite !zq_q in *; lra).
    assert (Y : forall z, zq (z + 1) = zq z + 1) by (intro y; apply qc_eq; qc; reflexivity).
    destruct (Z.eq_dec z z') as [E|N]; [exact E|exfalso]. assert (C : z = (z' + 1)%Z \/ z' = (z + 1)%Z) by lia. destruct C as [-> | ->].
    + assert (Z.Even (z' + 1)) as (a & HA) by (apply A3; left; apply qc_eq; qc; lra). assert (Z.Even z') as (b & HB) by (apply B3; right; apply qc_eq; qc; lra). lia.
    + assert (Z.Even z) as (a & HA) by (apply A3; right; apply qc_eq; qc; lra). assert (Z.Even (z + 1)) as (b & HB) by (apply B3; left; apply qc_eq; qc; lra). lia.
  - intros [] []. apply Z.le_antisymm; eauto.
  - intros [] []. apply Z.le_antisymm; eauto.
  - intros [A1 A2] [B1 B2]. destruct (Qlt_le_dec (this q) 0) as [H|H].
    + assert (H' : q <= 0) by (qc; lra). destruct (A2 H'), (B2 H'). apply Z.le_antisymm; eauto.
    + assert (H' : 0 <= q) by (qc; lra). destruct (A1 H'), (B1 H'). apply Z.le_antisymm; eauto.
Qed.
