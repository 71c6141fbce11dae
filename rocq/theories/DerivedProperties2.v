(** * Properties of the derived observables: gradients and moments (C45) *)
From Coq Require Import Reals Lra Psatz Sorted.
From Verif Require Import PyBase PyLemmas NumModel DerivedModel DerivedProperties.
Local Open Scope R_scope.

(** ** Divergence of the velocity from the change of density *)
Lemma nth_map_seq (f : nat -> R) n i : (i < n)%nat -> nth_error (map f (seq 0 n)) i = Some (f i).
Proof.
  intros L. rewrite nth_error_map. assert (nth_error (seq 0 n) i = Some i) as -> by (rewrite (nth_error_nth' _ 0%nat) by (rewrite seq_length; exact L); rewrite seq_nth by exact L; reflexivity). reflexivity.
Qed.
Lemma gradient_length y x : length (gradient y x) = length y.
Proof. unfold gradient. rewrite map_length, seq_length. reflexivity. Qed.
Lemma sorted_nth l : StronglySorted Rlt l -> forall i j, (i < j < length l)%nat -> nth i l 0 < nth j l 0.
Proof.
  induction 1 as [|u l S IH F]; intros i j L; cbn in L; [lia|]. destruct j as [|j]; [lia|]. destruct i as [|i]; cbn [nth].
  - rewrite Forall_forall in F. apply F, nth_In. lia.
  - apply IH. lia.
Qed.
(** exact where the density is linear in time, at the ends as well *)
Lemma gradient_line al be x i : StronglySorted Rlt x -> (2 <= length x)%nat -> (i < length x)%nat -> nth_error (gradient (map (fun t => al * t + be) x) x) i = Some al.
Proof.
  intros So L2 Li. unfold gradient. rewrite map_length. rewrite nth_map_seq by exact Li. f_equal. set (n := length x) in *.
  assert (Y : forall k, (k < n)%nat -> nth k (map (fun t => al * t + be) x) 0 = al * nth k x 0 + be).
  { intros k Hk. rewrite (nth_indep _ 0 (al * 0 + be)) by (rewrite map_length; exact Hk). apply (map_nth (fun t => al * t + be)). }
  destruct (Nat.eqb_spec i 0) as [->|I0].
  - rewrite !Y by lia. pose proof (sorted_nth x So 0 1 ltac:(fold n; lia)). field. lra.
  - destruct (Nat.eqb_spec i (n - 1)) as [E|I1].
    + rewrite !Y by lia. pose proof (sorted_nth x So (i - 1) i ltac:(fold n; lia)). field. lra.
    + cbn zeta. rewrite !Y by lia. pose proof (sorted_nth x So (i - 1) i ltac:(fold n; lia)). pose proof (sorted_nth x So i (i + 1) ltac:(fold n; lia)). field. lra.
Qed.
Lemma combine_nth_error {A B} (l : list A) (m : list B) i a b : nth_error l i = Some a -> nth_error m i = Some b -> nth_error (combine l m) i = Some (a, b).
Proof. revert m i. induction l as [|u l IH]; intros [|v m] [|i]; cbn; try discriminate; [congruence|apply IH]. Qed.
Theorem C45_divu_linear al be times i t : StronglySorted Rlt times -> (2 <= length times)%nat -> nth_error times i = Some t -> al * t + be <> 0 ->
  nth_error (divu (map (fun t => al * t + be) times) times) i = Some (Fin (- al / (al * t + be))).
Proof.
  intros So L2 Ht Nz. assert (Li : (i < length times)%nat) by (apply nth_error_Some; congruence). unfold divu. rewrite nth_error_map.
  rewrite (combine_nth_error _ _ i al (al * t + be)); [|apply gradient_line; assumption|rewrite nth_error_map, Ht; reflexivity]. cbn [option_map fst snd nmul]. f_equal. rewrite ndiv_ok by exact Nz. f_equal. field. exact Nz.
Qed.
Print Assumptions C45_divu_linear.
(** ... and inside also where it is quadratic *)
Theorem C45_divu_quadratic al be ga times i t : StronglySorted Rlt times -> nth_error times (S i) = Some t -> (S (S i) < length times)%nat -> al * (t * t) + be * t + ga <> 0 ->
  nth_error (divu (map (fun t => al * (t * t) + be * t + ga) times) times) (S i) = Some (Fin (- (2 * al * t + be) / (al * (t * t) + be * t + ga))).
Proof.
  intros So Ht L Nz. set (f := fun t => al * (t * t) + be * t + ga). unfold divu. rewrite nth_error_map.
  rewrite (combine_nth_error _ _ (S i) (2 * al * t + be) (f t)); [| |rewrite nth_error_map, Ht; reflexivity].
  - cbn [option_map fst snd nmul]. f_equal. rewrite ndiv_ok by exact Nz. f_equal. unfold f. field. exact Nz.
  - unfold gradient. rewrite map_length. rewrite nth_map_seq by lia. f_equal. set (n := length times) in *.
    assert (Y : forall k, (k < n)%nat -> nth k (map f times) 0 = f (nth k times 0)). { intros k Hk. rewrite (nth_indep _ 0 (f 0)) by (rewrite map_length; exact Hk). apply (map_nth f). }
    destruct (Nat.eqb_spec (S i) 0) as [E|_]; [lia|]. destruct (Nat.eqb_spec (S i) (n - 1)) as [E|_]; [lia|]. cbn zeta. rewrite !Y by lia.
    pose proof (sorted_nth times So (S i - 1) (S i) ltac:(fold n; lia)). pose proof (sorted_nth times So (S i) (S i + 1) ltac:(fold n; lia)).
    apply (nth_error_nth _ _ 0) in Ht. rewrite Ht in *. unfold f. field. lra.
Qed.
Print Assumptions C45_divu_quadratic.
(** ** Energy density and average energy *)
Lemma gradient1_length v : length (gradient1 v) = length v.
Proof. unfold gradient1. rewrite map_length, seq_length. reflexivity. Qed.
Lemma gradient1_positive v : StronglySorted Rlt v -> (2 <= length v)%nat -> Forall (fun d => 0 < d) (gradient1 v).
Proof.
  intros So L. apply Forall_forall. intros d Hd. unfold gradient1 in Hd. apply in_map_iff in Hd as (i & <- & Hi). apply in_seq in Hi. destruct (Nat.eqb_spec i 0) as [->|I0].
  - pose proof (sorted_nth v So 0 1 ltac:(lia)). lra.
  - destruct (Nat.eqb_spec i (length v - 1)) as [E|I1].
    + pose proof (sorted_nth v So (i - 1) i ltac:(lia)). lra.
    + pose proof (sorted_nth v So (i - 1) (i + 1) ltac:(lia)). lra.
Qed.
Definition rsum (l : list R) : R := fold_right Rplus 0 l.
Definition terms (k : nat) (v f dv : list R) : list R := map (fun x => fst (fst x) ^ k * snd (fst x) * snd x) (combine (combine v f) dv).
Lemma npow_fin a k : npow (Fin a) k = Fin (a ^ k).
Proof.
  induction k as [|k IH]; [reflexivity|]. destruct k as [|k]; [cbn; rewrite Rmult_1_r; reflexivity|]. cbn [npow] in *. rewrite IH. cbn [nmul]. reflexivity.
Qed.
Lemma moment_ok k v f : moment k v f = Fin (rsum (terms k v f (gradient1 v))).
Proof.
  unfold moment, terms, rsum. generalize (combine (combine v f) (gradient1 v)). intros l. unfold nsum. induction l as [|x l IH]; [reflexivity|]. cbn [map fold_right]. rewrite IH, npow_fin. reflexivity.
Qed.
Lemma terms_bounds lo hi v f dv : 0 <= lo -> Forall (fun x => lo <= x <= hi) v -> Forall (fun x => 0 <= x) f -> Forall (fun d => 0 < d) dv ->
  lo * lo * rsum (terms 2 v f dv) <= rsum (terms 4 v f dv) <= hi * hi * rsum (terms 2 v f dv) /\ 0 <= rsum (terms 2 v f dv).
Proof.
  intros L. revert f dv. induction v as [|x v IH]; intros [|g f] [|d dv] Fv Ff Fd; try (cbn; lra). inversion Fv as [|? ? Hx Fv']; inversion Ff as [|? ? Hg Ff']; inversion Fd as [|? ? Hd Fd']; subst.
  destruct (IH f dv Fv' Ff' Fd') as ((H1 & H2) & H3). unfold terms, rsum in *. cbn [combine map fold_right fst snd].
  set (r2 := fold_right Rplus 0 (map (fun x => fst (fst x) ^ 2 * snd (fst x) * snd x) (combine (combine v f) dv))) in *.
  set (r4 := fold_right Rplus 0 (map (fun x => fst (fst x) ^ 4 * snd (fst x) * snd x) (combine (combine v f) dv))) in *.
  assert (W : 0 <= x ^ 2 * g * d) by (apply Rmult_le_pos; [apply Rmult_le_pos; [apply pow2_ge_0|exact Hg]|lra]). assert (X2 : lo * lo <= x * x <= hi * hi) by nra.
  replace (x ^ 4 * g * d) with (x * x * (x ^ 2 * g * d)) by ring. set (w := x ^ 2 * g * d) in *. split; [|lra]. split; nra.
Qed.
Lemma terms_positive v f dv i x g : nth_error v i = Some x -> nth_error f i = Some g -> 0 < x -> 0 < g -> Forall (fun x => 0 <= x) v -> Forall (fun x => 0 <= x) f -> Forall (fun d => 0 < d) dv -> (length v <= length dv)%nat -> 0 < rsum (terms 2 v f dv).
Proof.
  revert f dv i. induction v as [|y v IH]; intros f dv i Hv Hf X G Fv Ff Fd L; [destruct i; discriminate|]. destruct f as [|h f]; [destruct i; discriminate|]. destruct dv as [|d dv]; [cbn in L; lia|].
  inversion Fv as [|? ? Hy Fv']; inversion Ff as [|? ? Hh Ff']; inversion Fd as [|? ? Hd Fd']; subst. unfold terms, rsum in *. cbn [combine map fold_right fst snd].
  assert (R0 : 0 <= fold_right Rplus 0 (map (fun x => fst (fst x) ^ 2 * snd (fst x) * snd x) (combine (combine v f) dv))).
  { clear - Fv' Ff' Fd'. revert f dv Ff' Fd'. induction v as [|y v IH]; intros [|h f] [|d dv] Ff Fd; cbn; try lra. inversion Fv' as [|? ? Hy Fv'']; inversion Ff as [|? ? Hh Ff'']; inversion Fd as [|? ? Hd Fd'']; subst. specialize (IH Fv'' f dv Ff'' Fd''). cbn in IH.
    assert (0 <= y * (y * 1) * h * d) by (apply Rmult_le_pos; [apply Rmult_le_pos; [nra|exact Hh]|lra]). lra. }
  destruct i as [|i]; cbn [nth_error] in *.
  - injection Hv as ->. injection Hf as ->. assert (0 < x ^ 2 * g * d) by (apply Rmult_lt_0_compat; [apply Rmult_lt_0_compat; [apply pow_lt, X|exact G]|exact Hd]). lra.
  - assert (0 <= y ^ 2 * h * d) by (apply Rmult_le_pos; [apply Rmult_le_pos; [apply pow2_ge_0|exact Hh]|lra]). assert (T := IH f dv i Hv Hf X G Fv' Ff' Fd' ltac:(cbn in L; lia)). lra.
Qed.
(** the average lies between the kinetic energies m v^2 / 2 of the slowest and the
    fastest particles, whatever the distribution *)
Theorem C45_average_energy m v f lo hi i x g : 0 < m -> StronglySorted Rlt v -> (2 <= length v)%nat -> length f = length v -> 0 <= lo -> Forall (fun x => lo <= x <= hi) v -> Forall (fun x => 0 <= x) f ->
  nth_error v i = Some x -> nth_error f i = Some g -> 0 < x -> 0 < g ->
  exists a eps, average_energy (Fin m) v f = Fin a /\ energy_density (Fin m) v f = Fin eps /\ m * (lo * lo) / 2 <= a <= m * (hi * hi) / 2 /\ 0 <= eps.
Proof.
  intros M So L2 Lf L Fv Ff Hx Hg X G. pose proof (gradient1_positive v So L2) as Fd. destruct (terms_bounds lo hi v f (gradient1 v) L Fv Ff Fd) as ((B1 & B2) & B3).
  assert (P : 0 < rsum (terms 2 v f (gradient1 v))). { apply (terms_positive v f (gradient1 v) i x g Hx Hg X G); [revert Fv; apply Forall_impl; intros; lra|exact Ff|exact Fd|rewrite gradient1_length; lia]. }
  unfold average_energy, energy_density. rewrite !moment_ok. cbn [nmul]. rewrite ndiv_ok by lra. do 2 eexists. split; [reflexivity|]. split; [reflexivity|]. set (s2 := rsum (terms 2 v f (gradient1 v))) in *. set (s4 := rsum (terms 4 v f (gradient1 v))) in *.
  assert (S4 : 0 <= s4) by (assert (0 <= lo * lo * s2) by (apply Rmult_le_pos; [apply Rmult_le_pos; exact L|lra]); lra). split; [|apply Rmult_le_pos; lra].
  assert (E : 1 / 2 * (m * s4) / s2 * s2 = 1 / 2 * (m * s4)) by (field; lra). assert (B1' : m * (lo * lo * s2) <= m * s4) by (apply Rmult_le_compat_l; lra). assert (B2' : m * s4 <= m * (hi * hi * s2)) by (apply Rmult_le_compat_l; lra).
  split; apply (Rmult_le_reg_r s2 _ _ P); rewrite E; lra.
Qed.
Print Assumptions C45_average_energy.
(** an empty distribution has no average *)
Theorem C45_empty_distribution_refuted m v n : average_energy (Fin m) v (repeat 0 n) = NaN /\ energy_density (Fin m) v (repeat 0 n) = Fin 0.
Proof.
  assert (Z : forall k, rsum (terms k v (repeat 0 n) (gradient1 v)) = 0).
  { intros k. unfold terms, rsum. generalize (gradient1 v). revert v. induction n as [|n IH]; intros [|x v] [|d dv]; cbn; try reflexivity. rewrite IH. ring. }
  unfold average_energy, energy_density. rewrite !moment_ok, !Z. cbn [nmul]. rewrite !Rmult_0_r. split; [|reflexivity]. unfold ndiv. destruct (Req_EM_T 0 0); [reflexivity|lra].
Qed.
Print Assumptions C45_empty_distribution_refuted.
(** ** Cases *)
Example C45_case : (exists t, angle (fvec 1 1 0) (fvec 0 2 0) = Fin t /\ 0 <= t <= PI) /\ (1, 1, 0) <> (0, 0, 0) /\ (0, 2, 0) <> (0, 0, 0).
Proof.
  assert (A : (1, 1, 0) <> (0, 0, 0)) by (intros H; injection H; lra). assert (B : (0, 2, 0) <> (0, 0, 0)) by (intros H; injection H; lra). split; [|auto].
  destruct (C45_angle 1 1 0 0 2 0 A B) as (t & _ & _ & _ & _ & E & _ & _ & _ & _ & H & _). eauto.
Qed.
Example C45_energy_case : exists a eps, average_energy (Fin 2) [1; 2; 4] [3; 0; 1] = Fin a /\ energy_density (Fin 2) [1; 2; 4] [3; 0; 1] = Fin eps /\ 1 <= a <= 16.
Proof.
  destruct (C45_average_energy 2 [1; 2; 4] [3; 0; 1] 1 4 0 1 3) as (a & eps & H1 & H2 & H3 & _); try lra; try reflexivity; try (cbn; lia); try (repeat constructor; lra). exists a, eps. split; [exact H1|]. split; [exact H2|lra].
Qed.
Example C45_divu_case : nth_error (divu [1; 3; 7] [0; 1; 3]) 1 = Some (Fin (- 2 / 3)).
Proof.
  pose proof (C45_divu_linear 2 1 [0; 1; 3] 1 1) as H. cbn [map] in H. replace (2 * 0 + 1) with 1 in H by ring. replace (2 * 1 + 1) with 3 in H by ring. replace (2 * 3 + 1) with 7 in H by ring. rewrite H; [f_equal; f_equal; lra|repeat constructor; lra|cbn; lia|reflexivity|lra].
Qed.
