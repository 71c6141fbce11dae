From Coq Require Import Reals Qreals Sorted Lra.
From Verif Require Import PyBase PyLemmas ContainerModel ContainerSpec ContainerProofs ContainerProofs2 ContainerProperties IndexModel AxisModel AxisProofs NumModel IntfluxModel IntfluxSpec.

Lemma increasing_ascending x : increasing x -> ascending x.
Proof. intros H. induction H as [|a l S IH F]; constructor; [exact IH|]. revert F. apply Forall_impl. intros b. apply Qclt_le_weak. Qed.
Lemma increasing_nth x : increasing x -> forall i j a b, nth_error x i = Some a -> nth_error x j = Some b -> i < j -> (a < b)%Qc.
Proof.
  induction 1 as [|u l S IH F]; intros i j a b Hi Hj L; [destruct i; discriminate|]. destruct j as [|j]; [lia|]. destruct i as [|i]; cbn [nth_error] in *.
  - injection Hi as <-. rewrite Forall_forall in F. apply F. exact (nth_error_In _ _ Hj).
  - apply (IH i j); [assumption..|lia].
Qed.
Lemma increasing_unique x i j a : increasing x -> nth_error x i = Some a -> nth_error x j = Some a -> i = j.
Proof.
  intros H Hi Hj. destruct (Nat.lt_trichotomy i j) as [L|[L|L]]; [|exact L|]; exfalso.
  - exact (Qclt_not_le _ _ (increasing_nth x H i j a a Hi Hj L) (Qcle_refl _)).
  - exact (Qclt_not_le _ _ (increasing_nth x H j i a a Hj Hi L) (Qcle_refl _)).
Qed.
Lemma nearest_bracket x i p a : increasing x -> nth_error x i = Some a -> (a <= p)%Qc -> (forall b, nth_error x (S i) = Some b -> (p < b)%Qc) -> nearest x p Upper = Ok (Z.of_nat i, a).
Proof.
  intros Inc Hi Le Up. destruct (C10_upper_bound x p (increasing_ascending x Inc)) as (j & w & E & Hj & Lw & Mx); [exists a; split; [exact (nth_error_In _ _ Hi)|exact Le]|].
  assert (w = a) as ->.
  { apply Qcle_antisym; [|apply Mx; [exact (nth_error_In _ _ Hi)|exact Le]]. destruct (Nat.lt_trichotomy j i) as [L|[L|L]].
    - apply Qclt_le_weak, (increasing_nth x Inc j i); assumption.
    - subst j. assert (w = a) by congruence. subst. apply Qcle_refl.
    - exfalso. destruct (nth_error x (S i)) as [b|] eqn:Hb; [|apply nth_error_None in Hb; assert (j < length x) by (apply nth_error_Some; congruence); lia].
      specialize (Up b eq_refl). assert ((b <= w)%Qc). { destruct (Nat.eq_dec (S i) j) as [<-|N]; [assert (w = b) by congruence; subst; apply Qcle_refl|]. apply Qclt_le_weak, (increasing_nth x Inc (S i) j); [assumption..|lia]. }
      exact (Qclt_not_le _ _ Up (Qcle_trans _ _ _ H Lw)). }
  rewrite E. rewrite (increasing_unique x j i a Inc Hj Hi). reflexivity.
Qed.
Lemma put_at_nat {A} (l : list A) i v : i < length l -> put_at l (Z.of_nat i) v = Ok (firstn i l ++ v :: skipn (S i) l).
Proof.
  intros L. unfold put_at. destruct (Z.ltb_spec (Z.of_nat i) 0); [lia|]. cbn zeta. destruct (Z.ltb_spec (Z.of_nat i) 0); [lia|]. destruct (Z.leb_spec (Z.of_nat (length l)) (Z.of_nat i)); [lia|]. cbn [orb]. rewrite Nat2Z.id. reflexivity.
Qed.
Lemma from_index_nat {A} (l : list A) i v : i < length l -> from_index (firstn i l ++ v :: skipn (S i) l) (Z.of_nat i) = v :: skipn (S i) l.
Proof.
  intros L. unfold from_index. destruct (Z.ltb_spec (Z.of_nat i) 0); [lia|]. rewrite Nat2Z.id. replace i with (length (firstn i l)) at 1 by (apply firstn_length_le; lia). rewrite skipn_app, skipn_all, Nat.sub_diag. reflexivity.
Qed.
Lemma minq_below x d l p : x = d :: l -> (exists a, In a x /\ (a <= p)%Qc) -> qc_ltb p (minq l d) = false.
Proof.
  intros -> (a & I & L). destruct (minq_spec l d) as (_ & M). destruct (qc_ltb_spec p (minq l d)) as [X|_]; [|reflexivity]. exfalso. exact (Qclt_not_le _ _ X (Qcle_trans _ _ _ (M a I) L)).
Qed.
Definition end_value (a b p : Qc) (c d : num) : num := nmul c (npower (ndiv (fin p) (fin a)) (ndiv (nlog (ndiv d c)) (nlog (ndiv (fin b) (fin a))))).
Lemma check_interp_at x y i p a b c d : increasing x -> length x = length y -> nth_error x i = Some a -> nth_error x (S i) = Some b -> nth_error y i = Some c -> nth_error y (S i) = Some d ->
  (a <= p)%Qc -> (p < b)%Qc -> check_interp y x p = Ok (end_value a b p c d :: skipn (S i) y, p :: skipn (S i) x).
Proof.
  intros Inc L Xi Xj Yi Yj Le Lt. unfold check_interp. destruct x as [|e l] eqn:Ex; [destruct i; discriminate|]. rewrite <- Ex in *. rewrite (minq_below x e l p Ex) by (exists a; split; [exact (nth_error_In _ _ Xi)|exact Le]).
  rewrite L, Nat.eqb_refl. cbn [negb]. rewrite (nearest_bracket x i p a Inc Xi Le) by (intros b' Hb; assert (b' = b) as -> by congruence; exact Lt). cbn [bind].
  replace (Z.of_nat i + 1)%Z with (Z.of_nat (S i)) by lia. rewrite !pyindex_nat, Xj, Yj, Yi. cbn [bind]. assert (i < length x) by (apply nth_error_Some; congruence).
  rewrite !put_at_nat by lia. cbn [bind]. rewrite !from_index_nat by lia. reflexivity.
Qed.
Lemma fin_div p a : (0 < a)%Qc -> ndiv (fin p) (fin a) = Fin (Q2R (this p) / Q2R (this a)).
Proof.
  intros A. unfold fin, ndiv. destruct (Req_EM_T (Q2R (this a)) 0) as [E|]; [|reflexivity]. exfalso. assert (0 < Q2R (this a))%R by (rewrite <- RMicromega.Q2R_0; apply Qlt_Rlt, A). lra.
Qed.
Lemma q2r_pos a : (0 < a)%Qc -> (0 < Q2R (this a))%R.
Proof. intros A. rewrite <- RMicromega.Q2R_0. apply Qlt_Rlt, A. Qed.
Lemma q2r_lt a b : (a < b)%Qc -> (Q2R (this a) < Q2R (this b))%R.
Proof. apply Qlt_Rlt. Qed.
Lemma q2r_le a b : (a <= b)%Qc -> (Q2R (this a) <= Q2R (this b))%R.
Proof. apply Qle_Rle. Qed.
Lemma Rpower_quot x y z : (0 < x -> 0 < y -> Rpower (x / y) z = Rpower x z / Rpower y z)%R.
Proof.
  intros X Y. unfold Rdiv. rewrite <- Rpower_Ropp. unfold Rpower. rewrite <- exp_plus. rewrite ln_mult by (try apply Rinv_0_lt_compat; assumption). rewrite ln_Rinv by assumption. f_equal. ring.
Qed.
Lemma ln_quot x y : (0 < x -> 0 < y -> ln (x / y) = ln x - ln y)%R.
Proof. intros X Y. unfold Rdiv. rewrite ln_mult by (try apply Rinv_0_lt_compat; assumption). rewrite ln_Rinv by assumption. ring. Qed.
(** the exponent of the power law *)
Definition slope (a b c d : R) : R := (ln (d / c) / ln (b / a))%R.
Lemma slope_law a b c d : (0 < a -> a < b -> 0 < c -> 0 < d -> d = c * Rpower (b / a) (slope a b c d))%R.
Proof.
  intros A AB C D. unfold slope, Rpower. assert (B : (0 < b)%R) by lra. assert (P : (0 < b / a)%R) by (apply Rdiv_lt_0_compat; assumption).
  assert (LN : (ln (b / a) <> 0)%R). { rewrite ln_quot by assumption. pose proof (ln_increasing a b A AB). lra. }
  replace (ln (d / c) / ln (b / a) * ln (b / a))%R with (ln (d / c)) by (field; exact LN). rewrite exp_ln by (apply Rdiv_lt_0_compat; assumption). field. lra.
Qed.
Lemma end_value_positive a b p c d : (0 < a)%Qc -> (a <= p)%Qc -> (a < b)%Qc -> (0 < c)%R -> (0 < d)%R ->
  end_value a b p (Fin c) (Fin d) = Fin (c * Rpower (Q2R (this p) / Q2R (this a)) (slope (Q2R (this a)) (Q2R (this b)) c d))%R.
Proof.
  intros A Ap AB C D. assert (P : (0 < p)%Qc) by exact (Qclt_le_trans _ _ _ A Ap). unfold end_value. rewrite !fin_div by assumption.
  pose proof (q2r_pos a A) as A'. pose proof (q2r_pos p P) as P'. pose proof (q2r_lt a b AB) as AB'. set (x := Q2R (this a)) in *. set (z := Q2R (this b)) in *. set (t := Q2R (this p)) in *.
  assert (L1 : ndiv (Fin d) (Fin c) = Fin (d / c)) by (unfold ndiv; destruct (Req_EM_T c 0); [lra|reflexivity]). rewrite L1.
  assert (Pos : forall r, (0 < r)%R -> nlog (Fin r) = Fin (ln r)) by (intros r Hr; unfold nlog; destruct (Rlt_dec r 0); [lra|]; destruct (Req_EM_T r 0); [lra|reflexivity]).
  rewrite !Pos by (apply Rdiv_lt_0_compat; lra). assert (LN : (ln (z / x) <> 0)%R) by (rewrite ln_quot by lra; pose proof (ln_increasing x z A' AB'); lra).
  assert (L2 : ndiv (Fin (ln (d / c))) (Fin (ln (z / x))) = Fin (slope x z c d)) by (unfold ndiv; destruct (Req_EM_T (ln (z / x)) 0); [contradiction|reflexivity]). rewrite L2.
  assert (T : (0 < t / x)%R) by (apply Rdiv_lt_0_compat; assumption).
  unfold npower. destruct (Req_EM_T (t / x) 1) as [E|_]; [rewrite E; unfold nmul, Rpower; rewrite ln_1, Rmult_0_r, exp_0; reflexivity|]. destruct (Req_EM_T (slope x z c d) 0) as [E|_]; [rewrite E, Rpower_O by exact T; reflexivity|].
  destruct (Rlt_dec (t / x) 0); [lra|]. destruct (Req_EM_T (t / x) 0); [lra|]. reflexivity.
Qed.
(** ** Running sums *)
Lemma differences_ok x : exists dx, differences x = Ok dx /\ length dx = length x /\ (forall n, S n < length x -> nth (S n) dx 0%Qc = (nth (S n) x 0 - nth n x 0)%Qc) /\ (nth 0 dx 0%Qc = 0)%Qc.
Proof.
  unfold differences. set (n := length x).
  assert (G : forall zs, Forall (fun z => (0 <= z < Z.of_nat n)%Z) zs -> mapM (pyindex x) zs = Ok (map (fun z => nth (Z.to_nat z) x 0%Qc) zs)).
  { intros zs F. apply mapM_ok. intros z Hz. rewrite Forall_forall in F. specialize (F z Hz). rewrite <- (Z2Nat.id z) at 1 by lia. rewrite pyindex_nat. rewrite (nth_error_nth' x 0%Qc) by lia. reflexivity. }
  rewrite G. 2: { apply Forall_forall. intros z Hz. apply in_map_iff in Hz as (k & <- & Hk). apply in_seq in Hk. lia. }
  cbn [bind]. unfold sequence_shift. rewrite !map_map. rewrite G.
  2: { apply Forall_forall. intros z Hz. apply in_map_iff in Hz as (k & <- & Hk). apply in_seq in Hk. destruct (Z.ltb_spec (Z.of_nat k + -1) 0); lia. }
  cbn [bind]. rewrite !map_map. eexists. split; [reflexivity|].
  assert (Cb : forall (A : Type) (f g : A -> Qc) l, combine (map f l) (map g l) = map (fun z => (f z, g z)) l) by (intros A f g l; induction l as [|z l IH]; cbn; [reflexivity|rewrite IH; reflexivity]).
  rewrite Cb. rewrite map_map. cbn [fst snd]. split; [rewrite map_length; apply seq_length|].
  assert (At : forall k, k < n -> nth k (map (fun k => nth (Z.to_nat (Z.of_nat k)) x 0 - nth (Z.to_nat (if (Z.of_nat k + -1 <? 0)%Z then 0%Z else (Z.of_nat k + -1)%Z)) x 0)%Qc (seq 0 n)) 0%Qc =
     (nth (Z.to_nat (Z.of_nat k)) x 0 - nth (Z.to_nat (if (Z.of_nat k + -1 <? 0)%Z then 0%Z else (Z.of_nat k + -1)%Z)) x 0)%Qc).
  { intros k Hk. erewrite nth_indep by (rewrite map_length, seq_length; exact Hk). rewrite (map_nth _ (seq 0 n) 0 k). rewrite seq_nth by exact Hk. reflexivity. }
  split.
  - intros k Hk. rewrite At by exact Hk. rewrite Nat2Z.id. destruct (Z.ltb_spec (Z.of_nat (S k) + -1) 0); [lia|]. replace (Z.to_nat (Z.of_nat (S k) + -1)) with k by lia. reflexivity.
  - destruct n as [|n'] eqn:En; [reflexivity|]. rewrite At by lia. cbn. ring.
Qed.
Lemma firstn_snoc {A} (l : list A) n d : n < length l -> firstn (S n) l = firstn n l ++ [nth n l d].
Proof. revert n. induction l as [|a l IH]; intros [|n] L; cbn in *; try lia; [reflexivity|]. f_equal. apply IH. lia. Qed.
Lemma sum_app l m : fold_right Qcplus 0%Qc (l ++ m) = (fold_right Qcplus 0 l + fold_right Qcplus 0 m)%Qc.
Proof. induction l as [|a l IH]; cbn; [ring|rewrite IH; ring]. Qed.
Lemma cumsum_nth l n : n < length l -> nth_error (cumsum l) n = Some (fold_right Qcplus 0%Qc (firstn (S n) l)).
Proof. intros L. unfold cumsum. rewrite nth_error_map. assert (nth_error (seq 0 (length l)) n = Some n) as -> by (rewrite (nth_error_nth' _ 0) by (rewrite seq_length; exact L); rewrite seq_nth by exact L; reflexivity). reflexivity. Qed.
Lemma products_nth flux dx n : length flux = length dx -> nth n (map (fun ab => fst ab * snd ab)%Qc (combine flux dx)) 0%Qc = (nth n flux 0 * nth n dx 0)%Qc.
Proof.
  revert dx n. induction flux as [|a f IH]; intros [|b dx] [|n] L; cbn in *; try discriminate; try ring. apply IH. lia.
Qed.
Lemma running_sum flux x : length flux = length x -> exists l, fluence flux x = Ok l /\ length l = length x /\ forall n, n < length x -> nth_error l n = Some (running (fun k => nth k flux 0%Qc) (fun k => nth k x 0%Qc) n).
Proof.
  intros L. unfold fluence. destruct (differences_ok x) as (dx & -> & Ld & Dn & D0). cbn [bind]. eexists. split; [reflexivity|].
  set (pr := map _ _). assert (Lp : length pr = length x) by (unfold pr; rewrite map_length, combine_length; lia). split; [unfold cumsum; rewrite map_length, seq_length; exact Lp|].
  assert (P : forall n, nth n pr 0%Qc = (nth n flux 0 * nth n dx 0)%Qc) by (intros n; apply products_nth; lia).
  intros n Hn. rewrite cumsum_nth by lia. f_equal. induction n as [|n IH].
  - rewrite (firstn_snoc pr 0 0%Qc) by lia. cbn [firstn app fold_right]. rewrite P, D0. cbn [running]. ring.
  - rewrite (firstn_snoc pr (S n) 0%Qc) by lia. rewrite sum_app, IH by lia. cbn [fold_right running]. rewrite P, Dn by lia. ring.
Qed.
