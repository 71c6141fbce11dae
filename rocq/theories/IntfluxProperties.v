(** * Properties of the integral flux and of the fluence: C47, C45 *)
From Coq Require Import Reals Qreals Sorted Lra.
From Verif Require Import PyBase PyLemmas ContainerModel ContainerSpec ContainerProofs ContainerProofs2 ContainerProperties IndexModel AxisModel AxisProofs NumModel IntfluxModel IntfluxSpec IntfluxProofs.

Notation real q := (Q2R (this q)).
(** ** The nodes of the integral above p: p itself, with the flux of the power law
    through the two neighbours, and all stored energies above p with their fluxes *)
Theorem C47_nodes x y i p a b c d : increasing x -> length x = length y -> (0 < a)%Qc ->
  nth_error x i = Some a -> nth_error x (S i) = Some b -> nth_error y i = Some (Fin c) -> nth_error y (S i) = Some (Fin d) -> (0 < c)%R -> (0 < d)%R ->
  (a <= p)%Qc -> (p < b)%Qc ->
  exists v, check_interp y x p = Ok (Fin v :: skipn (S i) y, p :: skipn (S i) x) /\ power_law (real a) (real b) c d (real p) v.
Proof.
  intros Inc L A Xi Xj Yi Yj C D Le Lt. rewrite (check_interp_at x y i p a b _ _ Inc L Xi Xj Yi Yj Le Lt). assert (AB : (a < b)%Qc) by exact (Qcle_lt_trans _ _ _ Le Lt).
  rewrite end_value_positive by assumption. eexists. split; [reflexivity|]. pose proof (q2r_pos a A) as A'. pose proof (q2r_lt a b AB) as AB'. pose proof (q2r_le a p Le) as Ap.
  set (e := slope (real a) (real b) c d). exists (c / Rpower (real a) e)%R, e. assert (N : forall r, Rpower r e <> 0%R) by (intros r; unfold Rpower; pose proof (exp_pos (e * ln r)); lra). split; [|split].
  - field. apply N.
  - rewrite (slope_law (real a) (real b) c d A' AB' C D) at 1. fold e. rewrite Rpower_quot by lra. field. apply N.
  - rewrite Rpower_quot by lra. field. apply N.
Qed.
Print Assumptions C47_nodes.
(** the power law through two points is unique *)
Theorem C47_unique a b c d t v w : (0 < a -> a < b -> 0 < c -> 0 < t -> power_law a b c d t v -> power_law a b c d t w -> v = w)%R.
Proof.
  intros A AB C T (k & e & C1 & D1 & V) (k' & e' & C2 & D2 & W). assert (N : forall r z, (0 < Rpower r z)%R) by (intros; apply exp_pos).
  assert (K : (0 < k)%R). { destruct (Rle_lt_dec k 0) as [K|K]; [|exact K]. pose proof (N a e) as X. assert (k * Rpower a e <= 0)%R by nra. lra. }
  assert (K' : (0 < k')%R). { destruct (Rle_lt_dec k' 0) as [K'|K']; [|exact K']. pose proof (N a e') as X. assert (k' * Rpower a e' <= 0)%R by nra. lra. }
  assert (L : forall k z e, (0 < k -> ln (k * Rpower z e) = ln k + e * ln z)%R) by (intros q z u Hq; rewrite ln_mult by (try exact Hq; apply N); unfold Rpower; rewrite ln_exp; reflexivity).
  assert (E1 : (ln k + e * ln a = ln k' + e' * ln a)%R) by (rewrite <- !L by assumption; congruence).
  assert (E2 : (ln k + e * ln b = ln k' + e' * ln b)%R) by (rewrite <- !L by assumption; congruence).
  pose proof (ln_increasing a b A AB) as I. assert (e = e'). { assert (X : ((e - e') * (ln b - ln a) = 0)%R) by lra. apply Rmult_integral in X as [X|X]; lra. }
  subst e'. assert (ln k = ln k') by lra. assert (k = k') by (apply ln_inv; assumption). subst. reflexivity.
Qed.
Print Assumptions C47_unique.
(** at a stored energy nothing is interpolated *)
Theorem C47_stored x y i p b c d : increasing x -> length x = length y -> (0 < p)%Qc ->
  nth_error x i = Some p -> nth_error x (S i) = Some b -> nth_error y i = Some (Fin c) -> nth_error y (S i) = Some d ->
  check_interp y x p = Ok (skipn i y, skipn i x).
Proof.
  intros Inc L P Xi Xj Yi Yj. assert (Lt : (p < b)%Qc) by (apply (increasing_nth x Inc i (S i)); [assumption..|lia]).
  rewrite (check_interp_at x y i p p b _ _ Inc L Xi Xj Yi Yj (Qcle_refl _) Lt).
  assert (end_value p b p (Fin c) d = Fin c) as ->.
  { unfold end_value. rewrite (fin_div p p P). pose proof (q2r_pos p P). replace (real p / real p)%R with 1%R by (field; lra). set (e := ndiv (nlog (ndiv d (Fin c))) _). unfold npower. destruct (Req_EM_T 1 1); [|lra]. destruct e; cbn [nmul]; rewrite Rmult_1_r; reflexivity. }
  assert (Sk : forall (A : Type) (l : list A) j v, nth_error l j = Some v -> skipn j l = v :: skipn (S j) l) by (intros A l; induction l as [|u l IH]; intros [|j] v; cbn; try discriminate; [congruence|apply IH]).
  rewrite (Sk _ y i _ Yi), (Sk _ x i _ Xi). reflexivity.
Qed.
Print Assumptions C47_stored.
(** below the lowest energy: the whole spectrum *)
Theorem C47_below x y p : x <> [] -> (forall e, In e x -> (p < e)%Qc) -> check_interp y x p = Ok (y, x).
Proof.
  intros NE H. unfold check_interp. destruct x as [|d l]; [congruence|]. destruct (minq_spec l d) as (I & _). destruct (qc_ltb_spec p (minq l d)) as [_|X]; [reflexivity|]. exfalso. apply X, H, I.
Qed.
Print Assumptions C47_below.
(** at or above the highest energy: a ValueError.  At the highest energy the
    integral of the fluxes above it is an empty one, which the library refuses. *)
Theorem C47_beyond x y p : increasing x -> x <> [] -> (forall e, In e x -> (e <= p)%Qc) -> check_interp y x p = Raise ValueError.
Proof.
  intros Inc NE H. unfold check_interp. destruct x as [|d l] eqn:Ex; [congruence|]. rewrite <- Ex in *. rewrite (minq_below x d l p Ex) by (exists d; split; [rewrite Ex; left; reflexivity|apply H; rewrite Ex; left; reflexivity]).
  destruct (Nat.eqb_spec (length x) (length y)); [|reflexivity]. cbn [negb]. assert (Lx : 0 < length x) by (rewrite Ex; cbn; lia). destruct (nth_error x (length x - 1)) as [z|] eqn:Hz; [|apply nth_error_None in Hz; lia].
  rewrite (nearest_bracket x (length x - 1) p z Inc Hz); [|apply H; exact (nth_error_In _ _ Hz)|].
  - cbn [bind]. replace (Z.of_nat (length x - 1) + 1)%Z with (Z.of_nat (length x)) by lia. rewrite pyindex_nat. assert (nth_error x (length x) = None) as -> by (apply nth_error_None; lia). reflexivity.
  - intros b Hb. exfalso. assert (S (length x - 1) < length x) by (apply nth_error_Some; congruence). lia.
Qed.
Print Assumptions C47_beyond.
(** a spectrum that is a power law is continued exactly *)
Theorem C47_power_laws k e x i p a b : (0 < k)%R -> increasing x -> (0 < a)%Qc -> nth_error x i = Some a -> nth_error x (S i) = Some b -> (a <= p)%Qc -> (p < b)%Qc ->
  let spectrum := fun E => Fin (k * Rpower (real E) e) in
  check_interp (map spectrum x) x p = Ok (map spectrum (p :: skipn (S i) x), p :: skipn (S i) x).
Proof.
  intros K Inc A Xi Xj Le Lt spectrum. assert (N : forall r z, (0 < Rpower r z)%R) by (intros; apply exp_pos).
  destruct (C47_nodes x (map spectrum x) i p a b (k * Rpower (real a) e) (k * Rpower (real b) e) Inc) as (v & E & V); try assumption.
  - symmetry. apply map_length.
  - rewrite nth_error_map, Xi. reflexivity.
  - rewrite nth_error_map, Xj. reflexivity.
  - apply Rmult_lt_0_compat; [exact K|apply N].
  - apply Rmult_lt_0_compat; [exact K|apply N].
  - rewrite E. cbn [map]. assert (v = k * Rpower (real p) e)%R as ->.
    { apply (C47_unique (real a) (real b) (k * Rpower (real a) e) (k * Rpower (real b) e) (real p)); [apply q2r_pos, A|apply q2r_lt, (Qcle_lt_trans _ _ _ Le Lt)|apply Rmult_lt_0_compat; [exact K|apply N]| |exact V|exists k, e; auto].
      apply q2r_pos. exact (Qclt_le_trans _ _ _ A Le). }
    rewrite skipn_map. reflexivity.
Qed.
Print Assumptions C47_power_laws.
(** the interpolated flux lies between those of the neighbours *)
Theorem C47_between a b c d t v : (0 < a -> a <= t -> t <= b -> a < b -> 0 < c -> power_law a b c d t v -> (c <= v <= d) \/ (d <= v <= c))%R.
Proof.
  intros A At Tb AB C (k & e & Hc & Hd & Hv). assert (N : forall r z, (0 < Rpower r z)%R) by (intros; apply exp_pos).
  assert (K : (0 < k)%R). { destruct (Rle_lt_dec k 0) as [K|K]; [|exact K]. pose proof (N a e) as X. assert (k * Rpower a e <= 0)%R by nra. lra. }
  subst c d v. assert (M : forall y z, (0 < y -> y <= z -> ln y <= ln z)%R). { intros y z Y [Z| ->]; [|lra]. left. apply ln_increasing; assumption. }
  assert (E : forall y z, (y <= z -> exp y <= exp z)%R). { intros y z [Z| ->]; [|lra]. left. apply exp_increasing, Z. }
  pose proof (M a t A At). assert (T : (0 < t)%R) by lra. pose proof (M t b T Tb). unfold Rpower. destruct (Rle_lt_dec 0 e) as [S|S].
  - left. split; (apply Rmult_le_compat_l; [lra|]; apply E; nra).
  - right. split; (apply Rmult_le_compat_l; [lra|]; apply E; nra).
Qed.
Print Assumptions C47_between.
(** ** With a zero flux *)
(** both neighbours zero, as in an empty part of the spectrum: not a number *)
Theorem C47_zero_flux_refuted x y i p a b : increasing x -> length x = length y -> (0 < a)%Qc ->
  nth_error x i = Some a -> nth_error x (S i) = Some b -> nth_error y i = Some (Fin 0) -> nth_error y (S i) = Some (Fin 0) -> (a < p)%Qc -> (p < b)%Qc ->
  check_interp y x p = Ok (NaN :: skipn (S i) y, p :: skipn (S i) x).
Proof.
  intros Inc L A Xi Xj Yi Yj Lt0 Lt. rewrite (check_interp_at x y i p a b _ _ Inc L Xi Xj Yi Yj (Qclt_le_weak _ _ Lt0) Lt). do 3 f_equal. unfold end_value. rewrite !fin_div by assumption.
  assert (ndiv (Fin 0) (Fin 0) = NaN) as -> by (unfold ndiv; destruct (Req_EM_T 0 0); [reflexivity|lra]). cbn [nlog]. assert (forall z, ndiv NaN z = NaN) as -> by (intros []; reflexivity).
  unfold npower. destruct (Req_EM_T (real p / real a) 1) as [E|_]; [|reflexivity]. exfalso. pose proof (q2r_pos a A). pose proof (q2r_lt a p Lt0).
  assert (real p = real a)%R by (apply (Rmult_eq_reg_r (/ real a)); [unfold Rdiv in E; rewrite E, Rinv_r by lra; reflexivity|apply Rinv_neq_0_compat; lra]). lra.
Qed.
Print Assumptions C47_zero_flux_refuted.
(** lower neighbour zero: not a number; upper neighbour zero: zero *)
Theorem C47_one_zero_refuted x y i p a b c d : increasing x -> length x = length y -> (0 < a)%Qc ->
  nth_error x i = Some a -> nth_error x (S i) = Some b -> nth_error y i = Some (Fin c) -> nth_error y (S i) = Some (Fin d) -> (a < p)%Qc -> (p < b)%Qc ->
  (c = 0 -> 0 < d -> check_interp y x p = Ok (NaN :: skipn (S i) y, p :: skipn (S i) x))%R /\ (0 < c -> d = 0 -> check_interp y x p = Ok (Fin 0 :: skipn (S i) y, p :: skipn (S i) x))%R.
Proof.
  intros Inc L A Xi Xj Yi Yj Lt0 Lt. rewrite (check_interp_at x y i p a b _ _ Inc L Xi Xj Yi Yj (Qclt_le_weak _ _ Lt0) Lt).
  pose proof (q2r_pos a A) as A'. pose proof (q2r_lt a p Lt0) as P'. assert (AB : (real a < real b)%R) by (apply q2r_lt, (Qclt_trans _ _ _ Lt0 Lt)).
  assert (B1 : (1 < real p / real a)%R) by (apply (Rmult_lt_reg_r (real a)); [exact A'|]; unfold Rdiv; rewrite Rmult_assoc, Rinv_l by lra; lra).
  assert (LN : (0 < ln (real b / real a))%R) by (rewrite ln_quot by lra; pose proof (ln_increasing _ _ A' AB); lra).
  assert (NL : nlog (Fin (real b / real a)) = Fin (ln (real b / real a))) by (unfold nlog; assert (0 < real b / real a)%R by (apply Rdiv_lt_0_compat; lra); destruct (Rlt_dec (real b / real a) 0); [lra|]; destruct (Req_EM_T (real b / real a) 0); [lra|reflexivity]).
  split; intros Hc Hd; do 3 f_equal; unfold end_value; rewrite !fin_div by assumption; rewrite NL.
  - subst c. assert (ndiv (Fin d) (Fin 0) = PInf) as -> by (unfold ndiv; destruct (Req_EM_T 0 0); [|lra]; destruct (Req_EM_T d 0); [lra|]; destruct (Rlt_dec 0 d); [reflexivity|lra]). cbn [nlog].
    unfold ndiv. destruct (Rlt_dec (ln (real b / real a)) 0); [lra|]. unfold npower. destruct (Req_EM_T (real p / real a) 1); [lra|]. destruct (Rlt_dec 1 (real p / real a)); [|lra]. unfold nmul, inf_times. destruct (Req_EM_T 0 0); [reflexivity|lra].
  - subst d. assert (ndiv (Fin 0) (Fin c) = Fin 0) as -> by (unfold ndiv; destruct (Req_EM_T c 0); [lra|]; f_equal; field; lra).
    assert (nlog (Fin 0) = NInf) as -> by (unfold nlog; destruct (Rlt_dec 0 0); [lra|]; destruct (Req_EM_T 0 0); [reflexivity|lra]).
    unfold ndiv. destruct (Rlt_dec (ln (real b / real a)) 0); [lra|]. unfold npower. destruct (Req_EM_T (real p / real a) 1); [lra|]. destruct (Rlt_dec 1 (real p / real a)); [|lra]. cbn [nmul]. rewrite Rmult_0_r. reflexivity.
Qed.
Print Assumptions C47_one_zero_refuted.
(** ** The observed integral flux: one integral over these nodes for each spectrum
    and each minimum energy, whatever the rule of integration *)
Theorem C47_integral simpson flux energy bounds w : integrate_flux simpson flux energy bounds = Ok w ->
  length w = length flux /\ forall k y r, nth_error flux k = Some y -> nth_error w k = Some r ->
  length r = length bounds /\ forall m p, nth_error bounds m = Some p ->
  exists q ys xs, ((smallest_normal <= p)%Qc /\ q = p \/ (p < smallest_normal)%Qc /\ q = smallest_normal) /\ check_interp y energy q = Ok (ys, xs) /\ nth_error r m = Some (simpson ys xs).
Proof.
  intros E. unfold integrate_flux in E. apply mapM_Forall2 in E. split; [symmetry; clear - E; induction E; cbn; congruence|]. intros k y r Hk Hr.
  assert (M : mapM (fun bound => let m := if qc_ltb bound float_min then float_min else bound in r <- check_interp y energy m ;; Ok (simpson (fst r) (snd r))) bounds = Ok r).
  { clear - E Hk Hr. revert k Hk Hr. induction E as [|y' r' ys rs H F IH]; intros [|k] Hk Hr; try discriminate; cbn [nth_error] in *; [injection Hk as ->; injection Hr as ->; exact H|]. exact (IH k Hk Hr). }
  apply mapM_Forall2 in M. split; [symmetry; clear - M; induction M; cbn; congruence|]. intros m p Hm. clear - M Hm. revert m Hm. induction M as [|b v bs vs H F IH]; intros [|m] Hm; try discriminate; cbn [nth_error] in *.
  - injection Hm as ->. change smallest_normal with float_min. destruct (qc_ltb_spec p float_min) as [X|X].
    + destruct (check_interp y energy float_min) as [(ys, xs)|e] eqn:C; [|discriminate]. cbn [bind fst snd] in H. injection H as <-. exists float_min, ys, xs. tauto.
    + destruct (check_interp y energy p) as [(ys, xs)|e] eqn:C; [|discriminate]. cbn [bind fst snd] in H. injection H as <-. exists p, ys, xs. apply Qcnot_lt_le in X. tauto.
  - exact (IH m Hm).
Qed.
Print Assumptions C47_integral.
(** Without a minimum energy the result is the flux below each energy, counted from
    the lowest one, not the flux above a minimum: it starts at zero and its last
    value is the total *)
Theorem C47_no_minimum_refuted flux energy : length flux = length energy ->
  exists l, integrate_flux_slice flux energy = Ok l /\ length l = length energy /\ forall n, n < length energy -> nth_error l n = Some (running (fun k => nth k flux 0%Qc) (fun k => nth k energy 0%Qc) n).
Proof. exact (running_sum flux energy). Qed.
Print Assumptions C47_no_minimum_refuted.
Lemma increasing3 : increasing [zq 1; zq 2; zq 4].
Proof. repeat constructor. Qed.
Example C47_case : check_interp [Fin 8; Fin 2; Fin (1/2)] [zq 1; zq 2; zq 4] (zq 2) = Ok ([Fin 2; Fin (1/2)], [zq 2; zq 4]) /\
  (exists v, check_interp [Fin 8; Fin 2; Fin (1/2)] [zq 1; zq 2; zq 4] (zq 3) = Ok ([Fin v; Fin (1/2)], [zq 3; zq 4]) /\ power_law (real (zq 2)) (real (zq 4)) 2 (1/2) (real (zq 3)) v) /\
  check_interp [Fin 8; Fin 2; Fin (1/2)] [zq 1; zq 2; zq 4] (zq 4) = Raise ValueError /\
  check_interp [Fin 8; Fin 0; Fin 0] [zq 1; zq 2; zq 4] (zq 3) = Ok ([NaN; Fin 0], [zq 3; zq 4]).
Proof.
  split; [apply (C47_stored [zq 1; zq 2; zq 4] [Fin 8; Fin 2; Fin (1/2)] 1 (zq 2) (zq 4) 2 (Fin (1/2)) increasing3); reflexivity|].
  split; [apply (C47_nodes [zq 1; zq 2; zq 4] [Fin 8; Fin 2; Fin (1/2)] 1 (zq 3) (zq 2) (zq 4) 2 (1/2) increasing3); try reflexivity; try lra; unfold Qcle; cbn; discriminate|].
  split; [apply C47_beyond; [exact increasing3|discriminate|]; intros e He; repeat destruct He as [<-|He]; try destruct He; unfold Qcle; cbn; discriminate|].
  apply (C47_zero_flux_refuted [zq 1; zq 2; zq 4] [Fin 8; Fin 0; Fin 0] 1 (zq 3) (zq 2) (zq 4) increasing3); reflexivity.
Qed.

(** ** Fluence: the running integral of the flux over time *)
Theorem C45_fluence flux times : length flux = length times ->
  exists l, fluence flux times = Ok l /\ length l = length times /\ forall n, n < length times -> nth_error l n = Some (running (fun k => nth k flux 0%Qc) (fun k => nth k times 0%Qc) n).
Proof. exact (running_sum flux times). Qed.
Print Assumptions C45_fluence.
(** starts at zero; grows by flux times the time step; for a constant flux it is
    the flux times the time elapsed *)
Theorem C45_fluence_steps flux times l : length flux = length times -> fluence flux times = Ok l ->
  (forall a, nth_error l 0 = Some a -> a = 0%Qc) /\
  (forall n a b f t t', nth_error l n = Some a -> nth_error l (S n) = Some b -> nth_error flux (S n) = Some f -> nth_error times n = Some t -> nth_error times (S n) = Some t' -> (b = a + f * (t' - t))%Qc).
Proof.
  intros L E. destruct (running_sum flux times L) as (l' & E' & Ll & H). assert (l' = l) as -> by congruence. split.
  - intros a Ha. assert (0 < length l) by (apply nth_error_Some; congruence). rewrite H in Ha by lia. cbn in Ha. congruence.
  - intros n a b f t t' Ha Hb Hf Ht Ht'. assert (S n < length l) by (apply nth_error_Some; congruence). rewrite H in Ha by lia. rewrite H in Hb by lia. cbn [running] in Hb.
    apply (nth_error_nth _ _ 0%Qc) in Hf. apply (nth_error_nth _ _ 0%Qc) in Ht. apply (nth_error_nth _ _ 0%Qc) in Ht'. rewrite Hf, Ht, Ht' in Hb. congruence.
Qed.
Print Assumptions C45_fluence_steps.
Theorem C45_fluence_constant f times l n a t t0 : fluence (repeat f (length times)) times = Ok l -> nth_error l n = Some a -> nth_error times n = Some t -> nth_error times 0 = Some t0 -> (a = f * (t - t0))%Qc.
Proof.
  intros E Ha Ht H0. destruct (running_sum (repeat f (length times)) times (repeat_length _ _)) as (l' & E' & Ll & H). assert (l' = l) as -> by congruence. assert (Ln : n < length times) by (apply nth_error_Some; congruence). rewrite H in Ha by exact Ln.
  assert (R : forall n, n < length times -> running (fun k => nth k (repeat f (length times)) 0%Qc) (fun k => nth k times 0%Qc) n = (f * (nth n times 0 - nth 0 times 0))%Qc).
  { clear - Ll. induction n as [|n IH]; intros L; cbn [running]; [ring|]. rewrite IH by lia. assert (N : forall m k, k < m -> nth k (repeat f m) 0%Qc = f) by (induction m as [|m IHm]; intros [|k] K; cbn; try lia; [reflexivity|apply IHm; lia]). rewrite N by exact L. ring. }
  rewrite R in Ha by exact Ln. apply (nth_error_nth _ _ 0%Qc) in Ht. apply (nth_error_nth _ _ 0%Qc) in H0. rewrite Ht, H0 in Ha. congruence.
Qed.
Print Assumptions C45_fluence_constant.
(** never decreases if the flux is not negative *)
Theorem C45_fluence_grows flux times l n a b : length flux = length times -> fluence flux times = Ok l -> Forall (fun f => 0 <= f)%Qc flux -> increasing times ->
  nth_error l n = Some a -> nth_error l (S n) = Some b -> (a <= b)%Qc.
Proof.
  intros L E F Inc Ha Hb. assert (Lt : S n < length l) by (apply nth_error_Some; congruence). destruct (running_sum flux times L) as (l' & E' & Ll & _). assert (l' = l) as -> by congruence.
  destruct (nth_error flux (S n)) as [f|] eqn:Hf; [|apply nth_error_None in Hf; lia]. destruct (nth_error times n) as [t|] eqn:Ht; [|apply nth_error_None in Ht; lia]. destruct (nth_error times (S n)) as [t'|] eqn:Ht'; [|apply nth_error_None in Ht'; lia].
  rewrite (proj2 (C45_fluence_steps flux times l L E) n a b f t t' Ha Hb Hf Ht Ht'). rewrite Forall_forall in F. pose proof (F f (nth_error_In _ _ Hf)) as F0. pose proof (increasing_nth times Inc n (S n) t t' Ht Ht' (Nat.lt_succ_diag_r n)) as T.
  assert (D : (0 <= t' - t)%Qc). { apply Qclt_le_weak in T. apply (Qcplus_le_compat _ _ (- t) (- t)) in T; [|apply Qcle_refl]. replace (t + - t)%Qc with 0%Qc in T by ring. exact T. }
  replace a with (a + 0)%Qc at 1 by ring. apply Qcplus_le_compat; [apply Qcle_refl|]. replace 0%Qc with (0 * (t' - t))%Qc by ring. apply Qcmult_le_compat_r; assumption.
Qed.
Print Assumptions C45_fluence_grows.
Example C45_fluence_case : exists a b, fluence [zq 5; zq 3; zq 2] [zq 1; zq 2; zq 4] = Ok [zq 0; a; b] /\ a = zq 3 /\ b = zq 7.
Proof. do 2 eexists. split; [vm_compute; reflexivity|]. split; apply Qc_is_canon; reflexivity. Qed.
