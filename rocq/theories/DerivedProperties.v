(** * Properties of the derived observables: C45 *)
From Coq Require Import Reals Lra Psatz Sorted.
From Verif Require Import PyBase PyLemmas NumModel DerivedModel.
Local Open Scope R_scope.

Definition fvec (a b c : R) : vec := {| vr := Fin a; vtheta := Fin b; vphi := Fin c |}.
Lemma pow2 a : npow (Fin a) 2 = Fin (a * a). Proof. reflexivity. Qed.
Lemma nsqrt_ok x : 0 <= x -> nsqrt (Fin x) = Fin (sqrt x).
Proof. intros H. unfold nsqrt. destruct (Rlt_dec x 0); [lra|reflexivity]. Qed.
Lemma ndiv_ok x y : y <> 0 -> ndiv (Fin x) (Fin y) = Fin (x / y).
Proof. intros H. unfold ndiv. destruct (Req_EM_T y 0); [contradiction|reflexivity]. Qed.
Lemma npower_pos x y : 0 < x -> npower (Fin x) (Fin y) = Fin (Rpower x y).
Proof.
  intros H. unfold npower. destruct (Req_EM_T x 1) as [->|_]; [unfold Rpower; rewrite ln_1, Rmult_0_r, exp_0; reflexivity|]. destruct (Req_EM_T y 0) as [->|_]; [rewrite Rpower_O by exact H; reflexivity|].
  destruct (Rlt_dec x 0); [lra|]. destruct (Req_EM_T x 0); [lra|reflexivity].
Qed.

(** ** Coordinates *)
Theorem C45_cartesian r theta phi : exists x y z, obs_x (Fin r) (Fin theta) (Fin phi) = Fin x /\ obs_y (Fin r) (Fin theta) (Fin phi) = Fin y /\ obs_z (Fin r) (Fin theta) = Fin z /\
  x * x + y * y + z * z = r * r /\ z = r * cos theta /\ x = (r * sin theta) * cos phi /\ y = (r * sin theta) * sin phi.
Proof.
  do 3 eexists. split; [reflexivity|]. split; [reflexivity|]. split; [reflexivity|]. split; [|auto].
  pose proof (sin2_cos2 theta) as H1. pose proof (sin2_cos2 phi) as H2. unfold Rsqr in *.
  replace (r * sin theta * cos phi * (r * sin theta * cos phi) + r * sin theta * sin phi * (r * sin theta * sin phi) + r * cos theta * (r * cos theta))
    with (r * r * (sin theta * sin theta * (sin phi * sin phi + cos phi * cos phi) + cos theta * cos theta)) by ring. rewrite H2, Rmult_1_r, H1. ring.
Qed.
Print Assumptions C45_cartesian.
(** ** Vectors *)
Lemma magnitude_ok a b c : magnitude (fvec a b c) = Fin (sqrt (a * a + b * b + c * c)).
Proof. unfold magnitude. cbn [vr vtheta vphi fvec]. rewrite !pow2. cbn [nadd]. apply nsqrt_ok. nra. Qed.
Theorem C45_magnitude a b c : exists m, magnitude (fvec a b c) = Fin m /\ 0 <= m /\ m * m = a * a + b * b + c * c.
Proof. rewrite magnitude_ok. eexists. split; [reflexivity|]. split; [apply sqrt_pos|]. apply sqrt_sqrt. nra. Qed.
Print Assumptions C45_magnitude.
Lemma square_pos a b c : (a, b, c) <> (0, 0, 0) -> 0 < a * a + b * b + c * c.
Proof.
  intros N. destruct (Req_dec a 0) as [->|A]; [|pose proof (Rsqr_pos_lt a A); unfold Rsqr in *; nra]. destruct (Req_dec b 0) as [->|B]; [|pose proof (Rsqr_pos_lt b B); unfold Rsqr in *; nra].
  destruct (Req_dec c 0) as [->|C]; [congruence|pose proof (Rsqr_pos_lt c C); unfold Rsqr in *; nra].
Qed.
(** |U . B| <= |U| |B| *)
Lemma cauchy_schwarz a b c x y z : (a * x + b * y + c * z) * (a * x + b * y + c * z) <= (a * a + b * b + c * c) * (x * x + y * y + z * z).
Proof. pose proof (Rle_0_sqr (a * y - b * x)). pose proof (Rle_0_sqr (a * z - c * x)). pose proof (Rle_0_sqr (b * z - c * y)). unfold Rsqr in *. nra. Qed.
(** parallel and perpendicular parts: defined wherever there is a field, and
    together they make up the velocity *)
Theorem C45_parallel a b c x y z : (x, y, z) <> (0, 0, 0) ->
  exists para perp um bm, upara (fvec a b c) (fvec x y z) = Fin para /\ uperp (fvec a b c) (fvec x y z) = Fin perp /\ magnitude (fvec a b c) = Fin um /\ magnitude (fvec x y z) = Fin bm /\
    para * bm = a * x + b * y + c * z /\ 0 <= perp /\ para * para + perp * perp = um * um /\ Rabs para <= um.
Proof.
  intros N. pose proof (square_pos x y z N) as B. set (bb := x * x + y * y + z * z) in *. set (uu := a * a + b * b + c * c). assert (U : 0 <= uu) by (unfold uu; nra).
  pose proof (sqrt_lt_R0 bb B) as Bm. pose proof (sqrt_sqrt bb (Rlt_le _ _ B)) as B2. pose proof (sqrt_sqrt uu U) as U2. pose proof (sqrt_pos uu) as Um.
  set (dot := x * a + y * b + z * c). assert (E : upara (fvec a b c) (fvec x y z) = Fin (dot / sqrt bb)).
  { unfold upara, udotb. rewrite magnitude_ok. cbn [vr vtheta vphi fvec nmul nadd]. apply ndiv_ok. fold bb. lra. }
  set (para := dot / sqrt bb) in *. assert (Pb : para * sqrt bb = dot) by (unfold para; field; lra).
  assert (C : para * para <= uu). { pose proof (cauchy_schwarz a b c x y z) as CS. fold bb uu in CS. replace (a * x + b * y + c * z) with dot in CS by (unfold dot; ring). rewrite <- Pb in CS.
    replace (para * sqrt bb * (para * sqrt bb)) with (para * para * (sqrt bb * sqrt bb)) in CS by ring. rewrite B2 in CS. nra. }
  exists para, (sqrt (uu - para * para)), (sqrt uu), (sqrt bb). split; [exact E|]. split.
  - unfold uperp. rewrite E, magnitude_ok, !pow2. unfold nsub. cbn [nneg nadd]. fold uu. rewrite U2. apply nsqrt_ok. lra.
  - split; [rewrite magnitude_ok; reflexivity|]. split; [rewrite magnitude_ok; reflexivity|]. split; [rewrite Pb; unfold dot; ring|]. split; [apply sqrt_pos|]. split.
    + rewrite sqrt_sqrt by lra. rewrite U2. ring.
    + apply Rsqr_incr_0_var; [|exact Um]. rewrite <- Rsqr_abs. unfold Rsqr. rewrite U2. exact C.
Qed.
Print Assumptions C45_parallel.
(** where there is no magnetic field these are not numbers *)
Theorem C45_no_field_refuted a b c : upara (fvec a b c) (fvec 0 0 0) = NaN /\ uperp (fvec a b c) (fvec 0 0 0) = NaN /\ angle (fvec a b c) (fvec 0 0 0) = NaN.
Proof.
  assert (M : magnitude (fvec 0 0 0) = Fin 0) by (rewrite magnitude_ok; f_equal; replace (0 * 0 + 0 * 0 + 0 * 0) with 0 by ring; apply sqrt_0).
  assert (D : udotb (fvec a b c) (fvec 0 0 0) = Fin 0) by (unfold udotb; cbn [vr vtheta vphi fvec nmul nadd]; f_equal; ring).
  assert (Z : ndiv (Fin 0) (Fin 0) = NaN) by (unfold ndiv; destruct (Req_EM_T 0 0); [reflexivity|lra]).
  assert (P : upara (fvec a b c) (fvec 0 0 0) = NaN) by (unfold upara; rewrite M, D; exact Z). split; [exact P|]. split.
  - unfold uperp. rewrite P, magnitude_ok, pow2. reflexivity.
  - unfold angle, ubmag. rewrite M, D, magnitude_ok. cbn [nmul]. rewrite Rmult_0_l, Z. reflexivity.
Qed.
Print Assumptions C45_no_field_refuted.
(** ** Angle *)
(** whatever the ratio, rounded or not, the result is an angle between 0 and pi *)
Theorem C45_angle_clamped ratio : exists t, clamped_arccos (Fin ratio) = Fin t /\ 0 <= t <= PI.
Proof.
  unfold clamped_arccos, nlt. destruct (Rlt_dec ratio (-1)).
  - destruct (Rlt_dec 1 (-1)); [lra|]. unfold narccos. destruct (Rlt_dec (-1) (-1)); [lra|]. destruct (Rlt_dec 1 (-1)); [lra|]. eexists. split; [reflexivity|]. apply acos_bound.
  - destruct (Rlt_dec 1 ratio).
    + unfold narccos. destruct (Rlt_dec 1 (-1)); [lra|]. destruct (Rlt_dec 1 1); [lra|]. eexists. split; [reflexivity|]. apply acos_bound.
    + unfold narccos. destruct (Rlt_dec ratio (-1)); [lra|]. destruct (Rlt_dec 1 ratio); [lra|]. eexists. split; [reflexivity|]. apply acos_bound.
Qed.
Print Assumptions C45_angle_clamped.
Theorem C45_angle a b c x y z : (a, b, c) <> (0, 0, 0) -> (x, y, z) <> (0, 0, 0) ->
  exists t um bm para perp, angle (fvec a b c) (fvec x y z) = Fin t /\ magnitude (fvec a b c) = Fin um /\ magnitude (fvec x y z) = Fin bm /\ upara (fvec a b c) (fvec x y z) = Fin para /\ uperp (fvec a b c) (fvec x y z) = Fin perp /\
    0 <= t <= PI /\ um * bm * cos t = a * x + b * y + c * z /\ para = um * cos t /\ perp = um * sin t.
Proof.
  intros Nu Nb. destruct (C45_parallel a b c x y z Nb) as (para & perp & um & bm & E1 & E2 & E3 & E4 & H1 & H2 & H3 & H4).
  pose proof (square_pos a b c Nu) as U. pose proof (square_pos x y z Nb) as B. destruct (C45_magnitude a b c) as (um' & F1 & Um & U2). assert (um' = um) as -> by congruence. destruct (C45_magnitude x y z) as (bm' & F2 & Bm & B2). assert (bm' = bm) as -> by congruence.
  assert (Up : 0 < um) by nra. assert (Bp : 0 < bm) by nra. set (q := para / um). assert (Q : para = um * q) by (unfold q; field; lra).
  assert (Qb : -1 <= q <= 1). { assert (Rabs q <= 1). { unfold q. unfold Rdiv. rewrite Rabs_mult, (Rabs_pos_eq (/ um)) by (left; apply Rinv_0_lt_compat, Up). apply (Rmult_le_reg_r um _ _ Up). rewrite Rmult_assoc, Rinv_l by lra. lra. } revert H. clear. unfold Rabs. destruct (Rcase_abs q); lra. }
  assert (A : angle (fvec a b c) (fvec x y z) = Fin (acos q)).
  { unfold angle, ubmag. rewrite E3, E4. unfold udotb. cbn [vr vtheta vphi fvec nmul nadd]. rewrite ndiv_ok by nra.
    replace ((x * a + y * b + z * c) / (bm * um)) with q. 2: { replace (x * a + y * b + z * c) with (para * bm) by (rewrite H1; ring). unfold q. field. lra. }
    unfold clamped_arccos, nlt. destruct (Rlt_dec q (-1)); [lra|]. destruct (Rlt_dec 1 q); [lra|]. unfold narccos. destruct (Rlt_dec q (-1)); [lra|]. destruct (Rlt_dec 1 q); [lra|]. reflexivity. }
  exists (acos q), um, bm, para, perp. split; [exact A|]. repeat (split; [assumption|]). split; [apply acos_bound|]. rewrite cos_acos by exact Qb. split; [rewrite <- H1, Q; ring|]. split; [exact Q|].
  rewrite sin_acos by exact Qb. assert (S2 : sqrt (1 - q²) * sqrt (1 - q²) = 1 - q * q) by (rewrite sqrt_sqrt; unfold Rsqr; nra). pose proof (sqrt_pos (1 - q²)) as S0. set (w := sqrt (1 - q²)) in *.
  apply Rsqr_inj; [exact H2|apply Rmult_le_pos; [lra|exact S0]|]. unfold Rsqr. replace (um * w * (um * w)) with (um * um * (w * w)) by ring. rewrite S2. replace (perp * perp) with (um * um - para * para) by lra. rewrite Q. ring.
Qed.
Print Assumptions C45_angle.
(** ** Momentum and rigidity: (E + m c^2)^2 = p^2 c^2 + (m c^2)^2 with p = rigidity * charge *)
Lemma rigidity_ok c m q E : 0 < c -> 0 < m -> q <> 0 -> 0 <= E -> exists p, rigidity (Fin c) (Fin m) (Fin q) (Fin E) = Fin (p / q) /\ 0 <= p /\ (E + m * (c * c)) * (E + m * (c * c)) = p * c * (p * c) + m * (c * c) * (m * (c * c)) /\ (0 < E -> 0 < p).
Proof.
  intros C M Q HE. set (t := E / m + c * c). assert (T : c * c <= t) by (unfold t; pose proof (Rmult_le_pos E (/ m) HE (Rlt_le _ _ (Rinv_0_lt_compat m M))); unfold Rdiv; lra).
  assert (D : 0 <= t * t - c * (c * (c * c))) by nra. exists (sqrt (t * t - c * (c * (c * c))) * (m / c)). assert (MC : 0 < m / c) by (apply Rdiv_lt_0_compat; assumption). split.
  - unfold rigidity, momentum. cbn zeta. rewrite ndiv_ok by lra. cbn [npow nmul nadd]. fold t. unfold nsub. cbn [nneg nadd]. rewrite nsqrt_ok by (replace (t * t + - (c * (c * (c * c)))) with (t * t - c * (c * (c * c))) by ring; exact D).
    rewrite (ndiv_ok m c) by lra. cbn [nmul]. rewrite ndiv_ok by exact Q. reflexivity.
  - split; [apply Rmult_le_pos; [apply sqrt_pos|lra]|]. split.
    + set (s := sqrt (t * t - c * (c * (c * c)))). assert (S2 : s * s = t * t - c * (c * (c * c))) by (apply sqrt_sqrt, D). replace (s * (m / c) * c * (s * (m / c) * c)) with (s * s * (m * m)) by (field; lra). rewrite S2. unfold t. field. lra.
    + intros P. apply Rmult_lt_0_compat; [|exact MC]. apply sqrt_lt_R0. assert (c * c < t) by (unfold t; pose proof (Rdiv_lt_0_compat E m P M); lra). nra.
Qed.
Theorem C45_rigidity c m q E : 0 < c -> 0 < m -> q <> 0 -> 0 <= E -> exists R, rigidity (Fin c) (Fin m) (Fin q) (Fin E) = Fin R /\ 0 <= R * q /\
  (E + m * (c * c)) * (E + m * (c * c)) = (R * q * c) * (R * q * c) + (m * (c * c)) * (m * (c * c)).
Proof.
  intros C M Q HE. destruct (rigidity_ok c m q E C M Q HE) as (p & Hr & Hp & He & _). exists (p / q). split; [exact Hr|]. replace (p / q * q) with p by (field; exact Q). auto.
Qed.
Print Assumptions C45_rigidity.
(** ** Mean free path: lambda0 at the reference radius and one MeV, and a power law in
    radius and rigidity elsewhere *)
Theorem C45_mfp c m q E e0 r r0 l a b : 0 < c -> 0 < m -> q <> 0 -> 0 < E -> 0 < e0 -> 0 < r -> 0 < r0 ->
  exists R R0, rigidity (Fin c) (Fin m) (Fin q) (Fin E) = Fin R /\ rigidity (Fin c) (Fin m) (Fin q) (Fin e0) = Fin R0 /\ 0 < R / R0 /\
    mfp (Fin c) (Fin m) (Fin q) (Fin E) (Fin e0) (Fin r) (Fin r0) (Fin l) (Fin a) (Fin b) = Fin (l * Rpower (r / r0) a * Rpower (R / R0) b).
Proof.
  intros C M Q HE H0 Hr Hr0. destruct (rigidity_ok c m q E C M Q (Rlt_le _ _ HE)) as (p & E1 & _ & _ & P). destruct (rigidity_ok c m q e0 C M Q (Rlt_le _ _ H0)) as (p0 & E2 & _ & _ & P0). specialize (P HE). specialize (P0 H0).
  assert (Z : p0 / q <> 0) by (unfold Rdiv; apply Rmult_integral_contrapositive; split; [lra|apply Rinv_neq_0_compat, Q]). assert (D : p / q / (p0 / q) = p / p0) by (field; split; [lra|exact Q]).
  exists (p / q), (p0 / q). split; [exact E1|]. split; [exact E2|]. split; [rewrite D; apply Rdiv_lt_0_compat; assumption|].
  unfold mfp. cbn zeta. rewrite E1, E2. rewrite !ndiv_ok by (try exact Z; lra). rewrite !npower_pos by (try (rewrite D); apply Rdiv_lt_0_compat; assumption). reflexivity.
Qed.
Print Assumptions C45_mfp.
Theorem C45_mfp_reference c m q e0 r0 l a b : 0 < c -> 0 < m -> q <> 0 -> 0 < e0 -> 0 < r0 -> mfp (Fin c) (Fin m) (Fin q) (Fin e0) (Fin e0) (Fin r0) (Fin r0) (Fin l) (Fin a) (Fin b) = Fin l.
Proof.
  intros C M Q H0 Hr0. destruct (C45_mfp c m q e0 e0 r0 r0 l a b C M Q H0 H0 Hr0 Hr0) as (R & R0 & E1 & E2 & P & ->). assert (R0 = R) as -> by congruence.
  assert (R <> 0) by (intros ->; unfold Rdiv in P; rewrite Rmult_0_l in P; lra). f_equal. replace (r0 / r0) with 1 by (field; lra). replace (R / R) with 1 by (field; assumption). unfold Rpower. rewrite ln_1, !Rmult_0_r, exp_0. ring.
Qed.
Print Assumptions C45_mfp_reference.
(** ** Acceleration rate *)
Theorem C45_diffusion l t k v u : u <> 0 -> exists kx, kxx_ux (Fin l) (Fin t) (Fin k) (Fin v) (Fin u) = Fin kx /\ kx * u = l * v / 3 * (cos t * cos t + k * (sin t * sin t)) /\ (k = 1 -> kx * u = l * v / 3).
Proof.
  intros U. unfold kxx_ux. cbn zeta. cbn [ncos nsin npow nmul nadd]. rewrite (ndiv_ok _ 3) by lra. rewrite ndiv_ok by exact U. eexists. split; [reflexivity|].
  assert (E : forall w, w / 3 / u * u = w / 3) by (intros; field; exact U). rewrite E. split; [field|]. intros ->. pose proof (sin2_cos2 t) as H. unfold Rsqr in H.
  replace (cos t * cos t + 1 * (sin t * sin t)) with 1 by lra. field.
Qed.
Print Assumptions C45_diffusion.
Theorem C45_acceleration a b c x y z k1 k2 : (a, b, c) <> (0, 0, 0) -> 0 < k1 + k2 ->
  exists r um, accel (fvec a b c) (fvec x y z) (Fin k1) (Fin k2) = Fin r /\ magnitude (fvec a b c) = Fin um /\ 0 <= r /\ r * (k1 + k2) = um * Rabs (1 - (a * x + b * y + c * z) / (um * um)).
Proof.
  intros N K. pose proof (square_pos a b c N) as U. destruct (C45_magnitude a b c) as (um & F1 & Um & U2). assert (Up : 0 < um) by nra.
  unfold accel. cbn zeta. rewrite F1. cbn [vr vtheta vphi fvec nmul nadd]. rewrite (ndiv_ok _ (um * um)) by nra. unfold nsub. cbn [nneg nadd nabs nmul]. rewrite ndiv_ok by lra. eexists _, um. split; [reflexivity|]. split; [reflexivity|]. split.
  - apply Rmult_le_pos; [apply Rmult_le_pos; [lra|apply Rabs_pos]|left; apply Rinv_0_lt_compat, K].
  - field_simplify; [|lra]. replace (1 + - ((a * x + b * y + c * z) / (um * um))) with (1 - (a * x + b * y + c * z) / (um * um)) by ring. reflexivity.
Qed.
Print Assumptions C45_acceleration.
(** none in a uniform flow *)
Theorem C45_uniform_flow a b c k1 k2 : (a, b, c) <> (0, 0, 0) -> 0 < k1 + k2 -> accel (fvec a b c) (fvec a b c) (Fin k1) (Fin k2) = Fin 0.
Proof.
  intros N K. destruct (C45_acceleration a b c a b c k1 k2 N K) as (r & um & -> & F & R & E). destruct (C45_magnitude a b c) as (um' & F' & Um & U2). assert (um' = um) as -> by congruence. pose proof (square_pos a b c N).
  rewrite <- U2 in E. replace (um * um / (um * um)) with 1 in E by (field; nra). replace (1 - 1) with 0 in E by ring. rewrite Rabs_R0, Rmult_0_r in E. f_equal. apply (Rmult_eq_reg_r (k1 + k2)); lra.
Qed.
Print Assumptions C45_uniform_flow.
(** ** Flux and distribution *)
Theorem C45_flux f e m : m <> 0 -> e <> 0 -> exists j, flux_of (Fin f) (Fin e) (Fin m) = Fin j /\ j * (m * m) = 2 * f * e /\ fiso_of_flux (Fin j) (Fin e) (Fin m) = Fin f.
Proof.
  intros M E. unfold flux_of, fiso_of_flux. cbn [npow nmul]. assert (MM : 1 * (m * m) <> 0) by (rewrite Rmult_1_l; apply Rmult_integral_contrapositive; auto). rewrite ndiv_ok by exact MM. eexists. split; [reflexivity|].
  split; [field; auto|]. cbn [nmul]. rewrite ndiv_ok by exact E. f_equal. field. auto.
Qed.
Print Assumptions C45_flux.
Theorem C45_flux_back j e m : m <> 0 -> e <> 0 -> exists f, fiso_of_flux (Fin j) (Fin e) (Fin m) = Fin f /\ flux_of (Fin f) (Fin e) (Fin m) = Fin j.
Proof.
  intros M E. unfold fiso_of_flux, flux_of. cbn [npow nmul]. rewrite ndiv_ok by exact E. eexists. split; [reflexivity|]. cbn [nmul]. rewrite ndiv_ok by (rewrite Rmult_1_l; apply Rmult_integral_contrapositive; auto). f_equal. field. auto.
Qed.
Print Assumptions C45_flux_back.
Lemma nsum_fin l : nsum (map Fin l) = Fin (fold_right Rplus 0 l).
Proof. induction l as [|a l IH]; [reflexivity|]. unfold nsum in *. cbn [map fold_right]. rewrite IH. reflexivity. Qed.
Lemma sum_bounds lo hi l : Forall (fun x => lo <= x <= hi) l -> INR (length l) * lo <= fold_right Rplus 0 l <= INR (length l) * hi.
Proof. induction 1 as [|x l H F IH]; [cbn; lra|]. cbn [length fold_right]. rewrite S_INR. lra. Qed.
(** the pitch-angle average lies among the averaged values *)
Theorem C45_isotropic f lo hi : f <> [] -> Forall (fun x => lo <= x <= hi) f -> exists m, fiso_of_f (map Fin f) = Fin m /\ lo <= m <= hi.
Proof.
  intros NE F. unfold fiso_of_f, nmean. rewrite nsum_fin, map_length. assert (P : 0 < INR (length f)) by (apply lt_0_INR; destruct f; [congruence|cbn; lia]). rewrite ndiv_ok by lra. eexists. split; [reflexivity|].
  pose proof (sum_bounds lo hi f F) as (H1 & H2). split; apply (Rmult_le_reg_r (INR (length f)) _ _ P); unfold Rdiv; rewrite Rmult_assoc, Rinv_l by lra; lra.
Qed.
Print Assumptions C45_isotropic.
