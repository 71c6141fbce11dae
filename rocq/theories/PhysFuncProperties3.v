(** * Property C67, continued: gradients; instances *)
From Verif Require Import PyBase PyLemmas ContainerModel ContainerSpec ContainerProofs ContainerProofs2 Nd IndexModel IndexSpec IndexProofs IndexProofs2 ArrayModel ArraySpec ArrayProofs ArrayProofs2 ArrayProofs3 ArrayProofs4 ArrayProperties AxesModel PhysicalModel PhysicalSpec PhysicalProofs PhysicalProofs2 PhysicalProofs3 PhysicalProofs4 PhysicalProofs5 PhysFuncModel PhysFuncSpec PhysFuncProofs PhysFuncProperties PhysFuncProperties2.
From Coq Require Import Permutation.

Definition spacing_place (sp : spacing) : nat -> Qc := place (match sp with Step h => inl h | Coords l => inr l end).
(** consecutive places differ, also at distance two *)
Definition apart (p : nat -> Qc) (n : nat) : Prop :=
  (forall i, S i < n -> p (S i) <> p i) /\ forall i, S (S i) < n -> p (S (S i)) <> p i.

Lemma minus_nonzero (a b : Qc) : a <> b -> (a - b)%Qc <> 0%Qc.
Proof. intros H E. apply H. rewrite <- (Qcplus_0_l b), <- E. ring. Qed.
Lemma line_difference p n f i : apart p n -> 1 < n -> i < n -> line_gradient p n f i = difference p n f i.
Proof.
  intros (A1 & A2) Hn Hi. unfold line_gradient, difference. destruct i as [|i]; [reflexivity|]. change (Nat.eqb (S i) 0) with false. cbv iota. replace (S i - 1) with i by lia.
  destruct (Nat.eqb_spec (S (S i)) n) as [Q|Q]; [reflexivity|].
  pose proof (minus_nonzero _ _ (A1 i ltac:(lia))) as N1. pose proof (minus_nonzero _ _ (A1 (S i) ltac:(lia))) as N2. pose proof (minus_nonzero _ _ (A2 i ltac:(lia))) as N3.
  unfold inner_slope, quotient. field. repeat split; try assumption.
Qed.
Lemma line_ext p q n f g i : (forall j, j < n -> p j = q j) -> (forall j, j < n -> f j = g j) -> 1 < n -> i < n -> line_gradient p n f i = line_gradient q n g i.
Proof.
  intros P F Hn Hi. unfold line_gradient. destruct (Nat.eqb_spec i 0) as [->|N0]; [rewrite !P, !F by lia; reflexivity|]. destruct (Nat.eqb_spec (S i) n); rewrite !P, !F by lia; reflexivity.
Qed.
Lemma qcinv_mult (a b : Qc) : (/ (a * b) = / a * / b)%Qc.
Proof.
  destruct (Qc_eq_dec a 0) as [->|Ha]; [rewrite Qcmult_0_l; apply Qc_is_canon; cbn; reflexivity || (transitivity 0%Qc; [reflexivity|]; ring)|].
  destruct (Qc_eq_dec b 0) as [->|Hb]; [rewrite Qcmult_0_r; change (/ 0)%Qc with 0%Qc; ring|]. field. auto.
Qed.
(** gradients of rescaled data at rescaled places *)
Lemma line_scaled (v w : Qc) p n f i : v <> 0%Qc -> line_gradient (fun j => v * p j)%Qc n (fun j => w * f j)%Qc i = (w / v * line_gradient p n f i)%Qc.
Proof.
  intros Hv. assert (S1 : forall a b c d, slope (v * a) (v * b) (w * c) (w * d) = (w / v * slope a b c d)%Qc).
  { intros a b c d. unfold slope. replace (v * b - v * a)%Qc with (v * (b - a))%Qc by ring. unfold Qcdiv. rewrite qcinv_mult. ring. }
  assert (S2 : forall a b c d e g, inner_slope (v * a) (v * b) (v * c) (w * d) (w * e) (w * g) = (w / v * inner_slope a b c d e g)%Qc).
  { intros a b c d e g. unfold inner_slope. replace (v * b - v * a)%Qc with (v * (b - a))%Qc by ring. replace (v * c - v * b)%Qc with (v * (c - b))%Qc by ring.
    replace (v * (b - a) + v * (c - b))%Qc with (v * (b - a + (c - b)))%Qc by ring. unfold Qcdiv. rewrite !qcinv_mult.
    generalize (/ (b - a))%Qc (/ (c - b))%Qc (/ (b - a + (c - b)))%Qc. intros i1 i2 i3. field. exact Hv. }
  unfold line_gradient. destruct (Nat.eqb i 0); [apply S1|]. destruct (Nat.eqb (S i) n); [apply S1|apply S2].
Qed.
(** exact for straight lines, and inside for parabolas *)
Theorem C67_gradient_line (p f : nat -> Qc) n i a b : apart p n -> 1 < n -> i < n -> (forall j, j < n -> f j = (a * p j + b)%Qc) -> difference p n f i = a.
Proof.
  intros (A1 & A2) Hn Hi F. unfold difference, quotient. destruct i as [|i].
  - rewrite !F by lia. pose proof (minus_nonzero _ _ (A1 0 ltac:(lia))). field. assumption.
  - pose proof (minus_nonzero _ _ (A1 i ltac:(lia))) as N1. destruct (Nat.eqb_spec (S (S i)) n) as [Q|Q].
    + rewrite !F by lia. field. exact N1.
    + pose proof (minus_nonzero _ _ (A1 (S i) ltac:(lia))) as N2. pose proof (minus_nonzero _ _ (A2 i ltac:(lia))) as N3. rewrite !F by lia. field. auto.
Qed.
Print Assumptions C67_gradient_line.
Theorem C67_gradient_parabola (p f : nat -> Qc) n i a b c : apart p n -> 0 < i -> S i < n -> (forall j, j < n -> f j = (a * (p j * p j) + b * p j + c)%Qc) -> difference p n f i = (zq 2 * a * p i + b)%Qc.
Proof.
  intros (A1 & A2) Hi Hn F. destruct i as [|i]; [lia|]. unfold difference, quotient. replace (Nat.eqb (S (S i)) n) with false by (symmetry; apply Nat.eqb_neq; lia).
  pose proof (minus_nonzero _ _ (A1 i ltac:(lia))) as N1. pose proof (minus_nonzero _ _ (A1 (S i) ltac:(lia))) as N2. pose proof (minus_nonzero _ _ (A2 i ltac:(lia))) as N3.
  rewrite !F by lia. replace (zq 2) with (1 + 1)%Qc by (apply Qc_is_canon; reflexivity). field. auto.
Qed.
Print Assumptions C67_gradient_parabola.

Section Gradient.
Set Default Proof Using "Type".
Context {U B : Type}.
Variables (ueq : U -> U -> bool) (udiv : U -> U -> result U) (uone : U) (blen : B -> nat).
Notation arr := (parr (U := U) (B := B)).
Notation obj := (pobj (U := U)).
(** how the arguments give one spacing for each axis *)
Inductive one_each (n : nat) : list (coordinate (U := U)) -> list spacing -> Prop :=
| no_args : one_each n [] (repeat (Step 1) n)
| one_step h v : one_each n [(Step h, v)] (repeat (Step h) n)
| each_axis args : length args = n -> 0 < n -> one_each n args (map fst args).
(** the unit of the gradient *)
Inductive gradient_unit (u : U) : list (coordinate (U := U)) -> U -> Prop :=
| unit_kept : gradient_unit u [] u
| unit_over c r w : Forall (fun c' => ueq (unit_or_one uone c') (unit_or_one uone c) = true) r -> udiv u (unit_or_one uone c) = Ok w -> gradient_unit u (c :: r) w.
Definition fits (sp : spacing) (n : nat) : Prop := match sp with Step _ => True | Coords l => length l = n end.

Lemma spacings_ok n args ss : one_each n args ss -> spacings n (map fst args) = Ok ss.
Proof.
  clear ueq udiv uone blen. intros [|h v|args' L P]; [reflexivity|reflexivity|]. unfold spacings. destruct args' as [|[[h|l] v] [|c r]]; cbn [map fst] in *; try (cbn in L; lia).
  - cbn in L. rewrite <- L. reflexivity.
  - rewrite <- L. cbn [length]. rewrite map_length, Nat.eqb_refl. reflexivity.
  - rewrite <- L. reflexivity.
  - rewrite <- L. cbn [length]. rewrite map_length, Nat.eqb_refl. reflexivity.
Qed.
Lemma one_each_length n args ss : one_each n args ss -> length ss = n.
Proof. intros [|h v|args' L P]; [apply repeat_length|apply repeat_length|rewrite map_length; exact L]. Qed.
Lemma numpy_gradient_ok (a : nd Qc) args ss : one_each (ndim a) args ss -> Forall2 fits ss (shape a) -> Forall (fun n => 1 < n) (shape a) ->
  exists xs, numpy_gradient a (map fst args) = Ok (map (fun k => nd_gradient (nth k xs (fun _ => 0%Qc)) k a) (seq 0 (ndim a))) /\
    forall k sp, nth_error ss k = Some sp -> forall i, nth k xs (fun _ => 0%Qc) i = spacing_place sp i.
Proof.
  clear ueq udiv uone blen. intros O F P. unfold numpy_gradient. rewrite (spacings_ok _ _ _ O). cbn [bind].
  rewrite (mapM_ok _ (fun k => spacing_place (nth k ss (Step 1)))).
  - cbn [bind]. exists (map (fun k => spacing_place (nth k ss (Step 1))) (seq 0 (ndim a))). split.
    + replace (existsb (fun n => Nat.ltb n 2) (shape a)) with false; [reflexivity|]. symmetry. clear - P. induction P as [|n l H P IH]; [reflexivity|]. cbn [existsb]. rewrite IH.
      destruct (Nat.ltb_spec n 2); [lia|reflexivity].
    + intros k sp E i. assert (K : k < ndim a) by (rewrite <- (one_each_length _ _ _ O); apply nth_error_Some; congruence).
      rewrite (nth_indep _ (fun _ => 0%Qc) (spacing_place (nth 0 ss (Step 1)))) by (rewrite map_length, seq_length; exact K).
      rewrite (map_nth (fun k => spacing_place (nth k ss (Step 1)))), seq_nth by exact K. cbn [Nat.add]. rewrite (nth_error_nth _ _ _ E). reflexivity.
  - intros k Hk. apply in_seq in Hk. destruct (nth_error ss k) as [sp|] eqn:E; [|apply nth_error_None in E; rewrite (one_each_length _ _ _ O) in E; lia].
    rewrite (nth_error_nth _ _ _ E). unfold spacing_at, spacing_place, place. destruct sp as [h|l]; [reflexivity|].
    assert (Q : fits (Coords l) (nth k (shape a) 0)).
    { clear - F E. revert k E. induction F as [|sp n ss sh H F IH]; intros [|k] E; try discriminate; [injection E as ->; exact H|apply IH, E]. }
    cbn [fits] in Q. rewrite Q, Nat.eqb_refl. reflexivity.
Qed.
Lemma along_index c d i l k : NoDup l -> nth_error l k = Some d -> firstn k (map c l) ++ i :: skipn (S k) (map c l) = map (along c d i) l.
Proof.
  clear ueq udiv uone blen. intros N E. rewrite (along_map c d i l k N E). rewrite map_app.
  assert (K : k < length l) by (apply nth_error_Some; congruence). assert (Lf : length (map c (firstn k l)) = k) by (rewrite map_length, firstn_length; lia).
  rewrite (firstn_app k), (skipn_app k), Lf, Nat.sub_diag, (firstn_all2 (map c (firstn k l))), (skipn_all2 (map c (firstn k l))) by lia.
  rewrite firstn_map, skipn_map. cbn [firstn app skipn]. rewrite app_nil_r. reflexivity.
Qed.
(** One array for each axis, with the axes of the argument: its numbers are the
    difference quotients along that axis, its unit the quotient of the units *)
Theorem C67_gradient (x : arr) args ss u : tidy x -> gradient_unit (aunit x) args u -> one_each (length (paxes x)) args ss -> Forall2 fits ss (shape (data (face x))) ->
  Forall (fun n => 1 < n) (shape (data (face x))) ->
  exists zs, pgradient ueq udiv uone (PArr x) args = Ok (map PArr zs) /\ length zs = length (paxes x) /\
    forall k z d sp n, nth_error zs k = Some z -> nth_error (map fst (paxes x)) k = Some d -> nth_error ss k = Some sp -> axis_len (face x) d n ->
      tidy z /\ aunit z = u /\ paxes z = paxes x /\ (forall e m, axis_len (face z) e m <-> axis_len (face x) e m) /\ (lengths_agree blen x -> lengths_agree blen z) /\
      (apart (spacing_place sp) n -> forall c, inside x c -> value_at z c = difference (spacing_place sp) n (fun j => value_at x (along c d j)) (c d)).
Proof.
  intros T Gu O F P. destruct (adata_ok x (proj1 T)) as (dx & E & N & Sh & W & L & V). pose proof (tidy_names x T) as Tn. pose proof (tidy_length x T) as Tl.
  assert (An : anames dx = anames (face x)) by (unfold anames; rewrite N; reflexivity).
  assert (Dn : ndim (data dx) = length (paxes x)) by (unfold ndim; rewrite Sh; exact Tl).
  rewrite <- Sh in F, P. rewrite <- Dn in O. destruct (numpy_gradient_ok (data dx) args ss O F P) as (xs & Ex & Hx).
  assert (Z : exists zs, mapM (fun d => result_arr d u (paxes x)) (map (fun k => nd_gradient (nth k xs (fun _ => 0%Qc)) k (data dx)) (seq 0 (ndim (data dx)))) = Ok (map PArr zs) /\
    Forall2 (fun d z => parray_factory d u (paxes x) = Ok z) (map (fun k => nd_gradient (nth k xs (fun _ => 0%Qc)) k (data dx)) (seq 0 (ndim (data dx)))) zs).
  { assert (G : forall ds, (forall d, In d ds -> shape d = shape (data dx)) -> exists zs, mapM (fun d => result_arr d u (paxes x)) ds = Ok (map PArr zs) /\ Forall2 (fun d z => parray_factory d u (paxes x) = Ok z) ds zs).
    { induction ds as [|d ds IH]; intros H; [exists []; split; [reflexivity|constructor]|]. destruct IH as (zs & Ez & Fz); [intros e He; apply H; right; exact He|].
      destruct (factory_tidy (U := U) d u (paxes x)) as (z & Hz & _); [apply tidy_nodup, T|apply T|rewrite (H d (or_introl eq_refl)), Sh; exact Tl|rewrite (H d (or_introl eq_refl)); apply W|].
      exists (z :: zs). cbn [mapM]. unfold result_arr at 1. rewrite Hz. cbn [bind]. rewrite Ez. split; [reflexivity|constructor; assumption]. }
    apply G. intros d Hd. apply in_map_iff in Hd as (k & <- & _). reflexivity. }
  destruct Z as (zs & Ez & Fz). exists zs.
  split.
  { cbn [pgradient]. destruct Gu as [|cc r w Fa Du].
    - cbn [bind]. rewrite E. cbn [bind]. rewrite Ex. cbn [bind]. exact Ez.
    - replace (forallb (fun c' => ueq (unit_or_one uone c') (unit_or_one uone cc)) r) with true.
      + rewrite Du. cbn [bind]. rewrite E. cbn [bind]. rewrite Ex. cbn [bind]. exact Ez.
      + symmetry. apply forallb_forall. intros y Hy. rewrite Forall_forall in Fa. apply Fa, Hy. }
  split; [rewrite <- (Forall2_len _ _ _ Fz), map_length, seq_length; exact Dn|].
  intros k z d sp n Hz Hd Hs Hn. assert (K : k < length (paxes x)) by (rewrite <- (map_length fst); apply nth_error_Some; congruence).
  assert (Hk : parray_factory (nd_gradient (nth k xs (fun _ => 0%Qc)) k (data dx)) u (paxes x) = Ok z).
  { assert (Q : nth_error (map (fun k => nd_gradient (nth k xs (fun _ => 0%Qc)) k (data dx)) (seq 0 (ndim (data dx)))) k = Some (nd_gradient (nth k xs (fun _ => 0%Qc)) k (data dx))).
    { apply (map_nth_error (fun k => nd_gradient (nth k xs (fun _ => 0%Qc)) k (data dx))). rewrite (nth_error_nth' _ 0) by (rewrite seq_length; lia). rewrite seq_nth by lia. reflexivity. }
    clear - Fz Hz Q. revert k Hz Q. generalize (map (fun k => nd_gradient (nth k xs (fun _ => 0%Qc)) k (data dx)) (seq 0 (ndim (data dx)))) as ds, zs as ys, Fz.
    intros ds ys Fy k. generalize (nd_gradient (nth k xs (fun _ => 0%Qc)) k (data dx)) as q. intros q. revert k. induction Fy as [|? ? ? ? H ? IH]; intros [|k] Hz Q; try discriminate; [injection Hz as <-; injection Q as <-; exact H|apply (IH k); assumption]. }
  destruct (factory_tidy (U := U) (nd_gradient (nth k xs (fun _ => 0%Qc)) k (data dx)) u (paxes x)) as (z' & Hz' & Tz & Dz & Sz & Uz & Az); [apply tidy_nodup, T|apply T|cbn [nd_gradient shape]; rewrite Sh; exact Tl|apply W|].
  rewrite Hk in Hz'. injection Hz' as <-. split; [exact Tz|]. split; [exact Uz|]. split; [exact Az|].
  assert (Nz : anames (face z) = anames (face x)) by (rewrite (tidy_names z Tz), Az; symmetry; exact Tn).
  assert (Lz : forall e m, axis_len (face z) e m <-> axis_len (face x) e m) by (intros e m; unfold axis_len; rewrite Nz, Dz; cbn [nd_gradient shape]; rewrite Sh; reflexivity).
  split; [exact Lz|]. split; [apply lengths_sub; [exact T|exact Tz|intros a b I; rewrite <- Az; exact I|intros e m _ A; apply Lz, A]|].
  intros Ap c Hc. rewrite (value_scaled z c Sz). unfold at_. rewrite Nz, Dz. cbn [nd_gradient elem].
  rewrite <- Tn in Hd. assert (Nk : nth k (shape (data dx)) 0 = n).
  { rewrite Sh. destruct (nth_error (shape (data (face x))) k) as [m|] eqn:Em; [|apply nth_error_None in Em; lia]. rewrite (nth_error_nth _ _ 0 Em).
    apply (axis_len_fun (face x) d m n (proj1 T)); [exists k; auto|exact Hn]. }
  rewrite Nk. rewrite (nth_error_nth _ _ 0 (map_nth_error c k _ Hd)).
  assert (N1 : 1 < n) by (rewrite Forall_forall in P; apply P; rewrite <- Nk; apply nth_In; rewrite Sh; lia).
  rewrite <- line_difference; [|exact Ap|exact N1|apply Hc, Hn]. apply line_ext; [| |exact N1|apply Hc, Hn].
  - intros j _. apply Hx, Hs.
  - intros j Hj. rewrite (along_index c d j _ k (proj1 (proj1 T)) Hd). rewrite <- An. fold (at_ dx (along c d j)). apply V. intros e m A. unfold along. destruct (str_eq_dec e d) as [->|]; [|apply Hc, A].
    rewrite (axis_len_fun (face x) d m n (proj1 T) A Hn). exact Hj.
Qed.
(** the amounts: difference quotients of the amounts over the amounts of the coordinates *)
Theorem C67_gradient_amounts (size : U -> Qc) (x z : arr) (u v : U) sp n d c : size v <> 0%Qc -> size u = (size (aunit x) / size v)%Qc -> aunit z = u -> apart (spacing_place sp) n -> 1 < n -> c d < n ->
  value_at z c = difference (spacing_place sp) n (fun j => value_at x (along c d j)) (c d) ->
  amount_at size z c = difference (fun i => size v * spacing_place sp i)%Qc n (fun j => amount_at size x (along c d j)) (c d).
Proof.
  intros Sv Su Uz Ap Hn Hc E. assert (Ap' : apart (fun i => size v * spacing_place sp i)%Qc n).
  { assert (I : forall a b, (size v * a = size v * b)%Qc -> a = b).
    { intros a b H. apply (f_equal (Qcmult (/ size v))) in H. rewrite !Qcmult_assoc, (Qcmult_comm (/ size v)), Qcmult_inv_r, !Qcmult_1_l in H by exact Sv. exact H. }
    destruct Ap as (A1 & A2). split; intros i Hi H; apply I in H; [exact (A1 i Hi H)|exact (A2 i Hi H)]. }
  rewrite <- line_difference by assumption. unfold amount_at at 2. rewrite (line_scaled (size v) (size (aunit x))) by exact Sv. rewrite line_difference by assumption. rewrite <- E.
  unfold amount_at. rewrite Uz, Su. reflexivity.
Qed.
(** coordinates in different units, even of the same dimension, are refused *)
Theorem C67_gradient_refused (x : arr) c r c' : In c' r -> ueq (unit_or_one uone c') (unit_or_one uone c) = false -> pgradient ueq udiv uone (PArr x) (c :: r) = Raise TypeError.
Proof.
  intros I E. cbn [pgradient]. replace (forallb (fun c' => ueq (unit_or_one uone c') (unit_or_one uone c)) r) with false; [reflexivity|]. symmetry.
  apply not_true_is_false. intros H. rewrite forallb_forall in H. rewrite (H _ I) in E. discriminate.
Qed.
End Gradient.
Print Assumptions C67_gradient.
Print Assumptions C67_gradient_amounts.
Print Assumptions C67_gradient_refused.
