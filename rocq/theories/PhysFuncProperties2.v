(** * Property C67, continued: squeezing, running sums, transposition, integrals, gradients *)
From Verif Require Import PyBase PyLemmas ContainerModel ContainerSpec ContainerProofs ContainerProofs2 Nd IndexModel IndexSpec IndexProofs IndexProofs2 ArrayModel ArraySpec ArrayProofs ArrayProofs2 ArrayProofs3 ArrayProofs4 ArrayProperties AxesModel PhysicalModel PhysicalSpec PhysicalProofs PhysicalProofs2 PhysicalProofs3 PhysicalProofs4 PhysicalProofs5 PhysFuncModel PhysFuncSpec PhysFuncProofs PhysFuncProperties.

Lemma assoc_equal {K V} (l m : list (K * V)) : NoDup (map fst m) -> map fst l = map fst m -> (forall p, In p l -> In p m) -> l = m.
Proof.
  revert m. induction l as [|[k v] l IH]; intros [|[k' v'] m] N E H; try discriminate; [reflexivity|]. cbn [map fst] in *. injection E as -> E. inversion N as [|? ? Nk N']; subst.
  destruct (H (k', v) (or_introl eq_refl)) as [Q|Q].
  - injection Q as ->. f_equal. apply IH; [exact N'|exact E|]. intros p Hp. destruct (H p (or_intror Hp)) as [<-|J]; [|exact J]. exfalso. apply Nk. rewrite <- E. apply (in_map fst) in Hp. exact Hp.
  - exfalso. apply Nk. apply (in_map fst) in Q. exact Q.
Qed.

Section Properties.
Set Default Proof Using "Type".
Context {U B : Type}.
Variable blen : B -> nat.
Notation arr := (parr (U := U) (B := B)).
Notation obj := (pobj (U := U)).
Notation val := (pval (U := U) (B := B)).
Ltac datum x T := let d := fresh "dx" in let E := fresh "E" in let N := fresh "N" in let Sh := fresh "Sh" in let W := fresh "W" in let L := fresh "L" in let V := fresh "V" in
  destruct (adata_ok x (proj1 T)) as (d & E & N & Sh & W & L & V); try rewrite E; cbn [bind].
Lemma lengths_sub (x z : arr) : tidy x -> tidy z -> axes_from x z -> (forall e n, In e (map fst (paxes z)) -> axis_len (face x) e n -> axis_len (face z) e n) -> lengths_agree blen x -> lengths_agree blen z.
Proof.
  intros T Tz A L. rewrite (lengths_axis blen x T), (lengths_axis blen z Tz). intros H k v I. apply L; [apply (in_map fst) in I; exact I|]. apply H, A, I.
Qed.
Lemma names_lengths (y : array Qc) a : well_named y -> (In a (anames y) <-> exists n, axis_len y a n).
Proof.
  intros (_ & Ly & _). split.
  - intros I. apply In_nth_error in I as (j & Ej). destruct (nth_error (shape (data y)) j) as [n|] eqn:En; [exists n, j; auto|].
    apply nth_error_None in En. assert (j < length (anames y)) by (apply nth_error_Some; congruence). lia.
  - intros (n & j & Ej & _). apply nth_error_In with j. exact Ej.
Qed.

(** ** Squeezing *)
Theorem C67_squeeze (x : arr) : tidy x ->
  (singleton (face x) -> exists o, psqueeze (PArr x) = Ok (PObj o) /\ is_scalar o (aunit x) (value_at x (fun _ => 0))) /\
  (~ singleton (face x) -> exists z, psqueeze (PArr x) = Ok (PArr z) /\ tidy z /\ aunit z = aunit x /\ axes_from x z /\ subseq (map fst (paxes z)) (map fst (paxes x)) /\
     (forall d n, axis_len (face z) d n <-> axis_len (face x) d n /\ n <> 1) /\ (lengths_agree blen x -> lengths_agree blen z) /\
     forall c, inside x c -> value_at z c = value_at x c).
Proof.
  intros T. datum x T. cbn [psqueeze]. rewrite E. cbn [bind]. assert (An : anames dx = anames (face x)) by (unfold anames; rewrite N; reflexivity).
  destruct (C55_squeeze Qc dx W) as (S1 & S2). split.
  - intros Sg. destruct S1 as (v & -> & ->); [unfold singleton in *; rewrite Sh; exact Sg|]. cbn [bind]. eexists. split; [reflexivity|]. repeat split. cbn. rewrite V; [reflexivity|].
    intros d n (k & E1 & E2). apply nth_error_In in E2. unfold singleton in Sg. rewrite Forall_forall in Sg. rewrite (Sg n E2). lia.
  - intros Sg. destruct S2 as (r & -> & Wr & Sr & Lr & Vr); [unfold singleton in *; rewrite Sh; exact Sg|]. cbn [bind]. rewrite An in Sr.
    destruct (with_axes_ok x r T Wr) as (z & Ez & Tz & Sz & Uz & Az & Mz & Shz & Lz & Vz).
    + intros k Hk. apply (subseq_in _ _ _ Sr), Hk.
    + intros Q. apply Sg. apply Forall_forall. intros n Hn. destruct (Nat.eq_dec n 1) as [|Ne]; [assumption|]. exfalso.
      apply In_nth_error in Hn as (k & Ek). destruct (nth_error (anames (face x)) k) as [d|] eqn:Ed.
      * assert (A : axis_len r d n) by (apply Lr; split; [apply L; exists k; auto|exact Ne]). assert (I : In d (anames r)) by (apply (names_lengths r d Wr); exists n; exact A). rewrite Q in I. destruct I.
      * apply nth_error_None in Ed. destruct (proj1 T) as (_ & Ll & _). assert (k < length (shape (data (face x)))) by (apply nth_error_Some; congruence). lia.
    + exists z. split; [exact Ez|]. split; [exact Tz|]. split; [exact Uz|]. split; [exact Az|]. split; [rewrite Mz, <- (tidy_names x T); exact Sr|].
      assert (Lzx : forall d n, axis_len (face z) d n <-> axis_len (face x) d n /\ n <> 1) by (intros d n; rewrite Lz, Lr, L; reflexivity).
      split; [exact Lzx|]. split.
      * apply lengths_sub; [exact T|exact Tz|exact Az|]. intros e n I A. rewrite Mz in I. apply (names_lengths r e Wr) in I as (m & Hm). apply Lz. pose proof Hm as Hm'.
        apply Lr in Hm as (Hm & Ne). apply L in Hm. rewrite (axis_len_fun (face x) e n m (proj1 T) A Hm). exact Hm'.
      * intros c Hc. rewrite (value_scaled z c Sz), Vz, (Vr c c); [apply V, Hc|]. intros d n A. split; [|reflexivity]. intros ->. apply L in A. specialize (Hc d 1 A). lia.
Qed.

(** ** Running sums *)
Theorem C67_cumsum (x : arr) axis k (size : U -> Qc) : tidy x -> selects_axis (SInt axis) (length (paxes x)) [k] ->
  exists z d, pcumsum total (PArr x) (Axis axis None) = Ok (PArr z) /\ nth_error (map fst (paxes x)) k = Some d /\ tidy z /\ aunit z = aunit x /\ paxes z = paxes x /\
    (forall e n, axis_len (face z) e n <-> axis_len (face x) e n) /\ (lengths_agree blen x -> lengths_agree blen z) /\
    forall c, inside x c -> exists v, length v = S (c d) /\ amounts_along size x d c v /\ amount_at size z c = total v.
Proof.
  intros T Sel. datum x T. assert (Dn : ndim (data dx) = length (paxes x)) by (unfold ndim; rewrite Sh; apply tidy_length, T). rewrite <- Dn in Sel.
  cbn [pcumsum]. rewrite E. cbn [bind]. apply norm_index_iff in Sel as (k' & [= <-] & K & Kl). destruct (cumsum_ok total dx axis k W K) as (r & d & -> & Ed & Wr & Nr & Lr & Vr). cbn [bind].
  assert (An : anames dx = anames (face x)) by (unfold anames; rewrite N; reflexivity). rewrite An in Ed, Nr.
  destruct (with_axes_ok x r T Wr) as (z & Ez & Tz & Sz & Uz & Az & Mz & Shz & Lz & Vz); [rewrite Nr; auto|rewrite Nr, (tidy_names x T); destruct T as (_ & _ & Ne); destruct (paxes x); [contradiction|discriminate]|].
  assert (Lzx : forall e n, axis_len (face z) e n <-> axis_len (face x) e n) by (intros e n; rewrite Lz, Lr, L; reflexivity).
  exists z, d. split; [exact Ez|]. split; [rewrite <- (tidy_names x T); exact Ed|]. split; [exact Tz|]. split; [exact Uz|].
  split; [apply assoc_equal; [apply tidy_nodup, T|rewrite Mz, Nr; apply tidy_names, T|intros [a b] I; apply Az, I]|]. split; [exact Lzx|].
  split; [apply lengths_sub; [exact T|exact Tz|exact Az|intros e n _ A; apply Lzx, A]|].
  intros c Hc. destruct (Vr c) as (v & Ev & Lv & Hv). exists (map (Qcmult (size (aunit x))) v). rewrite map_length. split; [exact Lv|]. split.
  - intros i y Ey. rewrite nth_error_map in Ey. destruct (nth_error v i) as [w|] eqn:Ew; [|discriminate]. injection Ey as <-. unfold amount_at. f_equal. rewrite (Hv i w Ew). apply V.
    assert (Iv : i < length v) by (apply nth_error_Some; congruence). intros e m A. unfold along. destruct (str_eq_dec e d) as [->|]; [|apply Hc, A]. pose proof (Hc d m A). lia.
  - rewrite total_linear. unfold amount_at. rewrite Uz, (value_scaled z c Sz), Vz, Ev. reflexivity.
Qed.
(** without an axis, a vector of the running sums of all numbers *)
Theorem C67_cumsum_all (x : arr) : tidy x -> exists o, pcumsum total (PArr x) NoAxis = Ok (PObj o) /\ okind o = KVector /\ ounit o = aunit x /\ shape (odata o) = [length (all_values x)] /\
  forall i, i < length (all_values x) -> elem (odata o) [i] = total (firstn (S i) (all_values x)).
Proof.
  intros T. datum x T. cbn [pcumsum]. rewrite E. cbn [bind]. rewrite (flat_values x dx T N Sh V). eexists. split; [reflexivity|]. split; [reflexivity|]. split; [reflexivity|].
  unfold prefix_sums, nd_list. cbn [odata shape elem]. split; [rewrite map_length, seq_length; reflexivity|]. intros i Hi. cbn [nth].
  rewrite (nth_indep _ 0%Qc (total (firstn 1 (all_values x)))) by (rewrite map_length, seq_length; exact Hi).
  rewrite (map_nth (fun i => total (firstn (S i) (all_values x))) (seq 0 (length (all_values x))) 0 i), seq_nth by exact Hi. reflexivity.
Qed.

(** ** Transposition *)
Theorem C67_transpose (x : arr) : tidy x -> exists z, pnumpy_transpose (PArr x) None = Ok (PArr z) /\ tidy z /\ aunit z = aunit x /\ paxes z = rev (paxes x) /\
  (forall e n, axis_len (face z) e n <-> axis_len (face x) e n) /\ (lengths_agree blen x -> lengths_agree blen z) /\ forall c, inside x c -> value_at z c = value_at x c.
Proof.
  intros T. datum x T. cbn [pnumpy_transpose]. rewrite E. cbn [bind]. destruct (C49_numpy_reversal Qc dx W) as (r & -> & Nr & (Lr & Vr) & Wr). cbn [bind].
  assert (An : anames dx = anames (face x)) by (unfold anames; rewrite N; reflexivity). rewrite An in Nr.
  destruct (with_axes_ok x r T Wr) as (z & Ez & Tz & Sz & Uz & Az & Mz & Shz & Lz & Vz); [rewrite Nr; intros k Hk; apply in_rev; exact Hk| |].
  { rewrite Nr, (tidy_names x T). intros Q. apply (f_equal (@length str)) in Q. rewrite rev_length, map_length in Q. destruct T as (_ & _ & Ne). destruct (paxes x); [contradiction|discriminate]. }
  assert (Lzx : forall e n, axis_len (face z) e n <-> axis_len (face x) e n) by (intros e n; rewrite Lz, <- Lr, L; reflexivity).
  exists z. split; [exact Ez|]. split; [exact Tz|]. split; [exact Uz|]. split.
  { apply assoc_equal; [rewrite map_rev; apply NoDup_rev, tidy_nodup, T|rewrite Mz, Nr, map_rev, (tidy_names x T); reflexivity|intros [a b] I; rewrite <- in_rev; apply Az, I]. }
  split; [exact Lzx|]. split; [apply lengths_sub; [exact T|exact Tz|exact Az|intros e n _ A; apply Lzx, A]|].
  intros c Hc. rewrite (value_scaled z c Sz), Vz. rewrite <- Vr; [apply V, Hc|]. intros d n A. apply Hc, L, A.
Qed.

(** ** Integrals *)
(** the numbers are integrated along the axis; the unit is that of the integrand *)
Theorem C67_trapz_partial (xs : list Qc) (x : arr) axis k : tidy x -> 1 < length (paxes x) -> selects_axis (SInt axis) (length (paxes x)) [k] ->
  exists z d, ptrapz (trapezoid xs) (PArr x) (Some axis) = Ok (PArr z) /\ nth_error (map fst (paxes x)) k = Some d /\ reduction (trapezoid xs) x d z /\ (lengths_agree blen x -> lengths_agree blen z).
Proof.
  intros T L2 Sel. datum x T. assert (Dn : ndim (data dx) = length (paxes x)) by (unfold ndim; rewrite Sh; apply tidy_length, T). rewrite <- Dn in Sel.
  destruct (C55_sum_mean Qc (trapezoid xs) dx axis k W Sel) as (_ & _ & (r & Er & Rr) & _). apply norm_index_iff in Sel as (k' & [= <-] & _ & Kl). rewrite Dn in Kl.
  destruct (reduce_arr (trapezoid xs) x dx r k T L2 E N W L V Kl Rr) as (z & d & F & Ed & H). exists z, d. cbn [ptrapz]. rewrite E. cbn [bind]. rewrite Er. cbn [bind].
  split; [exact F|]. split; [exact Ed|]. split; [exact H|]. apply (reduction_lengths blen _ x z d T H).
Qed.
Lemma trapezoid_scaled q xs l : trapezoid (map (Qcmult q) xs) l = (q * trapezoid xs l)%Qc.
Proof.
  revert l. induction xs as [|a xs IH]; intros l; [cbn; ring|]. destruct xs as [|a' xs]; [cbn; ring|]. destruct l as [|f l]; [cbn; ring|]. destruct l as [|f' l]; [cbn; ring|].
  change (trapezoid (map (Qcmult q) (a :: a' :: xs)) (f :: f' :: l)) with ((q * a' - q * a) * (f + f') / zq 2 + trapezoid (map (Qcmult q) (a' :: xs)) (f' :: l))%Qc.
  rewrite IH. change (trapezoid (a :: a' :: xs) (f :: f' :: l)) with ((a' - a) * (f + f') / zq 2 + trapezoid (a' :: xs) (f' :: l))%Qc. unfold Qcdiv. ring.
Qed.
(** Refuted: the same coordinates in another unit (their numbers [q] times as
    large) give a result in the same unit with numbers [q] times as large *)
Theorem C67_trapz_unit_refuted (xs : list Qc) (q : Qc) (x : arr) axis k (size : U -> Qc) : tidy x -> 1 < length (paxes x) -> selects_axis (SInt axis) (length (paxes x)) [k] ->
  exists y z, ptrapz (trapezoid xs) (PArr x) (Some axis) = Ok (PArr y) /\ ptrapz (trapezoid (map (Qcmult q) xs)) (PArr x) (Some axis) = Ok (PArr z) /\
    aunit y = aunit z /\ forall c, inside y c -> amount_at size z c = (q * amount_at size y c)%Qc.
Proof using blen.
  intros T L2 Sel. destruct (C67_trapz_partial xs x axis k T L2 Sel) as (y & d & Ey & Ed & Ry & _). destruct (C67_trapz_partial (map (Qcmult q) xs) x axis k T L2 Sel) as (z & d' & Ez & Ed' & Rz & _).
  rewrite Ed in Ed'. injection Ed' as <-. exists y, z. split; [exact Ey|]. split; [exact Ez|]. destruct Ry as (_ & Uy & _ & _ & _ & Ly & Vy). destruct Rz as (_ & Uz & _ & _ & _ & Lz & Vz).
  split; [congruence|]. intros c Hc. destruct (Vy c Hc) as (v & Av & Hv & Qv). destruct (Vz c) as (w & Aw & Hw & Qw); [intros e n A; apply Hc, Ly, Lz, A|].
  assert (v = w).
  { assert (Lvw : length v = length w) by (apply (axis_len_fun (face x) d); [apply T|exact Av|exact Aw]). apply nth_ext with (d := 0%Qc) (d' := 0%Qc); [exact Lvw|].
    intros i Hi. rewrite (Hv i (nth i v 0%Qc) (nth_error_nth' _ _ Hi)). rewrite Lvw in Hi. rewrite (Hw i (nth i w 0%Qc) (nth_error_nth' _ _ Hi)). reflexivity. }
  subst w. unfold amount_at. rewrite Uy, Uz, Qv, Qw, trapezoid_scaled. ring.
Qed.
End Properties.
Print Assumptions C67_squeeze.
Print Assumptions C67_cumsum.
Print Assumptions C67_cumsum_all.
Print Assumptions C67_transpose.
Print Assumptions C67_trapz_partial.
Print Assumptions C67_trapz_unit_refuted.
