(** * C67: instances that meet the hypotheses, and claims that are false *)
From Verif Require Import PyBase PyLemmas ContainerModel ContainerSpec Nd IndexModel IndexSpec IndexProofs IndexProofs2 ArrayModel ArraySpec ArrayProofs AxesModel PhysicalModel PhysicalSpec PhysicalProofs PhysicalProperties PhysicalExamples PhysFuncModel PhysFuncSpec PhysFuncProofs PhysFuncProperties PhysFuncProperties2 PhysFuncProperties3.

Definition radian : U := (1%Qc, 7%Z).
Definition degree : U := (mkq 355 20340, 7%Z).
Definition uname (u : U) : str :=
  if Z.eqb (snd u) 7 then (if qc_eqb (usize u) 1 then s "rad" else s "deg") else if Z.eqb (snd u) 0 then s "1" else s "m".
Definition angles : parr (U := U) (B := B) := arr1 [zq 0; zq 1; zq 2] radian ax.
Notation trig := (apply_trig (B := B) uunit uname).
(** a function of rationals in the place of the sine *)
Definition cubic (v : Qc) : Qc := (v - v * v * v / zq 6)%Qc.
Example C67_trig_case : tidy angles /\ uname (aunit angles) = s "rad" /\ shown_by (trig cubic (PArr angles)) = [0; 5 # 6; 2 # 3]%Q /\
  trig cubic (PArr grid) = Raise ValueError.
Proof. split; [apply arr1_tidy; discriminate|]. split; [reflexivity|]. split; vm_compute; reflexivity. Qed.
Example C67_degrees_case : measures uequal ufactor usize /\ uname degree = s "deg" /\ uname radian = s "rad" /\ uequal degree radian = false /\
  exists w, ufactor degree radian = Some w /\ cubic (zq 1) <> cubic (w * zq 1)%Qc.
Proof. split; [exact u_measures|]. split; [reflexivity|]. split; [reflexivity|]. split; [reflexivity|]. eexists. split; [reflexivity|]. intros H. apply (f_equal this) in H. vm_compute in H. discriminate. Qed.
(** square root: a unit whose size is a square, numbers that are squares *)
Definition uroot (u : U) (p : Qc) : result U := if qc_eqb p (mkq 1 2) then (if qc_eqb (usize u) (zq 4) then Ok (zq 2, 0%Z) else if qc_eqb (usize u) 1 then Ok (1%Qc, 0%Z) else Raise ValueError) else Raise ValueError.
Definition root (v : Qc) : Qc := if qc_eqb v (zq 9) then zq 3 else if qc_eqb v (zq 16) then zq 4 else v.
Lemma root_sizes u w : uroot u (mkq 1 2) = Ok w -> (usize w * usize w)%Qc = usize u.
Proof.
  unfold uroot. destruct (qc_eqb (mkq 1 2) (mkq 1 2)); [|discriminate]. destruct (qc_eqb (usize u) (zq 4)) eqn:E1.
  - intros [= <-]. apply qc_eqb_eq in E1. rewrite E1. apply Qc_is_canon. reflexivity.
  - destruct (qc_eqb (usize u) 1) eqn:E2; [|discriminate]. intros [= <-]. apply qc_eqb_eq in E2. rewrite E2. apply Qc_is_canon. reflexivity.
Qed.
Example C67_sqrt_case : let x := arr1 [zq 9; zq 16] (zq 4, 2%Z) ax in tidy x /\ shown_by (apply_sqrt uroot root (PArr x)) = [3; 4]%Q /\
  exists z, apply_sqrt uroot root (PArr x) = Ok (PArr z) /\ aunit z = (zq 2, 0%Z) /\ (root (zq 9) * root (zq 9))%Qc = zq 9.
Proof.
  cbv zeta. split; [apply arr1_tidy; discriminate|]. split; [vm_compute; reflexivity|]. destruct (proj1 (C67_sqrt (B := B) uroot root usize root_sizes) (arr1 [zq 9; zq 16] (zq 4, 2%Z) ax) (zq 2, 0%Z)) as (z & Ez & (_ & Uz & _) & _).
  - apply arr1_tidy. discriminate.
  - vm_compute. reflexivity.
  - exists z. split; [exact Ez|]. split; [exact Uz|]. apply Qc_is_canon. reflexivity.
Qed.
Example C67_log_case : shown_by (apply_log uunit uname cubic (PArr (arr1 [zq 1; zq 3] uunit ax))) = [5 # 6; - (3 # 2)]%Q /\ apply_log uunit uname cubic (PArr grid) = Raise ValueError.
Proof. split; vm_compute; reflexivity. Qed.

(** the grid 1 2 3 / 11 12 13 metres *)
Example C67_sum_case : 1 < length (paxes grid) /\ selects_axis (SInt (-1)) (length (paxes grid)) [1] /\
  shown_by (psum total (PArr grid) (Axis (-1) None)) = [6; 36]%Q /\ shown_by (pmean average (PArr grid) (Axis 0 None)) = [6; 7; 8]%Q /\
  shown_by (psum total (PArr grid) NoAxis) = [42]%Q /\ shown_by (pcumsum total (PArr grid) (Axis 1 None)) = [1; 3; 6; 11; 23; 36]%Q /\
  lengths_agree (@length Z) grid /\ nth 1 (shape (data (face grid))) 1 <> 1.
Proof.
  split; [cbn; lia|]. split; [apply (sel_int_neg (-1) 2); cbn; lia|]. split; [vm_compute; reflexivity|]. split; [vm_compute; reflexivity|]. split; [vm_compute; reflexivity|].
  split; [vm_compute; reflexivity|]. split; [reflexivity|discriminate].
Qed.
Example C67_extreme_case : shown_by (pextreme (B := B) (fun l => fold_right (fun a b => if qc_ltb b a then b else a) (hd 0%Qc l) l) (PObj (mkobj KVector (vec [zq 5; zq 2; zq 3]) metre)) NoAxis) = [2]%Q.
Proof. vm_compute. reflexivity. Qed.
Example C67_squeeze_case : let x := arr2 1 3 (fun _ j => zq (Z.of_nat j)) metre ax ay in tidy x /\ ~ singleton (face x) /\ shown_by (psqueeze (PArr x)) = [0; 1; 2]%Q /\
  singleton (face (arr1 [zq 4] metre ax)) /\ shown_by (psqueeze (PArr (arr1 [zq 4] metre ax))) = [4]%Q.
Proof.
  cbv zeta. split; [apply arr2_tidy; [lia|lia|exact ax_ay]|]. split; [intros H; inversion H as [|? ? ? H']; inversion H'; discriminate|]. split; [vm_compute; reflexivity|].
  split; [repeat constructor|vm_compute; reflexivity].
Qed.
Example C67_transpose_case : shown_by (pnumpy_transpose (PArr grid) None) = [1; 11; 2; 12; 3; 13]%Q.
Proof. vm_compute. reflexivity. Qed.
(** Refuted: [numpy.transpose(x, axes=(0, 1))] should do nothing; it gives data of
    shape (3, 2) with the axes of lengths 2 and 3 *)
Theorem C67_transpose_axes_refuted : exists z, pnumpy_transpose (PArr grid) (Some [0; 1]%Z) = Ok (PArr z) /\ paxes z = paxes grid /\ shape (data (face grid)) = [2; 3] /\ shape (data (face z)) = [3; 2] /\
  lengths_agree (@length Z) grid /\ ~ lengths_agree (@length Z) z.
Proof. eexists. split; [vm_compute; reflexivity|]. split; [reflexivity|]. split; [reflexivity|]. split; [reflexivity|]. split; [reflexivity|]. discriminate. Qed.
Print Assumptions C67_transpose_axes_refuted.
(** Refuted: [numpy.power(x, 2)] has no unit: the same lengths in metres and in
    centimetres give plain numbers that differ *)
Theorem C67_power_refuted : exists x y a b, same_array usize x y /\ numpy_power (B := B) (fun v _ => v * v)%Qc (PArr x) (zq 2) = Ok a /\
  numpy_power (B := B) (fun v _ => v * v)%Qc (PArr y) (zq 2) = Ok b /\ vals a = [1; 4]%Q /\ vals b = [10000; 40000]%Q.
Proof.
  exists (arr1 [zq 1; zq 2] metre ax), (mkparr (face (arr1 [zq 1; zq 2] metre ax)) (zq 100) centimetre (paxes (arr1 [zq 1; zq 2] metre ax))). do 2 eexists. split.
  - split; [reflexivity|]. split; [reflexivity|]. intros c q Hc (d & E & ->).
    assert (T : tidy (arr1 [zq 1; zq 2] metre ax)) by (apply arr1_tidy; discriminate).
    destruct (adata_ok (arr1 [zq 1; zq 2] metre ax) (proj1 T)) as (d1 & E1 & _ & _ & _ & _ & V1). rewrite E1 in E. injection E as <-.
    destruct (adata_ok (mkparr (face (arr1 [zq 1; zq 2] metre ax)) (zq 100) centimetre (paxes (arr1 [zq 1; zq 2] metre ax))) (proj1 T)) as (d2 & E2 & _ & _ & _ & _ & V2).
    exists d2. split; [exact E2|]. rewrite (V1 c Hc), (V2 c Hc). cbn [aunit scale face arr1]. generalize (at_ (mkarray (vec [zq 1; zq 2]) (Named [ax])) c). intros q.
    change (usize metre) with 1%Qc. replace (usize centimetre) with (mkq 1 100) by (apply Qc_is_canon; reflexivity). transitivity (mkq 1 100 * zq 100 * q)%Qc; [|ring]. replace (mkq 1 100 * zq 100)%Qc with 1%Qc by (apply Qc_is_canon; vm_compute; reflexivity). ring.
  - split; [reflexivity|]. split; [reflexivity|]. split; vm_compute; reflexivity.
Qed.
Print Assumptions C67_power_refuted.
Example C67_trapz_case : shown_by (ptrapz (trapezoid [zq 0; zq 1; zq 3]) (PArr grid) (Some (-1)%Z)) = [13 # 2; 73 # 2]%Q.
Proof. vm_compute. reflexivity. Qed.
(** the gradient of 1 4 9 16 metres at 1 2 3 4 seconds *)
Definition squares : parr (U := U) (B := B) := arr1 [zq 1; zq 4; zq 9; zq 16] metre ax.
Definition instants : coordinate (U := U) := (Coords [zq 1; zq 2; zq 3; zq 4], Some second).
Definition shown_each (r : result (list (pval (U := U) (B := B)))) : list (list Q) := match r with Ok l => map (fun v => shown_by (Ok v)) l | Raise _ => [] end.
Example C67_gradient_case : tidy squares /\ one_each (length (paxes squares)) [instants] [fst instants] /\ Forall2 fits [fst instants] (shape (data (face squares))) /\
  gradient_unit uequal uover uunit metre [instants] (1%Qc, (-4)%Z) /\ apart (spacing_place (fst instants)) 4 /\
  shown_each (pgradient uequal uover uunit (PArr squares) [instants]) = [[3; 4; 6; 7]]%Q /\
  pgradient uequal uover uunit (PArr grid) [(Step 1, Some metre); (Step 1, Some centimetre)] = Raise TypeError.
Proof.
  split; [apply arr1_tidy; discriminate|]. split; [apply (each_axis 1 [instants]); [reflexivity|lia]|]. split; [constructor; [reflexivity|constructor]|]. split.
  { constructor; [constructor|]. vm_compute. reflexivity || (f_equal; f_equal; apply Qc_is_canon; reflexivity). }
  split.
  { split; intros i Hi; destruct i as [|[|[|i]]]; try lia; intros H; apply (f_equal this) in H; vm_compute in H; discriminate. }
  split; vm_compute; reflexivity.
Qed.
