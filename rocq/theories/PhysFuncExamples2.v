(** * C67: instances for scalars, vectors and tensors *)
From Verif Require Import PyBase PyLemmas ContainerModel ContainerSpec Nd IndexModel IndexSpec ArrayModel ArraySpec AxesModel PhysicalModel PhysicalSpec PhysicalProofs PhysicalProperties PhysicalExamples PhysFuncModel PhysFuncSpec PhysFuncProofs PhysFuncProperties PhysFuncProperties2 PhysFuncProperties3 PhysFuncExamples PhysFuncProperties4.
From Coq Require Import Permutation.

(** the tensor 0 1 2 / 10 11 12 metres, and its rows with an axis of length one between *)
Definition block : pobj (U := U) := mkobj KTensor (mknd [2; 3] (fun c => zq (Z.of_nat (10 * nth 0 c 0 + nth 1 c 0)))) metre.
Definition loose : pobj (U := U) := mkobj KTensor (mknd [2; 1; 3] (fun c => zq (Z.of_nat (10 * nth 0 c 0 + nth 2 c 0)))) metre.
Example C67_objects_case : well_formed block /\ well_formed loose /\ okind block <> KScalar /\ ~ Forall (fun n => n = 1) (shape (odata loose)) /\
  shown_by (psqueeze (B := B) (PObj loose)) = [0; 1; 2; 10; 11; 12]%Q /\ squeezed_at (shape (odata loose)) [1; 0; 2] [1; 2] /\
  shown_by (psqueeze (B := B) (PObj (mkobj KVector (vec [zq 5]) metre))) = [5]%Q /\
  shape (odata block) = [2] ++ 3 :: [] /\ selects_axis (SInt (-1)) (length (shape (odata block))) [length [2]] /\
  shown_by (psum (B := B) total (PObj block) (Axis (-1) None)) = [3; 33]%Q /\ shown_by (psum (B := B) total (PObj block) (Axis 0 (Some true))) = [10; 12; 14]%Q /\
  psum (B := B) total (PObj (mkobj KVector (vec [zq 5; zq 6]) metre)) (Axis 0 None) = Raise TypeError /\
  shown_by (pcumsum (B := B) total (PObj block) (Axis 1 None)) = [0; 1; 3; 10; 21; 33]%Q /\
  shown_by (pnumpy_transpose (B := B) (PObj block) (Some [1; 0]%Z)) = [0; 10; 1; 11; 2; 12]%Q /\
  match pnumpy_transpose (B := B) (PObj loose) (Some [2; 0; 1]%Z) with Ok (PObj o) => map this (flat (odata o)) | _ => [] end = [0; 10; 1; 11; 2; 12]%Q /\
  pnumpy_transpose (B := B) (PObj block) (Some [0; 0]%Z) = Raise ValueError /\
  Forall2 (fun z i => selects_axis (SInt z) 2 [i]) [1; -2]%Z [1; 0] /\ Permutation [1; 0] (seq 0 2).
Proof.
  split; [discriminate|]. split; [discriminate|]. split; [discriminate|]. split; [intros H; inversion H; discriminate|]. split; [vm_compute; reflexivity|].
  split; [apply squeeze_keep; [discriminate|lia|]; apply squeeze_one, squeeze_keep; [discriminate|lia|]; constructor|].
  do 1 (split; [vm_compute; reflexivity|]). split; [reflexivity|]. split; [apply (sel_int_neg (-1) 2); cbn; lia|].
  do 7 (split; [vm_compute; reflexivity|]). split; [constructor; [apply (sel_int 1 2); cbn; lia|constructor; [apply (sel_int_neg (-2) 2); cbn; lia|constructor]]|].
  apply perm_swap.
Qed.
(** the vector 1 4 9 16 metres at 1 2 3 4 seconds *)
Definition walk : pobj (U := U) := mkobj KVector (vec [zq 1; zq 4; zq 9; zq 16]) metre.
Example C67_gradient_objects_case : well_formed walk /\ one_each (length (shape (odata walk))) [instants] [fst instants] /\ Forall2 fits [fst instants] (shape (odata walk)) /\
  Forall (fun n => 1 < n) (shape (odata walk)) /\ gradient_unit uequal uover uunit (ounit walk) [instants] (1%Qc, (-4)%Z) /\ apart (spacing_place (fst instants)) 4 /\
  shown_each (pgradient uequal uover uunit (PObj walk) [instants]) = [[3; 4; 6; 7]]%Q.
Proof.
  destruct C67_gradient_case as (_ & H1 & H2 & H3 & H4 & _). split; [reflexivity|]. split; [exact H1|]. split; [exact H2|]. split; [repeat constructor; cbn; lia|]. split; [exact H3|].
  split; [exact H4|]. vm_compute. reflexivity.
Qed.
