(** * Observables and constraints: instances that meet the hypotheses of
      ObservableProperties.v and ConstraintProperties.v *)
From Verif Require Import PyBase PyLemmas ContainerModel ContainerSpec ContainerProofs ContainerProofs2 Nd IndexModel IndexSpec IndexProofs IndexProofs2 IndexProperties ArrayModel ArraySpec ArrayProofs AxesModel AxisModel AxisSpec AxisProofs AxesProperties PhysicalModel PhysicalSpec PhysicalProofs PhysicalProperties PhysicalExamples ObservableModel ObservableSpec ObservableProofs ObservableProperties ConstraintProperties.

Print Assumptions C44_observation_unit.
Print Assumptions C44_too_many_subscripts.
Print Assumptions C44_sum_exactly_when.
Print Assumptions C44_sum.
Print Assumptions C44_sum_observed.
Print Assumptions C44_product_exactly_when.
Print Assumptions C44_product.
Print Assumptions C44_withunit.
Print Assumptions C44_power_refuted.
Print Assumptions C44_symbolic_keys_refuted.
Print Assumptions C66_observation.
Print Assumptions C66_indices.
Print Assumptions C66_slices.
Print Assumptions C66_coordinates.
Print Assumptions C66_names.
Print Assumptions C66_unknown_name.
Print Assumptions C66_assumed.
Print Assumptions C66_plain_number_refuted.
Print Assumptions C66_shells.
Print Assumptions C66_no_such_shell_refuted.
Print Assumptions C66_radius.

(** ** A dataset with three times, three moving shells and two species *)
Definition tt : str := s "time".
Definition sh : str := s "shell".
Definition sp : str := s "species".
Definition dataset : context (U := U) :=
  mkctx [(tt, ACoords [zq 1; zq 2; zq 4] second); (sh, APoints [0; 1; 2]%Z); (sp, ASymbols [s "H+"; s "He++"])]
        [[zq 1; zq 2; zq 3]; [zq 2; zq 3; zq 4]; [zq 3; zq 4; zq 5]] metre.
Definition long (u : U) : bool := Z.eqb (snd u) 1.
Notation look := (getitem (B := B) uequal uunit ufactor ucomparable long).
Notation plusq := (qadditive (B := B) uequal uunit bequal (@length Z) bwithin).
Notation timesq := (qmultiplicative (B := B) utimes uover uinverse).
Lemma uequal_refl u : uequal u u = true.
Proof. unfold uequal. rewrite Z.eqb_refl, andb_true_r. apply qc_eqb_eq. reflexivity. Qed.

(** operators that read stored values at the given indices *)
Definition positions_list (p : positions) : list Z := match p with At z => [z] | These l => l end.
Definition along (args : arguments (U := U)) (d : str) : list Z :=
  match lookup str_eqb (aindices args) d with Ok (PPos p) => match positions_list p with [] => [0%Z] | l => l end | _ => [0%Z] end.
Definition stored2 (args : arguments (U := U)) : result (pval (U := U) (B := B)) :=
  Ok (PArr (arr2 (length (along args tt)) (length (along args sh)) (fun i j => zq (10 * nth i (along args tt) 0 + nth j (along args sh) 0)%Z) metre tt sh)).
Definition stored1 (args : arguments (U := U)) : result (pval (U := U) (B := B)) :=
  Ok (PArr (arr1 (map (fun z => zq (z + 1)) (along args sh)) second sh)).
Definition q2 : quantity (U := U) (B := B) := mkqty stored2 centimetre [tt; sh].
Definition q1 : quantity (U := U) (B := B) := mkqty stored1 second [sh].
Lemma along_some args d : along args d <> [].
Proof. unfold along. destruct (lookup _ _ _) as [[p|h]|]; try discriminate. destruct (positions_list p); discriminate. Qed.
Lemma q2_arrays : yields_arrays q2.
Proof.
  intros args v [= <-]. eexists. split; [reflexivity|]. split; [|reflexivity]. pose proof (along_some args tt) as H1. pose proof (along_some args sh) as H2.
  apply arr2_tidy; [destruct (along args tt); [contradiction|cbn; lia]|destruct (along args sh); [contradiction|cbn; lia]|discriminate].
Qed.
Lemma q1_arrays : yields_arrays q1.
Proof. intros args v [= <-]. eexists. split; [reflexivity|]. split; [|reflexivity]. apply arr1_tidy. pose proof (along_some args sh). destruct (along args sh); [contradiction|discriminate]. Qed.
Lemma alike_refl (a : parr (U := U) (B := B)) : alike a a.
Proof. split; [reflexivity|]. split; [reflexivity|]. split; [tauto|reflexivity]. Qed.
Lemma along_same ds a b d : same_for ds a b -> In d ds -> along a d = along b d.
Proof. intros S I. unfold along. rewrite (proj1 (S d (or_introl I))). reflexivity. Qed.
Lemma q2_minds : minds_its_dimensions q2.
Proof.
  intros a b x S [= <-]. eexists. split; [|apply alike_refl]. cbn [operator q2]. unfold stored2.
  rewrite (along_same _ a b tt S), (along_same _ a b sh S); [reflexivity|right; left; reflexivity|left; reflexivity].
Qed.
Lemma q1_minds : minds_its_dimensions q1.
Proof. intros a b x S [= <-]. eexists. split; [|apply alike_refl]. cbn [operator q1]. unfold stored1. rewrite (along_same _ a b sh S); [reflexivity|left; reflexivity]. Qed.
Lemma dims2 : proper_dims [tt; sh].
Proof. split; [repeat constructor; intros H; repeat destruct H as [H|H]; try discriminate; exact H|]. intros H. repeat destruct H as [H|H]; try discriminate; exact H. Qed.
Lemma dims1 : proper_dims [sh].
Proof. split; [repeat constructor; intros []|]. intros [H|[]]. discriminate. Qed.

(** constraints: the second time (2 s) and the last two shells *)
Definition m (d : str) : uval (U := U) := if str_eqb d tt then VMeas [zq 2] second else VIndex [1; 2]%Z.
Definition seen (r : result (parr (U := U) (B := B))) : list Q := match r with Ok a => shown a | _ => [] end.
Example C44_case : exists p d, timesq OMul Qcmult q2 q1 = Ok p /\ plusq Qcplus q2 q2 = Ok d /\ qdims p = [tt; sh] /\
  seen (look dataset q2 (under m [tt; sh])) = [1100; 1200]%Q /\ seen (look dataset q1 (under m [sh])) = [2; 3]%Q /\
  seen (look dataset p (under m [tt; sh])) = [2200; 3600]%Q /\ seen (look dataset d (under m [tt; sh])) = [2200; 2400]%Q /\
  plusq Qcplus q2 q1 = Raise ValueError /\ look dataset q1 (Tuple [It (m tt); It (m sh)]) = Raise IndexError.
Proof. do 2 eexists. split; [reflexivity|]. split; [reflexivity|]. split; [reflexivity|]. repeat (split; [vm_compute; reflexivity|]). vm_compute. reflexivity. Qed.
Example C44_withunit_case : exists q', qwithunit (B := B) uequal ucomparable q2 kilometre = Ok q' /\ seen (look dataset q' (under m [tt; sh])) = [11 # 1000; 3 # 250]%Q.
Proof. eexists. split; [reflexivity|]. vm_compute. reflexivity. Qed.
(** powers: a square can be built, but not observed *)
Example C44_power_case : exists q', qpower (B := B) usquare q1 (zq 2) = Ok q' /\ look dataset q' (under m [sh]) = Raise TypeError.
Proof. eexists. split; [vm_compute; reflexivity|]. vm_compute. reflexivity. Qed.
Example C44_symbolic_case : exists q', build_observable (B := B) utimes uover (fun u p => if qc_eqb p 1 then Ok u else Raise ValueError) uinverse (fun k => if str_eqb k sh then Ok q1 else Ok q2) [(sh, 1%Qc); (tt, 1%Qc)] = Ok q' /\ look dataset q' (under m [tt; sh]) = Raise TypeError.
Proof. eexists. split; [vm_compute; reflexivity|]. vm_compute. reflexivity. Qed.

(** ** C66 *)
Notation asks := (asked uequal uunit ufactor ucomparable long).
Example C66_case : (exists args, asks dataset [tt; sh] m args /\ indexed_by args tt (At 1) /\ indexed_by args sh (These [1; 2]%Z)) /\
  in_axis_unit uequal uunit (fun a b => conversion_factor ufactor ucomparable a b) second second [zq 2] [zq 2] /\ Forall (on_axis [zq 1; zq 2; zq 4]) [zq 2] /\
  Forall (fun z => In z [0; 1; 2]%Z) [1; 2]%Z.
Proof.
  split; [eexists; split; [eexists; split; [vm_compute; reflexivity|vm_compute; reflexivity]|split; reflexivity]|]. split; [apply I_same; reflexivity|].
  split; [repeat constructor; right; left; reflexivity|]. repeat constructor; cbn; tauto.
Qed.
Example C66_slice_case : exists args, asks dataset [sp; tt] (fun d => if str_eqb d tt then VSlice (sl (Some 1%Z) None) else VName (s "He++")) args /\
  indexed_by args tt (These [1; 2]%Z) /\ indexed_by args sp (At 1).
Proof. eexists. split; [eexists; split; [vm_compute; reflexivity|vm_compute; reflexivity]|split; reflexivity]. Qed.
(** a time between the stored ones, and a radius *)
Definition between (d : str) : uval (U := U) := if str_eqb d tt then VMeas [zq 3] second else VMeas [mkq 7 2] metre.
Example C66_assumed_case : (exists args, asks dataset [tt; sh] between args /\ indexed_by args tt (stretch 1 2) /\ assumes args tt [zq 3] second /\
    indexed_by args sh (stretch 0 2) /\ assumes args (s "radius") [mkq 7 2] metre) /\
  ~ on_axis [zq 1; zq 2; zq 4] (zq 3) /\ strictly_ascending [zq 1; zq 2; zq 4] /\ uequal second uunit = false /\ proper_grid (G2 (cgrid dataset)) 3.
Proof.
  split; [eexists; split; [eexists; split; [vm_compute; reflexivity|vm_compute; reflexivity]|split; [reflexivity|split; [reflexivity|split; reflexivity]]]|].
  split; [|split; [repeat constructor; unfold Qclt; vm_compute; reflexivity|split; [reflexivity|]]].
  - intros [H|(_ & _ & d & H & L)].
    + repeat destruct H as [H|H]; try (apply (f_equal this) in H; vm_compute in H; discriminate). exact H.
    + repeat destruct H as [<-|H]; try (unfold Qcle in L; vm_compute in L; apply L; reflexivity). exact H.
  - split; [lia|]. split; [discriminate|]. intros row H. repeat destruct H as [<-|H]; try (split; [reflexivity|repeat constructor; unfold Qclt; vm_compute; reflexivity]). destruct H.
Qed.
(** shell number 7 of three: every shell *)
Example C66_no_such_shell_case : exists args, asks dataset [sh] (fun _ => VIndex [7]%Z) args /\ indexed_by args sh (These [0; 1; 2]%Z) /\
  seen (look dataset q1 (under (fun _ => VIndex [7]%Z) [sh])) = [1; 2; 3]%Q.
Proof. eexists. split; [eexists; split; [vm_compute; reflexivity|vm_compute; reflexivity]|split; [reflexivity|vm_compute; reflexivity]]. Qed.
(** the plain number 3 *)
Example C66_plain_number_case : seen (look dataset q2 (under (fun d => if str_eqb d tt then VMeas [zq 2] uunit else VIndex [0]%Z) [tt; sh])) = [1000]%Q /\
  look dataset q2 (under (fun d => if str_eqb d tt then VMeas [zq 3] uunit else VIndex [0]%Z) [tt; sh]) = Raise ValueError.
Proof. split; vm_compute; reflexivity. Qed.
