(** * C45: the axes of the observed angle *)
From Verif Require Import PyBase PyLemmas ContainerModel ContainerSpec ContainerProofs Nd IndexModel IndexSpec IndexProofs IndexProofs2 ArrayModel ArraySpec ArrayProofs ArrayProofs3 AxesModel AxisModel AxisSpec AxisProofs PhysicalModel PhysicalSpec PhysicalProofs PhysicalExamples ObservableModel ObservableSpec ObservableProofs ObservableProperties ConstraintProperties ObservableExamples AngleModel.

Section Angle.
Context {U B : Type}.
Variables (ueq : U -> U -> bool) (umul udiv : U -> U -> result U) (uone : U) (uinv : U -> result U).
Variables (factor : U -> U -> option Qc) (consistent : U -> U -> bool) (blen : B -> nat) (is_length : U -> bool).
Variable arc : Qc -> Qc.
Variable rad : U.
Notation arr := (parr (U := U) (B := B)).

Lemma array_factory_data {A} (x : nd A) l y : array_factory x l = Ok y -> data y = x.
Proof using. clear. unfold array_factory. destruct (negb _); [discriminate|]. intros E. injection E as <-. reflexivity. Qed.
Lemma adata_shape (a : arr) d : adata a = Ok d -> shape (data d) = shape (data (face a)).
Proof using.
  clear. unfold adata, multiplicative, get_operands. cbn [get_operand bind fst snd].
  destruct (scalar_left Qc Qcmult (face a) (scale a)) as (r & -> & S & _). cbn [bind]. intros E. apply array_factory_data in E. rewrite E. exact S.
Qed.
Lemma parray_factory_keeps (d : nd Qc) (u : U) (ax : list (str * B)) r : parray_factory d u ax = Ok r -> data (face r) = d /\ paxes r = ax /\ aunit r = u /\ scale r = 1%Qc.
Proof using.
  clear. unfold parray_factory. destruct ax as [|kv ax].
  - cbn [bind]. intros E. injection E as <-. repeat split.
  - destruct (array_factory d _) as [x|] eqn:E; [|discriminate]. cbn [bind]. intros K. injection K as <-. apply array_factory_data in E. repeat split. exact E.
Qed.
Lemma withunit_keeps (a b : arr) v : arr_withunit ueq factor consistent a v = Ok b -> data (face b) = data (face a) /\ paxes b = paxes a.
Proof using.
  clear. unfold arr_withunit. destruct (conversion_factor _ _ _ _); [|discriminate]. cbn [bind]. destruct (ueq _ _); [intros E; injection E as <-; split; reflexivity|].
  destruct (parray_factory _ _ _) as [y|] eqn:E; [|discriminate]. cbn [bind]. intros K. injection K as <-. apply parray_factory_keeps in E as (E & E' & _). cbn [face paxes]. rewrite E, E'. split; reflexivity.
Qed.
(** A user expects every axis of an observed array to be as long as its data in that direction.
    Refuted for the angle: its axes are those of the whole dataset whatever is asked for, so that
    they fit exactly when the ratio that was observed has the shape of the whole dataset. *)
Theorem C45_angle_axes_refuted c (ur : arr) udotb ubmag unit dims mapped a : lengths_agree blen ur ->
  observe (B := B) ueq uone factor consistent is_length c (angle_quantity umul udiv uinv arc rad ur udotb ubmag unit dims) mapped = Ok a ->
  paxes a = paxes ur /\
  exists user args x y r, constraints is_length mapped = Ok user /\ implement ueq uone factor consistent c user = Ok args /\
    udotb args = Ok x /\ ubmag args = Ok y /\ pmultiplicative (B := B) umul udiv uinv ODiv Qcdiv x y = Ok (PArr r) /\
    shape (data (face a)) = shape (data (face r)) /\
    (lengths_agree blen a <-> shape (data (face r)) = shape (data (face ur))).
Proof using.
  intros L. unfold observe. destruct (constraints is_length mapped) as [user|] eqn:E1; [|discriminate]. cbn [bind].
  destruct (implement ueq uone factor consistent c user) as [args|] eqn:E2; [|discriminate]. cbn [bind operator angle_quantity]. unfold angle_operator.
  destruct (udotb args) as [x|] eqn:E3; [|discriminate]. cbn [bind]. destruct (ubmag args) as [y|] eqn:E4; [|discriminate]. cbn [bind].
  destruct (pmultiplicative umul udiv uinv ODiv Qcdiv x y) as [v|] eqn:E5; [|discriminate]. cbn [bind].
  destruct v as [o|r|q|]; try (cbn; discriminate). destruct (adata r) as [d|] eqn:E6; [|discriminate]. cbn [bind].
  destruct (parray_factory (nd_map _ (data d)) rad (paxes ur)) as [b|] eqn:E7; [|discriminate]. cbn [bind].
  unfold in_unit. destruct (consistent (aunit b) _); [|discriminate]. intros E8. apply withunit_keeps in E8 as (D & P). apply parray_factory_keeps in E7 as (D7 & P7 & _).
  apply adata_shape in E6.
  assert (Sh : shape (data (face a)) = shape (data (face r))) by (rewrite D, D7; cbn [nd_map shape]; exact E6).
  assert (Pa : paxes a = paxes ur) by (rewrite P; exact P7).
  split; [exact Pa|]. exists user, args, x, y, r. repeat (split; [first [reflexivity|assumption]|]).
  unfold lengths_agree in *. rewrite Pa, L, Sh. split; intros K; symmetry; exact K.
Qed.
End Angle.
Print Assumptions C45_angle_axes_refuted.

(** The dataset of ObservableExamples: three times and three shells; the second time and two shells are asked for. *)
Definition ur_case : parr (U := U) (B := B) := arr2 3 3 (fun i j => zq (Z.of_nat (i + j))) metre tt sh.
Definition one_case (args : arguments (U := U)) : result (pval (U := U) (B := B)) :=
  Ok (PArr (arr2 (length (along args tt)) (length (along args sh)) (fun i j => zq 1) metre tt sh)).
Definition angle_case : quantity (U := U) (B := B) := angle_quantity utimes uover uinverse (fun v => v) uunit ur_case one_case one_case uunit [tt; sh].
Example C45_angle_axes_case : lengths_agree (@length Z) ur_case /\
  exists a, getitem (B := B) uequal uunit ufactor ucomparable long dataset angle_case (under m [tt; sh]) = Ok a /\
    shape (data (face a)) = [1; 2] /\ map (fun kv => (fst kv, length (snd kv))) (paxes a) = [(tt, 3); (sh, 3)] /\ shown a = [1; 1]%Q.
Proof. split; [reflexivity|]. eexists. split; [vm_compute; reflexivity|]. vm_compute. repeat split. Qed.
