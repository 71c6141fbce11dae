(** * C28, continued: negation and rounding, plain numbers, other operands; C56:
    transposing without an order *)
From Verif Require Import PyBase PyLemmas ContainerModel ContainerSpec ContainerProofs ContainerProofs2 Nd IndexModel IndexSpec IndexProofs IndexProofs2 IndexProperties ArrayModel ArraySpec ArrayProofs ArrayProofs2 ArrayProofs3 ArrayProofs4 ArrayProperties AxesModel AxesSpec AxesProofs PhysicalModel PhysicalSpec PhysicalProofs PhysicalProofs2 PhysicalProofs3 PhysicalProofs4 PhysicalProofs5 PhysicalProperties PhysicalExamples.

Lemma bcast_one sh : sh <> [] -> bcast_shape sh [1] = Some sh /\ bcast_shape [1] sh = Some sh.
Proof.
  intros Ne. unfold bcast_shape. change (rev [1]) with [1]. destruct (rev sh) as [|n t] eqn:R.
  - exfalso. apply Ne. rewrite <- (rev_involutive sh), R. reflexivity.
  - assert (E : sh = rev (n :: t)) by (rewrite <- R, rev_involutive; reflexivity). split.
    + cbn [bcast_rev]. assert (H : bcast_rev t [] = Some t) by (destruct t; reflexivity). rewrite H.
      destruct (Nat.eqb_spec n 1) as [->|N1]; cbn [option_map]; rewrite E; reflexivity.
    + cbn [bcast_rev]. destruct (Nat.eqb_spec 1 n) as [<-|N1]; [cbn [option_map]; rewrite E; reflexivity|].
      change (Nat.eqb 1 1) with true. cbn [option_map]. rewrite E. reflexivity.
Qed.
Lemma valid_length ix sh : valid ix sh -> List.length sh = List.length ix.
Proof. unfold valid. induction 1 as [|a b l l' H _ IH]; [reflexivity|]. cbn [List.length]. rewrite IH. reflexivity. Qed.
Lemma operand_valid sh ix : valid ix sh -> operand_index sh ix = ix.
Proof. intros V. rewrite operand_index_same by (first [exact (valid_length _ _ V)|symmetry; exact (valid_length _ _ V)]). apply pin_id, V. Qed.

Section C.
Set Default Proof Using "Type".
Context {U B : Type}.
Variables (ueq : U -> U -> bool) (umul udiv : U -> U -> result U) (upow : U -> Qc -> result U) (uone : U) (uinv : U -> result U).
Variables (factor : U -> U -> option Qc) (size : U -> Qc).
Variables (beq : B -> B -> bool) (blen : B -> nat) (bin : B -> B -> bool).
Hypothesis M : measures ueq factor size.
Notation obj := (pobj (U := U)).
Notation arr := (parr (U := U) (B := B)).
Notation add := (padditive ueq uone beq blen bin).
Notation mult := (pmultiplicative (B := B) umul udiv uinv).
Notation compare := (pcompare (B := B) ueq).
Notation power := (pexponential (B := B) ueq upow uone).
Notation unary := (punary (U := U) (B := B)).

Ltac datum x T := let d := fresh "d" in let E := fresh "E" in let N := fresh "N" in let S := fresh "S" in let W := fresh "W" in let V := fresh "V" in
  destruct (adata_ok x (proj1 T)) as (d & E & N & S & W & _ & V); rewrite E; cbn [bind].
(** [z] is an object like [x], with the unit [u] and the numbers [g] of those of [x] *)
Definition objectwise (x z : obj) (u : U) (g : Qc -> Qc) : Prop :=
  well_formed z /\ okind z = okind x /\ ounit z = u /\ shape (odata z) = shape (odata x) /\
  forall ix, valid ix (shape (odata x)) -> elem (odata z) ix = g (elem (odata x) ix).
Lemma build_like (x : obj) d u g : well_formed x -> shape d = shape (odata x) -> (forall ix, valid ix (shape (odata x)) -> elem d ix = g (elem (odata x) ix)) ->
  exists z, build (okind x) d u = Ok z /\ objectwise x z u g.
Proof.
  intros W S V. assert (W' : well_formed (mkobj (okind x) d u)) by (unfold well_formed in *; cbn [okind odata]; rewrite S; exact W).
  exists (mkobj (okind x) d u). split; [apply build_ok, W'|]. split; [exact W'|]. split; [reflexivity|]. split; [reflexivity|]. split; [exact S|exact V].
Qed.
(** ** Negation, absolute value, rounding: the kind, the unit, the axes and the
    shape stay, the function is applied to every number. *)
Theorem C28_unary f : (forall x : obj, well_formed x -> exists z, unary f (PObj x) = Ok (PObj z) /\ objectwise x z (ounit x) f) /\
  (forall x : arr, tidy x -> exists z, unary f (PArr x) = Ok (PArr z) /\ elementwise x z (aunit x) f).
Proof.
  split; [|intros x T; apply unary_arr, T]. intros x W. cbn [punary].
  destruct (build_like x (nd_map f (odata x)) (ounit x) f W eq_refl) as (z & -> & O); [reflexivity|]. exists z. split; [reflexivity|exact O].
Qed.
(** For the sign and the absolute value these are the amounts; rounding depends
    on the unit. *)
Theorem C28_unary_amount f (x z : obj) ix : (forall k a, (0 < k)%Qc -> f (k * a)%Qc = (k * f a)%Qc) -> (0 < size (ounit x))%Qc -> well_formed x ->
  unary f (PObj x) = Ok (PObj z) -> valid ix (shape (odata x)) -> amount size z ix = f (amount size x ix).
Proof.
  intros H P W E V. destruct (proj1 (C28_unary f) x W) as (z' & E' & _ & _ & Uz & _ & Vz). rewrite E in E'. injection E' as <-.
  unfold amount. rewrite Uz, (Vz ix V), H by exact P. reflexivity.
Qed.

(** ** Sums with plain numbers: only for objects without a unit *)
Lemma number_left f (x : obj) q : well_formed x -> exists d, nd_map2 f (odata (measured_number uone q)) (odata x) = Ok d /\
  forall u, exists z, build (okind x) d u = Ok z /\ objectwise x z u (f q).
Proof.
  intros W. unfold nd_map2. cbn [measured_number odata shape elem]. destruct (shape (odata x)) as [|n t] eqn:Sx.
  - rewrite bcast_nil_r. eexists. split; [reflexivity|]. intros u. assert (K : okind x = KScalar).
    { unfold well_formed in W. destruct (okind x); [reflexivity| |]; rewrite Sx in W; [discriminate W|congruence]. }
    rewrite K. cbn [build shape]. eexists. split; [reflexivity|]. split; [reflexivity|]. split; [symmetry; exact K|]. split; [reflexivity|]. split; [symmetry; exact Sx|].
    intros ix V. rewrite Sx in V. inversion V; subst. reflexivity.
  - rewrite <- Sx. rewrite (proj2 (bcast_one (shape (odata x)) ltac:(rewrite Sx; discriminate))). eexists. split; [reflexivity|]. intros u.
    destruct (build_like x (mknd (shape (odata x)) (fun ix => f q (elem (odata x) (operand_index (shape (odata x)) ix)))) u (f q) W eq_refl) as (z & E & O).
    + intros ix V. cbn [elem]. rewrite operand_valid by exact V. reflexivity.
    + exists z. split; [exact E|exact O].
Qed.
Lemma number_right f (x : obj) q : well_formed x -> exists d, nd_map2 f (odata x) (odata (measured_number uone q)) = Ok d /\
  forall u, exists z, build (okind x) d u = Ok z /\ objectwise x z u (fun v => f v q).
Proof.
  intros W. unfold nd_map2. cbn [measured_number odata shape elem]. destruct (shape (odata x)) as [|n t] eqn:Sx.
  - rewrite bcast_nil_l. eexists. split; [reflexivity|]. intros u. assert (K : okind x = KScalar).
    { unfold well_formed in W. destruct (okind x); [reflexivity| |]; rewrite Sx in W; [discriminate W|congruence]. }
    rewrite K. cbn [build shape]. eexists. split; [reflexivity|]. split; [reflexivity|]. split; [symmetry; exact K|]. split; [reflexivity|]. split; [symmetry; exact Sx|].
    intros ix V. rewrite Sx in V. inversion V; subst. reflexivity.
  - rewrite <- Sx. rewrite (proj1 (bcast_one (shape (odata x)) ltac:(rewrite Sx; discriminate))). eexists. split; [reflexivity|]. intros u.
    destruct (build_like x (mknd (shape (odata x)) (fun ix => f (elem (odata x) (operand_index (shape (odata x)) ix)) q)) u (fun v => f v q) W eq_refl) as (z & E & O).
    + intros ix V. cbn [elem]. rewrite operand_valid by exact V. reflexivity.
    + exists z. split; [exact E|exact O].
Qed.
Theorem C28_sum_number f (x : obj) q : well_formed x -> ueq (ounit x) uone = true -> ueq uone (ounit x) = true ->
  (exists z, add f (PObj x) (PNum q) = Ok (PObj z) /\ objectwise x z (ounit x) (fun v => f v q)) /\
  (exists z, add f (PNum q) (PObj x) = Ok (PObj z) /\ objectwise x z uone (f q)).
Proof.
  intros W E E'. cbn [padditive]. unfold unit_is_one. rewrite E, E'. split.
  - destruct (number_right f x q W) as (d & -> & H). cbn [bind]. destruct (H (ounit x)) as (z & -> & O). exists z. split; [reflexivity|exact O].
  - destruct (number_left f x q W) as (d & -> & H). cbn [bind]. destruct (H uone) as (z & -> & O). exists z. split; [reflexivity|exact O].
Qed.
Theorem C28_sum_number_array f (x : arr) q : tidy x -> ueq (aunit x) uone = true -> ueq uone (aunit x) = true ->
  (exists z, add f (PArr x) (PNum q) = Ok (PArr z) /\ elementwise x z (aunit x) (fun v => f v q)) /\
  (exists z, add f (PNum q) (PArr x) = Ok (PArr z) /\ elementwise x z uone (f q)).
Proof.
  intros T E E'. cbn [padditive]. unfold unit_is_one. rewrite E, E'. datum x T. unfold nd_map2. cbn [measured_number odata shape elem].
  assert (Ne : shape (data d) <> []). { rewrite S. intros X. pose proof (tidy_length x T) as L. rewrite X in L. destruct T as (_ & _ & P). destruct (paxes x); [congruence|discriminate L]. }
  rewrite (proj1 (bcast_one _ Ne)), (proj2 (bcast_one _ Ne)). cbn [bind]. split.
  - match goal with |- context [parray_factory ?r _ _] => destruct (arr_map x r (aunit x) (fun v => f v q) T) as (z & -> & R); [exact S|intros c H; cbn [elem]; f_equal; apply elem_same; assumption|] end.
    exists z. split; [reflexivity|exact R].
  - match goal with |- context [parray_factory ?r _ _] => destruct (arr_map x r uone (f q) T) as (z & -> & R); [exact S|intros c H; cbn [elem]; f_equal; apply elem_same; assumption|] end.
    exists z. split; [reflexivity|exact R].
Qed.

(** ** Products and quotients with plain numbers *)
Theorem C28_product_number_object f op (x : obj) q : well_formed x ->
  (exists z, mult op f (PObj x) (PNum q) = Ok (PObj z) /\ objectwise x z (ounit x) (fun v => f v q)) /\
  (exists z, mult OMul f (PNum q) (PObj x) = Ok (PObj z) /\ objectwise x z (ounit x) (f q)) /\
  (forall u, uinv (ounit x) = Ok u -> exists z, mult ODiv f (PNum q) (PObj x) = Ok (PObj z) /\ objectwise x z u (f q)) /\
  (forall e, uinv (ounit x) = Raise e -> mult ODiv f (PNum q) (PObj x) = Raise e).
Proof.
  intros W. cbn [pmultiplicative]. unfold nd_map2. cbn [nd_scalar shape elem]. rewrite bcast_nil_l, bcast_nil_r. cbn [bind].
  assert (R : forall u, exists z, build (okind x) (mknd (shape (odata x)) (fun ix => f q (elem (odata x) (operand_index (shape (odata x)) ix)))) u = Ok z /\ objectwise x z u (f q)).
  { intros u. apply build_like; [exact W|reflexivity|]. intros ix V. cbn [elem]. rewrite operand_valid by exact V. reflexivity. }
  split; [|split; [|split]].
  - destruct (build_like x (mknd (shape (odata x)) (fun ix => f (elem (odata x) (operand_index (shape (odata x)) ix)) q)) (ounit x) (fun v => f v q) W eq_refl) as (z & E & O).
    + intros ix V. cbn [elem]. rewrite operand_valid by exact V. reflexivity.
    + rewrite E. exists z. split; [reflexivity|exact O].
  - destruct (R (ounit x)) as (z & E & O). rewrite E. exists z. split; [reflexivity|exact O].
  - intros u ->. cbn [bind]. destruct (R u) as (z & E & O). rewrite E. exists z. split; [reflexivity|exact O].
  - intros e ->. reflexivity.
Qed.

(** ** Comparisons with plain numbers look at the numbers only (refuted for
    quantities: C28_number_comparison_refuted) *)
Theorem C28_comparison_number f (x : obj) q : 
  (exists r, compare f (PObj x) (PNum q) = Ok r /\ shape r = shape (odata x) /\ forall ix, valid ix (shape (odata x)) -> elem r ix = f (elem (odata x) ix) q) /\
  (exists r, compare f (PNum q) (PObj x) = Ok r /\ shape r = shape (odata x) /\ forall ix, valid ix (shape (odata x)) -> elem r ix = f q (elem (odata x) ix)).
Proof.
  cbn [pcompare]. unfold nd_map2. cbn [nd_scalar shape elem]. rewrite bcast_nil_l, bcast_nil_r. split; eexists; (split; [reflexivity|]); (split; [reflexivity|]);
    intros ix V; cbn [elem]; rewrite operand_valid by exact V; reflexivity.
Qed.
(** The same quantity in two units: some number tells them apart. *)
Theorem C28_comparison_number_refuted (x y : obj) ix : same_quantity size x y -> valid ix (shape (odata x)) -> (elem (odata x) ix < elem (odata y) ix)%Qc ->
  exists q r r', compare qc_ltb (PObj x) (PNum q) = Ok r /\ compare qc_ltb (PObj y) (PNum q) = Ok r' /\ elem r ix <> elem r' ix.
Proof.
  intros Q V L. assert (V' : valid ix (shape (odata y))) by (destruct Q as (_ & E & _); rewrite <- E; exact V). exists (elem (odata y) ix).
  destruct (proj1 (C28_comparison_number qc_ltb x (elem (odata y) ix))) as (r & E & _ & H). destruct (proj1 (C28_comparison_number qc_ltb y (elem (odata y) ix))) as (r' & E' & _ & H').
  exists r, r'. split; [exact E|]. split; [exact E'|]. rewrite (H ix V), (H' ix V'). destruct (qc_ltb_spec (elem (odata x) ix) (elem (odata y) ix)) as [_|X]; [|contradiction].
  destruct (qc_ltb_spec (elem (odata y) ix) (elem (odata y) ix)) as [X|_]; [exfalso; exact (Qclt_not_le _ _ X (Qcle_refl _))|discriminate].
Qed.

(** ** Anything that is neither measured nor a number is refused *)
Theorem C28_other_operands f g h op (a : pval (U := U) (B := B)) q :
  add f a PElse = Raise (OtherError "PhysicalTypeError") /\ add f PElse a = Raise (OtherError "PhysicalTypeError") /\
  mult op f a PElse = Raise (OtherError "PhysicalTypeError") /\ mult op f PElse a = Raise (OtherError "PhysicalTypeError") /\
  compare g a PElse = Raise (OtherError "PhysicalTypeError") /\ compare g PElse a = Raise (OtherError "PhysicalTypeError") /\
  power f a PElse = Raise (OtherError "PhysicalTypeError") /\ power f PElse (PNum q) = Raise (OtherError "PhysicalTypeError") /\
  unary h PElse = Raise (OtherError "PhysicalTypeError") /\ unary h (PNum q) = Raise (OtherError "PhysicalTypeError").
Proof. destruct a; repeat split. Qed.
(** ** An exponent has no unit and is one number *)
Theorem C28_exponents f (a : pval (U := U) (B := B)) :
  (forall y : obj, ueq (ounit y) uone = false -> power f a (PObj y) = Raise ValueError) /\
  (forall y : arr, ueq (aunit y) uone = false -> power f a (PArr y) = Raise ValueError) /\
  (forall y : obj, ueq (ounit y) uone = true -> okind y <> KScalar -> power f a (PObj y) = Raise TypeError) /\
  (forall y : arr, ueq (aunit y) uone = true -> power f a (PArr y) = Raise TypeError) /\
  (forall y : obj, ueq (ounit y) uone = true -> okind y = KScalar -> power f a (PObj y) = power f a (PNum (elem (odata y) []))).
Proof.
  unfold pexponential, exponent, unit_is_one. split; [|split; [|split; [|split]]].
  - intros y ->. reflexivity.
  - intros y ->. reflexivity.
  - intros y -> K. destruct (okind y); [congruence| |]; reflexivity.
  - intros y ->. reflexivity.
  - intros y -> ->. reflexivity.
Qed.
(** ** C56: without an order the array itself is returned *)
Theorem C56_transpose_nothing (x : arr) o : ptranspose x TNone o = Ok x.
Proof. reflexivity. Qed.
End C.
Example C28_unary_case : shown_by (punary (B := B) Qcopp (PObj lengths_m)) = [-1 # 1; -2 # 1; -3 # 1]%Q /\
  shown_by (punary Qcopp (PArr grid)) = [-1 # 1; -2 # 1; -3 # 1; -11 # 1; -12 # 1; -13 # 1]%Q /\
  well_formed lengths_m /\ tidy grid.
Proof. split; [vm_compute; reflexivity|]. split; [vm_compute; reflexivity|]. split; [exact lengths_ok|exact grid_tidy]. Qed.
Example C28_number_case : uequal uunit uunit = true /\
  shown_by (add Qcplus (PObj (mkobj KVector (odata lengths_m) uunit)) (PNum (zq 1))) = [2; 3; 4]%Q /\
  shown_by (add Qcminus (PNum (zq 1)) (PObj (mkobj KScalar (nd_scalar (zq 5)) uunit))) = [-4 # 1]%Q /\
  shown_by (mult OMul Qcmult (PNum (zq 2)) (PObj lengths_m)) = [2; 4; 6]%Q.
Proof. repeat split; vm_compute; reflexivity. Qed.
Print Assumptions C28_unary.
Print Assumptions C28_unary_amount.
Print Assumptions C28_sum_number.
Print Assumptions C28_sum_number_array.
Print Assumptions C28_product_number_object.
Print Assumptions C28_comparison_number.
Print Assumptions C28_comparison_number_refuted.
Print Assumptions C28_other_operands.
Print Assumptions C28_exponents.
Print Assumptions C56_transpose_nothing.
