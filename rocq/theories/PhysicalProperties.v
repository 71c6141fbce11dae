(** * Properties of physical objects and arrays: C26-C29, C56, C63 *)
From Verif Require Import PyBase PyLemmas ContainerModel ContainerSpec ContainerProofs ContainerProofs2 Nd IndexModel IndexSpec IndexProofs IndexProofs2 IndexProperties ArrayModel ArraySpec ArrayProofs ArrayProofs2 ArrayProofs3 ArrayProofs4 ArrayProperties AxesModel AxesSpec AxesProofs PhysicalModel PhysicalSpec PhysicalProofs PhysicalProofs2 PhysicalProofs3 PhysicalProofs4 PhysicalProofs5.
From Coq Require Import Permutation.

Section C.
Set Default Proof Using "Type".
Context {U B : Type}.
Variables (ueq : U -> U -> bool) (umul udiv : U -> U -> result U) (upow : U -> Qc -> result U) (uone : U) (uinv : U -> result U).
Variables (factor : U -> U -> option Qc) (consistent : U -> U -> bool) (size : U -> Qc).
Variables (beq : B -> B -> bool) (blen : B -> nat) (bin : B -> B -> bool).
(** conversion factors are the ratios of the sizes of the units (C21, C22) *)
Hypothesis M : measures ueq factor size.
Notation obj := (pobj (U := U)).
Notation arr := (parr (U := U) (B := B)).
Notation withunit := (obj_withunit ueq factor consistent).
Notation converted := (arr_withunit (B := B) ueq factor consistent).
Notation add := (padditive ueq uone beq blen bin).
Notation mult := (pmultiplicative (B := B) umul udiv uinv).
Notation compare := (pcompare (B := B) ueq).
Notation power := (pexponential (B := B) ueq upow uone).

(** ** C26: scalars, vectors, tensors: changing the unit *)
Theorem C26_withunit_preserves (x y : obj) v : well_formed x -> withunit x v = Ok y ->
  well_formed y /\ same_quantity size x y /\ (ounit y = v \/ (y = x /\ ueq (ounit x) v = true)).
Proof using M. intros W H. destruct (withunit_same ueq factor consistent size M x y v W H) as (H1 & H2 & H3 & _). auto. Qed.
Theorem C26_withunit_exactly_when (x : obj) v : well_formed x ->
  ((exists y, withunit x v = Ok y) <-> exists w, factor (ounit x) v = Some w) /\
  (factor (ounit x) v = None -> withunit x v = Raise (if consistent (ounit x) v then OtherError "UnitConversionError" else ValueError)).
Proof.
  intros W. pose proof (withunit_cases ueq factor consistent x v W) as C. destruct (factor (ounit x) v) as [w|]; rewrite C.
  - split; [split; eauto|discriminate].
  - split; [split; intros (? & ?); discriminate|reflexivity].
Qed.
Theorem C26_round_trip (x y z : obj) v : well_formed x -> withunit x v = Ok y -> withunit y (ounit x) = Ok z ->
  nd_eq (odata z) (odata x) /\ okind z = okind x /\ size (ounit z) = size (ounit x).
Proof using M.
  intros W H1 H2. destruct (withunit_same ueq factor consistent size M x y v W H1) as (W1 & S1 & _ & _).
  destruct (withunit_same ueq factor consistent size M y z _ W1 H2) as (_ & S2 & _ & E).
  pose proof (same_trans size x y z S1 S2) as S. split; [|split; [symmetry; apply S|exact E]].
  apply (same_data ueq factor size M); [apply same_sym, S|exact E].
Qed.
Lemma chain_same us : forall (x y : obj), well_formed x -> chain withunit x us = Ok y -> well_formed y /\ same_quantity size x y.
Proof using M.
  induction us as [|u us IH]; intros x y W H; cbn [chain] in H; [injection H as <-; split; [exact W|apply same_refl]|].
  destruct (withunit x u) as [t|] eqn:E; [|discriminate]. cbn [bind] in H.
  destruct (withunit_same ueq factor consistent size M x t u W E) as (W1 & S1 & _). destruct (IH t y W1 H) as (W2 & S2). split; [exact W2|]. eapply same_trans; eassumption.
Qed.
Lemma chain_app {X V} (conv : X -> V -> result X) us vs : forall x, chain conv x (us ++ vs) = (y <- chain conv x us ;; chain conv y vs).
Proof. induction us as [|u us IH]; intros x; [reflexivity|]. cbn [app chain]. destruct (conv x u); [apply IH|reflexivity]. Qed.
(** converting through any number of units is converting directly *)
Theorem C26_chain (x y : obj) us v : well_formed x -> chain withunit x (us ++ [v]) = Ok y ->
  same_quantity size x y /\ size (ounit y) = size v /\ forall z, withunit x v = Ok z -> okind y = okind z /\ nd_eq (odata y) (odata z).
Proof using M.
  intros W H. rewrite chain_app in H. destruct (chain withunit x us) as [t|] eqn:E; [|discriminate]. cbn [bind chain] in H.
  destruct (chain_same us x t W E) as (W1 & S1). destruct (withunit t v) as [y'|] eqn:E'; [|discriminate]. cbn [bind] in H. injection H as ->.
  destruct (withunit_same ueq factor consistent size M t y v W1 E') as (_ & S2 & _ & Ey).
  pose proof (same_trans size x t y S1 S2) as S. split; [exact S|]. split; [exact Ey|]. intros z Hz.
  destruct (withunit_same ueq factor consistent size M x z v W Hz) as (_ & S3 & _ & Ez).
  pose proof (same_trans size y x z (same_sym size x y S) S3) as Q. split; [apply Q|]. apply (same_data ueq factor size M); [exact Q|congruence].
Qed.

(** ** C27: arrays: changing the unit *)
(** what an array shows: the scaled data *)
Theorem C27_values_shown (x : arr) : tidy x -> exists d, adata x = Ok d /\ anames d = map fst (paxes x) /\
  forall c, inside x c -> at_ d c = value_at x c.
Proof.
  intros T. destruct (adata_ok x (proj1 T)) as (d & E & N & _ & _ & _ & V). exists d. split; [exact E|]. split; [|exact V].
  unfold anames. rewrite N. apply tidy_names, T.
Qed.
Theorem C27_exactly_when (x : arr) v : tidy x ->
  ((exists y, converted x v = Ok y) <-> exists w, factor (aunit x) v = Some w) /\
  (factor (aunit x) v = None -> converted x v = Raise (if consistent (aunit x) v then OtherError "UnitConversionError" else ValueError)).
Proof.
  intros T. pose proof (arr_withunit_cases ueq factor consistent x v T) as C. destruct (factor (aunit x) v) as [w|].
  - split; [|discriminate]. destruct (ueq (aunit x) v); [rewrite C|destruct C as (y & -> & _)]; split; eauto.
  - rewrite C. split; [split; intros (? & ?); discriminate|reflexivity].
Qed.
(** one change of unit, of an array that has not been converted before *)
Theorem C27_first_conversion_partial (x y : arr) v : tidy x -> scale x = 1%Qc -> converted x v = Ok y ->
  tidy y /\ (aunit y = v \/ (y = x /\ ueq (aunit x) v = true)) /\ paxes y = paxes x /\
  (forall d n, axis_len (face y) d n <-> axis_len (face x) d n) /\ forall c, amount_at size y c = amount_at size x c.
Proof using M.
  intros T S H. pose proof (arr_withunit_cases ueq factor consistent x v T) as C. destruct (factor (aunit x) v) as [w|] eqn:F; [|congruence].
  destruct (ueq (aunit x) v) eqn:E.
  - rewrite H in C. injection C as ->. split; [exact T|]. split; [right; auto|]. split; [reflexivity|]. split; reflexivity.
  - destruct C as (y' & C & Ty & D & Sy & Uy & A). rewrite H in C. injection C as <-. split; [exact Ty|]. split; [left; exact Uy|]. split; [exact A|].
    rewrite (same_face x y T Ty A D). split; [reflexivity|]. intros c. unfold amount_at, value_at. rewrite (same_face x y T Ty A D), Sy, S, Uy.
    rewrite <- (factor_sizes _ _ _ M _ _ _ F). ring.
Qed.
(** Any conversion, after any history, multiplies the original data by the
    factor of that conversion alone. *)
Theorem C27_conversion_law (x y : arr) v : tidy x -> converted x v = Ok y -> ueq (aunit x) v = false ->
  tidy y /\ aunit y = v /\ paxes y = paxes x /\ face y = face x /\ factor (aunit x) v = Some (scale y).
Proof.
  intros T H E. pose proof (arr_withunit_cases ueq factor consistent x v T) as C. destruct (factor (aunit x) v) as [w|] eqn:F; [|congruence].
  rewrite E in C. destruct C as (y' & C & Ty & D & Sy & Uy & A). rewrite H in C. injection C as <-.
  split; [exact Ty|]. split; [exact Uy|]. split; [exact A|]. split; [exact (same_face x y T Ty A D)|]. rewrite Sy. reflexivity.
Qed.
(** So a second conversion is wrong at every element other than zero, unless the
    first one did not change the size of the unit. *)
Theorem C27_second_conversion_refuted (x y z : arr) v w c : tidy x -> scale x = 1%Qc -> converted x v = Ok y -> converted y w = Ok z ->
  ueq (aunit x) v = false -> ueq v w = false -> size (aunit x) <> size v -> value_at x c <> 0%Qc ->
  amount_at size z c <> amount_at size x c.
Proof using M.
  intros T S H1 H2 E1 E2 Ns Nz. destruct (C27_conversion_law x y v T H1 E1) as (Ty & Uy & Ay & Fy & Gy).
  destruct (C27_conversion_law y z w Ty H2) as (Tz & Uz & Az & Fz & Gz); [rewrite Uy; exact E2|].
  unfold amount_at, value_at in *. rewrite Fz, Fy, Uz, S. rewrite Uy in Gz. pose proof (factor_sizes _ _ _ M _ _ _ Gz) as Q.
  rewrite S in Nz. intros K. apply Ns. assert (X : (at_ (face x) c <> 0)%Qc) by (intros X; apply Nz; rewrite X; ring).
  assert ((size v * at_ (face x) c = size (aunit x) * at_ (face x) c)%Qc) as K' by (rewrite <- Q; rewrite Qcmult_1_l in K; rewrite <- K; ring).
  apply (f_equal (fun q => (q * / at_ (face x) c)%Qc)) in K'. rewrite <- !Qcmult_assoc, Qcmult_inv_r, !Qcmult_1_r in K' by exact X. symmetry. exact K'.
Qed.

(** ** C28: arithmetic *)
Definition additive_op (f : Qc -> Qc -> Qc) : Prop := f = Qcplus \/ f = Qcminus.
Lemma additive_scales f k a b : additive_op f -> f (k * a)%Qc (k * b)%Qc = (k * f a b)%Qc.
Proof. intros [-> | ->]; ring. Qed.
(** sums and differences of scalars, vectors and tensors: numpy broadcasting
    pairs the elements *)
Theorem C28_sum (f : Qc -> Qc -> Qc) (x y : obj) : additive_op f -> well_formed x -> well_formed y ->
  (ueq (ounit x) (ounit y) = false -> add f (PObj x) (PObj y) = Raise ValueError) /\
  (forall v, add f (PObj x) (PObj y) = Ok v -> exists z, v = PObj z /\ well_formed z /\ ueq (ounit x) (ounit y) = true /\ ounit z = ounit x /\
     bcast_shape (shape (odata x)) (shape (odata y)) = Some (shape (odata z)) /\
     forall ix, amount size z ix = f (amount size x (operand_index (shape (odata x)) ix)) (amount size y (operand_index (shape (odata y)) ix))) /\
  (ueq (ounit x) (ounit y) = true -> bcast_shape (shape (odata x)) (shape (odata y)) <> None -> exists v, add f (PObj x) (PObj y) = Ok v).
Proof using M.
  intros A Wx Wy. destruct (obj_add_cases (B := B) ueq uone beq blen bin f x y Wx Wy) as [(E & R)|(sh & E & Q & H & W)].
  - rewrite E. split; [reflexivity|]. split; [discriminate|]. intros E1 E2. destruct R; [congruence|contradiction].
  - cbv zeta in H. rewrite H. split; [congruence|]. split; [|eauto]. intros v [= <-]. eexists. split; [reflexivity|]. split; [exact W|]. split; [exact Q|]. split; [reflexivity|].
    split; [exact E|]. intros ix. unfold amount. cbn [ounit odata elem]. rewrite <- (equal_sizes _ _ _ M _ _ Q). symmetry. apply additive_scales, A.
Qed.
(** ... and of arrays: the elements are paired by dimension name *)
Theorem C28_sum_arrays (f : Qc -> Qc -> Qc) (x y : arr) v : additive_op f -> tidy x -> tidy y -> add f (PArr x) (PArr y) = Ok v ->
  exists z, v = PArr z /\ tidy z /\ ueq (aunit x) (aunit y) = true /\ aunit z = aunit x /\ map fst (paxes x) = map fst (paxes y) /\
    forall c ca cb, clip (face x) c ca -> clip (face y) c cb -> amount_at size z c = f (amount_at size x ca) (amount_at size y cb).
Proof using M.
  intros A Tx Ty H. destruct (arr_add ueq uone beq blen bin f x y v Tx Ty H) as (z & -> & Tz & E & Uz & Sz & N & _ & _ & _ & V).
  exists z. split; [reflexivity|]. split; [exact Tz|]. split; [exact E|]. split; [exact Uz|]. split; [exact N|]. intros c ca cb Ca Cb.
  unfold amount_at, value_at. rewrite (V c ca cb Ca Cb), Sz, Uz, <- (equal_sizes _ _ _ M _ _ E), additive_scales by exact A. ring.
Qed.
Theorem C28_sum_units_differ (f : Qc -> Qc -> Qc) (x y : arr) : tidy x -> tidy y -> ueq (aunit x) (aunit y) = false ->
  add f (PArr x) (PArr y) = Raise ValueError.
Proof.
  intros Tx Ty E. destruct (add f (PArr x) (PArr y)) as [v|e] eqn:H.
  - destruct (arr_add ueq uone beq blen bin f x y v Tx Ty H) as (z & _ & _ & Q & _). congruence.
  - f_equal. cbn [padditive] in H. destruct (adata_ok x (proj1 Tx)) as (dx & Ex & Nx & _ & Wx & _). destruct (adata_ok y (proj1 Ty)) as (dy & Ey & Ny & _ & Wy & _).
    rewrite Ex, Ey in H. cbn [bind] in H. destruct (additive f (AArr dx) (AArr dy)) as [r|e'] eqn:Q; cbn [bind] in H.
    + destruct (proj1 (proj2 (C20_sum Qc f dx dy Wx Wy)) r Q) as (d & -> & _). rewrite E in H. congruence.
    + injection H as <-. exact (proj2 (proj2 (C20_sum Qc f dx dy Wx Wy)) e' Q).
Qed.
(** a number is not added to an object with a unit *)
Theorem C28_number_has_no_unit (f : Qc -> Qc -> Qc) q :
  (forall x : obj, ueq (ounit x) uone = false -> add f (PObj x) (PNum q) = Raise (OtherError "PhysicalTypeError") /\ add f (PNum q) (PObj x) = Raise (OtherError "PhysicalTypeError")) /\
  (forall x : arr, ueq (aunit x) uone = false -> add f (PArr x) (PNum q) = Raise (OtherError "PhysicalTypeError") /\ add f (PNum q) (PArr x) = Raise (OtherError "PhysicalTypeError")).
Proof. split; intros x E; cbn [padditive]; unfold unit_is_one; rewrite E; split; reflexivity. Qed.
(** an array and a scalar *)
Theorem C28_sum_array_scalar (f : Qc -> Qc -> Qc) (x : arr) (y : obj) : additive_op f -> tidy x -> okind y = KScalar -> well_formed y ->
  (ueq (aunit x) (ounit y) = false -> add f (PArr x) (PObj y) = Raise ValueError) /\
  (ueq (aunit x) (ounit y) = true -> exists z, add f (PArr x) (PObj y) = Ok (PArr z) /\ aunit z = aunit x /\ paxes z = paxes x /\
     forall c, inside x c -> amount_at size z c = f (amount_at size x c) (amount size y [])).
Proof using M.
  intros A T K W. assert (Sy : shape (odata y) = []) by (unfold well_formed in W; rewrite K in W; exact W).
  destruct (add_scalar blen ueq uone beq bin f x y T K Sy) as (H1 & H2 & _). split; [exact H1|]. intros E. destruct (H2 E) as (z & H & Tz & Uz & Sz & Az & _ & V).
  exists z. split; [exact H|]. split; [exact Uz|]. split; [exact Az|]. intros c Ic. unfold amount_at, amount, value_at. rewrite (V c Ic), Sz, Uz, <- (equal_sizes _ _ _ M _ _ E), additive_scales by exact A. ring.
Qed.
(** products and quotients *)
Definition sound_units : Prop := (forall u v w, umul u v = Ok w -> size w = (size u * size v)%Qc) /\ (forall u v w, udiv u v = Ok w -> size w = (size u / size v)%Qc) /\
  (forall u w, uinv u = Ok w -> size w = (/ size u)%Qc).
Definition op_fun (op : mulop) : Qc -> Qc -> Qc := match op with OMul => Qcmult | ODiv => Qcdiv end.
Lemma inv_mult a b : (/ (a * b) = / a * / b)%Qc.
Proof.
  assert (Z : (/ 0 = 0)%Qc) by (apply Qc_is_canon; reflexivity).
  destruct (Qc_eq_dec a 0) as [->|Na]; [rewrite Qcmult_0_l, Z, Qcmult_0_l; reflexivity|]. destruct (Qc_eq_dec b 0) as [->|Nb]; [rewrite Qcmult_0_r, Z, Qcmult_0_r; reflexivity|].
  field. auto.
Qed.
Lemma op_scales op s t a b : (op_fun op s t * op_fun op a b = op_fun op (s * a) (t * b))%Qc.
Proof. destruct op; cbn [op_fun]; [ring|]. unfold Qcdiv. rewrite inv_mult. ring. Qed.
Lemma op_unit op u v w : sound_units -> unit_op umul udiv op u v = Ok w -> size w = op_fun op (size u) (size v).
Proof. intros (H1 & H2 & _). destruct op; cbn; auto. Qed.
Theorem C28_product (op : mulop) (x y : obj) v : sound_units -> well_formed x -> well_formed y -> mult op (op_fun op) (PObj x) (PObj y) = Ok v ->
  exists z, v = PObj z /\ well_formed z /\ unit_op umul udiv op (ounit x) (ounit y) = Ok (ounit z) /\
    bcast_shape (shape (odata x)) (shape (odata y)) = Some (shape (odata z)) /\
    forall ix, amount size z ix = op_fun op (amount size x (operand_index (shape (odata x)) ix)) (amount size y (operand_index (shape (odata y)) ix)).
Proof.
  intros Sd Wx Wy H. destruct (obj_mul_cases (B := B) umul udiv uinv op (op_fun op) x y Wx Wy) as [(e & E & _)|(sh & u & E & Q & K & W)]; [congruence|].
  cbv zeta in K. rewrite H in K. injection K as ->. eexists. split; [reflexivity|]. split; [exact W|]. split; [exact Q|]. split; [exact E|].
  intros ix. unfold amount. cbn [ounit odata elem]. rewrite (op_unit op _ _ _ Sd Q). apply op_scales.
Qed.
Theorem C28_product_arrays (op : mulop) (x y : arr) v : sound_units -> tidy x -> tidy y -> mult op (op_fun op) (PArr x) (PArr y) = Ok v ->
  exists z, v = PArr z /\ tidy z /\ unit_op umul udiv op (aunit x) (aunit y) = Ok (aunit z) /\
    common_order (map fst (paxes x)) (map fst (paxes y)) (map fst (paxes z)) /\
    forall c ca cb, inside z c -> clip (face x) c ca -> clip (face y) c cb -> amount_at size z c = op_fun op (amount_at size x ca) (amount_at size y cb).
Proof.
  intros Sd Tx Ty H. destruct (arr_mul umul udiv uinv op (op_fun op) x y v Tx Ty H) as (z & -> & Tz & Q & Sz & C & _ & _ & _ & V).
  exists z. split; [reflexivity|]. split; [exact Tz|]. split; [exact Q|]. split; [exact C|]. intros c ca cb Ic Ca Cb.
  unfold amount_at, value_at. rewrite (V c ca cb Ic Ca Cb), Sz, (op_unit op _ _ _ Sd Q), Qcmult_1_l. apply op_scales.
Qed.
Theorem C28_product_number (op : mulop) (x : arr) q : tidy x ->
  (exists z, mult op (op_fun op) (PArr x) (PNum q) = Ok (PArr z) /\ aunit z = aunit x /\ paxes z = paxes x /\
     forall c, inside x c -> amount_at size z c = op_fun op (amount_at size x c) q) /\
  (exists z, mult OMul Qcmult (PNum q) (PArr x) = Ok (PArr z) /\ aunit z = aunit x /\ paxes z = paxes x /\
     forall c, inside x c -> amount_at size z c = (q * amount_at size x c)%Qc) /\
  (forall u, sound_units -> uinv (aunit x) = Ok u -> exists z, mult ODiv Qcdiv (PNum q) (PArr x) = Ok (PArr z) /\ aunit z = u /\ paxes z = paxes x /\
     forall c, inside x c -> amount_at size z c = (q / amount_at size x c)%Qc).
Proof.
  intros T. split; [|split].
  - destruct (mul_number umul udiv uinv (op_fun op) op x q T) as (z & E & _ & Uz & Sz & Az & _ & V). exists z. split; [exact E|]. split; [exact Uz|]. split; [exact Az|].
    intros c Ic. unfold amount_at, value_at. rewrite (V c Ic), Sz, Uz. destruct op; cbn [op_fun]; [ring|]. unfold Qcdiv. ring.
  - destruct (number_mul umul udiv uinv Qcmult OMul x q (aunit x) T eq_refl) as (z & E & _ & Uz & Sz & Az & _ & V). exists z. split; [exact E|]. split; [exact Uz|]. split; [exact Az|].
    intros c Ic. unfold amount_at, value_at. rewrite (V c Ic), Sz, Uz. ring.
  - intros u Sd Eu. destruct (number_mul umul udiv uinv Qcdiv ODiv x q u T Eu) as (z & E & _ & Uz & Sz & Az & _ & V). exists z. split; [exact E|]. split; [exact Uz|]. split; [exact Az|].
    intros c Ic. unfold amount_at, value_at. rewrite (V c Ic), Sz, Uz. rewrite (proj2 (proj2 Sd) _ _ Eu). unfold Qcdiv.
    rewrite !inv_mult.
    ring.
Qed.
Theorem C28_product_array_scalar (op : mulop) (x : arr) (y : obj) u : sound_units -> tidy x -> okind y = KScalar -> well_formed y ->
  unit_op umul udiv op (aunit x) (ounit y) = Ok u ->
  exists z, mult op (op_fun op) (PArr x) (PObj y) = Ok (PArr z) /\ aunit z = u /\ paxes z = paxes x /\
    forall c, inside x c -> amount_at size z c = op_fun op (amount_at size x c) (amount size y []).
Proof.
  intros Sd T K W Eu. assert (Sy : shape (odata y) = []) by (unfold well_formed in W; rewrite K in W; exact W).
  destruct (mul_scalar umul udiv uinv (op_fun op) op x y u T Sy Eu) as (z & E & _ & Uz & Sz & Az & _ & V). exists z. split; [exact E|]. split; [exact Uz|]. split; [exact Az|].
  intros c Ic. unfold amount_at, amount, value_at. rewrite (V c Ic), Sz, Uz, (op_unit op _ _ _ Sd Eu), Qcmult_1_l. apply op_scales.
Qed.
(** the result does not depend on the units in which the operands are given *)
Lemma same_operand (a a' : obj) ix : same_quantity size a a' -> valid ix (shape (odata a)) -> amount size a ix = amount size a' ix.
Proof. intros (_ & _ & H). apply H. Qed.
Theorem C28_sum_representation (f : Qc -> Qc -> Qc) (x x' y y' z z' : obj) : additive_op f ->
  well_formed x -> well_formed x' -> well_formed y -> well_formed y' -> same_quantity size x x' -> same_quantity size y y' ->
  add f (PObj x) (PObj y) = Ok (PObj z) -> add f (PObj x') (PObj y') = Ok (PObj z') -> same_quantity size z z'.
Proof using M.
  intros A Wx Wx' Wy Wy' Sx Sy H H'.
  destruct (obj_add_cases (B := B) ueq uone beq blen bin f x y Wx Wy) as [(E & _)|(sh & E & Q & K & _)]; [congruence|]. cbv zeta in K. rewrite H in K. injection K as Kz.
  destruct (obj_add_cases (B := B) ueq uone beq blen bin f x' y' Wx' Wy') as [(E' & _)|(sh' & E' & Q' & K' & _)]; [congruence|]. cbv zeta in K'. rewrite H' in K'. injection K' as Kz'.
  destruct (proj1 (proj2 (C28_sum f x y A Wx Wy)) _ H) as (? & [= <-] & _ & _ & _ & Sh & V).
  destruct (proj1 (proj2 (C28_sum f x' y' A Wx' Wy')) _ H') as (? & [= <-] & _ & _ & _ & Sh' & V').
  destruct Sx as (Kx & Shx & Vx). destruct Sy as (Ky & Shy & Vy).
  assert (Sz : shape (odata z) = shape (odata z')) by (rewrite Shx, Shy, Sh' in Sh; injection Sh as ->; reflexivity).
  split; [rewrite Kz, Kz'; cbn [okind]; rewrite Kx, Ky; reflexivity|]. split; [exact Sz|]. intros ix Vi. rewrite V, V', <- Shx, <- Shy. f_equal; [apply Vx|apply Vy].
  - eapply operand_valid; eassumption.
  - eapply operand_valid_r; eassumption.
Qed.
Theorem C28_product_representation (op : mulop) (x x' y y' z z' : obj) : sound_units ->
  well_formed x -> well_formed x' -> well_formed y -> well_formed y' -> same_quantity size x x' -> same_quantity size y y' ->
  mult op (op_fun op) (PObj x) (PObj y) = Ok (PObj z) -> mult op (op_fun op) (PObj x') (PObj y') = Ok (PObj z') -> same_quantity size z z'.
Proof.
  intros A Wx Wx' Wy Wy' Sx Sy H H'.
  destruct (obj_mul_cases (B := B) umul udiv uinv op (op_fun op) x y Wx Wy) as [(e & E & _)|(sh & u & E & Q & K & _)]; [congruence|]. cbv zeta in K. rewrite H in K. injection K as Kz.
  destruct (obj_mul_cases (B := B) umul udiv uinv op (op_fun op) x' y' Wx' Wy') as [(e' & E' & _)|(sh' & u' & E' & Q' & K' & _)]; [congruence|]. cbv zeta in K'. rewrite H' in K'. injection K' as Kz'.
  destruct (C28_product op x y _ A Wx Wy H) as (? & [= <-] & _ & _ & Sh & V).
  destruct (C28_product op x' y' _ A Wx' Wy' H') as (? & [= <-] & _ & _ & Sh' & V').
  destruct Sx as (Kx & Shx & Vx). destruct Sy as (Ky & Shy & Vy).
  assert (Sz : shape (odata z) = shape (odata z')) by (rewrite Shx, Shy, Sh' in Sh; injection Sh as ->; reflexivity).
  split; [rewrite Kz, Kz'; cbn [okind]; rewrite Kx, Ky; reflexivity|]. split; [exact Sz|]. intros ix Vi. rewrite V, V', <- Shx, <- Shy. f_equal; [apply Vx|apply Vy].
  - eapply operand_valid; eassumption.
  - eapply operand_valid_r; eassumption.
Qed.
(** comparisons need equal units, and compare the amounts *)
Definition order_op (f : Qc -> Qc -> bool) : Prop := forall k a b, (0 < k)%Qc -> f (k * a)%Qc (k * b)%Qc = f a b.
Theorem C28_comparison (f : Qc -> Qc -> bool) (x y : obj) : order_op f -> (forall u, (0 < size u)%Qc) ->
  (ueq (ounit x) (ounit y) = false -> compare f (PObj x) (PObj y) = Raise ValueError) /\
  (forall r, compare f (PObj x) (PObj y) = Ok r -> ueq (ounit x) (ounit y) = true /\ bcast_shape (shape (odata x)) (shape (odata y)) = Some (shape r) /\
     forall ix, elem r ix = f (amount size x (operand_index (shape (odata x)) ix)) (amount size y (operand_index (shape (odata y)) ix))).
Proof using M.
  intros O Ps. cbn [pcompare]. destruct (ueq (ounit x) (ounit y)) eqn:E; [|split; [reflexivity|discriminate]]. split; [discriminate|].
  intros r H. destruct (map2_cases f (odata x) (odata y)) as [(_ & Q)|(sh & Q & K)]; [congruence|]. rewrite H in K. injection K as ->. split; [reflexivity|]. split; [exact Q|].
  intros ix. cbn [elem]. unfold amount. rewrite <- (equal_sizes _ _ _ M _ _ E), O by apply Ps. reflexivity.
Qed.
(** powers with a number as the exponent *)
Theorem C28_power (pw : Qc -> Qc -> Qc) (x : obj) p v : (forall a b, pw (a * b)%Qc p = (pw a p * pw b p)%Qc) -> (forall u w, upow u p = Ok w -> size w = pw (size u) p) ->
  well_formed x -> power pw (PObj x) (PNum p) = Ok v ->
  exists z, v = PObj z /\ okind z = okind x /\ upow (ounit x) p = Ok (ounit z) /\ shape (odata z) = shape (odata x) /\ forall ix, amount size z ix = pw (amount size x ix) p.
Proof.
  intros Hp Hu W H. unfold pexponential in H. cbn [exponent bind] in H. destruct (upow (ounit x) p) as [u|] eqn:E; [|discriminate]. cbn [bind] in H.
  rewrite build_ok in H by exact W. injection H as <-. eexists. split; [reflexivity|]. split; [reflexivity|]. split; [reflexivity|]. split; [reflexivity|].
  intros ix. unfold amount. cbn [ounit odata nd_map elem]. rewrite Hp, (Hu _ _ E). reflexivity.
Qed.
Theorem C28_power_array (pw : Qc -> Qc -> Qc) (x : arr) p u : (forall a b, pw (a * b)%Qc p = (pw a p * pw b p)%Qc) -> (forall u w, upow u p = Ok w -> size w = pw (size u) p) ->
  tidy x -> upow (aunit x) p = Ok u ->
  exists z, power pw (PArr x) (PNum p) = Ok (PArr z) /\ aunit z = u /\ paxes z = paxes x /\ forall c, inside x c -> amount_at size z c = pw (amount_at size x c) p.
Proof.
  intros Hp Hu T E. destruct (power_arr ueq upow uone pw x (PNum p) p u T eq_refl E) as (z & H & _ & Uz & Sz & Az & _ & V). exists z. split; [exact H|]. split; [exact Uz|]. split; [exact Az|].
  intros c Ic. unfold amount_at, value_at. rewrite (V c Ic), Sz, Uz, !Hp, (Hu _ _ E). 
ring.
Qed.
(** The remainder of two quantities in one unit has the unit '1', so it is wrong
    in every unit whose size is not 1. *)
Theorem C28_remainder_refuted (rem : Qc -> Qc -> Qc) (x y z : obj) ix : (forall k a b, rem (k * a)%Qc (k * b)%Qc = (k * rem a b)%Qc) ->
  sound_units -> well_formed x -> well_formed y -> ounit x = ounit y -> size (ounit x) <> 1%Qc ->
  mult ODiv rem (PObj x) (PObj y) = Ok (PObj z) ->
  rem (elem (odata x) (operand_index (shape (odata x)) ix)) (elem (odata y) (operand_index (shape (odata y)) ix)) <> 0%Qc ->
  amount size z ix <> rem (amount size x (operand_index (shape (odata x)) ix)) (amount size y (operand_index (shape (odata y)) ix)).
Proof using M.
  intros Hr Sd Wx Wy Eu Ns H Nz. destruct (obj_mul_cases (B := B) umul udiv uinv ODiv rem x y Wx Wy) as [(e & E & _)|(sh & u & E & Q & K & _)]; [congruence|].
  cbv zeta in K. rewrite H in K. injection K as ->. unfold amount. cbn [ounit odata elem]. rewrite <- Eu, Hr. cbn [unit_op] in Q.
  rewrite (proj1 (proj2 Sd) _ _ _ Q), <- Eu. unfold Qcdiv. rewrite Qcmult_inv_r by apply M. intros X. apply Ns.
  apply (f_equal (fun q => (q * / rem (elem (odata x) (operand_index (shape (odata x)) ix)) (elem (odata y) (operand_index (shape (odata y)) ix)))%Qc)) in X.
  rewrite <- !Qcmult_assoc, Qcmult_inv_r, !Qcmult_1_r in X by exact Nz. symmetry. exact X.
Qed.

(** ** C29: axes and data *)
Theorem C29_sum (f : Qc -> Qc -> Qc) (x y z : arr) : (forall a b, beq a b = true -> blen a = blen b) ->
  tidy x -> tidy y -> lengths_agree blen x -> lengths_agree blen y -> add f (PArr x) (PArr y) = Ok (PArr z) ->
  anames (face z) = map fst (paxes z) /\ lengths_agree blen z.
Proof.
  intros Be Tx Ty Lx Ly H. split; [|exact (add_lengths ueq uone beq blen bin f x y z Be Tx Ty Lx Ly H)].
  destruct (arr_add ueq uone beq blen bin f x y _ Tx Ty H) as (z' & [= <-] & Tz & _). apply tidy_names, Tz.
Qed.
(** The names of a product always agree with its data; the lengths do exactly if
    no axis of the right operand is shorter than its counterpart (a longer axis
    is only possible if the right operand has one element). *)
Theorem C29_product (op : mulop) (f : Qc -> Qc -> Qc) (x y z : arr) : tidy x -> tidy y -> lengths_agree blen x -> lengths_agree blen y ->
  mult op f (PArr x) (PArr y) = Ok (PArr z) ->
  anames (face z) = map fst (paxes z) /\
  (lengths_agree blen z <-> forall d n m, axis_len (face x) d n -> axis_len (face y) d m -> n <= m).
Proof.
  intros Tx Ty Lx Ly H. split; [|exact (mul_lengths umul udiv uinv blen op f x y z Tx Ty Lx Ly H)].
  destruct (arr_mul umul udiv uinv op f x y _ Tx Ty H) as (z' & [= <-] & Tz & _). apply tidy_names, Tz.
Qed.
Theorem C29_product_partial (op : mulop) (f : Qc -> Qc -> Qc) (x y z : arr) : tidy x -> tidy y -> lengths_agree blen x -> lengths_agree blen y ->
  mult op f (PArr x) (PArr y) = Ok (PArr z) -> ~ singleton (face y) -> lengths_agree blen z.
Proof.
  intros Tx Ty Lx Ly H Ns. apply (C29_product op f x y z Tx Ty Lx Ly H). destruct (arr_mul umul udiv uinv op f x y _ Tx Ty H) as (z' & [= <-] & _ & _ & _ & _ & _ & Co & _ & _).
  intros d n m Hn Hm. destruct Co as [Sx|[Sy|Eq]]; [|contradiction|rewrite (Eq d n m Hn Hm); apply Nat.le_refl].
  assert (n = 1). { destruct Hn as (k & _ & Hk). unfold singleton in Sx. rewrite Forall_forall in Sx. apply Sx. eapply nth_error_In, Hk. }
  subst n. eapply axis_pos; [apply Ty|exact Hm].
Qed.
(** numbers, scalars, signs and powers keep the axes *)
Theorem C29_elementwise (x z : arr) u g : tidy x -> elementwise x z u g -> lengths_agree blen x -> lengths_agree blen z /\ paxes z = paxes x.
Proof. intros T E L. split; [exact (elementwise_lengths blen x z u g T E L)|apply E]. Qed.

(** ** C56: transposition *)
Theorem C56_transpose_partial (x : arr) d : tidy x -> Permutation (names d) (map fst (paxes x)) ->
  exists z, ptranspose x (TNames d) (ByName (names d)) = Ok z /\ tidy z /\ aunit z = aunit x /\
    map fst (paxes z) = names d /\ Permutation (paxes x) (paxes z) /\ (forall e n, axis_len (face z) e n <-> axis_len (face x) e n) /\
    forall c, inside x c -> (scale x = 1%Qc \/ at_ (face x) c = 0%Qc <-> amount_at size z c = amount_at size x c).
Proof using M.
  intros T P. destruct (transpose_by_name x d T P) as (z & E & Tz & Uz & Sz & Nz & Pz & (Lz & Vz)). exists z. split; [exact E|]. split; [exact Tz|]. split; [exact Uz|].
  split; [exact Nz|]. split; [exact Pz|]. split; [intros e n; symmetry; apply Lz|]. intros c Ic. unfold amount_at, value_at. rewrite <- (Vz c Ic), Sz, Uz, Qcmult_1_l. split.
  - intros [-> | ->]; ring.
  - intros K. destruct (Qc_eq_dec (at_ (face x) c) 0) as [|Nc]; [right; assumption|left].
    apply (f_equal (fun q => (/ size (aunit x) * q * / at_ (face x) c)%Qc)) in K.
    assert (I1 : (/ size (aunit x) * size (aunit x) = 1)%Qc) by (rewrite Qcmult_comm; apply Qcmult_inv_r, M).
    rewrite !Qcmult_assoc, I1, !Qcmult_1_l in K. rewrite <- !Qcmult_assoc, Qcmult_inv_r, Qcmult_1_r in K by exact Nc. symmetry. exact K.
Qed.
Theorem C56_transpose_by_axes_partial (x : arr) axes k : tidy x -> scale x = 1%Qc ->
  Forall2 (fun z i => selects_axis (SInt z) (length (paxes x)) [i]) axes k -> Permutation k (seq 0 (length (paxes x))) ->
  exists z, ptranspose x (TAxes axes) (ByIndex axes) = Ok z /\ tidy z /\ aunit z = aunit x /\
    map fst (paxes z) = map (fun i => nth i (map fst (paxes x)) []) k /\ Permutation (paxes x) (paxes z) /\ (forall e n, axis_len (face z) e n <-> axis_len (face x) e n) /\
    forall c, inside x c -> amount_at size z c = amount_at size x c.
Proof.
  intros T S F P. assert (F' : Forall2 (fun z i => norm_index (length (paxes x)) z = Some i) axes k).
  { clear P. induction F as [|z i ? ? H F IH]; constructor; [|apply IH]. apply norm_index_iff in H as (i' & E & H & _). injection E as ->. exact H. }
  destruct (transpose_by_axes x axes k T F' P) as (z & E & Tz & Uz & Sz & Nz & Pz & (Lz & Vz)). exists z. split; [exact E|]. split; [exact Tz|]. split; [exact Uz|].
  split; [exact Nz|]. split; [exact Pz|]. split; [intros e n; symmetry; apply Lz|]. intros c Ic. unfold amount_at, value_at. rewrite <- (Vz c Ic), Sz, Uz, S. reflexivity.
Qed.
Theorem C56_converted_refuted (x y z : arr) v d c : tidy x -> converted x v = Ok y -> ueq (aunit x) v = false -> size (aunit x) <> size v ->
  Permutation (names d) (map fst (paxes x)) -> ptranspose y (TNames d) (ByName (names d)) = Ok z ->
  inside x c -> at_ (face x) c <> 0%Qc -> amount_at size z c <> amount_at size y c.
Proof using M.
  intros T H E Ns P Hz Ic Nz. destruct (C27_conversion_law x y v T H E) as (Ty & Uy & Ay & Fy & Gy).
  destruct (C56_transpose_partial y d Ty) as (z' & Q & _ & _ & _ & _ & _ & V); [rewrite Ay; exact P|]. rewrite Hz in Q. injection Q as <-.
  intros K. apply V in K; [|unfold inside; rewrite Fy; exact Ic]. rewrite Fy in K. destruct K as [K|K]; [|contradiction].
  apply Ns. rewrite <- (factor_sizes _ _ _ M _ _ _ Gy), K. ring.
Qed.

(** ** C63: parts of an array *)
(** [members]: the references of an axis; [bget v i] has those at the positions
    that [i] selects (C62) *)
Context {R : Type}.
Variable (members : B -> list R) (bget : B -> sub -> result B).
Definition takes_members : Prop := forall v i ps, selects_axis i (length (members v)) ps ->
  exists w, bget v i = Ok w /\ Forall2 (fun p m => nth_error (members v) p = Some m) ps (members w).
Lemma parts_of_axes idx : takes_members -> forall (ax : list (str * B)) sh ps, selects_axes idx sh ps -> length idx = length ax -> sh = map (fun kv => length (members (snd kv))) ax ->
  exists ws, Forall2 (fun i (kw : (str * B) * B) => bget (snd (fst kw)) i = Ok (snd kw)) idx (combine ax ws) /\ length ws = length ax /\ length ps = length ax /\
    Forall2 (fun (kp : (str * B) * list nat) w => Forall2 (fun p m => nth_error (members (snd (fst kp))) p = Some m) (snd kp) (members w)) (combine ax ps) ws.
Proof.
  intros TM. induction idx as [|i idx IH]; intros ax sh ps Se L E; destruct ax as [|[k v] ax]; try discriminate.
  - subst sh. inversion Se; subst. exists []. cbn. split; [constructor|]. split; [reflexivity|]. split; [reflexivity|constructor].
  - cbn [map] in E. subst sh. inversion Se as [|? ? n sh' p ps' Hi Se']; subst. cbn [snd] in Hi.
    destruct (TM v i p Hi) as (w & Hw & Fw). destruct (IH ax _ ps' Se') as (ws & F1 & L1 & L2 & F2); [now injection L|reflexivity|].
    exists (w :: ws). cbn [combine length]. split; [constructor; [exact Hw|exact F1]|]. split; [rewrite L1; reflexivity|]. split; [rewrite L2; reflexivity|]. constructor; [exact Fw|exact F2].
Qed.
Theorem C63_part_partial (x : arr) args idx ps : takes_members -> tidy x -> shape (data (face x)) = map (fun kv => length (members (snd kv))) (paxes x) ->
  expand (length (paxes x)) args = Ok idx -> length idx = length (paxes x) -> selects_axes idx (shape (data (face x))) ps ->
  ((exists s, In s idx /\ is_builtin s = false) /\
     (forall i sl n, nth_error idx i = Some (SSlice sl) -> nth_error (shape (data (face x))) i = Some n -> selects_axis (SSlice sl) n (seq 0 n))) \/
  ((forall s, In s idx -> match s with SInt _ | SSlice _ => True | _ => False end) /\
     ((forall i sl n p, nth_error idx i = Some (SSlice sl) -> nth_error (shape (data (face x))) i = Some n -> nth_error ps i = Some p ->
        (or_z (sl_stop sl) (Z.of_nat n) - or_z (sl_start sl) 0)%Z = Z.of_nat (length p)) \/ (forall z, ~ In (SInt z) idx))) ->
  exists z, pgetitem bget x args = Ok z /\ aunit z = aunit x /\ scale z = 1%Qc /\ map fst (paxes z) = map fst (paxes x) /\ anames (face z) = map fst (paxes x) /\
    shape (data (face z)) = map (@length nat) ps /\
    Forall2 (fun (kp : (str * B) * list nat) w => Forall2 (fun p m => nth_error (members (snd (fst kp))) p = Some m) (snd kp) (members w)) (combine (paxes x) ps) (map snd (paxes z)) /\
    forall ix jx, picks ps ix jx -> valid jx (shape (data (face x))) -> (size (aunit z) * elem (data (face z)) ix = size (aunit x) * (scale x * elem (data (face x)) jx))%Qc.
Proof.
  intros TM T Sh E L Se Cond. destruct (parts_of_axes idx TM (paxes x) _ ps Se L Sh) as (ws & F1 & L1 & L2 & F2).
  destruct (getitem_block bget x args idx ps ws T E) as (z & Hz & Uz & Sz & Az & Shz & Nz & V); try assumption.
  - intros a Sa. rewrite <- Sa in Se. destruct Cond as [(X & Y)|(X & Y)].
    + apply C16_sequences_select_per_axis_partial; [exact Se|exact X|]. rewrite Sa. exact Y.
    + apply C16_slices_select_per_axis_partial; [exact Se|unfold ndim; rewrite Sa, Sh, map_length; exact L|exact X|rewrite Sa; exact Y].
  - exists z. split; [exact Hz|]. split; [exact Uz|]. split; [exact Sz|]. rewrite Az.
    assert (P : map fst (combine (map fst (paxes x)) ws) = map fst (paxes x) /\ map snd (combine (map fst (paxes x)) ws) = ws).
    { clear -L1. revert ws L1. induction (paxes x) as [|kv ax IH]; intros [|w ws] L; try discriminate; [split; reflexivity|]. cbn [map combine fst snd]. injection L as L. destruct (IH ws L) as (-> & ->). split; reflexivity. }
    destruct P as (-> & ->). split; [reflexivity|]. split; [exact Nz|]. split; [exact Shz|]. split; [exact F2|]. intros ix jx P Vj. rewrite Uz, (V ix jx P Vj). reflexivity.
Qed.
End C.
Print Assumptions C26_withunit_preserves.
Print Assumptions C26_withunit_exactly_when.
Print Assumptions C26_round_trip.
Print Assumptions C26_chain.
Print Assumptions C27_values_shown.
Print Assumptions C27_exactly_when.
Print Assumptions C27_first_conversion_partial.
Print Assumptions C27_conversion_law.
Print Assumptions C27_second_conversion_refuted.
Print Assumptions C28_sum.
Print Assumptions C28_sum_arrays.
Print Assumptions C28_sum_units_differ.
Print Assumptions C28_number_has_no_unit.
Print Assumptions C28_sum_array_scalar.
Print Assumptions C28_product.
Print Assumptions C28_product_arrays.
Print Assumptions C28_product_number.
Print Assumptions C28_product_array_scalar.
Print Assumptions C28_sum_representation.
Print Assumptions C28_product_representation.
Print Assumptions C28_comparison.
Print Assumptions C28_power.
Print Assumptions C28_power_array.
Print Assumptions C28_remainder_refuted.
Print Assumptions C29_sum.
Print Assumptions C29_product.
Print Assumptions C29_product_partial.
Print Assumptions C29_elementwise.
Print Assumptions C56_transpose_partial.
Print Assumptions C56_transpose_by_axes_partial.
Print Assumptions C56_converted_refuted.
Print Assumptions C63_part_partial.
