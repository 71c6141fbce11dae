(** * Physical objects: instances that meet the hypotheses of PhysicalProperties.v,
      and claims that are false *)
From Verif Require Import PyBase PyLemmas ContainerModel ContainerSpec ContainerProofs ContainerProofs2 Nd IndexModel IndexSpec IndexProofs IndexProofs2 ArrayModel ArraySpec ArrayProofs AxesModel AxesSpec AxesProofs AxisModel AxisProofs PhysicalModel PhysicalSpec PhysicalProofs PhysicalProperties.
From Coq Require Import Permutation.

(** ** Units: a size and the exponent of one dimension *)
Definition U : Type := (Qc * Z)%type.
Definition usize (u : U) : Qc := if qc_ltb 0 (fst u) then fst u else 1%Qc.
Definition uequal (u v : U) : bool := qc_eqb (usize u) (usize v) && Z.eqb (snd u) (snd v).
Definition ufactor (u v : U) : option Qc := if Z.eqb (snd u) (snd v) then Some (usize u / usize v)%Qc else None.
Definition utimes (u v : U) : result U := Ok ((usize u * usize v)%Qc, (snd u + snd v)%Z).
Definition uover (u v : U) : result U := Ok ((usize u / usize v)%Qc, (snd u - snd v)%Z).
Definition uunit : U := (1%Qc, 0%Z).
Definition uinverse (u : U) : result U := uover uunit u.
Definition usquare (u : U) (p : Qc) : result U := if qc_eqb p (zq 2) then utimes u u else Raise ValueError.
Definition ucomparable (u v : U) : bool := Z.eqb (snd u) (snd v).
Lemma usize_pos u : (0 < usize u)%Qc.
Proof. unfold usize. destruct (qc_ltb_spec 0 (fst u)); [assumption|reflexivity]. Qed.
Lemma usize_of q z : (0 < q)%Qc -> usize (q, z) = q.
Proof. intros H. unfold usize. cbn [fst]. destruct (qc_ltb_spec 0 q); [reflexivity|contradiction]. Qed.
Lemma usize_nonzero u : usize u <> 0%Qc.
Proof. intros H. pose proof (usize_pos u) as P. rewrite H in P. discriminate P. Qed.
Lemma inverse_pos q : (0 < q)%Qc -> (0 < / q)%Qc.
Proof. intros H. unfold Qclt in *. change (this (Q2Qc 0)) with 0%Q in *. change (this (/ q)%Qc) with (Qred (/ this q)). rewrite (Qred_correct (/ this q)). apply Qinv_lt_0_compat. exact H. Qed.
Lemma product_pos a b : (0 < a)%Qc -> (0 < b)%Qc -> (0 < a * b)%Qc.
Proof. intros Ha Hb. rewrite <- (Qcmult_0_l b). apply Qcmult_lt_compat_r; assumption. Qed.
Lemma u_measures : measures uequal ufactor usize.
Proof.
  split.
  - apply usize_nonzero.
  - intros u v H. apply andb_true_iff in H as (H & _). apply qc_eqb_eq, H.
  - intros u v w H. unfold ufactor in H. destruct Z.eqb; [|discriminate]. injection H as <-. field. apply usize_nonzero.
Qed.
Lemma u_sound : sound_units utimes uover uinverse usize.
Proof.
  assert (D : forall u v w, uover u v = Ok w -> usize w = (usize u / usize v)%Qc).
  { intros u v w [= <-]. apply usize_of. apply product_pos; [apply usize_pos|apply inverse_pos, usize_pos]. }
  split; [|split].
  - intros u v w [= <-]. apply usize_of, product_pos; apply usize_pos.
  - exact D.
  - intros u w H. rewrite (D _ _ _ H). unfold Qcdiv. change (usize uunit) with 1%Qc. ring.
Qed.
Lemma u_square u p w : usquare u p = Ok w -> usize w = (usize u * usize u)%Qc.
Proof. unfold usquare. destruct qc_eqb; [|discriminate]. apply (proj1 u_sound). Qed.

Definition metre : U := (1%Qc, 1%Z).
Definition centimetre : U := (mkq 1 100, 1%Z).
Definition kilometre : U := (zq 1000, 1%Z).
Definition second : U := (1%Qc, 5%Z).

(** ** Axes: lists of integers, subscripted like the axes of the package *)
Definition B : Type := list Z.
Definition bequal : B -> B -> bool := list_eqb Z.eqb.
Definition bwithin (a b : B) : bool := forallb (fun z => mem Z.eqb z b) a.
Definition as_subscript (i : sub) : subscript :=
  match i with SInt z | SIntegral z => SubInt z | SSlice sl => SubSlice sl | SSeq l => SubList l | SEll | SNone => Whole end.
Definition bpart (v : B) (i : sub) : result B := r <- axis_getitem v (as_subscript i) ;; Ok (fst r).
Lemma one_position_of n l p : Forall2 (fun z k => selects_axis (SInt z) n [k]) l p -> mapM (one_position n) l = Ok p.
Proof.
  induction 1 as [|z k l p H F IH]; [reflexivity|]. cbn [mapM]. apply norm_index_iff in H as (i & [= <-] & H & _).
  unfold one_position at 1. rewrite H. cbn [bind]. rewrite IH. reflexivity.
Qed.
Lemma positions_of i n ps : selects_axis i n ps -> data_positions n (as_subscript i) = Ok ps.
Proof.
  assert (I : forall z, selects_axis (SInt z) n ps -> data_positions n (SubInt z) = Ok ps).
  { intros z H. apply norm_index_iff in H as (k & -> & H & _). cbn [data_positions]. unfold one_position. rewrite H. reflexivity. }
  intros H. destruct i as [z|z|sl| | |l].
  - apply I, H.
  - apply I. inversion H; assumption.
  - apply slice_positions_iff, H.
  - inversion H.
  - inversion H.
  - apply one_position_of. inversion H; assumption.
Qed.
Lemma stored_ok n i : is_ok (stored_indices n i) = true.
Proof. unfold stored_indices. destruct (is_whole i); [reflexivity|]. destruct i as [|z|sl|l]; try reflexivity. unfold slice2range. destruct (sl_stop sl); reflexivity. Qed.
(** the axes of the package satisfy the hypothesis of C63 *)
Lemma axes_take_members : takes_members (fun v : B => v) bpart.
Proof.
  intros v i ps H. unfold bpart. destruct (axis_getitem v (as_subscript i)) as [[ms ix]|] eqn:E.
  - exists ms. split; [reflexivity|]. destruct (getitem_members v _ ms ix E) as (qs & Q & F). rewrite (positions_of _ _ _ H) in Q. injection Q as <-. exact F.
  - unfold axis_getitem in E. rewrite (positions_of _ _ _ H) in E. cbn [bind] in E. pose proof (stored_ok (length v) (as_subscript i)) as K.
    destruct (stored_indices (length v) (as_subscript i)); discriminate.
Qed.

(** ** The operations of these instances *)
Notation to_unit := (obj_withunit uequal ufactor ucomparable).
Notation arr_to_unit := (arr_withunit (B := B) uequal ufactor ucomparable).
Notation add := (padditive uequal uunit bequal (@length Z) bwithin).
Notation mult := (pmultiplicative (B := B) utimes uover uinverse).
Notation compare := (pcompare (B := B) uequal).

Definition vec (l : list Qc) : nd Qc := mknd [length l] (fun ix => nth (nth 0 ix 0) l 0%Qc).
Definition vals (d : nd Qc) : list Q :=
  match shape d with
  | [n] => map (fun i => this (elem d [i])) (seq 0 n)
  | [n; m] => flat_map (fun i => map (fun j => this (elem d [i; j])) (seq 0 m)) (seq 0 n)
  | _ => [this (elem d [])]
  end.
Definition lengths_m : pobj (U := U) := mkobj KVector (vec [zq 1; zq 2; zq 3]) metre.
Lemma lengths_ok : well_formed lengths_m. Proof. reflexivity. Qed.

Example C26_case : exists y z, to_unit lengths_m centimetre = Ok y /\ vals (odata y) = [100; 200; 300]%Q /\ ounit y = centimetre /\
  chain to_unit lengths_m [centimetre; kilometre; metre] = Ok z /\ vals (odata z) = [1; 2; 3]%Q /\
  to_unit lengths_m second = Raise ValueError.
Proof.
  do 2 eexists. split; [vm_compute; reflexivity|]. split; [vm_compute; reflexivity|]. split; [vm_compute; reflexivity|]. split; [vm_compute; reflexivity|]. split; vm_compute; reflexivity.
Qed.

(** an array with two axes *)
Definition table (n m : nat) (f : nat -> nat -> Qc) : nd Qc := mknd [n; m] (fun ix => f (nth 0 ix 0) (nth 1 ix 0)).
Definition xs (n : nat) : B := map Z.of_nat (seq 0 n).
Definition arr2 (n m : nat) (f : nat -> nat -> Qc) (u : U) (a b : str) : parr (U := U) (B := B) :=
  mkparr (mkarray (table n m f) (Named [a; b])) 1 u [(a, xs n); (b, xs m)].
Definition arr1 (l : list Qc) (u : U) (a : str) : parr (U := U) (B := B) := mkparr (mkarray (vec l) (Named [a])) 1 u [(a, xs (length l))].
Lemma arr1_tidy l u a : l <> [] -> tidy (arr1 l u a).
Proof.
  intros H. split; [|split; [reflexivity|discriminate]]. split; [repeat constructor; cbn; tauto|]. split; [reflexivity|]. constructor; [|constructor].
  destruct l; [contradiction|cbn; lia].
Qed.
Lemma arr2_tidy n m f u a b : 0 < n -> 0 < m -> a <> b -> tidy (arr2 n m f u a b).
Proof.
  intros Hn Hm H. split; [|split; [reflexivity|discriminate]]. split; [|split; [reflexivity|repeat constructor; assumption]].
  repeat constructor; cbn; intuition congruence.
Qed.
Definition ax : str := s "x".
Definition ay : str := s "y".
Lemma ax_ay : ax <> ay. Proof. discriminate. Qed.
Definition grid : parr (U := U) (B := B) := arr2 2 3 (fun i j => zq (Z.of_nat (1 + 10 * i + j))) metre ax ay.
Lemma grid_tidy : tidy grid. Proof. apply arr2_tidy; [lia|lia|exact ax_ay]. Qed.
Definition at_xy (i j : nat) : coords := fun k => if str_eqb k ax then i else j.
Definition shown (v : parr (U := U) (B := B)) : list Q := match adata v with Ok d => vals (data d) | Raise _ => [] end.
Definition shown_by (r : result (pval (U := U) (B := B))) : list Q :=
  match r with Ok (PArr v) => shown v | Ok (PObj o) => vals (odata o) | _ => [] end.

(** converting the grid once is right; converting it again is not *)
Example C27_case : exists y z, arr_to_unit grid centimetre = Ok y /\ shown y = [100; 200; 300; 1100; 1200; 1300]%Q /\
  arr_to_unit y metre = Ok z /\ shown z = [1 # 100; 1 # 50; 3 # 100; 11 # 100; 3 # 25; 13 # 100]%Q.
Proof. do 2 eexists. split; [vm_compute; reflexivity|]. split; [vm_compute; reflexivity|]. split; vm_compute; reflexivity. Qed.
Example C27_refuted_case : tidy grid /\ scale grid = 1%Qc /\ uequal (aunit grid) centimetre = false /\ uequal centimetre metre = false /\
  usize (aunit grid) <> usize centimetre /\ value_at grid (at_xy 0 0) <> 0%Qc.
Proof. split; [exact grid_tidy|]. split; [reflexivity|]. split; [reflexivity|]. split; [reflexivity|]. split; intros H; apply (f_equal this) in H; vm_compute in H; discriminate. Qed.

(** sums *)
Example C28_sum_case : shown_by (add Qcplus (PObj lengths_m) (PObj lengths_m)) = [2; 4; 6]%Q /\
  shown_by (add Qcplus (PArr grid) (PArr grid)) = [2; 4; 6; 22; 24; 26]%Q /\
  shown_by (add Qcminus (PArr grid) (PObj (mkobj KScalar (nd_scalar (zq 1)) metre))) = [0; 1; 2; 10; 11; 12]%Q /\
  add Qcplus (PObj lengths_m) (PObj (mkobj KScalar (nd_scalar (zq 1)) second)) = Raise ValueError /\
  add Qcplus (PArr grid) (PNum 1%Qc) = Raise (OtherError "PhysicalTypeError").
Proof. split; [vm_compute; reflexivity|]. split; [vm_compute; reflexivity|]. split; [vm_compute; reflexivity|]. split; vm_compute; reflexivity. Qed.
(** products: dimensions are merged by name *)
Example C28_product_case : shown_by (mult OMul Qcmult (PArr grid) (PArr (arr1 [zq 1; zq 2; zq 3] second ay))) = [1; 4; 9; 11; 24; 39]%Q /\
  shown_by (mult OMul Qcmult (PArr (arr1 [zq 1; zq 2] metre ax)) (PArr (arr1 [zq 1; zq 2; zq 3] second ay))) = [1; 2; 3; 2; 4; 6]%Q /\
  shown_by (mult ODiv Qcdiv (PObj lengths_m) (PObj (mkobj KScalar (nd_scalar (zq 2)) second))) = [1 # 2; 1; 3 # 2]%Q /\
  shown_by (mult ODiv Qcdiv (PNum (zq 6)) (PObj lengths_m)) = [6; 3; 2]%Q /\
  (exists z, mult ODiv Qcdiv (PNum (zq 6)) (PArr grid) = Ok (PArr z) /\ aunit z = (1%Qc, (-1)%Z)).
Proof.
  split; [vm_compute; reflexivity|]. split; [vm_compute; reflexivity|]. split; [vm_compute; reflexivity|]. split; [vm_compute; reflexivity|].
  eexists. split; [reflexivity|]. cbn [aunit]. unfold uinverse, uover. cbn. f_equal.
Qed.
Example C28_power_case : (forall a b : Qc, (a * b * (a * b) = a * a * (b * b))%Qc) /\ (forall u w, usquare u (zq 2) = Ok w -> usize w = (usize u * usize u)%Qc) /\
  shown_by (pexponential (B := B) uequal usquare uunit (fun a _ => a * a)%Qc (PObj lengths_m) (PNum (zq 2))) = [1; 4; 9]%Q.
Proof. split; [intros; ring|]. split; [intros u w; apply u_square|]. vm_compute. reflexivity. Qed.
Example C28_comparison_case : order_op qc_ltb /\ (forall u, (0 < usize u)%Qc) /\
  exists r, compare qc_ltb (PObj lengths_m) (PObj (mkobj KScalar (nd_scalar (zq 2)) metre)) = Ok r /\ map (fun i => elem r [i]) [0; 1; 2] = [true; false; false].
Proof.
  split; [|split; [exact usize_pos|eexists; split; vm_compute; reflexivity]].
  intros k a b Hk. destruct (qc_ltb_spec a b) as [H|H]; destruct (qc_ltb_spec (k * a) (k * b)) as [K|K]; try reflexivity; exfalso.
  - apply K. rewrite (Qcmult_comm k a), (Qcmult_comm k b). apply Qcmult_lt_compat_r; assumption.
  - apply H. destruct (Qclt_le_dec a b) as [L|L]; [exact L|]. exfalso. apply (Qcmult_le_compat_r b a k) in L; [|apply Qclt_le_weak; exact Hk].
    rewrite (Qcmult_comm b), (Qcmult_comm a) in L. exact (Qcle_not_lt _ _ L K).
Qed.
(** A comparison with a plain number does not look at the unit: the same lengths
    in metres and in centimetres compare differently with 50. *)
Theorem C28_number_comparison_refuted : exists y r r', to_unit lengths_m centimetre = Ok y /\ same_quantity usize lengths_m y /\
  compare qc_ltb (PObj lengths_m) (PNum (zq 50)) = Ok r /\ compare qc_ltb (PObj y) (PNum (zq 50)) = Ok r' /\ elem r [0] = true /\ elem r' [0] = false.
Proof.
  destruct (to_unit lengths_m centimetre) as [y|] eqn:Hy; [|vm_compute in Hy; discriminate].
  exists y. pose proof (C26_withunit_preserves uequal ufactor ucomparable usize u_measures lengths_m y centimetre lengths_ok Hy) as (_ & S & _).
  do 2 eexists. split; [reflexivity|]. split; [exact S|]. vm_compute in Hy. injection Hy as <-. split; [reflexivity|]. split; [reflexivity|]. split; vm_compute; reflexivity.
Qed.
Print Assumptions C28_number_comparison_refuted.

(** ** C29 *)
Definition lengths_ok_arr (v : parr (U := U) (B := B)) : Prop := lengths_agree (@length Z) v.
Lemma arr1_lengths l u a : lengths_ok_arr (arr1 l u a).
Proof. unfold lengths_ok_arr, lengths_agree. cbn. unfold xs. rewrite map_length, seq_length. reflexivity. Qed.
Lemma arr2_lengths n m f u a b : lengths_ok_arr (arr2 n m f u a b).
Proof. unfold lengths_ok_arr, lengths_agree. cbn. unfold xs. rewrite !map_length, !seq_length. reflexivity. Qed.
Lemma bequal_lengths a b : bequal a b = true -> length a = length b.
Proof. intros H. apply (list_eqb_spec Z.eqb) in H; [rewrite H; reflexivity|]. intros x y. apply Z.eqb_eq. Qed.
Example C29_case : exists y z, add Qcplus (PArr grid) (PArr grid) = Ok (PArr y) /\ lengths_ok_arr y /\
  mult OMul Qcmult (PArr grid) (PArr (arr1 [zq 1; zq 2; zq 3] second ay)) = Ok (PArr z) /\ lengths_ok_arr z /\
  ~ singleton (face (arr1 [zq 1; zq 2; zq 3] second ay)).
Proof.
  do 2 eexists. split; [reflexivity|]. split; [reflexivity|]. split; [reflexivity|]. split; [reflexivity|].
  intros H. inversion H. discriminate.
Qed.
(** The product of an array and an array with one element on a shared axis: the
    result has three values along an axis of one reference. *)
Theorem C29_product_refuted : exists z, mult OMul Qcmult (PArr (arr1 [zq 1; zq 2; zq 3] metre ax)) (PArr (arr1 [zq 2] second ax)) = Ok (PArr z) /\
  tidy (arr1 [zq 1; zq 2; zq 3] metre ax) /\ lengths_ok_arr (arr1 [zq 1; zq 2; zq 3] metre ax) /\ tidy (arr1 [zq 2] second ax) /\ lengths_ok_arr (arr1 [zq 2] second ax) /\
  shape (data (face z)) = [3] /\ paxes z = [(ax, xs 1)] /\ ~ lengths_ok_arr z.
Proof.
  eexists. split; [reflexivity|]. split; [apply arr1_tidy; discriminate|]. split; [reflexivity|]. split; [apply arr1_tidy; discriminate|]. split; [reflexivity|].
  split; [reflexivity|]. split; [reflexivity|]. intros H. discriminate H.
Qed.
Print Assumptions C29_product_refuted.
(** Likewise an array of length one and a longer tensor, which numpy broadcasts. *)
Theorem C29_tensor_sum_refuted : exists z, add Qcplus (PArr (arr1 [zq 1] metre ax)) (PObj (mkobj KTensor (vec [zq 1; zq 2; zq 3]) metre)) = Ok (PArr z) /\
  shape (data (face z)) = [3] /\ paxes z = [(ax, xs 1)].
Proof. eexists. split; [reflexivity|]. split; reflexivity. Qed.
Print Assumptions C29_tensor_sum_refuted.
(** The factory accepts axes whose lengths are not those of the data. *)
Theorem C29_factory_refuted : exists z, parray_factory (vec [zq 1; zq 2; zq 3]) metre [(ax, xs 5)] = Ok z /\ ~ lengths_ok_arr z.
Proof. eexists. split; [reflexivity|]. intros H. discriminate H. Qed.
Print Assumptions C29_factory_refuted.

(** ** C56 *)
Example C56_case : exists z, ptranspose grid (TNames (Named [ay; ax])) (ByName [ay; ax]) = Ok z /\ shown z = [1; 11; 2; 12; 3; 13]%Q /\
  paxes z = [(ay, xs 3); (ax, xs 2)] /\ Permutation (names (Named [ay; ax])) (map fst (paxes grid)).
Proof. eexists. split; [reflexivity|]. split; [vm_compute; reflexivity|]. split; [reflexivity|]. apply perm_swap. Qed.
Example C56_axes_case : exists z, ptranspose grid (TAxes [-1; 0]%Z) (ByIndex [-1; 0]%Z) = Ok z /\ shown z = [1; 11; 2; 12; 3; 13]%Q /\
  Forall2 (fun z i => selects_axis (SInt z) (length (paxes grid)) [i]) [-1; 0]%Z [1; 0] /\ Permutation [1; 0] (seq 0 2).
Proof.
  eexists. split; [reflexivity|]. split; [vm_compute; reflexivity|]. split; [|apply perm_swap].
  constructor; [apply sel_int_neg; cbn; lia|]. constructor; [apply sel_int; cbn; lia|constructor].
Qed.
Example C56_refuted_case : exists y z, arr_to_unit grid centimetre = Ok y /\ shown y = [100; 200; 300; 1100; 1200; 1300]%Q /\
  ptranspose y (TNames (Named [ay; ax])) (ByName [ay; ax]) = Ok z /\ aunit z = centimetre /\ shown z = [1; 11; 2; 12; 3; 13]%Q.
Proof. do 2 eexists. split; [vm_compute; reflexivity|]. split; [vm_compute; reflexivity|]. split; [reflexivity|]. split; [reflexivity|vm_compute; reflexivity]. Qed.

(** ** C63 *)
Definition sl (a b : option Z) : pyslice := {| sl_start := a; sl_stop := b; sl_step := None |}.
Example C63_case : exists z, pgetitem bpart grid (ATuple [SInt 1; SSlice (sl (Some 0%Z) (Some 2%Z))]) = Ok z /\ shown z = [11; 12]%Q /\
  paxes z = [(ax, [1]%Z); (ay, [0; 1]%Z)] /\
  selects_axes [SInt 1; SSlice (sl (Some 0%Z) (Some 2%Z))] (shape (data (face grid))) [[1]; [0; 1]] /\
  shape (data (face grid)) = map (fun kv => length (snd kv)) (paxes grid).
Proof.
  eexists. split; [vm_compute; reflexivity|]. split; [vm_compute; reflexivity|]. split; [reflexivity|]. split; [|reflexivity].
  constructor; [apply (sel_int 1 2); lia|]. constructor; [|apply (sels_nil [])]. constructor. apply (slice_positions_selects (sl (Some 0%Z) (Some 2%Z)) 3 [0; 1]). reflexivity.
Qed.
(** Fewer subscripts than axes, without an ellipsis, is an error. *)
Theorem C63_missing_subscript_refuted : exists e, pgetitem bpart grid (ATuple [SInt 1]) = Raise e.
Proof. eexists. vm_compute. reflexivity. Qed.
Print Assumptions C63_missing_subscript_refuted.
