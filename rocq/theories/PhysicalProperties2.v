(** * C28, continued: comparisons of arrays, and equality *)
From Verif Require Import PyBase PyLemmas ContainerModel ContainerSpec ContainerProofs ContainerProofs2 Nd IndexModel IndexSpec IndexProofs IndexProofs2 IndexProperties ArrayModel ArraySpec ArrayProofs ArrayProofs2 ArrayProofs3 ArrayProofs4 ArrayProperties AxesModel AxesSpec AxesProofs PhysicalModel PhysicalSpec PhysicalProofs PhysicalProofs2 PhysicalProofs3 PhysicalProofs4 PhysicalProofs5 PhysicalProperties PhysicalExamples PhysFuncModel PhysFuncSpec PhysFuncProofs.

Section C.
Set Default Proof Using "Type".
Context {U B : Type}.
Variables (ueq : U -> U -> bool) (factor : U -> U -> option Qc) (size : U -> Qc) (axeq : B -> B -> bool).
Hypothesis M : measures ueq factor size.
Notation obj := (pobj (U := U)).
Notation arr := (parr (U := U) (B := B)).
Notation compare := (pcompare (B := B) ueq).
Notation equal := (peq ueq axeq).

(** ** Comparisons of two arrays need equal units and equal names, and compare
    the amounts at the same named place *)
Theorem C28_comparison_arrays (f : Qc -> Qc -> bool) (x y : arr) : order_op f -> (forall u, (0 < size u)%Qc) -> tidy x -> tidy y ->
  (ueq (aunit x) (aunit y) = false -> compare f (PArr x) (PArr y) = Raise ValueError) /\
  (map fst (paxes x) <> map fst (paxes y) -> compare f (PArr x) (PArr y) = Raise ValueError) /\
  (forall r, compare f (PArr x) (PArr y) = Ok r ->
     ueq (aunit x) (aunit y) = true /\ map fst (paxes x) = map fst (paxes y) /\
     forall c cx cy, clip (face x) c cx -> inside x cx -> clip (face y) c cy -> inside y cy ->
       elem r (map c (map fst (paxes x))) = f (amount_at size x cx) (amount_at size y cy)).
Proof using M.
  intros O Ps Tx Ty. cbn [pcompare].
  destruct (adata_ok x (proj1 Tx)) as (dx & -> & Nx & _ & Wx & Ax & Vx). destruct (adata_ok y (proj1 Ty)) as (dy & -> & Ny & _ & Wy & Ay & Vy). cbn [bind].
  destruct (C20_comparison Qc f dx dy Wx Wy) as (C1 & C2).
  assert (anames dx = map fst (paxes x)) as Ex by (unfold anames at 1; rewrite Nx; cbn; now apply tidy_names).
  assert (anames dy = map fst (paxes y)) as Ey by (unfold anames at 1; rewrite Ny; cbn; now apply tidy_names).
  destruct (ueq (aunit x) (aunit y)) eqn:E.
  - split; [discriminate|]. split; [intros N; apply C1; congruence|]. intros r H. split; [reflexivity|].
    destruct (C2 r H) as (EN & _ & V). split; [congruence|]. intros c cx cy Kx Ix Ky Iy. rewrite <- Ex.
    rewrite (V c cx cy); [|intros d n L; apply Kx, Ax, L|intros d n L; apply Ky, Ay, L].
    rewrite (Vx cx Ix), (Vy cy Iy). unfold amount_at, value_at. rewrite <- (equal_sizes _ _ _ M _ _ E), O by apply Ps. reflexivity.
  - split; [reflexivity|]. split; [reflexivity|discriminate].
Qed.

(** ** An array and a scalar *)
Theorem C28_comparison_array_scalar (f : Qc -> Qc -> bool) (x : arr) (y : obj) : order_op f -> (forall u, (0 < size u)%Qc) ->
  tidy x -> okind y = KScalar -> well_formed y ->
  (ueq (aunit x) (ounit y) = false -> compare f (PArr x) (PObj y) = Raise ValueError) /\
  (ueq (ounit y) (aunit x) = false -> compare f (PObj y) (PArr x) = Raise ValueError) /\
  (forall r c, compare f (PArr x) (PObj y) = Ok r -> inside x c ->
     elem r (map c (map fst (paxes x))) = f (amount_at size x c) (amount size y [])) /\
  (forall r c, compare f (PObj y) (PArr x) = Ok r -> inside x c ->
     elem r (map c (map fst (paxes x))) = f (amount size y []) (amount_at size x c)).
Proof using M.
  intros O Ps Tx Ky Wy. unfold well_formed in Wy. rewrite Ky in Wy. cbn [pcompare].
  destruct (adata_ok x (proj1 Tx)) as (dx & -> & Nx & Sx & Wx & Ax & Vx). cbn [bind comparative].
  assert (anames dx = map fst (paxes x)) as Ex by (unfold anames at 1; rewrite Nx; cbn; now apply tidy_names).
  split; [now intros ->|]. split; [now intros ->|].
  assert (forall c, inside x c -> valid (map c (anames dx)) (shape (data dx))) as Va.
  { intros c Ic. apply within_valid; [apply Wx|]. intros d n L. apply Ic, Ax, L. }
  split; intros r c; destruct (ueq _ _) eqn:E; try discriminate; intros H Ic; rewrite <- Ex;
  (match type of H with nd_map2 ?g ?a ?b = _ => destruct (map2_cases g a b) as [(_ & Q)|(sh & Q & K)]; [congruence|]; rewrite H in K; injection K as -> end);
  cbn [elem]; rewrite Wy in *.
  - rewrite operand_index_same by (rewrite map_length; symmetry; apply Wx). rewrite pin_id by now apply Va.
    change (elem (data dx) (map c (anames dx))) with (at_ dx c). rewrite (Vx c Ic).
    unfold amount_at, value_at, amount. rewrite <- (equal_sizes _ _ _ M _ _ E), O by apply Ps. reflexivity.
  - rewrite (operand_index_same (shape (data dx))) by (rewrite map_length; symmetry; apply Wx). rewrite pin_id by now apply Va.
    change (elem (data dx) (map c (anames dx))) with (at_ dx c). rewrite (Vx c Ic).
    unfold amount_at, value_at, amount. rewrite <- (equal_sizes _ _ _ M _ _ E), O by apply Ps. reflexivity.
Qed.

(** ** Equality *)
Lemma nats_eqb_iff : forall u v, nats_eqb u v = true <-> u = v.
Proof using.
  induction u as [|x u IH]; intros [|y v]; cbn [nats_eqb]; split; try congruence; try discriminate.
  - rewrite andb_true_iff, Nat.eqb_eq, IH. intros (-> & ->). reflexivity.
  - intros [= -> ->]. rewrite andb_true_iff, Nat.eqb_eq, IH. auto.
Qed.
Lemma indices_valid : forall sh ix, In ix (indices sh) <-> valid ix sh.
Proof using.
  induction sh as [|n sh IH]; intros ix; cbn [indices].
  - split; [intros [<-|[]]; constructor|]. intros V. inversion V. left. reflexivity.
  - rewrite in_flat_map. split.
    + intros (i & Hi & H). apply in_map_iff in H as (ix' & <- & H). apply in_seq in Hi. constructor; [lia|apply IH, H].
    + intros V. inversion V as [|i m ix' sh' Hi Hv]; subst. exists i. split; [apply in_seq; lia|]. apply in_map_iff. exists ix'. split; [reflexivity|apply IH, Hv].
Qed.
Lemma array_equal_iff (a b : nd Qc) : nd_array_equal qc_eqb a b = true <-> nd_eq a b.
Proof using.
  unfold nd_array_equal, nd_eq. rewrite andb_true_iff, nats_eqb_iff, forallb_forall. split; intros (S & E); (split; [exact S|]); intros ix V.
  - apply qc_eqb_eq, E, indices_valid, V.
  - apply qc_eqb_eq, E, indices_valid, V.
Qed.

(** Two objects are equal exactly when their numbers and their units are. *)
Theorem C28_equality (x y : obj) : exists b, equal (PObj x) (PObj y) = Ok b /\
  (b = true <-> nd_eq (odata x) (odata y) /\ ueq (ounit x) (ounit y) = true).
Proof using. eexists. split; [reflexivity|]. rewrite andb_true_iff, array_equal_iff. reflexivity. Qed.

(** [==] of two physical objects is sound: equal objects of one kind have equal amounts. *)
Theorem C28_equality_sound (x y : obj) : okind x = okind y -> equal (PObj x) (PObj y) = Ok true -> same_quantity size x y.
Proof using M.
  intros K H. destruct (C28_equality x y) as (b & H' & I). rewrite H in H'. injection H' as <-. destruct (proj1 I eq_refl) as ((S & V) & E).
  split; [exact K|]. split; [exact S|]. intros ix Vi. unfold amount. rewrite (equal_sizes _ _ _ M _ _ E), (V ix Vi). reflexivity.
Qed.

(** Two arrays are equal exactly when units, axes (names, in order, and the axes
    themselves), lengths and numbers are. *)
Theorem C28_equality_arrays (x y : arr) : tidy x -> tidy y -> exists b, equal (PArr x) (PArr y) = Ok b /\
  (b = true <-> ueq (aunit x) (aunit y) = true
    /\ map fst (paxes x) = map fst (paxes y)
    /\ (forall d u v, In (d, u) (paxes x) -> In (d, v) (paxes y) -> axeq u v = true)
    /\ (forall d n, axis_len (face x) d n <-> axis_len (face y) d n)
    /\ forall c, inside x c -> value_at x c = value_at y c).
Proof using.
  intros Tx Ty. cbn [peq].
  destruct (adata_ok x (proj1 Tx)) as (dx & -> & Nx & Sx & Wx & Ax & Vx). destruct (adata_ok y (proj1 Ty)) as (dy & -> & Ny & Sy & Wy & Ay & Vy). cbn [bind].
  assert (anames dx = map fst (paxes x)) as Ex by (unfold anames at 1; rewrite Nx; cbn; now apply tidy_names).
  assert (anames dy = map fst (paxes y)) as Ey by (unfold anames at 1; rewrite Ny; cbn; now apply tidy_names).
  eexists. split; [reflexivity|]. rewrite !andb_true_iff, array_equal_iff. unfold axes_eq. rewrite andb_true_iff, forallb_forall.
  assert (NDy : NoDup (map fst (paxes y))) by now apply tidy_nodup.
  assert (LE : list_eqb str_eqb (anames_of (paxes x)) (anames_of (paxes y)) = true <-> map fst (paxes x) = map fst (paxes y)).
  { unfold anames_of. split; intros H.
    - apply (list_eqb_spec str_eqb str_eqb_eq) in H. exact H.
    - apply (list_eqb_spec str_eqb str_eqb_eq). exact H. }
  rewrite LE. clear LE. split.
  - intros (((S & V) & E) & N & A). split; [exact E|]. split; [exact N|]. split; [|split].
    + intros d u v Hu Hv. specialize (A _ Hu). cbn [fst snd] in A. unfold axis_named in A.
      rewrite (proj2 (lookup_in str_eqb str_eqb_eq (paxes y) d v NDy) Hv) in A. exact A.
    + intros d n. rewrite <- Ax, <- Ay. unfold axis_len. rewrite Ex, Ey, N, S. reflexivity.
    + intros c Ic. unfold value_at. rewrite <- (Vx c Ic).
      assert (inside y c) as Iy.
      { intros d n L. apply Ay in L. apply Ic, Ax. unfold axis_len in *. now rewrite Ex, N, S, <- Ey. }
      rewrite <- (Vy c Iy). unfold at_. rewrite Ex, N, <- Ey. apply V. rewrite S, Ey, <- N, <- Ex.
      rewrite <- S. apply within_valid; [exact Wx|]. intros d n L. apply Ic, Ax, L.
  - intros (E & N & A & L & V). assert (SS : shape (data dx) = shape (data dy)).
    { rewrite (shape_lens dx Wx), (shape_lens dy Wy), Ex, Ey, <- N. apply map_ext_in. intros d Hd.
      assert (axis_len dx d (len_of dx d)) as L1 by (apply len_axis_iff; [exact Wx|now rewrite Ex]).
      assert (axis_len dy d (len_of dy d)) as L2 by (apply len_axis_iff; [exact Wy|now rewrite Ey, <- N]).
      apply Ax, L, Ay in L1. now apply (axis_functional dy d _ _ Wy). }
    split; [split; [split; [exact SS|]|exact E]|].
    + intros ix Vi. assert (Lx : length ix = length (map fst (paxes x))) by (rewrite map_length, <- (tidy_length x Tx), <- Sx; exact (Forall2_len _ _ _ Vi)).
      pose proof (coordinates_map _ ix (tidy_nodup x Tx) Lx) as Mc. set (c := coordinates_of (map fst (paxes x)) ix) in *.
      assert (Ic : inside x c).
      { intros d n HL. apply Ax in HL as (k & E1 & E2). rewrite Ex in E1.
        assert (Q : nth_error ix k = Some (c d)) by (rewrite <- Mc; apply map_nth_error; exact E1).
        revert Q. generalize (c d). intros q Q. clear - Vi Q E2. revert k Q E2. induction Vi as [|i m ix sh H I IH]; intros [|k] Q E2; try discriminate; [injection Q as <-; injection E2 as <-; exact H|apply (IH k); assumption]. }
      assert (Iy : inside y c) by (intros d n HL; apply Ic, L, HL).
      specialize (V c Ic). unfold value_at in V. rewrite <- (Vx c Ic), <- (Vy c Iy) in V. unfold at_ in V. rewrite Ex, Ey, <- N, Mc in V. exact V.
    + split; [exact N|]. intros [d u] Hu. cbn [fst snd]. assert (Hd : In d (map fst (paxes y))) by (rewrite <- N; apply in_map_iff; now exists (d, u)).
      apply in_map_iff in Hd as ((d', v) & Ed & Hv). cbn [fst] in Ed. subst d'. unfold axis_named.
      rewrite (proj2 (lookup_in str_eqb str_eqb_eq (paxes y) d v NDy) Hv). now apply (A d).
Qed.

(** An array and another object: the names do not matter. *)
Theorem C28_equality_mixed (x : arr) (y : obj) : tidy x -> exists d b, adata x = Ok d /\ equal (PArr x) (PObj y) = Ok b /\
  (b = true <-> nd_eq (data d) (odata y) /\ ueq (aunit x) (ounit y) = true) /\
  exists b', equal (PObj y) (PArr x) = Ok b' /\ (b' = true <-> nd_eq (odata y) (data d) /\ ueq (ounit y) (aunit x) = true).
Proof using.
  intros Tx. destruct (adata_ok x (proj1 Tx)) as (dx & E & _). exists dx. cbn [peq]. rewrite E. cbn [bind].
  eexists. split; [reflexivity|]. split; [reflexivity|]. split; [rewrite andb_true_iff, array_equal_iff; reflexivity|].
  eexists. split; [reflexivity|]. rewrite andb_true_iff, array_equal_iff. reflexivity.
Qed.

(** A physical object never equals a plain number or anything else. *)
Theorem C28_equality_other (x : pval (U := U) (B := B)) q :
  equal x (PNum q) = Ok false /\ equal (PNum q) x = Ok false /\ equal x PElse = Ok false /\ equal PElse x = Ok false.
Proof using. destruct x; auto. Qed.
End C.
Print Assumptions C28_comparison_arrays.
Print Assumptions C28_comparison_array_scalar.
Print Assumptions C28_equality.
Print Assumptions C28_equality_sound.
Print Assumptions C28_equality_arrays.
Print Assumptions C28_equality_mixed.
Print Assumptions C28_equality_other.

(** ** Cases *)
Definition in_unit (u : U) : parr (U := U) (B := B) := arr2 2 3 (fun i j => zq (Z.of_nat (1 + 10 * i + j))) u ax ay.
Example C28_comparison_arrays_case :
  pcompare (B := B) uequal qc_ltb (PArr grid) (PArr (in_unit second)) = Raise ValueError
  /\ (exists r, pcompare (B := B) uequal qc_leb (PArr grid) (PArr (in_unit metre)) = Ok r /\ map (fun i => elem r [i; 0]) [0; 1] = [true; true])
  /\ pcompare (B := B) uequal qc_ltb (PArr grid) (PArr (arr2 2 3 (fun _ _ => 0%Qc) metre ay ax)) = Raise ValueError
  /\ (exists r, pcompare (B := B) uequal qc_ltb (PArr grid) (PObj (mkobj KScalar (nd_scalar (zq 3)) metre)) = Ok r /\ map (fun i => elem r [0; i]) [0; 1; 2] = [true; true; false]).
Proof.
  split; [reflexivity|]. split; [eexists; split; [reflexivity|vm_compute; reflexivity]|]. split; [reflexivity|].
  eexists. split; [reflexivity|]. vm_compute. reflexivity.
Qed.
Definition same_axis (a b : B) : bool := list_eqb Z.eqb a b.
Example C28_equality_case :
  peq (B := B) uequal same_axis (PArr grid) (PArr (in_unit metre)) = Ok true
  /\ peq (B := B) uequal same_axis (PArr grid) (PArr (in_unit second)) = Ok false
  /\ peq (B := B) uequal same_axis (PObj lengths_m) (PObj lengths_m) = Ok true
  /\ peq (B := B) uequal same_axis (PObj lengths_m) (PObj (mkobj KVector (vec [zq 1; zq 2; zq 3]) second)) = Ok false
  /\ peq (B := B) uequal same_axis (PObj lengths_m) (PObj (mkobj KVector (vec [zq 100; zq 200; zq 300]) centimetre)) = Ok false.
Proof. repeat split; vm_compute; reflexivity. Qed.
