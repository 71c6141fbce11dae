(** * Property C67, continued: scalars, vectors and tensors *)
From Verif Require Import PyBase PyLemmas ContainerModel ContainerSpec Nd IndexModel IndexSpec IndexProofs IndexProofs2 ArrayModel ArraySpec ArrayProofs ArrayProofs3 AxesModel PhysicalModel PhysicalSpec PhysicalProofs PhysFuncModel PhysFuncSpec PhysFuncProofs PhysFuncProperties PhysFuncProperties2 PhysFuncProperties3.
From Coq Require Import Permutation.

(** [c]: a position in an array of the given shape, [c']: the position without
    the coordinates of axes of length one *)
Inductive squeezed_at : list nat -> list nat -> list nat -> Prop :=
| squeeze_end : squeezed_at [] [] []
| squeeze_one sh c c' : squeezed_at sh c c' -> squeezed_at (1 :: sh) (0 :: c) c'
| squeeze_keep n i sh c c' : n <> 1 -> i < n -> squeezed_at sh c c' -> squeezed_at (n :: sh) (i :: c) (i :: c').

Section Objects.
Set Default Proof Using "Type".
Context {U B : Type}.
Variables (ueq : U -> U -> bool) (udiv : U -> U -> result U) (uone : U).
Notation obj := (pobj (U := U)).
Notation val := (pval (U := U) (B := B)).
Notation arr := (parr (U := U) (B := B)).

Lemma unsqueeze_at sh c c' : squeezed_at sh c c' -> unsqueeze sh c' = c.
Proof.
  induction 1 as [|sh c c' H IH|n i sh c c' Hn Hi H IH]; [reflexivity| |]; cbn [unsqueeze].
  - cbn [Nat.eqb]. rewrite IH. reflexivity.
  - rewrite (proj2 (Nat.eqb_neq n 1) Hn). cbn [nth tl]. rewrite IH. reflexivity.
Qed.
Lemma filter_ones sh : Forall (fun n => n = 1) sh -> filter (fun n => negb (Nat.eqb n 1)) sh = [].
Proof. induction 1 as [|n sh -> H IH]; [reflexivity|exact IH]. Qed.
Lemma filter_ones_inv sh : filter (fun n => negb (Nat.eqb n 1)) sh = [] -> Forall (fun n => n = 1) sh.
Proof.
  induction sh as [|n sh IH]; intros H; [constructor|]. cbn [filter] in H. destruct (Nat.eqb_spec n 1) as [->|]; [|discriminate H]. constructor; [reflexivity|apply IH, H].
Qed.
Lemma unsqueeze_ones sh : Forall (fun n => n = 1) sh -> unsqueeze sh [] = map (fun _ => 0) sh.
Proof. induction 1 as [|n sh -> H IH]; [reflexivity|]. cbn. rewrite IH. reflexivity. Qed.

(** numpy.squeeze: a number if all axes have length one; else the same kind of
    object without those axes; every element keeps its other coordinates *)
Theorem C67_squeeze_objects (x : obj) : well_formed x ->
  (okind x = KScalar -> psqueeze (B := B) (PObj x) = Ok (PObj x)) /\
  (okind x <> KScalar -> Forall (fun n => n = 1) (shape (odata x)) ->
     exists o, psqueeze (B := B) (PObj x) = Ok (PObj o) /\ is_scalar o (ounit x) (elem (odata x) (map (fun _ => 0) (shape (odata x))))) /\
  (okind x <> KScalar -> ~ Forall (fun n => n = 1) (shape (odata x)) ->
     exists z, psqueeze (B := B) (PObj x) = Ok (PObj z) /\ okind z = okind x /\ ounit z = ounit x /\ well_formed z /\
       shape (odata z) = filter (fun n => negb (Nat.eqb n 1)) (shape (odata x)) /\
       forall c c', squeezed_at (shape (odata x)) c c' -> elem (odata z) c' = elem (odata x) c).
Proof.
  intros W. split; [|split].
  - intros E. unfold psqueeze. rewrite E. reflexivity.
  - intros K O. exists (mkobj KScalar (mknd [] (fun _ => elem (odata x) (map (fun _ => 0) (shape (odata x))))) (ounit x)). split; [|repeat split].
    unfold psqueeze. destruct (okind x) eqn:Ek; [contradiction| |]; unfold ndim; cbn [nd_squeeze shape elem]; rewrite (filter_ones _ O), (unsqueeze_ones _ O); reflexivity.
  - intros K O. set (d := nd_squeeze (odata x)). exists (mkobj (okind x) d (ounit x)).
    assert (Nz : shape d <> []) by (intros Q; apply O, filter_ones_inv, Q).
    assert (W' : well_formed (mkobj (okind x) d (ounit x))).
    { unfold well_formed in *. cbn [okind odata]. destruct (okind x); [contradiction| |exact Nz]. unfold d in *. cbn [nd_squeeze shape] in *. destruct (shape (odata x)) as [|n [|m r]]; try discriminate W.
      cbn [filter] in *. destruct (negb (Nat.eqb n 1)); [reflexivity|contradiction]. }
    split; [|split; [reflexivity|]; split; [reflexivity|]; split; [exact W'|]; split; [reflexivity|]].
    + unfold psqueeze. fold d. assert (N0 : Nat.eqb (ndim d) 0 = false) by (unfold ndim; destruct (shape d); [contradiction|reflexivity]). rewrite N0. unfold result_obj.
      destruct (okind x) eqn:Ek; [contradiction| |]; rewrite build_ok by exact W'; reflexivity.
    + intros c c' H. cbn [odata]. unfold d. cbn [nd_squeeze elem]. rewrite (unsqueeze_at _ _ _ H). reflexivity.
Qed.

(** ** Reductions of one axis *)
(** [z] is [x] with the axis between [pre] and [post] reduced by [g] *)
Definition reduced_axis (g : list Qc -> Qc) (keep : bool) (x : obj) (pre : list nat) (n : nat) (post : list nat) (z : obj) : Prop :=
  okind z = okind x /\ ounit z = ounit x /\ shape (odata z) = pre ++ (if keep then [1] else []) ++ post /\
  forall c1 c2, length c1 = length pre -> length c2 = length post ->
    elem (odata z) (c1 ++ (if keep then [0] else []) ++ c2) = g (map (fun i => elem (odata x) (c1 ++ i :: c2)) (seq 0 n)).
(** minimum, maximum, mean and sum of a vector or tensor along one axis: with
    keepdims the axis gets length one, else it is removed; unit and kind stay *)
Theorem C67_reduce_objects (g : list Qc -> Qc) (x : obj) axis (keep : option bool) pre n post :
  okind x <> KScalar -> well_formed x -> shape (odata x) = pre ++ n :: post -> selects_axis (SInt axis) (length (shape (odata x))) [length pre] ->
  (keep = Some true \/ pre ++ post <> []) ->
  exists z, psum (B := B) g (PObj x) (Axis axis keep) = Ok (PObj z) /\ pmean (B := B) g (PObj x) (Axis axis keep) = Ok (PObj z) /\
    pextreme (B := B) g (PObj x) (Axis axis keep) = Ok (PObj z) /\ well_formed z /\
    reduced_axis g (match keep with Some true => true | _ => false end) x pre n post z.
Proof.
  clear ueq udiv uone. intros K W Sh Sel P. apply norm_index_iff in Sel as (k & [= <-] & Nk & Kl).
  assert (Nn : nth (length pre) (shape (odata x)) 0 = n) by (rewrite Sh, app_nth2, Nat.sub_diag by lia; reflexivity).
  assert (F1 : firstn (length pre) (shape (odata x)) = pre) by (rewrite Sh, firstn_app, firstn_all, Nat.sub_diag; cbn [firstn]; apply app_nil_r).
  assert (F2 : skipn (S (length pre)) (shape (odata x)) = post).
  { rewrite Sh. replace (S (length pre)) with (length (pre ++ [n])) by (rewrite app_length; cbn; lia). change (n :: post) with ([n] ++ post). rewrite app_assoc, skipn_app, skipn_all, Nat.sub_diag. reflexivity. }
  set (b := match keep with Some true => true | _ => false end). assert (Eb : is_true keep = b) by reflexivity.
  set (d := if b then nd_reduce_keep g (length pre) (odata x) else nd_reduce g (length pre) (odata x)).
  assert (Sd : shape d = pre ++ (if b then [1] else []) ++ post) by (unfold d; destruct b; cbn [nd_reduce_keep nd_reduce shape]; rewrite F1, F2; reflexivity).
  assert (W' : well_formed (mkobj (okind x) d (ounit x))).
  { unfold well_formed in *. cbn [okind odata]. rewrite Sd. destruct (okind x); [contradiction| |].
    - rewrite Sh, app_length in W. cbn [length] in W. destruct pre as [|? [|? ?]]; cbn in W; try lia; destruct post; cbn in W; try lia. destruct b eqn:Q; [reflexivity|].
      exfalso. destruct P as [->|P]; [discriminate Q|apply P; reflexivity].
    - destruct b eqn:Q; [destruct pre; discriminate|]. cbn [app]. destruct P as [->|P]; [discriminate Q|exact P]. }
  exists (mkobj (okind x) d (ounit x)).
  assert (G : obj_reduce (B := B) g x (Axis axis keep) = Ok (PObj (mkobj (okind x) d (ounit x)))).
  { unfold obj_reduce, obj_axis, ndim, result_obj. rewrite Eb, Nk. destruct (okind x) eqn:Ek; [contradiction| |]; cbn [bind]; fold d; rewrite build_ok by exact W'; reflexivity. }
  split; [exact G|]. split; [exact G|]. split; [exact G|]. split; [exact W'|].
  split; [reflexivity|]. split; [reflexivity|]. split; [exact Sd|]. intros c1 c2 L1 L2. cbn [odata]. unfold d.
  destruct b; cbn [nd_reduce_keep nd_reduce elem app]; unfold nd_line; rewrite Nn.
  - assert (A1 : firstn (length pre) (c1 ++ 0 :: c2) = c1) by (rewrite <- L1, firstn_app, firstn_all, Nat.sub_diag; cbn [firstn]; apply app_nil_r).
    assert (A2 : skipn (S (length pre)) (c1 ++ 0 :: c2) = c2).
    { rewrite <- L1. replace (S (length c1)) with (length (c1 ++ [0])) by (rewrite app_length; cbn; lia). change (0 :: c2) with ([0] ++ c2). rewrite app_assoc, skipn_app, skipn_all, Nat.sub_diag. reflexivity. }
    rewrite A1, A2. reflexivity.
  - rewrite <- L1, firstn_app, firstn_all, Nat.sub_diag, skipn_app, skipn_all, Nat.sub_diag. cbn [firstn skipn app]. rewrite app_nil_r. reflexivity.
Qed.
(** The other cases.  Refused: an axis that does not exist; the only axis without
    keepdims; an explicit axis=None.  A scalar has the axes 0 and -1. *)
Theorem C67_reduce_objects_refused (g : list Qc -> Qc) (x : obj) : well_formed x ->
  (okind x <> KScalar -> forall axis keep, ~ (exists k, selects_axis (SInt axis) (length (shape (odata x))) [k]) -> psum (B := B) g (PObj x) (Axis axis keep) = Raise ValueError /\ pextreme (B := B) g (PObj x) (Axis axis keep) = Raise ValueError) /\
  (okind x <> KScalar -> length (shape (odata x)) = 1 -> forall axis keep k, keep <> Some true -> selects_axis (SInt axis) 1 [k] -> psum (B := B) g (PObj x) (Axis axis keep) = Raise TypeError /\ pextreme (B := B) g (PObj x) (Axis axis keep) = Raise TypeError) /\
  (okind x <> KScalar -> psum (B := B) g (PObj x) AxisNone = Raise TypeError /\ pextreme (B := B) g (PObj x) AxisNone = Raise TypeError) /\
  (okind x = KScalar -> forall axis keep, if (axis =? 0)%Z || (axis =? -1)%Z
     then exists o, psum (B := B) g (PObj x) (Axis axis keep) = Ok (PObj o) /\ pextreme (B := B) g (PObj x) (Axis axis keep) = Ok (PObj o) /\ is_scalar o (ounit x) (g [elem (odata x) []])
     else psum (B := B) g (PObj x) (Axis axis keep) = Raise ValueError /\ pextreme (B := B) g (PObj x) (Axis axis keep) = Raise ValueError).
Proof.
  clear ueq udiv uone. intros W. unfold psum, preduce, pextreme. assert (Ax : forall n z, ~ (exists k, selects_axis (SInt z) n [k]) -> norm_index n z = None).
  { intros n z H. destruct (norm_index n z) as [k|] eqn:E; [|reflexivity]. exfalso. apply H. exists k. unfold norm_index in E. destruct (Z.ltb_spec z 0).
    - destruct (Z.ltb_spec (z + Z.of_nat n) 0); [discriminate E|]. destruct (Z.leb_spec (Z.of_nat n) (z + Z.of_nat n)); [discriminate E|]. injection E as <-. apply sel_int_neg. lia.
    - destruct (Z.ltb_spec z 0); [discriminate E|]. destruct (Z.leb_spec (Z.of_nat n) z); [discriminate E|]. injection E as <-. apply sel_int. lia. }
  split; [|split; [|split]].
  - intros K axis keep H. unfold obj_reduce, obj_axis, ndim. rewrite (Ax _ _ H). destruct (okind x); [contradiction|split; reflexivity|split; reflexivity].
  - intros K L axis keep k Ne Sel. apply norm_index_iff in Sel as (k' & [= <-] & Nk & Kl). unfold obj_reduce, obj_axis, ndim. rewrite L, Nk.
    assert (Eb : is_true keep = false) by (destruct keep as [[|]|]; [congruence|reflexivity|reflexivity]). rewrite Eb.
    destruct (shape (odata x)) as [|n [|? ?]] eqn:Sh; try discriminate L. assert (k = 0) as -> by lia.
    destruct (okind x); [contradiction| |]; cbn [bind]; unfold result_obj, build, ndim; cbn [nd_reduce shape]; rewrite Sh; cbn; split; reflexivity.
  - intros K. unfold obj_reduce. destruct (okind x); [contradiction|split; reflexivity|split; reflexivity].
  - intros K axis keep. unfold obj_reduce, obj_axis. unfold well_formed in W. rewrite K in *. destruct ((axis =? 0)%Z || (axis =? -1)%Z); cbn [bind]; [|split; reflexivity].
    eexists. split; [reflexivity|]. split; [reflexivity|]. repeat split. unfold flat. rewrite W. reflexivity.
Qed.

(** ** Running sums *)
(** without an axis (or with [axis=None] of a tensor): all numbers in order; along
    an axis of a tensor: the sums of the elements up to each position *)
Theorem C67_cumsum_objects (x : obj) : well_formed x ->
  let all := map (elem (odata x)) (indices (shape (odata x))) in
  (exists o, pcumsum (B := B) total (PObj x) NoAxis = Ok (PObj o) /\ okind o = KVector /\ ounit o = ounit x /\
     shape (odata o) = [length all] /\ forall i, i < length all -> elem (odata o) [i] = total (firstn (S i) all)) /\
  (okind x = KVector -> forall axis keep k, selects_axis (SInt axis) 1 [k] -> pcumsum (B := B) total (PObj x) (Axis axis keep) = pcumsum (B := B) total (PObj x) NoAxis) /\
  (okind x = KTensor -> forall axis keep pre n post, shape (odata x) = pre ++ n :: post -> selects_axis (SInt axis) (length (shape (odata x))) [length pre] ->
     exists o, pcumsum (B := B) total (PObj x) (Axis axis keep) = Ok (PObj o) /\ okind o = KTensor /\ ounit o = ounit x /\ shape (odata o) = shape (odata x) /\
       forall c1 i c2, length c1 = length pre -> elem (odata o) (c1 ++ i :: c2) = total (map (fun j => elem (odata x) (c1 ++ j :: c2)) (seq 0 (S i)))).
Proof.
  clear ueq udiv uone. intros W all. split; [|split].
  - exists (mkobj KVector (nd_list (prefix_sums total all)) (ounit x)). split; [unfold pcumsum; destruct (okind x); reflexivity|]. split; [reflexivity|]. split; [reflexivity|].
    unfold prefix_sums, nd_list. cbn [odata shape elem]. split; [rewrite map_length, seq_length; reflexivity|]. intros i Hi. cbn [nth].
    rewrite (nth_indep _ 0%Qc (total (firstn 1 all))) by (rewrite map_length, seq_length; exact Hi).
    rewrite (map_nth (fun i => total (firstn (S i) all)) (seq 0 (length all)) 0 i), seq_nth by exact Hi. reflexivity.
  - intros K axis keep k Sel. apply norm_index_iff in Sel as (k' & [= <-] & Nk & Kl). unfold well_formed in W. rewrite K in W. unfold pcumsum, obj_axis, ndim. rewrite K, W, Nk. reflexivity.
  - intros K axis keep pre n post Sh Sel. apply norm_index_iff in Sel as (k & [= <-] & Nk & Kl). exists (mkobj KTensor (nd_accumulate total (length pre) (odata x)) (ounit x)).
    split; [|split; [reflexivity|]; split; [reflexivity|]; split; [reflexivity|]].
    + unfold pcumsum, obj_axis, ndim. rewrite K, Nk. cbn [bind]. unfold result_obj. rewrite build_ok; [reflexivity|]. unfold well_formed in *. rewrite K in W. exact W.
    + intros c1 i c2 L1. cbn [odata nd_accumulate elem]. rewrite <- L1.
      assert (A1 : firstn (length c1) (c1 ++ i :: c2) = c1) by (rewrite firstn_app, firstn_all, Nat.sub_diag; cbn [firstn]; apply app_nil_r).
      assert (A2 : skipn (S (length c1)) (c1 ++ i :: c2) = c2).
      { replace (S (length c1)) with (length (c1 ++ [i])) by (rewrite app_length; cbn; lia). change (i :: c2) with ([i] ++ c2). rewrite app_assoc, skipn_app, skipn_all, Nat.sub_diag. reflexivity. }
      rewrite A1, A2, (app_nth2 c1), Nat.sub_diag by lia. reflexivity.
Qed.

(** ** Transposition *)
(** without axes: reversed; with a permutation: axis [j] of the result is axis
    [axes[j]]; anything else is refused *)
Theorem C67_transpose_objects (x : obj) : well_formed x ->
  (exists z, pnumpy_transpose (B := B) (PObj x) None = Ok (PObj z) /\ okind z = okind x /\ ounit z = ounit x /\ shape (odata z) = rev (shape (odata x)) /\
     forall c, elem (odata z) (rev c) = elem (odata x) c) /\
  (forall axes k, Forall2 (fun z i => selects_axis (SInt z) (length (shape (odata x))) [i]) axes k -> Permutation k (seq 0 (length (shape (odata x)))) ->
     exists z, pnumpy_transpose (B := B) (PObj x) (Some axes) = Ok (PObj z) /\ okind z = okind x /\ ounit z = ounit x /\
       shape (odata z) = map (fun i => nth i (shape (odata x)) 0) k /\
       forall c, length c = length (shape (odata x)) -> elem (odata z) (map (fun i => nth i c 0) k) = elem (odata x) c) /\
  (forall axes, ~ (exists k, Forall2 (fun z i => selects_axis (SInt z) (length (shape (odata x))) [i]) axes k /\ Permutation k (seq 0 (length (shape (odata x))))) ->
     pnumpy_transpose (B := B) (PObj x) (Some axes) = Raise ValueError).
Proof.
  clear ueq udiv uone. intros W. assert (WL : forall d, length (shape d) = length (shape (odata x)) -> well_formed (mkobj (okind x) d (ounit x))).
  { intros d L. unfold well_formed in *. cbn [okind odata]. destruct (okind x).
    - rewrite W in L. destruct (shape d); [reflexivity|discriminate L].
    - rewrite L. exact W.
    - intros Q. rewrite Q in L. destruct (shape (odata x)); [contradiction|discriminate L]. }
  assert (Sel : forall n z i, norm_index n z = Some i <-> selects_axis (SInt z) n [i]).
  { intros n z i. split.
    - unfold norm_index. destruct (Z.ltb_spec z 0).
      + destruct (Z.ltb_spec (z + Z.of_nat n) 0); [discriminate|]. destruct (Z.leb_spec (Z.of_nat n) (z + Z.of_nat n)); [discriminate|]. intros [= <-]. apply sel_int_neg. lia.
      + destruct (Z.ltb_spec z 0); [discriminate|]. destruct (Z.leb_spec (Z.of_nat n) z); [discriminate|]. intros [= <-]. apply sel_int. lia.
    - intros H. apply norm_index_iff in H as (i' & [= <-] & H & _). exact H. }
  assert (F2 : forall axes k, Forall2 (fun z i => selects_axis (SInt z) (length (shape (odata x))) [i]) axes k <-> Forall2 (fun z i => norm_index (length (shape (odata x))) z = Some i) axes k).
  { intros axes k. split; induction 1 as [|z i axes k H F IH]; constructor; auto; apply Sel, H. }
  split; [|split].
  - exists (mkobj (okind x) (nd_reverse_axes (odata x)) (ounit x)). split; [|split; [reflexivity|]; split; [reflexivity|]; split; [reflexivity|]].
    + cbn [pnumpy_transpose bind]. unfold result_obj. rewrite build_ok; [reflexivity|]. apply WL. cbn [nd_reverse_axes shape]. apply rev_length.
    + intros c. cbn [odata nd_reverse_axes elem]. rewrite rev_involutive. reflexivity.
  - intros axes k F P. apply F2 in F. cbn [pnumpy_transpose]. unfold ndim. rewrite (norm_axes_complete _ _ _ F). cbn [bind]. unfold nd_transpose, ndim. rewrite (proj2 (is_perm_spec _ _) P). cbn [bind].
    unfold result_obj. rewrite build_ok by (apply WL; cbn [shape]; rewrite map_length, (Permutation_length P), seq_length; reflexivity). cbn [bind].
    eexists. split; [reflexivity|]. split; [reflexivity|]. split; [reflexivity|]. split; [reflexivity|]. intros c L. cbn [odata elem]. f_equal.
    transitivity (map (fun m => nth m c 0) (seq 0 (length (shape (odata x))))).
    + apply map_ext_in. intros m Hm. apply (Permutation_in _ (Permutation_sym P)) in Hm. apply nth_error_nth. rewrite (map_nth_error (fun i => nth i c 0) _ _ (position_nth m k Hm)). reflexivity.
    + rewrite <- L. clear. induction c as [|a c IH]; [reflexivity|]. cbn [length seq map nth]. f_equal. rewrite <- seq_shift, map_map. exact IH.
  - intros axes H. cbn [pnumpy_transpose]. unfold ndim. destruct (norm_axes_cases (length (shape (odata x))) axes) as [(k & E)|E]; rewrite E; cbn [bind]; [|reflexivity].
    unfold nd_transpose, ndim. destruct (is_perm _ _) eqn:P; [|reflexivity]. exfalso. apply H. exists k. split; [apply F2, norm_axes_spec, E|apply is_perm_spec, P].
Qed.

(** ** Gradients *)
(** one object of the same kind for every axis; the numbers are difference
    quotients and the unit is the quotient of the units *)
Theorem C67_gradient_objects (x : obj) args ss u : okind x <> KScalar -> well_formed x -> one_each (length (shape (odata x))) args ss -> Forall2 fits ss (shape (odata x)) ->
  Forall (fun n => 1 < n) (shape (odata x)) -> gradient_unit ueq udiv uone (ounit x) args u ->
  exists zs, pgradient (B := B) ueq udiv uone (PObj x) args = Ok (map PObj zs) /\ length zs = length (shape (odata x)) /\
    forall k z sp n, nth_error zs k = Some z -> nth_error ss k = Some sp -> nth_error (shape (odata x)) k = Some n ->
      okind z = okind x /\ ounit z = u /\ shape (odata z) = shape (odata x) /\
      (apart (spacing_place sp) n -> forall c1 i c2, length c1 = k -> i < n ->
         elem (odata z) (c1 ++ i :: c2) = difference (spacing_place sp) n (fun j => elem (odata x) (c1 ++ j :: c2)) i).
Proof.
  intros K W O F P Gu. destruct (numpy_gradient_ok (odata x) args ss O F P) as (xs & Ex & Hx).
  set (zs := map (fun k => mkobj (okind x) (nd_gradient (nth k xs (fun _ => 0%Qc)) k (odata x)) u) (seq 0 (length (shape (odata x))))). exists zs.
  assert (M : mapM (fun d => result_obj (B := B) (okind x) d u) (map (fun k => nd_gradient (nth k xs (fun _ => 0%Qc)) k (odata x)) (seq 0 (ndim (odata x)))) = Ok (map PObj zs)).
  { unfold zs, ndim. rewrite map_map. generalize (seq 0 (length (shape (odata x)))). induction l as [|k l IH]; [reflexivity|]. cbn [map mapM]. unfold result_obj at 1.
    rewrite build_ok; [cbn [bind]; rewrite IH; reflexivity|]. unfold well_formed in *. cbn [okind odata nd_gradient shape]. exact W. }
  split.
  - cbn [pgradient]. destruct (okind x) eqn:Ek; [contradiction| |]; (destruct Gu as [|cc r w Fa Du];
      [cbn [bind]; rewrite Ex; cbn [bind]; exact M|
       replace (forallb (fun c' => ueq (unit_or_one uone c') (unit_or_one uone cc)) r) with true;
         [rewrite Du; cbn [bind]; rewrite Ex; cbn [bind]; exact M
         |symmetry; apply forallb_forall; intros y Hy; rewrite Forall_forall in Fa; apply Fa, Hy]]).
  - split; [unfold zs; rewrite map_length, seq_length; reflexivity|]. intros k z sp n Hz Hs Hn.
    assert (Kl : k < length (shape (odata x))) by (apply nth_error_Some; congruence).
    assert (Q : nth_error zs k = Some (mkobj (okind x) (nd_gradient (nth k xs (fun _ => 0%Qc)) k (odata x)) u)).
    { unfold zs. apply (map_nth_error (fun k => mkobj (okind x) (nd_gradient (nth k xs (fun _ => 0%Qc)) k (odata x)) u)). rewrite (nth_error_nth' _ 0) by (rewrite seq_length; lia). rewrite seq_nth by lia. reflexivity. }
    rewrite Q in Hz. injection Hz as <-. split; [reflexivity|]. split; [reflexivity|]. split; [reflexivity|]. intros Ap c1 i c2 L1 Hi.
    assert (N1 : 1 < n) by (rewrite Forall_forall in P; apply P; apply nth_error_In with k; exact Hn).
    cbn [odata nd_gradient elem]. rewrite (nth_error_nth _ _ 0 Hn).
    assert (A1 : firstn (length c1) (c1 ++ i :: c2) = c1) by (rewrite firstn_app, firstn_all, Nat.sub_diag; cbn [firstn]; apply app_nil_r).
    assert (A2 : skipn (S (length c1)) (c1 ++ i :: c2) = c2).
    { replace (S (length c1)) with (length (c1 ++ [i])) by (rewrite app_length; cbn; lia). change (i :: c2) with ([i] ++ c2). rewrite app_assoc, skipn_app, skipn_all, Nat.sub_diag. reflexivity. }
    rewrite <- L1, A1, A2, (app_nth2 c1), Nat.sub_diag by lia. cbn [nth]. rewrite <- line_difference by assumption. apply line_ext; [|reflexivity|exact N1|exact Hi].
    intros j _. rewrite L1. apply Hx, Hs.
Qed.
(** coordinates in different units are refused; a scalar has no gradient *)
Theorem C67_gradient_objects_refused (x : obj) c r c' : (okind x <> KScalar -> In c' r -> ueq (unit_or_one uone c') (unit_or_one uone c) = false -> pgradient (B := B) ueq udiv uone (PObj x) (c :: r) = Raise TypeError) /\
  (okind x = KScalar -> forall args, pgradient (B := B) ueq udiv uone (PObj x) args = Ok []).
Proof.
  split.
  - intros K I E. cbn [pgradient]. replace (forallb (fun c' => ueq (unit_or_one uone c') (unit_or_one uone c)) r) with false; [destruct (okind x); [contradiction|reflexivity|reflexivity]|]. symmetry.
    apply not_true_is_false. intros H. rewrite forallb_forall in H. rewrite (H _ I) in E. discriminate E.
  - intros K args. cbn [pgradient]. rewrite K. reflexivity.
Qed.
End Objects.
Print Assumptions C67_squeeze_objects.
Print Assumptions C67_reduce_objects.
Print Assumptions C67_reduce_objects_refused.
Print Assumptions C67_cumsum_objects.
Print Assumptions C67_transpose_objects.
Print Assumptions C67_gradient_objects.
Print Assumptions C67_gradient_objects_refused.
