(** Properties C15-C17: index arithmetic, subscripts, index restriction. *)
From Verif Require Import PyBase PyLemmas ContainerModel ContainerSpec Nd IndexModel IndexSpec IndexProofs IndexProofs2 IndexProofs3.
From Coq Require Import Sorted.

(** ** C15: shifting and arithmetic *)
Theorem C15_value_shift (i x : Z) (floor ceil : option Z) : bounds_ordered floor ceil ->
  closest_in floor ceil (i + x) (value_shift i x floor ceil) /\
  (in_bounds floor ceil (i + x) -> value_shift i x floor ceil = (i + x)%Z).
Proof.
  intros B. pose proof (value_shift_closest i x floor ceil B) as H. split; [exact H|].
  intros IB. destruct H as (_ & H). specialize (H _ IB). lia.
Qed.
Print Assumptions C15_value_shift.
Theorem C15_sequence_shift (l : list Z) (x : Z) (floor ceil : option Z) : bounds_ordered floor ceil ->
  length (sequence_shift l x floor ceil) = length l /\
  forall k i, nth_error l k = Some i ->
    exists r, nth_error (sequence_shift l x floor ceil) k = Some r /\ closest_in floor ceil (i + x) r /\ r = value_shift i x floor ceil.
Proof.
  intros B. rewrite sequence_shift_nth by exact B. split; [apply map_length|]. intros k i E.
  exists (value_shift i x floor ceil). split; [exact (map_nth_error (fun j => value_shift j x floor ceil) _ _ E)|]. split; [apply value_shift_closest, B|reflexivity].
Qed.
Print Assumptions C15_sequence_shift.
(** With the floor above the ceiling, a value and the one-element sequence that
    holds it are shifted differently. *)
Theorem C15_crossed_bounds_refuted : exists i x f c, sequence_shift [i] x (Some f) (Some c) <> [value_shift i x (Some f) (Some c)].
Proof. exists 0%Z, 0%Z, 5%Z, 2%Z. discriminate. Qed.
Print Assumptions C15_crossed_bounds_refuted.
(** +, -, *, // and % act entry by entry; no entry is refused except a zero
    divisor. *)
Theorem C15_arithmetic (a b : operand) : (is_index a \/ is_index b) -> a <> OOther -> b <> OOther ->
  (exists r, index_add a b = Ok r /\ entrywise Z.add a b r) /\
  (exists r, index_sub a b = Ok r /\ entrywise Z.sub a b r) /\
  (exists r, index_mul a b = Ok r /\ entrywise Z.mul a b r) /\
  ((forall k y, entry b k = Some y -> y <> 0%Z) ->
     (exists r, index_floordiv a b = Ok r /\ entrywise Z.div a b r) /\
     (exists r, index_mod a b = Ok r /\ entrywise Z.modulo a b r)).
Proof.
  intros I Na Nb.
  assert (G : forall fr f (P : Z -> Prop), agrees fr f -> (forall x y, P y -> exists z, fr x y = Ok z) -> acceptable P b ->
    exists r, arithmetic fr a b = Ok r /\ entrywise f a b r).
  { intros fr f P Ag T Ac. destruct (arithmetic_defined fr P a b T I Na Nb Ac) as (r & E). exists r. split; [exact E|].
    eapply arithmetic_entrywise; eauto. }
  assert (T : acceptable (fun _ => True) b) by (intros k y _; exact Logic.I).
  split; [|split; [|split]].
  - apply (G _ Z.add (fun _ => True)); [intros x y z E; injection E as <-; reflexivity|eauto|exact T].
  - apply (G _ Z.sub (fun _ => True)); [intros x y z E; injection E as <-; reflexivity|eauto|exact T].
  - apply (G _ Z.mul (fun _ => True)); [intros x y z E; injection E as <-; reflexivity|eauto|exact T].
  - intros NZ. split.
    + apply (G _ Z.div (fun y => y <> 0%Z)); [|intros x y Y; unfold div_op; destruct (Z.eqb_spec y 0); [contradiction|eauto]|exact NZ].
      intros x y z E. unfold div_op in E. destruct (y =? 0)%Z; [discriminate|]. injection E as <-. reflexivity.
    + apply (G _ Z.modulo (fun y => y <> 0%Z)); [|intros x y Y; unfold mod_op; destruct (Z.eqb_spec y 0); [contradiction|eauto]|exact NZ].
      intros x y z E. unfold mod_op in E. destruct (y =? 0)%Z; [discriminate|]. injection E as <-. reflexivity.
Qed.
Print Assumptions C15_arithmetic.
Theorem C15_foreign_operands (a : operand) :
  index_add a OOther = Raise OperandTypeError /\ index_eq a OOther = Ok (RNum false) /\ index_ne a OOther = Ok (RNum true).
Proof. destruct a; repeat split. Qed.
Print Assumptions C15_foreign_operands.
(** [!=] is the negation of [==], entry by entry *)
Theorem C15_ne_negates_eq (a b : operand) : is_index a \/ is_index b ->
  match index_eq a b, index_ne a b with
  | Ok (RNum x), Ok (RNum y) => y = negb x
  | Ok (RList x), Ok (RList y) => y = map negb x
  | _, _ => False
  end.
Proof.
  assert (Z2 : forall l m, zipM (fun x y => Ok (negb (x =? y)%Z)) l m = (r <- zipM (fun x y => Ok (x =? y)%Z) l m ;; Ok (map negb r)) /\
    is_ok (zipM (fun x y => Ok (x =? y)%Z) l m) = true).
  { induction l as [|x l IH]; intros [|y m]; simpl; auto. destruct (IH m) as (-> & E). destruct (zipM _ l m); simpl in *; auto. }
  intros I. unfold index_eq, index_ne, comparative. destruct a as [x|l|x|], b as [y|m|y|]; simpl in *; try tauto.
  all: rewrite ?(mapM_Ok (fun i => (x =? i)%Z)), ?(mapM_Ok (fun i => negb (x =? i)%Z)), ?(mapM_Ok (fun i => (i =? y)%Z)), ?(mapM_Ok (fun i => negb (i =? y)%Z)).
  all: simpl; rewrite ?map_map; try reflexivity.
  destruct (Z2 l m) as (-> & E). destruct (zipM (fun x y => Ok (x =? y)%Z) l m); simpl in *; [reflexivity|discriminate].
Qed.
Print Assumptions C15_ne_negates_eq.
(** Sequences of different lengths are silently cut to the shorter one. *)
Theorem C15_unequal_lengths_refuted (l m : list Z) : length l < length m ->
  exists r, index_add (OSeq l) (OSeq m) = Ok (OSeq r) /\ length r = length l.
Proof.
  intros L. destruct (arithmetic_defined (fun x y => Ok (x + y)%Z) (fun _ => True) (OSeq l) (OSeq m)) as (r & E); simpl; auto; try discriminate.
  - eauto.
  - intros k y _. exact Logic.I.
  - pose proof E as E'. unfold arithmetic in E'. simpl in E'. destruct (zipM (fun x y => Ok (x + y)%Z) l m) as [z|] eqn:Z; [|discriminate].
    simpl in E'. injection E' as <-. exists z. split; [exact E|]. apply zipM_ok_nth in Z as (Lz & _). lia.
Qed.
Print Assumptions C15_unequal_lengths_refuted.
Theorem C15_power (a b : operand) (y : Z) : b = OVal y \/ b = OInt y -> a <> OOther -> is_index a \/ is_index b ->
  ((y < 0)%Z -> index_pow a b = Raise ValueError) /\
  ((0 <= y)%Z -> exists r, index_pow a b = Ok r /\ entrywise Z.pow a b r).
Proof. intros B Na I. exact (pow_scalar a y b B Na I). Qed.
Print Assumptions C15_power.
(** A sequence of two or more exponents is always refused, whatever their signs. *)
Theorem C15_power_of_sequence_refuted (a : operand) (l : list Z) : 2 <= length l -> index_pow a (OSeq l) = Raise ValueError.
Proof. exact (pow_sequence a l). Qed.
Print Assumptions C15_power_of_sequence_refuted.
Example C15_case : value_shift 3 4 (Some 0%Z) (Some 5%Z) = 5%Z /\ sequence_shift [0; 3; 9]%Z (-2) (Some 0%Z) (Some 5%Z) = [0; 1; 5]%Z /\
  index_add (OSeq [1; 2]%Z) (OVal 3) = Ok (OSeq [4; 5]%Z) /\ index_pow (OSeq [1; 2]%Z) (OInt 3) = Ok (OSeq [1; 8]%Z) /\
  index_floordiv (OInt 7) (OSeq [2; -2]%Z) = Ok (OSeq [3; -4]%Z).
Proof. repeat split. Qed.

(** ** C16: subscripts *)
Theorem C16_ellipsis_expands (n : nat) (pre post : list sub) : ~ In SEll pre -> ~ In SEll post ->
  (length pre + length post < n \/ (length pre <= n /\ post = [])) ->
  exists k, expand_ellipsis n (pre ++ SEll :: post) = Ok (pre ++ repeat (SSlice full_slice) k ++ post) /\
            length (pre ++ repeat (SSlice full_slice) k ++ post) = n.
Proof.
  intros H1 H2 L. exists (n - (length pre + length post)). rewrite expand_one by assumption. split.
  - destruct (Nat.ltb_spec n (length pre + length post + 1)); [|reflexivity]. destruct L as [L|[L ->]]; [lia|reflexivity].
  - rewrite !app_length, repeat_length. destruct L as [L|[L ->]]; simpl; lia.
Qed.
Print Assumptions C16_ellipsis_expands.
Theorem C16_without_ellipsis (n : nat) (l : list sub) : ~ In SEll l ->
  expand_ellipsis n l = if Nat.leb (length l) n then Ok l else Raise IndexError.
Proof. intros H. destruct (Nat.leb_spec (length l) n); [apply expand_none|apply expand_too_many]; assumption. Qed.
Print Assumptions C16_without_ellipsis.
Theorem C16_two_ellipses_rejected (n : nat) (l1 l2 l3 : list sub) :
  expand_ellipsis n (l1 ++ SEll :: l2 ++ SEll :: l3) = Raise IndexError.
Proof. exact (expand_two n l1 l2 l3). Qed.
Print Assumptions C16_two_ellipses_rejected.
(** A legal ellipsis that stands for no axis is refused unless it comes last. *)
Theorem C16_empty_ellipsis_refuted (n : nat) (pre post : list sub) : ~ In SEll pre -> ~ In SEll post -> post <> [] ->
  length pre + length post = n -> expand_ellipsis n (pre ++ SEll :: post) = Raise IndexError.
Proof.
  intros H1 H2 NE L. rewrite expand_one by assumption. destruct (Nat.ltb_spec n (length pre + length post + 1)); [|lia].
  destruct post; [congruence|reflexivity].
Qed.
Print Assumptions C16_empty_ellipsis_refuted.
(** With a trailing ellipsis too many subscripts go through unnoticed. *)
Theorem C16_too_many_before_ellipsis_refuted (n : nat) (pre : list sub) : ~ In SEll pre -> n < length pre ->
  expand_ellipsis n (pre ++ [SEll]) = Ok pre.
Proof.
  intros H L. rewrite expand_one by (assumption || (intros [])). simpl. rewrite andb_false_r.
  replace (n - (length pre + 0)) with 0 by lia. simpl. rewrite app_nil_r. reflexivity.
Qed.
Print Assumptions C16_too_many_before_ellipsis_refuted.
Theorem C16_ellipsis_means_whole_axes (A : Type) (a : nd A) (pre post : list sub) : ~ In SEll pre -> ~ In SEll post ->
  (length pre + length post < ndim a \/ (length pre <= ndim a /\ post = [])) ->
  array_getitem a (ATuple (pre ++ SEll :: post)) =
  array_getitem a (ATuple (pre ++ repeat (SSlice full_slice) (ndim a - (length pre + length post)) ++ post)).
Proof. exact (getitem_ellipsis a pre post). Qed.
Print Assumptions C16_ellipsis_means_whole_axes.
(** Integers, index sequences and whole slices: each axis is subscripted on its
    own, and every axis is kept. *)
Theorem C16_sequences_select_per_axis_partial (A : Type) (a : nd A) (l : list sub) (ps : list (list nat)) :
  selects_axes l (shape a) ps -> (exists x, In x l /\ is_builtin x = false) ->
  (forall i sl n, nth_error l i = Some (SSlice sl) -> nth_error (shape a) i = Some n -> selects_axis (SSlice sl) n (seq 0 n)) ->
  exists r, array_getitem a (ATuple l) = Ok r /\ sub_block a ps r.
Proof. intros H E W. apply (getitem_mesh a l ps H W E). auto. Qed.
Print Assumptions C16_sequences_select_per_axis_partial.
(** Integers and slices, one per axis: the same, provided that each slice beside
    an integer has the length "stop (or all) minus start (or 0)". *)
Theorem C16_slices_select_per_axis_partial (A : Type) (a : nd A) (l : list sub) (ps : list (list nat)) :
  selects_axes l (shape a) ps -> length l = ndim a ->
  (forall x, In x l -> match x with SInt _ | SSlice _ => True | _ => False end) ->
  (forall i sl n p, nth_error l i = Some (SSlice sl) -> nth_error (shape a) i = Some n -> nth_error ps i = Some p ->
     (or_z (sl_stop sl) (Z.of_nat n) - or_z (sl_start sl) 0)%Z = Z.of_nat (length p)) \/ (forall z, ~ In (SInt z) l) ->
  exists r, array_getitem a (ATuple l) = Ok r /\ sub_block a ps r.
Proof. intros H L B C. exact (getitem_basic a l ps H B L C). Qed.
Print Assumptions C16_slices_select_per_axis_partial.
Theorem C16_single_subscript (A : Type) (a : nd A) (x : sub) (ps : list (list nat)) :
  selects_axes [x] (shape a) ps -> exists r, array_getitem a (ASub x) = Ok r /\ sub_block a ps r.
Proof. exact (getitem_single a x ps). Qed.
Print Assumptions C16_single_subscript.
Theorem C16_integer_array (A : Type) (a : nd A) (l : list Z) (ps : list (list nat)) :
  selects_axes [SSeq l] (shape a) ps -> exists r, array_getitem a (AArray l) = Ok r /\ sub_block a ps r.
Proof. exact (getitem_array a l ps). Qed.
Print Assumptions C16_integer_array.

(** An example array: 2 x 4, elements 0..7 *)
Definition demo : nd Z := mknd [2; 4] (fun ix => Z.of_nat (4 * nth 0 ix 0 + nth 1 ix 0)).
Definition sl (a b : option Z) : sub := SSlice {| sl_start := a; sl_stop := b; sl_step := None |}.
Definition shown {A} (r : result (nd A)) : result (list nat * list A) :=
  match r with Ok x => Ok (shape x, flat x) | Raise e => Raise e end.
(** A slice beside an index sequence is ignored: [a[0:1, [0, 2]]] keeps both rows. *)
Theorem C16_slice_beside_sequence_refuted :
  selects_axes [sl (Some 0%Z) (Some 1%Z); SSeq [0; 2]%Z] (shape demo) [[0]; [0; 2]] /\
  shown (array_getitem demo (ATuple [sl (Some 0%Z) (Some 1%Z); SSeq [0; 2]%Z])) = Ok ([2; 2], [0; 2; 4; 6]%Z).
Proof.
  split; [|reflexivity]. constructor.
  - constructor. apply slice_positions_selects. reflexivity.
  - constructor; [|exact (sels_nil [])]. constructor. constructor; [apply (sel_int 0 4); lia|]. constructor; [apply (sel_int 2 4); lia|constructor].
Qed.
Print Assumptions C16_slice_beside_sequence_refuted.
(** A legal negative slice beside an integer raises: [a[0, -2:]]. *)
Theorem C16_negative_slice_refuted :
  selects_axes [SInt 0; sl (Some (-2)%Z) None] (shape demo) [[0]; [2; 3]] /\
  array_getitem demo (ATuple [SInt 0; sl (Some (-2)%Z) None]) = Raise ValueError.
Proof.
  split; [|reflexivity]. constructor; [apply (sel_int 0 2); lia|].
  constructor; [|exact (sels_nil [])]. constructor. apply slice_positions_selects. reflexivity.
Qed.
Print Assumptions C16_negative_slice_refuted.
(** A list of positions is taken for one subscript per axis: [a[[0, 2]]] is
    [a[0, 2]], and raises for a one-dimensional array. *)
Theorem C16_list_subscript_refuted :
  shown (array_getitem demo (AList [SInt 0; SInt 2])) = Ok ([1; 1], [2%Z]) /\
  forall n f z1 z2, array_getitem (@mknd Z [n] f) (AList [SInt z1; SInt z2]) = Raise IndexError.
Proof. split; reflexivity. Qed.
Print Assumptions C16_list_subscript_refuted.
(** Fewer subscripts than axes, in a tuple with an integer, raise. *)
Theorem C16_partial_tuple_refuted :
  array_getitem (mknd [2; 2; 3] (fun ix => Z.of_nat (nth 2 ix 0))) (ATuple [SInt 0; SInt 1]) = Raise ValueError.
Proof. reflexivity. Qed.
Print Assumptions C16_partial_tuple_refuted.
Example C16_case : shown (array_getitem demo (ATuple [SInt (-1); SEll])) = Ok ([1; 4], [4; 5; 6; 7]%Z) /\
  shown (array_getitem demo (ATuple [SSeq [1; 0]%Z; SInt 2])) = Ok ([2; 1], [6; 2]%Z) /\
  shown (array_getitem demo (ATuple [SInt 1; sl (Some 1%Z) (Some 3%Z)])) = Ok ([1; 2], [5; 6]%Z) /\
  shown (array_getitem demo (ASub (SInt 1))) = Ok ([1; 4], [4; 5; 6; 7]%Z) /\
  selects_axes [SInt 1; sl (Some 1%Z) (Some 3%Z)] (shape demo) [[1]; [1; 2]].
Proof.
  repeat split; try reflexivity. constructor; [apply (sel_int 1 2); lia|]. constructor; [|exact (sels_nil [])].
  constructor. apply slice_positions_selects. reflexivity.
Qed.

(** ** C17: restrict *)
Theorem C17_restrict_brackets_partial (g : grid) (targets : list Qc) (n : nat) : proper_grid g n -> targets <> [] ->
  exists lo hi, restrict g targets = Ok (map Z.of_nat (seq lo (hi + 1 - lo))) /\ lo <= hi < n /\
    brackets (grid_rows g) targets lo hi /\ tight (grid_rows g) targets lo hi.
Proof. exact (restrict_spec g targets n). Qed.
Print Assumptions C17_restrict_brackets_partial.
Theorem C17_one_target (l : list Qc) (t : Qc) (n : nat) : proper_grid (G1 l) n ->
  exists k, restrict (G1 l) [t] = Ok [Z.of_nat k] \/ restrict (G1 l) [t] = Ok [Z.of_nat k; Z.of_nat (S k)].
Proof. exact (restrict_one l t n). Qed.
Print Assumptions C17_one_target.
Theorem C17_no_target (g : grid) : restrict g [] = Raise ValueError.
Proof. reflexivity. Qed.
Print Assumptions C17_no_target.
(** A target that occurs twice in the data, or descending data, give no indices. *)
Theorem C17_repeated_value_refuted : restrict (G1 [zq 1; zq 2; zq 2; zq 3]) [zq 2] = Ok [].
Proof. vm_compute. reflexivity. Qed.
Print Assumptions C17_repeated_value_refuted.
Theorem C17_descending_refuted : restrict (G1 [zq 4; zq 3; zq 2; zq 1]) [mkq 5 2] = Ok [].
Proof. vm_compute. reflexivity. Qed.
Print Assumptions C17_descending_refuted.
Example C17_case : proper_grid (G1 [zq 1; zq 2; zq 4; zq 8]) 4 /\ restrict (G1 [zq 1; zq 2; zq 4; zq 8]) [zq 3] = Ok [1; 2]%Z /\
  restrict (G1 [zq 1; zq 2; zq 4; zq 8]) [zq 3; zq 8] = Ok [1; 2; 3]%Z /\
  restrict (G2 [[zq 1; zq 2; zq 4]; [zq 2; zq 4; zq 8]]) [zq 3] = Ok [0; 1; 2]%Z.
Proof.
  split; [|repeat split; vm_compute; reflexivity]. split; [lia|]. split; [discriminate|]. intros row [<-|[]]. split; [reflexivity|].
  repeat constructor; unfold Qclt; vm_compute; reflexivity.
Qed.
