(** * What the properties of measured objects say (C78). *)
From Verif Require Import PyBase ContainerModel Nd IndexModel IndexSpec MeasuredModel.
Local Open Scope Qc_scope.

Section Spec.
Context {U : Type}.
Notation obj := (@mobj U).

(** the numbers of an object, in order, and the shape of its data *)
Definition values (o : obj) : list Qc :=
  match dat o with DNum q => [q] | DArr a => map (elem a) (indices (shape a)) end.
Definition shape_of (o : obj) : list nat := match dat o with DNum _ => [] | DArr a => shape a end.
Definition raw_values (x : @arg U) : list Qc :=
  match x with XNum q => [q] | XArr a | XSeq a => map (elem a) (indices (shape a)) | XObj o => values o end.
Definition raw_shape (x : @arg U) : list nat :=
  match x with XNum _ => [] | XArr a | XSeq a => shape a | XObj o => shape_of o end.
(** a list has at least one dimension; zero-dimensional arrays are excluded for physical.Array *)
Definition plain (k : mkind) (x : @arg U) : Prop :=
  match x with
  | XNum _ => True
  | XArr a => k <> MArray \/ shape a <> []
  | XSeq a => shape a <> []
  | XObj _ => False
  end.
Definition is_num (x : @arg U) : bool := match x with XNum _ => true | _ => false end.

(** the data that each class is meant to hold: a single number; numbers along at least one
    axis; numbers along one axis *)
Definition single (k : mkind) : bool := match k with MValue | MScalar => true | _ => false end.
Definition proper_shape (k : mkind) (sh : list nat) : Prop :=
  match k with
  | MValue | MScalar => sh = []
  | MVector | MVariable => exists n, sh = [n]
  | _ => sh <> []
  end.
Definition proper (o : obj) : Prop :=
  proper_shape (knd o) (shape_of o) /\ (single (knd o) = true -> exists q, dat o = DNum q) /\ (single (knd o) = false -> exists a, dat o = DArr a).
(** kinds: a Measurement is a Sequence, a Variable is a Vector, an Array is a Tensor *)
Definition sequence_like (k : mkind) : bool := match k with MSequence | MMeasurement => true | _ => false end.
Definition vector_like (k : mkind) : bool := match k with MVector | MVariable => true | _ => false end.
Definition tensor_like (k : mkind) : bool := match k with MTensor | MArray => true | _ => false end.
(** how many numbers data of a shape have *)
Definition count (sh : list nat) : nat := fold_right Nat.mul 1%nat sh.
(** proper, or a value that holds an array of one number (see C78_value_of_table_refuted) *)
Definition usable (o : obj) : Prop :=
  proper o \/ (knd o = MValue /\ shape_of o <> [] /\ count (shape_of o) = 1%nat).

(** which numbers or arrays each class accepts as its data *)
Definition accepts (k : mkind) (x : @arg U) : Prop :=
  let sh := raw_shape x in
  match k with
  | MValue => count sh = 1%nat
  | MSequence => is_num x = true \/ sh <> []
  | MMeasurement | MArray => True
  | MScalar => is_num x = true \/ sh = [1%nat]
  | MVector => exists n, sh = [n]
  | MVariable => sh = [] \/ exists n, sh = [n]
  | MTensor => sh <> []
  end.

(** ** Making one object from another *)
(** what happens to the unit *)
Inductive effect := Keeps | Drops | Breaks | Fails.
(** read as: the class made, the class of the argument *)
Definition effect_of (target source : mkind) : effect :=
  match target, source with
  | MValue, (MValue | MSequence | MMeasurement) => Keeps
  | MValue, _ => Fails
  | (MSequence | MMeasurement), MScalar => Breaks
  | (MSequence | MMeasurement | MArray), _ => Keeps
  | MScalar, (MScalar | MTensor | MArray) => Keeps
  | MScalar, MValue => Fails
  | MScalar, (MSequence | MMeasurement | MVector | MVariable) => Drops
  | (MVector | MVariable), (MVector | MVariable | MMeasurement | MScalar | MTensor | MArray) => Keeps
  | (MVector | MVariable | MTensor), MValue => Fails
  | (MVector | MVariable), MSequence => Drops
  | MTensor, (MTensor | MArray | MMeasurement | MScalar) => Keeps
  | MTensor, (MVector | MVariable | MSequence) => Drops
  end.
(** the shapes for which an object of one class can be made from an object of another *)
Definition convertible (target : mkind) (sh : list nat) : Prop :=
  match target with
  | MValue => count sh = 1%nat
  | MScalar => sh = [] \/ sh = [1%nat]
  | MVector | MVariable => (length sh <= 1)%nat
  | _ => True
  end.
(** every class in the list is made from the one before, and keeps the unit *)
Fixpoint keeping (k : mkind) (ks : list mkind) : Prop :=
  match ks with [] => True | k' :: r => effect_of k' k = Keeps /\ keeping k' r end.

(** ** Subscripts *)
(** the shape that integers and slices leave: an integer removes its axis *)
Inductive leaves : list sub -> list nat -> list nat -> Prop :=
| leaves_rest sh : leaves [] sh sh
| leaves_int z n j l sh r : selects_axis (SInt z) n [j] -> leaves l sh r -> leaves (SInt z :: l) (n :: sh) r
| leaves_slice sl n p l sh r : selects_axis (SSlice sl) n p -> leaves l sh r -> leaves (SSlice sl :: l) (n :: sh) (length p :: r).
(** position [ix] of the result is position [jx] of the data *)
Inductive reads : list sub -> list nat -> list nat -> list nat -> Prop :=
| reads_rest sh ix : valid ix sh -> reads [] sh ix ix
| reads_int z n j l sh ix jx : selects_axis (SInt z) n [j] -> reads l sh ix jx -> reads (SInt z :: l) (n :: sh) ix (j :: jx)
| reads_slice sl n p i j l sh ix jx : selects_axis (SSlice sl) n p -> nth_error p i = Some j -> reads l sh ix jx ->
    reads (SSlice sl :: l) (n :: sh) (i :: ix) (j :: jx).
(** [y] holds what [l] selects from [o], in the unit of [o] *)
Definition selection (o : obj) (l : list sub) (sh : list nat) (y : obj) : Prop :=
  unt y = unt o /\ exists a, dat o = DArr a /\
  (forall ix jx, reads l (shape a) ix jx ->
     match dat y with
     | DNum q => elem a jx = q
     | DArr b => shape b = sh /\ elem b ix = elem a jx
     end).

(** ** Rounding *)
(** what each operation does to a number: the whole number it gives *)
Definition rounds (r : rounding) (q : Qc) (z : Z) : Prop :=
  match r with
  | Rfloor => zq z <= q /\ q < zq z + 1
  | Rceil => zq z - 1 < q /\ q <= zq z
  | Rtrunc => (0 <= q -> zq z <= q /\ q < zq z + 1) /\ (q <= 0 -> zq z - 1 < q /\ q <= zq z)
  | Rround => (zq z - mkq 1 2 <= q /\ q <= zq z + mkq 1 2) /\
              (q = zq z - mkq 1 2 \/ q = zq z + mkq 1 2 -> Z.Even z)
  end.
End Spec.
