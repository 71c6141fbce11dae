(** * Vocabulary of the properties of physical objects (no eprempy code) *)
From Verif Require Import PyBase PyLemmas Nd ContainerSpec ArrayModel ArraySpec AxesModel PhysicalModel.

Section Spec.
Context {U B : Type}.
(** What is asked of the units: every unit has a size, which is not zero; equal
    units have equal sizes; a conversion factor is the ratio of the sizes.
    (C21 and C22 prove this of the actual tables.) *)
Record measures (ueq : U -> U -> bool) (factor : U -> U -> option Qc) (size : U -> Qc) : Prop := {
  size_nonzero : forall u, size u <> 0%Qc;
  equal_sizes : forall u v, ueq u v = true -> size u = size v;
  factor_sizes : forall u v w, factor u v = Some w -> (w * size v)%Qc = size u }.
(** The amount of a physical quantity: number times size of the unit *)
Definition amount (size : U -> Qc) (o : pobj (U := U)) (ix : list nat) : Qc := (size (ounit o) * elem (odata o) ix)%Qc.
(** the data of a scalar are a number, those of a vector have one axis *)
Definition well_formed (o : pobj (U := U)) : Prop :=
  match okind o with
  | KScalar => shape (odata o) = []
  | KVector => length (shape (odata o)) = 1
  | KTensor => shape (odata o) <> []
  end.
(** same kind, same shape, same amounts: the same physical quantity *)
Definition same_quantity (size : U -> Qc) (a b : pobj (U := U)) : Prop :=
  okind a = okind b /\ shape (odata a) = shape (odata b) /\
  forall ix, valid ix (shape (odata a)) -> amount size a ix = amount size b ix.
(** Arrays.  [tidy]: named like its axes, no empty axis, at least one axis *)
Definition tidy (a : parr (U := U) (B := B)) : Prop :=
  well_named (face a) /\ adims (face a) = Named (map fst (paxes a)) /\ paxes a <> [].
(** every axis is as long as the data *)
Definition lengths_agree (blen : B -> nat) (a : parr (U := U) (B := B)) : Prop :=
  map (fun kv => blen (snd kv)) (paxes a) = shape (data (face a)).
(** the amounts shown by the array at named coordinates *)
Definition shows (size : U -> Qc) (a : parr (U := U) (B := B)) (c : coords) (q : Qc) : Prop :=
  exists d, adata a = Ok d /\ q = (size (aunit a) * at_ d c)%Qc.
Definition inside (a : parr (U := U) (B := B)) (c : coords) : Prop := within (face a) c.
Definition same_array (size : U -> Qc) (a b : parr (U := U) (B := B)) : Prop :=
  paxes a = paxes b /\ (forall d n, axis_len (face a) d n <-> axis_len (face b) d n) /\
  forall c q, inside a c -> shows size a c q -> shows size b c q.
(** [z] is an array with the axes of [x], the unit [u] and the values [g] *)
Definition elementwise (x z : parr (U := U) (B := B)) (u : U) (g : Qc -> Qc) : Prop :=
  tidy z /\ aunit z = u /\ scale z = 1%Qc /\ paxes z = paxes x /\ (forall d n, axis_len (face z) d n <-> axis_len (face x) d n) /\
  forall c, inside x c -> at_ (face z) c = g (scale x * at_ (face x) c)%Qc.
(** the number shown at named coordinates, in the unit of the array *)
Definition value_at (a : parr (U := U) (B := B)) (c : coords) : Qc := (scale a * at_ (face a) c)%Qc.
(** the amount at named coordinates *)
Definition amount_at (size : U -> Qc) (a : parr (U := U) (B := B)) (c : coords) : Qc := (size (aunit a) * value_at a c)%Qc.
End Spec.
(** one conversion after another *)
Fixpoint chain {X U} (conv : X -> U -> result X) (x : X) (us : list U) : result X :=
  match us with [] => Ok x | u :: us' => y <- conv x u ;; chain conv y us' end.
