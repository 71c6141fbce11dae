(** Specifications for index arithmetic, subscripts and index restriction,
    independent of the model's helpers. *)
From Verif Require Import PyBase Nd ContainerModel ContainerSpec IndexModel.
From Coq Require Import Sorted.

(** [r] is the integer closest to [z] between the given bounds *)
Definition in_bounds (lo hi : option Z) (r : Z) : Prop :=
  match lo with Some f => (f <= r)%Z | None => True end /\
  match hi with Some c => (r <= c)%Z | None => True end.
Definition closest_in (lo hi : option Z) (z r : Z) : Prop :=
  in_bounds lo hi r /\ forall r', in_bounds lo hi r' -> (Z.abs (r - z) <= Z.abs (r' - z))%Z.
Definition bounds_ordered (lo hi : option Z) : Prop :=
  match lo, hi with Some f, Some c => (f <= c)%Z | _, _ => True end.

(** The [k]-th entry of an operand: scalars stand for all their repetitions *)
Definition entry (a : operand) (k : nat) : option Z :=
  match a with OVal z | OInt z => Some z | OSeq l => nth_error l k | OOther => None end.
(** number of entries; scalars adapt to any number *)
Definition has_length (a : operand) (n : nat) : Prop :=
  match a with OSeq l => length l = n | OVal _ | OInt _ => True | OOther => False end.
Definition is_index (a : operand) : Prop := match a with OVal _ | OSeq _ => True | _ => False end.
Definition is_scalar (a : operand) : Prop := match a with OVal _ | OInt _ => True | _ => False end.
(** [r] is [f a b] entry by entry *)
Definition entrywise (f : Z -> Z -> Z) (a b r : operand) : Prop :=
  (is_scalar a -> is_scalar b -> exists z, r = OVal z) /\
  (forall n, (exists l, a = OSeq l \/ b = OSeq l) -> has_length a n -> has_length b n -> exists l, r = OSeq l /\ length l = n) /\
  (forall k x y, entry a k = Some x -> entry b k = Some y -> entry r k = Some (f x y)).

(** The positions selected by one subscript from an axis of length [n] *)
Inductive selects_axis : sub -> nat -> list nat -> Prop :=
| sel_int z n : (0 <= z < Z.of_nat n)%Z -> selects_axis (SInt z) n [Z.to_nat z]
| sel_int_neg z n : (- Z.of_nat n <= z < 0)%Z -> selects_axis (SInt z) n [Z.to_nat (z + Z.of_nat n)]
| sel_integral z n p : selects_axis (SInt z) n p -> selects_axis (SIntegral z) n p
| sel_slice sl n p : selects (sl_start sl) (sl_stop sl) (sl_step sl) (Z.of_nat n) (map Z.of_nat p) ->
    selects_axis (SSlice sl) n p
| sel_seq l n p : Forall2 (fun z k => selects_axis (SInt z) n [k]) l p -> selects_axis (SSeq l) n p.
(** one subscript per leading axis; the remaining axes whole *)
Inductive selects_axes : list sub -> list nat -> list (list nat) -> Prop :=
| sels_nil sh : selects_axes [] sh (map (fun n => seq 0 n) sh)
| sels_cons x xs n sh p ps : selects_axis x n p -> selects_axes xs sh ps ->
    selects_axes (x :: xs) (n :: sh) (p :: ps).
(** [jx] are the selected positions numbered by [ix], axis by axis *)
Inductive picks : list (list nat) -> list nat -> list nat -> Prop :=
| picks_nil : picks [] [] []
| picks_cons p ps i ix j jx : nth_error p i = Some j -> picks ps ix jx -> picks (p :: ps) (i :: ix) (j :: jx).
(** [r] holds exactly the selected part of [a], every axis kept *)
Definition sub_block {A} (a : nd A) (ps : list (list nat)) (r : nd A) : Prop :=
  shape r = map (@length nat) ps /\ forall ix jx, picks ps ix jx -> elem r ix = elem a jx.

Definition strictly_ascending (l : list Qc) : Prop := StronglySorted Qclt l.
Definition grid_rows (g : grid) : list (list Qc) := match g with G1 l => [l] | G2 rows => rows end.
(** rows of one positive length, each strictly ascending *)
Definition proper_grid (g : grid) (n : nat) : Prop :=
  0 < n /\ grid_rows g <> [] /\ forall row, In row (grid_rows g) -> length row = n /\ strictly_ascending row.
(** In every row the member at [lo] is not above a target, unless all members
    are, and the member at [hi] is not below it, unless all members are. *)
Definition brackets (rows : list (list Qc)) (targets : list Qc) (lo hi : nat) : Prop :=
  forall row t, In row rows -> In t targets ->
    ((exists v, In v row /\ (v <= t)%Qc) -> exists w, nth_error row lo = Some w /\ (w <= t)%Qc) /\
    ((exists v, In v row /\ (t <= v)%Qc) -> exists w, nth_error row hi = Some w /\ (t <= w)%Qc).
(** no narrower range will do *)
Definition tight (rows : list (list Qc)) (targets : list Qc) (lo hi : nat) : Prop :=
  (exists row t, In row rows /\ In t targets /\ forall k v, lo < k -> nth_error row k = Some v -> (t < v)%Qc) /\
  (exists row t, In row rows /\ In t targets /\ forall k v, k < hi -> nth_error row k = Some v -> (v < t)%Qc).
