(** Specifications for the container utilities, independent of the model. *)
From Verif Require Import PyBase.
From Coq Require Import Sorted.

(** [a] is obtained from [l] by deleting members *)
Inductive subseq {A} : list A -> list A -> Prop :=
| sub_nil : subseq [] []
| sub_take x a l : subseq a l -> subseq (x :: a) (x :: l)
| sub_skip x a l : subseq a l -> subseq a (x :: l).

(** [eqb] decides equality *)
Definition decides {A} (eqb : A -> A -> bool) : Prop := forall x y, eqb x y = true <-> x = y.

(** [x] is at position [i] of [l] and nowhere before *)
Definition first_at {A} (l : list A) (i : nat) (x : A) : Prop :=
  nth_error l i = Some x /\ forall j, j < i -> nth_error l j <> Some x.

Definition ascending (l : list Qc) : Prop := StronglySorted Qcle l.
Definition distance (a b : Qc) : Qc := if qc_ltb a b then (b - a)%Qc else (a - b)%Qc.

(** The positions selected by a slice from a sequence of [n] items (Python
    language reference 6.3.3 and [slice.indices]). *)
Definition clamp (lo hi z : Z) : Z := Z.max lo (Z.min hi z).
Definition from_end (n z : Z) : Z := if (z <? 0)%Z then (z + n)%Z else z.
Definition slice_first (start : option Z) (step n : Z) : Z :=
  match start with
  | None => if (0 <? step)%Z then 0%Z else (n - 1)%Z
  | Some z => if (0 <? step)%Z then clamp 0 n (from_end n z) else clamp (-1) (n - 1) (from_end n z)
  end.
Definition slice_last (stop : option Z) (step n : Z) : Z :=
  match stop with
  | None => if (0 <? step)%Z then n else (-1)%Z
  | Some z => if (0 <? step)%Z then clamp 0 n (from_end n z) else clamp (-1) (n - 1) (from_end n z)
  end.
(** positions in the order of selection: the [k]-th one is [first + k*step], as
    long as it lies before [last] *)
Definition enumerates (l : list Z) (first last step : Z) : Prop :=
  (forall k p, nth_error l k = Some p -> p = (first + Z.of_nat k * step)%Z) /\
  (forall k : nat, k < length l <->
     if (0 <? step)%Z then (first + Z.of_nat k * step < last)%Z else (last < first + Z.of_nat k * step)%Z).
Definition selects (start stop step : option Z) (n : Z) (l : list Z) : Prop :=
  let st := match step with Some z => z | None => 1%Z end in
  st <> 0%Z /\ enumerates l (slice_first start st n) (slice_last stop st n) st.
