(** Specification of look-ups on an axis, independent of the model. *)
From Verif Require Import PyBase ContainerModel ContainerSpec AxisModel.

(** One position is returned as such, any other number of them as a sequence. *)
Inductive answers : list Z -> positions -> Prop :=
| A_one z : answers [z] (At z)
| A_many l : length l <> 1 -> answers l (These l).

(** Position [z] of [data] is the first one that holds [x]. *)
Definition first_position {A} (data : list A) (x : A) (z : Z) : Prop :=
  exists i, z = Z.of_nat i /\ first_at data i x.

(** [t] counts as being on the axis: it is a member or, between two members,
    agrees with a member to a relative 1e-5. *)
Definition on_axis (data : list Qc) (t : Qc) : Prop :=
  In t data \/
  ((exists lo, In lo data /\ (lo <= t)%Qc) /\ (exists hi, In hi data /\ (t <= hi)%Qc) /\
   exists d, In d data /\ (distance t d <= mkq 1 100000 * distance d 0)%Qc).
(** Position [z] holds the member closest to [t], the first one of these. *)
Definition closest_at (data : list Qc) (t : Qc) (z : Z) : Prop :=
  exists i v, z = Z.of_nat i /\ nth_error data i = Some v /\
  forall j w, nth_error data j = Some w ->
    (distance v t <= distance w t)%Qc /\ (j < i -> (distance v t < distance w t)%Qc).
(** Position [z] holds the greatest member below [t] (the least one above). *)
Definition greatest_below (data : list Qc) (t : Qc) (z : Z) : Prop :=
  exists i v, z = Z.of_nat i /\ nth_error data i = Some v /\ (v <= t)%Qc /\ forall w, In w data -> (w <= t)%Qc -> (w <= v)%Qc.
Definition least_above (data : list Qc) (t : Qc) (z : Z) : Prop :=
  exists i v, z = Z.of_nat i /\ nth_error data i = Some v /\ (t <= v)%Qc /\ forall w, In w data -> (t <= w)%Qc -> (v <= w)%Qc.

(** The numbers, in the unit of the axis, that [values] in unit [u] stand for;
    plain numbers are meant in the unit of the axis. *)
Inductive in_axis_unit {U} (ueq : U -> U -> bool) (one : U) (factor : U -> U -> result Qc) (unit u : U) (values : list Qc) : list Qc -> Prop :=
| I_plain : ueq u one = true -> in_axis_unit ueq one factor unit u values values
| I_same : ueq u one = false -> ueq u unit = true -> in_axis_unit ueq one factor unit u values values
| I_converted f : ueq u one = false -> ueq u unit = false -> factor u unit = Ok f ->
    in_axis_unit ueq one factor unit u values (map (fun v => v * f)%Qc values).

(** [z], read the way Python reads a subscript, is the position of [m]. *)
Definition holds_at {M} (data : list M) (z : Z) (m : M) : Prop :=
  exists i, nth_error data i = Some m /\ (z = Z.of_nat i \/ z = Z.of_nat i - Z.of_nat (length data))%Z.
