(** Model of the axis objects and of their index look-up.
    Source: /repo/src/eprempy/physical/_axis.py, _axis_factories.py;
    numeric/_data.py 25-55 ([isclose]).

    Numbers are exact: neither the rounding of [rtol * abs(d)] nor NaN is
    modelled.  [rtol] is numpy's default 1e-5. *)
From Verif Require Import PyBase ContainerModel Nd IndexModel.

(** What [index] returns: [numeric.index.Value] or [numeric.index.Sequence] *)
Inductive positions := At (z : Z) | These (l : list Z).
Definition as_positions (l : list Z) : positions := match l with [z] => At z | _ => These l end.

(** One argument of [index]; a slice or a list may only be the sole argument *)
Inductive target := TNum (q : Qc) | TStr (t : str).
Inductive targets := Args (l : list target) | OneList (l : list target) | OneSlice (sl : pyslice).

(** 60-75 [normalize]: [len] is the length of the axis.  A single string is
    iterable and falls apart into its characters. *)
Definition normalize (len : nat) (ts : targets) : result (list target) :=
  match ts with
  | Args [] => Ok (map (fun i => TNum (zq (Z.of_nat i))) (seq 0 len))
  | Args [TStr t] => Ok (map (fun c => TStr [c]) t)
  | Args l | OneList l => Ok l
  | OneSlice sl => l <- slice2range sl (Some (Z.of_nat len)) ;; Ok (map (fun z => TNum (zq z)) l)
  end.

(** 41-58 the general [Axis.index], over an axis of length [len].
    48: [if index := ...] is false for index 0. *)
Definition integral (t : target) : option Z :=
  match t with TNum q => if q_isint q then Some (qnum q) else None | TStr _ => None end.
Fixpoint integrals (l : list target) : option (list Z) :=
  match l with
  | [] => Some []
  | t :: l' => match integral t, integrals l' with Some z, Some r => Some (z :: r) | _, _ => None end
  end.
(** 77-81 [_out_of_bounds] *)
Definition is_out (len : nat) (z : Z) : bool := (z <? - Z.of_nat len)%Z || (Z.of_nat len - 1 <? z)%Z.
Definition out_of_bounds (len : nat) (l : list Z) : option Z := find (is_out len) l.
Definition axis_index (len : nat) (ts : targets) : result positions :=
  l <- normalize len ts ;;
  match integrals l with
  | None => Raise TypeError
  | Some zs => match out_of_bounds len zs with
               | Some z => if (z =? 0)%Z then Ok (as_positions zs) else Raise ValueError
               | None => Ok (as_positions zs)
               end
  end.

(** ** Points (168-196): [data] holds integers *)
Definition point_position (data : list Z) (t : target) : result Z :=
  match t with
  | TStr _ => Raise (OtherError "AxisValueError")
  | TNum q => match index_of qc_eqb q (map zq data) with
              | Ok i => Ok (Z.of_nat i)
              | Raise _ => Raise (OtherError "AxisValueError")
              end
  end.
(** 174-190; [indices]: 192-196, the member [_indices], by default the data *)
Definition points_index (data : list Z) (indices : option (list Z)) (ts : targets) : result positions :=
  match ts with
  | Args [] => Ok (These (match indices with Some l => l | None => data end))
  | _ => l <- normalize (length data) ts ;; zs <- mapM (point_position data) l ;; Ok (as_positions zs)
  end.

(** ** Symbols (199-229): 211-229 *)
Definition symbols_index (data : list str) (indices : option (list Z)) (ts : targets) : result positions :=
  match ts with
  | Args [] => Ok (These (match indices with Some l => l | None => map Z.of_nat (seq 0 (length data)) end))
  | Args l =>
      if forallb (fun t => match t with TStr _ => true | _ => false end) l then
        zs <- mapM (fun t => match t with
                             | TStr x => i <- index_of str_eqb x data ;; Ok (Z.of_nat i)
                             | TNum _ => Raise TypeError
                             end) l ;;
        Ok (as_positions zs)
      else Raise (OtherError "AxisTypeError")
  | _ => Raise (OtherError "AxisTypeError")
  end.

(** ** Coordinates (232-361): [data] in a unit of type [U] *)
(** numeric/_data.py 48-55 [isclose] for a one-dimensional array; numpy.isclose:
    |b - d| <= rtol * |d| *)
Definition rtol : Qc := mkq 1 100000.
Definition close_to (b d : Qc) : bool := qc_leb (absq (b - d)) (rtol * absq d)%Qc.
Definition minq (l : list Qc) (d : Qc) : Qc := fold_left (fun m x => if qc_ltb x m then x else m) l d.
Definition maxq (l : list Qc) (d : Qc) : Qc := fold_left (fun m x => if qc_ltb m x then x else m) l d.
Definition isclose (data : list Qc) (b : Qc) : result bool :=
  if mem qc_eqb b data then Ok true
  else match data with
       | [] => Raise ValueError (* numpy.min of an empty array *)
       | d :: l => if qc_ltb b (minq l d) || qc_ltb (maxq l d) b then Ok false
                   else Ok (existsb (close_to b) data)
       end.
(** the argument [closest] *)
Inductive side := NoSide | LowerSide | UpperSide | OtherSide.
(** 311-323 [_compute_index] *)
Definition compute_index (data : list Qc) (t : Qc) (closest : side) : result Z :=
  c <- isclose data t ;;
  if c then r <- nearest data t NoBound ;; Ok (fst r)
  else match closest with
       | NoSide => Raise (OtherError "AxisValueError")
       | LowerSide => r <- nearest data t Upper ;; Ok (fst r)
       | UpperSide => r <- nearest data t Lower ;; Ok (fst r)
       | OtherSide => Raise ValueError
       end.
(** 244-309 [index], after 325-336 has measured the targets: [values] in unit [u].
    [ueq]: equality of units; [factor v w]: the conversion factor between two
    units (measured/_convert.py). *)
Section Coordinates.
Context {U : Type} (ueq : U -> U -> bool) (one : U) (factor : U -> U -> result Qc).
Definition with_unit (values : list Qc) (v w : U) : result (list Qc) :=
  if ueq v w then Ok values else f <- factor v w ;; Ok (map (fun x => x * f)%Qc values).
Definition coordinates_index (data : list Qc) (unit : U) (values : list Qc) (u : U) (closest : side) : result positions :=
  let unit' := if negb (ueq u one) then u else unit in
  array <- with_unit values unit' unit ;;
  zs <- mapM (fun t => compute_index data t closest) array ;;
  Ok (as_positions zs).
End Coordinates.

(** ** Sub-axes: 90-110 [Axis.__getitem__] with an integer, a slice, or several
    integers, over an axis of members of type [M].  The result: the members and
    the stored index sequence ([None]: computed on demand, 150-155).
    [self.data[__i]]: numpy's own subscription of a one-dimensional array, also
    for lists of symbols by one integer or slice. *)
Inductive subscript := Whole | SubInt (z : Z) | SubSlice (sl : pyslice) | SubList (l : list Z).
Definition one_position (n : nat) (z : Z) : result nat :=
  match norm_index n z with Some i => Ok i | None => Raise IndexError end.
Definition data_positions (n : nat) (i : subscript) : result (list nat) :=
  match i with
  | Whole => Ok (seq 0 n)
  | SubInt z => j <- one_position n z ;; Ok [j]
  | SubSlice sl => slice_positions sl n
  | SubList l => mapM (one_position n) l
  end.
Definition is_whole (i : subscript) : bool :=
  match i with
  | Whole => true
  | SubSlice sl => match sl_start sl, sl_stop sl, sl_step sl with None, None, None => true | _, _, _ => false end
  | _ => false
  end.
Definition stored_indices (n : nat) (i : subscript) : result (option (list Z)) :=
  if is_whole i then Ok None
  else match i with
       | SubInt z => Ok (Some [z])
       | SubList l => Ok (Some l)
       | SubSlice sl => l <- slice2range sl (Some (Z.of_nat n)) ;; Ok (Some l)
       | Whole => Ok None
       end.
Definition axis_getitem {M} (data : list M) (i : subscript) : result (list M * option (list Z)) :=
  ps <- data_positions (length data) i ;;
  ix <- stored_indices (length data) i ;;
  Ok (flat_map (fun p => match nth_error data p with Some m => [m] | None => [] end) ps, ix).
(** 150-155 [Axis.indices] *)
Definition axis_indices {M} (x : list M * option (list Z)) : list Z :=
  match snd x with Some l => l | None => map Z.of_nat (seq 0 (length (fst x))) end.
