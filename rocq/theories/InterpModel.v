(** * Model of the interpolation of observable quantities.
    Source: /repo/src/eprempy/observable/_interfaces.py 879-1061, 1875-1996.

    Numbers are exact rationals; targets are in the unit of the reference.  The
    data is that of a quantity with the dimensions time and shell: a list of rows,
    one for each time.  Interpolation treats every position of further dimensions
    (species, energy, mu) separately and alike. *)
From Verif Require Import PyBase ContainerModel AxisModel.

(** scipy.interpolate.interp1d(x, y)(t), kind 'linear', assume_sorted=False,
    bounds_error: sort by x, find the interval, draw the line *)
Fixpoint insert_pair (p : Qc * Qc) (l : list (Qc * Qc)) : list (Qc * Qc) :=
  match l with
  | [] => [p]
  | q :: l' => if qc_leb (fst p) (fst q) then p :: l else q :: insert_pair p l'
  end.
Definition sort_pairs (l : list (Qc * Qc)) : list (Qc * Qc) := fold_right insert_pair [] l.
Definition line (p q : Qc * Qc) (t : Qc) : Qc :=
  ((snd q - snd p) / (fst q - fst p) * (t - fst p) + snd p)%Qc.
(** numpy.searchsorted(x, t).clip(1, len(x) - 1), with the end points *)
Fixpoint segment (p : Qc * Qc) (l : list (Qc * Qc)) (t : Qc) : result Qc :=
  match l with
  | [] => Raise ValueError
  | [q] => if qc_leb t (fst q) then Ok (line p q t) else Raise ValueError
  | q :: l' => if qc_leb t (fst q) then Ok (line p q t) else segment q l' t
  end.
Definition interp1d (x y : list Qc) (t : Qc) : result Qc :=
  if negb (Nat.eqb (length x) (length y)) then Raise ValueError
  else match sort_pairs (combine x y) with
       | [] => Raise ValueError
       | p :: l => if qc_ltb t (fst p) then Raise ValueError else segment p l t
       end.

(** 1971-1994 [_apply_interp1d], one-dimensional reference *)
Definition apply1 (reference array : list Qc) (t : Qc) : result Qc :=
  if mem qc_eqb t reference then i <- nearest reference t NoBound ;; pyindex array (fst i)
  else if Nat.eqb (length reference) 1 then pyindex array 0
  else interp1d reference array t.
(** ... two-dimensional reference, all rows.  If the target is a member, [nearest]
    gives a pair of indices and [array[idx]] is one number in place of one for
    each row, on which [numpy.swapaxes] fails (1966-1967). *)
Definition apply2 (reference array : list (list Qc)) (t : Qc) : result (list Qc) :=
  if existsb (mem qc_eqb t) reference then Raise (OtherError "AxisError")
  else mapM (fun xy => interp1d (fst xy) (snd xy) t) (combine reference array).

(** 1931-1968 [_apply_interpolation]: along the leading axis of each column; or
    along the second axis, with the rows of the reference *)
Definition columns (n : nat) (rows : list (list Qc)) : list (list Qc) := map (fun j => map (fun r => nth j r 0%Qc) rows) (seq 0 n).
Definition interpolate_time (times : list Qc) (n : nat) (rows : list (list Qc)) (ts : list Qc) : result (list (list Qc)) :=
  mapM (fun t => mapM (fun col => apply1 times col t) (columns n rows)) ts.
Definition interpolate_radius (radii rows : list (list Qc)) (rs : list Qc) : result (list (list Qc)) :=
  l <- mapM (apply2 radii rows) rs ;;
  Ok (columns (Nat.min (length radii) (length rows)) l).
(** 1881-1913 [interpolate]: the time first (955: {**from_axis, **from_grid}),
    then the radius, with the rows of the grid from its first one on *)
Definition interpolate (times : list Qc) (radii : list (list Qc)) (n : nat) (rows : list (list Qc)) (ts rs : option (list Qc)) : result (list (list Qc)) :=
  w <- match ts with Some ts => interpolate_time times n rows ts | None => Ok rows end ;;
  match rs with Some rs => interpolate_radius radii w rs | None => Ok w end.

(** 1046-1061 [_check_interpolation_bounds] *)
Definition within (data : list Qc) (v : Qc) : result unit :=
  match data with
  | [] => Raise ValueError
  | d :: l => if qc_ltb (minq l d) v && qc_ltb v (maxq l d) then Ok tt else Raise ValueError
  end.
(** 879-940, 957-1003 [_observe], [_subscript], [_interpolate], ...: an interpolated
    dimension is whole, the others are subscripted by the user's indices; an empty
    sequence of indices counts as no indices ([indices.get(d) or i]) *)
Definition take {A} (l : list A) (ix : option (list Z)) : result (list A) := match ix with None | Some [] => Ok l | Some zs => mapM (pyindex l) zs end.
Definition observe2 (times : list Qc) (radii : list (list Qc)) (n : nat) (rows : list (list Qc)) (it ish : option (list Z)) (ts rs : option (list Qc)) : result (list (list Qc)) :=
  _ <- match ts with Some l => mapM (within times) l | None => Ok [] end ;;
  _ <- match rs with Some l => mapM (within (concat radii)) l | None => Ok [] end ;;
  w <- interpolate times radii n rows ts rs ;;
  w <- take w (match ts with Some _ => None | None => it end) ;;
  mapM (fun r => take r (match rs with Some _ => None | None => ish end)) w.
