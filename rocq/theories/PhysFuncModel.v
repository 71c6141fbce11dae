(** * Model of the numpy functions of physical objects
    Source: /repo/src/eprempy/physical/_operations.py 211-250 and 411-700.

    Numbers are exact rationals, as in PhysicalModel.v; an elementary function
    (sin, log, ...) is a parameter [f].  Keyword arguments other than [axis],
    [keepdims] and [axes] are not modelled.  [ustr]: str of a unit.  numpy calls
    these functions only if an argument is one of the package's objects, so the
    cases of numbers and other operands never occur; they raise TypeError here. *)
From Verif Require Import PyBase ContainerModel Nd IndexModel ArrayModel AxesModel PhysicalModel.

Section PhysFunc.
Context {U B : Type}.
Variables (ueq : U -> U -> bool) (udiv : U -> U -> result U) (upow : U -> Qc -> result U) (uone : U) (ustr : U -> str).
Notation arr := (parr (U := U) (B := B)).
Notation obj := (pobj (U := U)).
Notation val := (pval (U := U) (B := B)).

(** 211-250 [from_numpy], [_get_factory]: the result is an object of the kind of
    the first argument; an array gets the given axes *)
Definition result_obj (k : kind) (d : nd Qc) (u : U) : result val := r <- build k d u ;; Ok (PObj r).
Definition result_arr (d : nd Qc) (u : U) (ax : list (str * B)) : result val := r <- parray_factory d u ax ;; Ok (PArr r).
(** scalar_factory of one number *)
Definition result_num (q : Qc) (u : U) : result val := result_obj KScalar (mknd [] (fun _ => q)) u.
(** vector_factory of a list of numbers *)
Definition nd_list (l : list Qc) : nd Qc := mknd [length l] (fun ix => nth (nth 0 ix 0) l 0%Qc).

(** ** Element-wise functions *)
(** numpy.f applied to the data of [x]; the axes stay *)
Definition apply_unit (f : Qc -> Qc) (x : val) (u : U) : result val :=
  match x with
  | PObj x => result_obj (okind x) (nd_map f (odata x)) u
  | PArr x => dx <- adata x ;; result_arr (nd_map f (data dx)) u (paxes x)
  | _ => Raise TypeError
  end.
Definition unit_of (x : val) : result U := match punit x with Some u => Ok u | None => Raise TypeError end.
(** 435-467 [sin], [cos], [tan], [_apply_trig] *)
Definition apply_trig (f : Qc -> Qc) (x : val) : result val :=
  u <- unit_of x ;;
  if str_eqb (ustr u) (s "rad") || str_eqb (ustr u) (s "deg") then apply_unit f x uone else Raise ValueError.
(** 470-478 [sqrt] *)
Definition apply_sqrt (f : Qc -> Qc) (x : val) : result val :=
  u <- unit_of x ;; v <- upow u (mkq 1 2) ;; apply_unit f x v.
(** 481-519 [log], [log10], [log2], [log1p], [_apply_log] *)
Definition apply_log (f : Qc -> Qc) (x : val) : result val :=
  u <- unit_of x ;; if str_eqb (ustr u) (s "1") then apply_unit f x uone else Raise ValueError.
(** 411-423 [power], as registered: the innermost decorators register the bare
    function, so the result is a plain numpy array (or real array) without a
    unit.  A scalar base is not registered. *)
Definition numpy_power (f : Qc -> Qc -> Qc) (x : val) (p : Qc) : result (nd Qc) :=
  match x with
  | PObj x => match okind x with KScalar => Raise TypeError | _ => Ok (nd_map (fun v => f v p) (odata x)) end
  | PArr x => dx <- adata x ;; Ok (nd_map (fun v => f v p) (data dx))
  | _ => Raise TypeError
  end.

(** ** Axes of a result: [{d: x.axes[d] for d in data.dimensions}] *)
Definition pick_axes (ax : list (str * B)) (l : list str) : result (list (str * B)) :=
  mapM (fun d => v <- lookup str_eqb ax d ;; Ok (d, v)) l.
Definition with_axes (x : arr) (d : array Qc) : result val :=
  ax <- pick_axes (paxes x) (anames d) ;; result_arr (data d) (aunit x) ax.

(** 522-544 [squeeze] *)
Definition psqueeze (x : val) : result val :=
  match x with
  | PObj x =>
      match okind x with
      | KScalar => Ok (PObj x)
      | k => let d := nd_squeeze (odata x) in
             if Nat.eqb (ndim d) 0 then result_num (elem d []) (ounit x) else result_obj k d (ounit x)
      end
  | PArr x =>
      dx <- adata x ;; r <- array_squeeze dx ;;
      match r with SqNum v => result_num v (aunit x) | SqArr d => with_axes x d end
  | _ => Raise TypeError
  end.

(** ** Reductions *)
(** the [axis] keyword: absent, None, or a number with the [keepdims] keyword *)
Inductive axarg := NoAxis | AxisNone | Axis (z : Z) (keep : option bool).
(** an axis of an object without names; numpy lets a number have the axes 0 and -1 *)
Definition obj_axis (x : obj) (z : Z) : result nat :=
  match okind x with
  | KScalar => if (z =? 0)%Z || (z =? -1)%Z then Ok 0 else Raise ValueError
  | _ => match norm_index (ndim (odata x)) z with Some k => Ok k | None => Raise ValueError end
  end.
(** 547-599 [npmin], [npmax], [mean], [sum] of scalars, vectors and tensors *)
Definition obj_reduce (g : list Qc -> Qc) (x : obj) (a : axarg) : result val :=
  match okind x, a with
  | KScalar, Axis z _ => _ <- obj_axis x z ;; result_num (g (flat (odata x))) (ounit x)
  | KScalar, _ | _, NoAxis => result_num (g (flat (odata x))) (ounit x)
  | k, AxisNone => result_obj k (mknd [] (fun _ => g (flat (odata x)))) (ounit x)
  | k, Axis z keep =>
      n <- obj_axis x z ;;
      result_obj k (if is_true keep then nd_reduce_keep g n (odata x) else nd_reduce g n (odata x)) (ounit x)
  end.
(** 574-599 [mean], [sum]; [real] is the function of the real array.  With
    [axis=None] the real array gives a number, which has no dimensions *)
Definition preduce (real : array Qc -> Z -> option bool -> result (array Qc)) (g : list Qc -> Qc) (x : val) (a : axarg) : result val :=
  match x with
  | PObj x => obj_reduce g x a
  | PArr x =>
      dx <- adata x ;;
      match a with
      | NoAxis => result_num (g (flat (data dx))) (aunit x)
      | AxisNone => Raise AttributeError
      | Axis z keep => d <- real dx z keep ;; with_axes x d
      end
  | _ => Raise TypeError
  end.
Definition psum (g : list Qc -> Qc) : val -> axarg -> result val := preduce (array_sum g) g.
Definition pmean (g : list Qc -> Qc) : val -> axarg -> result val := preduce (array_mean g) g.
(** 547-571 [npmin], [npmax]: a real array implements neither numpy.min nor
    numpy.max, so numpy raises TypeError *)
Definition pextreme (g : list Qc -> Qc) (x : val) (a : axarg) : result val :=
  match x with
  | PObj x => obj_reduce g x a
  | _ => Raise TypeError
  end.
(** the running sums of a list *)
Definition prefix_sums (g : list Qc -> Qc) (l : list Qc) : list Qc := map (fun i => g (firstn (S i) l)) (seq 0 (length l)).
(** 602-628 [cumsum] *)
Definition pcumsum (g : list Qc -> Qc) (x : val) (a : axarg) : result val :=
  match x with
  | PObj x =>
      let whole := nd_list (prefix_sums g (flat (odata x))) in
      match okind x, a with
      | KTensor, AxisNone => result_obj KTensor whole (ounit x)
      | KTensor, Axis z _ => k <- obj_axis x z ;; result_obj KTensor (nd_accumulate g k (odata x)) (ounit x)
      | _, Axis z _ => _ <- obj_axis x z ;; result_obj KVector whole (ounit x)
      | _, _ => result_obj KVector whole (ounit x)
      end
  | PArr x =>
      dx <- adata x ;;
      match a with
      | NoAxis => result_obj KVector (nd_list (prefix_sums g (flat (data dx)))) (aunit x)
      | AxisNone => Raise AttributeError
      | Axis z _ => d <- array_cumsum g dx z ;; with_axes x d
      end
  | _ => Raise TypeError
  end.
(** 631-641 [transpose] *)
Definition pnumpy_transpose (x : val) (axes : option (list Z)) : result val :=
  match x with
  | PObj x =>
      d <- match axes with
           | None => Ok (nd_reverse_axes (odata x))
           | Some l => k <- norm_axes (ndim (odata x)) l ;; nd_transpose k (odata x)
           end ;;
      result_obj (okind x) d (ounit x)
  | PArr x => dx <- adata x ;; d <- numpy_transpose dx axes ;; with_axes x d
  | _ => Raise TypeError
  end.
(** 685-700 [trapz], registered for arrays only; [g]: the trapezoidal sum of a
    line with the given coordinates *)
Definition ptrapz (g : list Qc -> Qc) (x : val) (axis : option Z) : result val :=
  match x with
  | PArr x => dx <- adata x ;; d <- array_trapz g dx axis ;; with_axes x d
  | _ => Raise TypeError
  end.

(** ** Gradients *)
(** numpy.gradient along one line (edge_order=1): [xs] are the coordinates.  In
    the interior the formula for unequal steps; with equal steps numpy uses a
    shorter formula with the same value *)
Definition slope (x0 x1 f0 f1 : Qc) : Qc := ((f1 - f0) / (x1 - x0))%Qc.
Definition inner_slope (x0 x1 x2 f0 f1 f2 : Qc) : Qc :=
  let h1 := (x1 - x0)%Qc in let h2 := (x2 - x1)%Qc in
  (- h2 / (h1 * (h1 + h2)) * f0 + (h2 - h1) / (h1 * h2) * f1 + h1 / (h2 * (h1 + h2)) * f2)%Qc.
Definition line_gradient (xs : nat -> Qc) (n : nat) (f : nat -> Qc) (i : nat) : Qc :=
  if Nat.eqb i 0 then slope (xs 0) (xs 1) (f 0) (f 1)
  else if Nat.eqb (S i) n then slope (xs (i - 1)) (xs i) (f (i - 1)) (f i)
  else inner_slope (xs (i - 1)) (xs i) (xs (S i)) (f (i - 1)) (f i) (f (S i)).
(** the gradient along axis [k] *)
Definition nd_gradient (xs : nat -> Qc) (k : nat) (a : nd Qc) : nd Qc :=
  mknd (shape a) (fun ix => line_gradient xs (nth k (shape a) 0)
                              (fun j => elem a (firstn k ix ++ j :: skipn (S k) ix)) (nth k ix 0)).
(** an argument of numpy.gradient: a step, or the coordinates along an axis *)
Inductive spacing := Step (h : Qc) | Coords (l : list Qc).
Definition spacing_at (s : spacing) (n : nat) : result (nat -> Qc) :=
  match s with
  | Step h => Ok (fun i => (zq (Z.of_nat i) * h)%Qc)
  | Coords l => if Nat.eqb (length l) n then Ok (fun i => nth i l 0%Qc) else Raise ValueError
  end.
(** no arguments: unit steps; one number: a step for all axes; else one for each axis *)
Definition spacings (n : nat) (l : list spacing) : result (list spacing) :=
  match l with
  | [] => Ok (repeat (Step 1) n)
  | [Step h] => Ok (repeat (Step h) n)
  | _ => if Nat.eqb (length l) n then Ok l else Raise TypeError
  end.
Definition numpy_gradient (a : nd Qc) (l : list spacing) : result (list (nd Qc)) :=
  ss <- spacings (ndim a) l ;;
  xs <- mapM (fun k => spacing_at (nth k ss (Step 1)) (nth k (shape a) 0)) (seq 0 (ndim a)) ;;
  if existsb (fun n => Nat.ltb n 2) (shape a) then Raise ValueError
  else Ok (map (fun k => nd_gradient (nth k xs (fun _ => 0%Qc)) k a) (seq 0 (ndim a))).
(** 651-667: an argument of the package's gradient is a number or list without a
    unit, or a scalar or vector with one; units are compared with the first *)
Definition coordinate : Type := spacing * option U.
Definition unit_or_one (c : coordinate) : U := match snd c with Some u => u | None => uone end.
(** 644-682 [gradient].  numpy gives one array for one axis and a list for more;
    a list of results in either case here *)
Definition pgradient (x : val) (args : list coordinate) : result (list val) :=
  match x with
  | PObj o => match okind o with
              | KScalar => Ok []
              | k => u <- match args with
                          | [] => Ok (ounit o)
                          | c :: r => if forallb (fun c' => ueq (unit_or_one c') (unit_or_one c)) r then udiv (ounit o) (unit_or_one c)
                                      else Raise TypeError
                          end ;;
                     ds <- numpy_gradient (odata o) (map fst args) ;;
                     mapM (fun d => result_obj k d u) ds
              end
  | PArr a => u <- match args with
                   | [] => Ok (aunit a)
                   | c :: r => if forallb (fun c' => ueq (unit_or_one c') (unit_or_one c)) r then udiv (aunit a) (unit_or_one c)
                               else Raise TypeError
                   end ;;
              dx <- adata a ;;
              ds <- numpy_gradient (data dx) (map fst args) ;;
              mapM (fun d => result_arr d u (paxes a)) ds
  | _ => Raise TypeError
  end.
End PhysFunc.
