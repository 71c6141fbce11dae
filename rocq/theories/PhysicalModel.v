(** * Model of physical objects: unit conversion and arithmetic.
    Source: /repo/src/eprempy/physical/_operations.py, _array.py,
    _object_factories.py, /repo/src/eprempy/measured/_convert.py, _context.py.

    Numbers are exact rationals: floating-point rounding is not modelled.  The
    unit operations and the conversion factors are parameters; UnitOpsModel.v and
    MetricModel.v model the actual ones.  What an axis is does not matter: it is a
    type [B] with the operations of _axis.py. *)
From Verif Require Import PyBase ContainerModel Nd IndexModel ArrayModel AxesModel.

Section Physical.
Context {U B : Type}.
(** Unit.__eq__, *, /, **, the unit '1', and metric.conversion (whose factor is
    None for a UnitConversionError) with the test [self.unit | new] *)
Variables (ueq : U -> U -> bool) (umul udiv : U -> U -> result U) (upow : U -> Qc -> result U) (uone : U).
Variables (factor : U -> U -> option Qc) (consistent : U -> U -> bool).
(** axes: ==, !=, len, containment *)
Variables (beq : B -> B -> bool) (blen : B -> nat) (bin : B -> B -> bool).

(** _scalar.py, _vector.py, _tensor.py: an object with plain data *)
Inductive kind := KScalar | KVector | KTensor.
Record pobj := mkobj { okind : kind; odata : nd Qc; ounit : U }.
(** _array.py 27-45: the array keeps the data it was given and a scale *)
Record parr := mkparr { face : array Qc; scale : Qc; aunit : U; paxes : list (str * B) }.
(** _array.py 122-126 [data]: the product of a number and a real array *)
Definition adata (a : parr) : result (array Qc) := multiplicative Qcmult (ANum (scale a)) (AArr (face a)).
(** operands: a measured object, an array, a real number, anything else *)
Inductive pval := PObj (o : pobj) | PArr (a : parr) | PNum (q : Qc) | PElse.
Definition punit (v : pval) : option U :=
  match v with PObj o => Some (ounit o) | PArr a => Some (aunit a) | _ => None end.

(** ** Factories *)

(** _object_factories.py 31-110: the kind of data each factory accepts.  A scalar
    can be made from one-dimensional data of length one (36-51) *)
Definition build (k : kind) (d : nd Qc) (u : U) : result pobj :=
  match k with
  | KScalar => match shape d with
               | [] => Ok (mkobj KScalar d u)
               | [1] => Ok (mkobj KScalar (mknd [] (fun _ => elem d [0])) u)
               | _ => Raise TypeError
               end
  | KVector => if Nat.eqb (ndim d) 1 then Ok (mkobj KVector d u) else Raise TypeError
  | KTensor => if Nat.eqb (ndim d) 0 then Raise TypeError else Ok (mkobj KTensor d u)
  end.
(** _object_factories.py 113-132 [array_factory] with a mapping of axes: the
    names come from the axes; their lengths are not compared with the data.
    Without axes the names are the default ones *)
Definition parray_factory (d : nd Qc) (u : U) (ax : list (str * B)) : result parr :=
  r <- (match ax with [] => Ok (array_default d) | _ => array_factory d (anames_of ax) end) ;;
  Ok (mkparr r 1 u ax).

(** ** Conversion *)

(** _context.py 31-68 [Context.convert]: the errors *)
Definition conversion_factor (u v : U) : result Qc :=
  match factor u v with
  | Some w => Ok w
  | None => if consistent u v then Raise (OtherError "UnitConversionError") else Raise ValueError
  end.
(** _convert.py 7-33 [apply], [singular], [arraylike] *)
Definition obj_withunit (x : pobj) (v : U) : result pobj :=
  w <- conversion_factor (ounit x) v ;;
  if ueq (ounit x) v then Ok x
  else build (okind x) (nd_map (Qcmult w) (odata x)) v.
(** _array.py 149-167 [converter]: the new array has the same data and the scale
    of this conversion *)
Definition arr_withunit (x : parr) (v : U) : result parr :=
  w <- conversion_factor (aunit x) v ;;
  if ueq (aunit x) v then Ok x
  else y <- parray_factory (data (face x)) v (paxes x) ;;
       Ok (mkparr (face y) w (aunit y) (paxes y)).

(** ** Operators *)

(** the largest kind among the operands: _operations.py 229-241 [_get_factory] *)
Definition kind_max (a b : kind) : kind :=
  match a, b with
  | KTensor, _ | _, KTensor => KTensor
  | KVector, _ | _, KVector => KVector
  | _, _ => KScalar
  end.
(** 38-46 [eq] *)
Definition peq (axeq : B -> B -> bool) (a b : pval) : result bool :=
  match a, b with
  | PArr x, PArr y =>
      dx <- adata x ;; dy <- adata y ;;
      Ok (nd_array_equal qc_eqb (data dx) (data dy) && ueq (aunit x) (aunit y) && axes_eq axeq (paxes x) (paxes y))
  | PArr x, PObj y => dx <- adata x ;; Ok (nd_array_equal qc_eqb (data dx) (odata y) && ueq (aunit x) (ounit y))
  | PObj x, PArr y => dy <- adata y ;; Ok (nd_array_equal qc_eqb (odata x) (data dy) && ueq (ounit x) (aunit y))
  | PObj x, PObj y => Ok (nd_array_equal qc_eqb (odata x) (odata y) && ueq (ounit x) (ounit y))
  | _, _ => Ok false
  end.
(** 191-204 [comparative].  Two arrays are compared as real arrays, which needs
    equal names; an array and another object as a real array and an ndarray
    (the converse is numpy's) *)
Definition pcompare (f : Qc -> Qc -> bool) (a b : pval) : result (nd bool) :=
  match a, b with
  | PArr x, PArr y => if ueq (aunit x) (aunit y) then dx <- adata x ;; dy <- adata y ;; comparative f (AArr dx) (AArr dy) else Raise ValueError
  | PArr x, PObj y => if ueq (aunit x) (ounit y) then dx <- adata x ;; comparative f (AArr dx) (ANd (odata y)) else Raise ValueError
  | PObj x, PArr y => if ueq (ounit x) (aunit y) then dy <- adata y ;; nd_map2 f (odata x) (data dy) else Raise ValueError
  | PObj x, PObj y => if ueq (ounit x) (ounit y) then nd_map2 f (odata x) (odata y) else Raise ValueError
  | PArr x, PNum q => dx <- adata x ;; comparative f (AArr dx) (ANum q)
  | PObj x, PNum q => nd_map2 f (odata x) (nd_scalar q)
  | PNum q, PArr y => dy <- adata y ;; nd_map2 f (nd_scalar q) (data dy)
  | PNum q, PObj y => nd_map2 f (nd_scalar q) (odata y)
  | _, _ => Raise (OtherError "PhysicalTypeError")
  end.
(** 244-256 [unary]: a unit has no sign or rounding, so it is kept *)
Definition punary (f : Qc -> Qc) (a : pval) : result pval :=
  match a with
  | PObj x => r <- build (okind x) (nd_map f (odata x)) (ounit x) ;; Ok (PObj r)
  | PArr x => dx <- adata x ;; dr <- unary f (AArr dx) ;; r <- parray_factory (data dr) (aunit x) (paxes x) ;; Ok (PArr r)
  | _ => Raise (OtherError "PhysicalTypeError")
  end.
(** 259-308 [additive].  A number is measured: its unit is '1' (quantity.measure
    wraps it in a list, so its data have length one).  Other operands that are
    not measured (sequences of numbers and units) are not modelled. *)
Definition measured_number (q : Qc) : pobj := mkobj KVector (mknd [1] (fun _ => q)) uone.
Definition unit_is_one (u : U) : bool := ueq u uone.
Definition padditive (f : Qc -> Qc -> Qc) (a b : pval) : result pval :=
  match a, b with
  | PArr x, PArr y =>
      dx <- adata x ;; dy <- adata y ;;
      d <- additive f (AArr dx) (AArr dy) ;;
      match d with
      | RNd _ => Raise TypeError
      | RArr d =>
          if ueq (aunit x) (aunit y) then
            if axes_eq beq (paxes x) (paxes y) then r <- parray_factory (data d) (aunit x) (paxes x) ;; Ok (PArr r)
            else match axes_add beq blen bin (paxes x) (paxes y) with
                 | Ok ax => match parray_factory (data d) (aunit x) ax with
                            | Raise ValueError => Raise ValueError
                            | Raise e => Raise e
                            | Ok r => Ok (PArr r)
                            end
                 | Raise e => Raise e
                 end
          else Raise ValueError
      end
  | PArr x, PObj y =>
      if match okind y with KVector => true | _ => false end then Raise TypeError
      else dx <- adata x ;; d <- nd_map2 f (data dx) (odata y) ;;
           if ueq (aunit x) (ounit y) then r <- parray_factory d (aunit x) (paxes x) ;; Ok (PArr r) else Raise ValueError
  | PObj x, PArr y =>
      if match okind x with KVector => true | _ => false end then Raise TypeError
      else dy <- adata y ;; d <- nd_map2 f (odata x) (data dy) ;;
           if ueq (ounit x) (aunit y) then r <- parray_factory d (ounit x) (paxes y) ;; Ok (PArr r) else Raise ValueError
  | PObj x, PObj y =>
      d <- nd_map2 f (odata x) (odata y) ;;
      if ueq (ounit x) (ounit y) then r <- build (kind_max (okind x) (okind y)) d (ounit x) ;; Ok (PObj r) else Raise ValueError
  | PObj x, PNum q =>
      if unit_is_one (ounit x) then
        d <- nd_map2 f (odata x) (odata (measured_number q)) ;;
        if ueq (ounit x) uone then r <- build (okind x) d (ounit x) ;; Ok (PObj r) else Raise ValueError
      else Raise (OtherError "PhysicalTypeError")
  | PNum q, PObj y =>
      if unit_is_one (ounit y) then
        d <- nd_map2 f (odata (measured_number q)) (odata y) ;;
        if ueq uone (ounit y) then r <- build (okind y) d uone ;; Ok (PObj r) else Raise ValueError
      else Raise (OtherError "PhysicalTypeError")
  | PArr x, PNum q =>
      if unit_is_one (aunit x) then
        dx <- adata x ;; d <- nd_map2 f (data dx) (odata (measured_number q)) ;;
        if ueq (aunit x) uone then r <- parray_factory d (aunit x) (paxes x) ;; Ok (PArr r) else Raise ValueError
      else Raise (OtherError "PhysicalTypeError")
  | PNum q, PArr y =>
      if unit_is_one (aunit y) then
        dy <- adata y ;; d <- nd_map2 f (odata (measured_number q)) (data dy) ;;
        if ueq uone (aunit y) then r <- parray_factory d uone (paxes y) ;; Ok (PArr r) else Raise ValueError
      else Raise (OtherError "PhysicalTypeError")
  | _, _ => Raise (OtherError "PhysicalTypeError")
  end.
(** 311-363 [multiplicative]; [op] is mul, or one of truediv, floordiv and mod,
    whose unit is the quotient of the units.  [1 * unit] is the unit (_units.py
    51-57), [1 / unit] its inverse *)
Inductive mulop := OMul | ODiv.
Definition unit_op (op : mulop) (u v : U) : result U := match op with OMul => umul u v | ODiv => udiv u v end.
Variable uinv : U -> result U.
Definition pmultiplicative (op : mulop) (f : Qc -> Qc -> Qc) (a b : pval) : result pval :=
  match a, b with
  | PArr x, PArr y =>
      u <- unit_op op (aunit x) (aunit y) ;;
      dx <- adata x ;; dy <- adata y ;;
      d <- multiplicative f (AArr dx) (AArr dy) ;;
      ax <- axes_merge (paxes x) (paxes y) ;;
      r <- parray_factory (data d) u ax ;; Ok (PArr r)
  | PArr x, PObj y =>
      u <- unit_op op (aunit x) (ounit y) ;;
      dx <- adata x ;; d <- nd_map2 f (data dx) (odata y) ;; r <- parray_factory d u (paxes x) ;; Ok (PArr r)
  | PObj x, PArr y =>
      u <- unit_op op (ounit x) (aunit y) ;;
      dy <- adata y ;; d <- nd_map2 f (odata x) (data dy) ;; r <- parray_factory d u (paxes y) ;; Ok (PArr r)
  | PObj x, PObj y =>
      u <- unit_op op (ounit x) (ounit y) ;;
      d <- nd_map2 f (odata x) (odata y) ;; r <- build (kind_max (okind x) (okind y)) d u ;; Ok (PObj r)
  | PArr x, PNum q => dx <- adata x ;; d <- nd_map2 f (data dx) (nd_scalar q) ;; r <- parray_factory d (aunit x) (paxes x) ;; Ok (PArr r)
  | PObj x, PNum q => d <- nd_map2 f (odata x) (nd_scalar q) ;; r <- build (okind x) d (ounit x) ;; Ok (PObj r)
  | PNum q, PArr y =>
      u <- (match op with OMul => Ok (aunit y) | ODiv => uinv (aunit y) end) ;;
      dy <- adata y ;; d <- nd_map2 f (nd_scalar q) (data dy) ;; r <- parray_factory d u (paxes y) ;; Ok (PArr r)
  | PNum q, PObj y =>
      u <- (match op with OMul => Ok (ounit y) | ODiv => uinv (ounit y) end) ;;
      d <- nd_map2 f (nd_scalar q) (odata y) ;; r <- build (okind y) d u ;; Ok (PObj r)
  | _, _ => Raise (OtherError "PhysicalTypeError")
  end.
(** 366-409 [exponential] with a number or a unitless scalar as the exponent
    (array-like exponents are not modelled); [f x p] is the numeric power *)
Definition exponent (b : pval) : result Qc :=
  match b with
  | PNum q => Ok q
  | PObj y => if unit_is_one (ounit y) then
                match okind y with KScalar => Ok (elem (odata y) []) | _ => Raise TypeError end
              else Raise ValueError
  | PArr y => if unit_is_one (aunit y) then Raise TypeError else Raise ValueError
  | PElse => Raise (OtherError "PhysicalTypeError")
  end.
Definition pexponential (f : Qc -> Qc -> Qc) (a b : pval) : result pval :=
  p <- exponent b ;;
  match a with
  | PObj x => u <- upow (ounit x) p ;; r <- build (okind x) (nd_map (fun v => f v p) (odata x)) u ;; Ok (PObj r)
  | PArr x => u <- upow (aunit x) p ;; dx <- adata x ;; r <- parray_factory (nd_map (fun v => f v p) (data dx)) u (paxes x) ;; Ok (PArr r)
  | _ => Raise (OtherError "PhysicalTypeError")
  end.

(** ** Subscription and transposition of arrays *)

(** _array.py 72-77 [__getitem__]: the scaled data and every axis are
    subscripted; [bget v i]: the axis v[i] *)
Variable bget : B -> sub -> result B.
Fixpoint zip_axes (idx : list sub) (ax : list (str * B)) : result (list (str * B)) :=
  match idx, ax with
  | i :: idx', (k, v) :: ax' => w <- bget v i ;; r <- zip_axes idx' ax' ;; Ok ((k, w) :: r)
  | _, _ => Ok []
  end.
Definition pgetitem (x : parr) (args : sargs) : result parr :=
  idx <- expand (ndim (data (face x))) args ;;
  dx <- adata x ;; d <- array_getitem (data dx) (ATuple idx) ;; r <- array_factory d (anames dx) ;;
  ax <- zip_axes idx (paxes x) ;; parray_factory (data r) (aunit x) ax.
(** _array.py 91-97 [transpose]: the data that were given, without the scale.
    The same argument permutes the data and the axes *)
Definition ptranspose (x : parr) (args : targs) (o : order) : result parr :=
  match args with
  | TNone => Ok x
  | _ => d <- array_transpose (face x) args ;;
         ax <- permute (paxes x) o ;;
         parray_factory (data d) (aunit x) ax
  end.
End Physical.
