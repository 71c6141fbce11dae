(** * Model of measured objects: how they are made, subscripted and cast.
    Source: /repo/src/eprempy/measured/_factories.py, _object.py, _value.py, _sequence.py,
    _convert.py; quantity/_measurement.py and quantity/__init__.py 120-148 [measure];
    physical/_object_factories.py, _scalar.py, _vector.py, _tensor.py, _array.py;
    parameter/_runtime.py 26-131 (Variable); numeric/_objects.py 206-228.

    Arguments are real numbers, numpy arrays of numbers, (nested) lists of numbers and
    measured objects.  Not modelled: text and other objects as data, ragged lists,
    Coordinates as arguments, the axes of physical arrays (PhysicalModel.v), objects whose
    class is defined by the user.  Numbers are exact rationals. *)
From Verif Require Import PyBase ContainerModel Nd IndexModel.
Local Open Scope Qc_scope.

(** measured.Value, measured.Sequence, quantity.Measurement, physical.Scalar, .Vector,
    parameter.Variable, physical.Tensor, .Array *)
Inductive mkind := MValue | MSequence | MMeasurement | MScalar | MVector | MVariable | MTensor | MArray.
(** the [data] property: a number or a numpy array *)
Inductive mdata := DNum (q : Qc) | DArr (a : nd Qc).

Section Measured.
Context {U : Type}.
(** Unit.__eq__, the unit '1', and metric.conversion, see PhysicalModel.v *)
Variables (ueq : U -> U -> bool) (uone : U) (factor : U -> U -> option Qc) (consistent : U -> U -> bool).

Record mobj := mkm { knd : mkind; dat : mdata; unt : U }.
(** the first argument of a factory: a number, a numpy array, a list or tuple with the
    shape of an array, or a measured object *)
Inductive arg := XNum (q : Qc) | XArr (a : nd Qc) | XSeq (a : nd Qc) | XObj (o : mobj).

(** subclasses: Measurement is a Sequence, Variable is a Vector, Array is a Tensor *)
Definition is_sequence (k : mkind) : bool := match k with MSequence | MMeasurement => true | _ => false end.
Definition is_vector (k : mkind) : bool := match k with MVector | MVariable => true | _ => false end.
Definition is_tensor (k : mkind) : bool := match k with MTensor | MArray => true | _ => false end.

Definition nd_num (q : Qc) : nd Qc := mknd [] (fun _ => q).
Definition nd_one (q : Qc) : nd Qc := mknd [1%nat] (fun _ => q).
Definition arr_of (d : mdata) : nd Qc := match d with DNum q => nd_num q | DArr a => a end.
(** [numpy.asarray(x)]: None is the zero-dimensional array that holds an object; values and
    scalars have no [__array__] *)
Definition asarray (x : arg) : option (nd Qc) :=
  match x with
  | XNum q => Some (nd_num q)
  | XArr a | XSeq a => Some a
  | XObj o => match knd o with MValue | MScalar => None | _ => Some (arr_of (dat o)) end
  end.
(** the first element of a numpy array: [a[0]]; zero-dimensional arrays have none *)
Definition first_item (a : nd Qc) : result mdata :=
  match shape a with
  | [] => Raise IndexError
  | 0 :: _ => Raise IndexError
  | [_] => Ok (DNum (elem a [0%nat]))
  | _ :: sh => Ok (DArr (mknd sh (fun ix => elem a (0%nat :: ix))))
  end%nat.
(** [numpy.ravel(a)[0]] and [a.flatten()] *)
Definition flat_first (a : nd Qc) : Qc := elem a (repeat 0%nat (ndim a)).
Definition flatten (a : nd Qc) : nd Qc :=
  mknd [nd_size a] (fun ix => elem a (unravel (shape a) (nth 0 ix 0%nat))).

(** numeric/_objects.py 206-228 [_wrap_factory], measured/_context.py 71-108: an explicit
    unit is refused if the argument is an object; the default unit is '1' *)
Definition refused (x : arg) (u : option U) : bool :=
  match x, u with XObj _, Some _ => true | _, _ => false end.
Definition unit_or_one (u : option U) : U := match u with Some v => v | None => uone end.
Definition wrapped (f : arg -> option U -> result (mdata * option U)) (k : mkind) (x : arg) (u : option U) : result mobj :=
  if refused x u then Raise ValueError
  else r <- f x u ;; Ok (mkm k (fst r) (unit_or_one (snd r))).

(** quantity sizes: container.py 1116-1153 [size] of the data *)
Definition data_size (d : mdata) : result nat :=
  match d with DNum _ => Raise TypeError | DArr a => match shape a with [] => Raise TypeError | _ => Ok (nd_size a) end end.

(** measured/_factories.py 24-39 [value_args] of an array *)
Definition value_of_array (a : nd Qc) (u : option U) : result (mdata * option U) :=
  if Nat.eqb (nd_size a) 1 then Ok (DNum (flat_first a), u) else Raise TypeError.
(** measured/_factories.py 24-39 [value_args] *)
Definition value_args (x : arg) (u : option U) : result (mdata * option U) :=
  match x with
  | XNum q => Ok (DNum q, u)
  | XArr a | XSeq a => value_of_array a u
  | XObj o =>
      match knd o with
      | MValue => Ok (dat o, Some (unt o))
      | MSequence | MMeasurement =>
          n <- data_size (dat o) ;;
          if Nat.eqb n 1 then d <- first_item (arr_of (dat o)) ;; Ok (d, Some (unt o)) else Raise TypeError
      | _ => Raise TypeError
      end
  end.
(** measured/_factories.py 50-64 [sequence_args] *)
Definition sequence_args (x : arg) (u : option U) : result (mdata * option U) :=
  match x with
  | XObj o => match knd o with
              | MValue => Ok (DArr (nd_ndmin 1 (arr_of (dat o))), Some (unt o))
              | _ => Ok (dat o, Some (unt o))
              end
  | XNum q => Ok (DArr (nd_one q), u)
  | XArr a | XSeq a => if Nat.eqb (ndim a) 0 then Raise TypeError else Ok (DArr (flatten a), u)
  end.
(** quantity/_measurement.py 55-73 [measurement_args].  A zero-dimensional array cannot be
    iterated over, but it is real *)
Definition measurement_args (x : arg) (u : option U) : result (mdata * option U) :=
  match x with
  | XObj o => sequence_args x None
  | XNum q => Ok (DArr (nd_one q), u)
  | XArr a | XSeq a => Ok (DArr (nd_ndmin 1 a), u)
  end.
(** physical/_object_factories.py 36-51 [scalar_args] and _scalar.py 42-49: an array is not
    scalar data *)
Definition scalar_args (x : arg) (u : option U) : result (mdata * option U) :=
  match x with
  | XNum q => Ok (DNum q, u)
  | _ =>
      match x with
      | XObj (mkm MScalar d v) => Ok (d, Some v)
      | _ =>
          match asarray x with
          | None => Raise IndexError
          | Some a =>
              if Nat.eqb (nd_size a) 1 then
                d <- first_item a ;;
                match d with
                | DArr _ => Raise TypeError
                | DNum _ => Ok (d, match x with XObj o => if is_tensor (knd o) then Some (unt o) else u | _ => u end)
                end
              else Raise TypeError
          end
      end
  end.
(** physical/_object_factories.py 62-77 [vector_args]: 71-76 *)
Definition vector_of_array (a : nd Qc) (u : option U) : result (mdata * option U) :=
  if Nat.eqb (ndim a) 1 then Ok (DArr a, u) else Raise TypeError.
Definition vector_args (x : arg) (u : option U) : result (mdata * option U) :=
  match x with
  | XObj o =>
      match knd o with
      | MVector | MVariable => Ok (dat o, Some (unt o))
      | MMeasurement => vector_of_array (arr_of (dat o)) (Some (unt o))
      | MScalar => vector_of_array (nd_ndmin 1 (arr_of (dat o))) (Some (unt o))
      | MTensor | MArray => vector_of_array (arr_of (dat o)) (Some (unt o))
      | MSequence => vector_of_array (arr_of (dat o)) u
      | MValue => Raise TypeError
      end
  | XNum _ => Raise TypeError
  | XArr a | XSeq a => vector_of_array a u
  end.
(** physical/_object_factories.py 88-103 [tensor_args] *)
Definition tensor_of_array (a : nd Qc) (u : option U) : result (mdata * option U) :=
  if Nat.eqb (ndim a) 0 then Raise TypeError else Ok (DArr a, u).
Definition tensor_args (x : arg) (u : option U) : result (mdata * option U) :=
  match x with
  | XObj o =>
      match knd o with
      | MArray | MTensor => Ok (dat o, Some (unt o))
      | MMeasurement => tensor_of_array (arr_of (dat o)) (Some (unt o))
      | MScalar => tensor_of_array (nd_ndmin 1 (arr_of (dat o))) (Some (unt o))
      | MVector | MVariable | MSequence => tensor_of_array (arr_of (dat o)) u
      | MValue => Raise TypeError
      end
  | XNum _ => Raise TypeError
  | XArr a | XSeq a => tensor_of_array a u
  end.
(** physical/_object_factories.py 114-125 [array_args], 145-184 [array_data]; the axes are
    left out (without axes they come from the shape).  Zero-dimensional arrays are not
    modelled *)
Definition array_args (x : arg) (u : option U) : result (mdata * option U) :=
  match x with
  | XObj o => match knd o with
              | MValue | MScalar => Ok (DArr (nd_ndmin 1 (arr_of (dat o))), Some (unt o))
              | _ => Ok (dat o, Some (unt o))
              end
  | XNum q => Ok (DArr (nd_one q), u)
  | XArr a | XSeq a => Ok (DArr a, u)
  end.
(** parameter/_runtime.py 109-131 [variable_args]: [numpy.array(x, ndmin=1)] *)
Definition variable_args (x : arg) (u : option U) : result (mdata * option U) :=
  match x with
  | XObj _ => v <- wrapped vector_args MVector x None ;; Ok (dat v, Some (unt v))
  | XNum q => vector_of_array (nd_one q) u
  | XArr a | XSeq a => vector_of_array (nd_ndmin 1 a) u
  end.

(** the factory of each class, and [spawn] (numeric/_objects.py 112-125) *)
Definition make (k : mkind) (x : arg) (u : option U) : result mobj :=
  wrapped (match k with
           | MValue => value_args | MSequence => sequence_args | MMeasurement => measurement_args
           | MScalar => scalar_args | MVector => vector_args | MVariable => variable_args
           | MTensor => tensor_args | MArray => array_args
           end) k x u.
(** data given to [spawn] again: a number or an array *)
Definition raw (d : mdata) : arg := match d with DNum q => XNum q | DArr a => XArr a end.

(** quantity/__init__.py 120-130 [measure] of a measured object; physical/_object.py 116-117
    [__measure__] *)
Definition measure (o : mobj) : result mobj :=
  match knd o with
  | MMeasurement => Ok o
  | _ => make MMeasurement (raw (dat o)) (Some (unt o))
  end.

(** ** Subscripts *)
(** numpy's ellipsis: as many full slices as are needed; at most one *)
Definition numpy_ellipsis (n : nat) (l : list sub) : result (list sub) :=
  if Nat.ltb 1 (count_ell l) || Nat.ltb (n + 1) (length l) then Raise IndexError
  else Ok (firstn (ell_pos l) l ++ repeat (SSlice full_slice) (n + 1 - length l) ++ skipn (ell_pos l + 1) l).
(** [data[i]] with integers, slices and ellipses: a number, unless an ellipsis keeps the
    zero-dimensional array *)
Definition subscript (d : mdata) (l : list sub) : result mdata :=
  match d with
  | DNum _ => Raise TypeError
  | DArr a =>
      if existsb is_ell l then
        e <- numpy_ellipsis (ndim a) l ;; r <- numpy_getitem a e ;; Ok (DArr r)
      else
        r <- numpy_getitem a l ;;
        Ok (match shape r with [] => DNum (elem r []) | _ => DArr r end)
  end.
(** [try: result = Single.spawn(data, unit=self.unit); except TypeError: self.spawn(...)]:
    measured/_sequence.py 43-58, physical/_vector.py 46-53, _tensor.py 40-47 *)
Definition spawn_or (single own : mkind) (d : mdata) (u : U) : result mobj :=
  match make single (raw d) (Some u) with
  | Raise TypeError => make own (raw d) (Some u)
  | r => r
  end.
(** parameter/_runtime.py 33-46: one negative integer is shifted once by the length *)
Definition shifted (a : nd Qc) (l : list sub) : list sub :=
  match l with
  | [SInt z] | [SIntegral z] => if (z <? 0)%Z then [SInt (z + Z.of_nat (hd 0%nat (shape a)))%Z] else l
  | _ => l
  end.
(** [x[i]] for all classes but physical.Array (IndexModel.v); values and scalars have no
    subscripts *)
Definition getitem (o : mobj) (l : list sub) : result mobj :=
  match knd o with
  | MSequence => d <- subscript (dat o) l ;; spawn_or MValue MSequence d (unt o)
  | MMeasurement => d <- subscript (dat o) l ;; spawn_or MValue MMeasurement d (unt o)
  | MVector => d <- subscript (dat o) l ;; spawn_or MScalar MVector d (unt o)
  | MTensor => d <- subscript (dat o) l ;; spawn_or MScalar MTensor d (unt o)
  | MVariable =>
      d <- subscript (dat o) (shifted (arr_of (dat o)) l) ;;
      match d with
      | DNum _ => make MScalar (raw d) (Some (unt o))
      | DArr a => match shape a with
                  | [] | O :: _ => make MScalar (raw d) (Some (unt o))
                  | _ => make MVariable (raw d) (Some (unt o))
                  end
      end
  | _ => Raise TypeError
  end.
(** [len(x)] *)
Definition mlen (o : mobj) : result nat :=
  match knd o with
  | MValue | MScalar => Raise TypeError
  | _ => match dat o with DNum _ => Raise TypeError
         | DArr a => match shape a with [] => Raise TypeError | n :: _ => Ok n end end
  end.
(** [list(x)]: vectors 38-40 and tensors _tensor.py 35-38 make one scalar for each number;
    sequences take x[0], x[1], ... until IndexError (base/mixins.py 117-127) *)
Fixpoint items_from (fuel : nat) (o : mobj) (i : nat) : result (list mobj) :=
  match fuel with
  | O => Raise OutOfFuel
  | S n => match getitem o [SInt (Z.of_nat i)] with
           | Raise IndexError => Ok []
           | Raise e => Raise e
           | Ok v => r <- items_from n o (i + 1) ;; Ok (v :: r)
           end
  end%nat.
Definition items (fuel : nat) (o : mobj) : result (list mobj) :=
  match knd o with
  | MSequence | MMeasurement => items_from fuel o 0
  | MVector | MVariable | MTensor | MArray =>
      mapM (fun q => make MScalar (XNum q) (Some (unt o))) (flat (arr_of (dat o)))
  | MValue | MScalar => Raise TypeError
  end.

(** ** Casts and rounding *)
(** [int(q)]: truncation *)
Definition trunc_q (q : Qc) : Z := Z.quot (qnum q) (Zpos (qden q)).
Definition floor_q (q : Qc) : Z := Z.div (qnum q) (Zpos (qden q)).
Definition ceil_q (q : Qc) : Z := (- Z.div (- qnum q) (Zpos (qden q)))%Z.
(** [round(q)]: to the nearest integer, halves to the even one *)
Definition round_q (q : Qc) : Z :=
  let f := floor_q q in
  match Qccompare (q - zq f) (mkq 1 2) with
  | Lt => f
  | Gt => (f + 1)%Z
  | Eq => if Z.even f then f else (f + 1)%Z
  end.
(** the number that a cast reads: _value.py 28-38, _measurement.py 26-46, _scalar.py 51-68 with
    _operations.py 142-166, _array.py 50-72, parameter/_runtime.py 48-55 and 84-92.  A plain
    sequence, a vector and a tensor have no casts *)
Definition cast_number (o : mobj) : result Qc :=
  match knd o with
  | MValue | MScalar => match dat o with
                        | DNum q => Ok q
                        | DArr a => if Nat.eqb (nd_size a) 1 then Ok (flat_first a) else Raise TypeError
                        end
  | MMeasurement | MArray =>
      n <- data_size (dat o) ;;
      if Nat.eqb n 1 then Ok (flat_first (arr_of (dat o))) else Raise TypeError
  | MVariable => d <- first_item (arr_of (dat o)) ;;
                 match d with DNum q => Ok q | DArr _ => Raise TypeError end
  | MSequence | MVector | MTensor => Raise TypeError
  end.
Definition mfloat (o : mobj) : result Qc := cast_number o.
Definition mint (o : mobj) : result Z := q <- cast_number o ;; Ok (trunc_q q).
(** [complex(x)], its real part.  physical.Scalar looks its operator up by the text
    'complex' (_scalar.py 71-79) in a table of functions, and does not find it; the others go through [float] *)
Definition mcomplex (o : mobj) : result Qc :=
  match knd o with MScalar => Raise TypeError | _ => cast_number o end.
(** [round(x)], [math.floor(x)], [math.ceil(x)], [math.trunc(x)]: physical/_operations.py
    118-140 and 244-256, parameter/_runtime.py 57-82.  The other classes do not define them *)
Inductive rounding := Rround | Rfloor | Rceil | Rtrunc.
Definition rounded (r : rounding) (q : Qc) : Qc :=
  zq (match r with Rround => round_q q | Rfloor => floor_q q | Rceil => ceil_q q | Rtrunc => trunc_q q end).
Definition mround (r : rounding) (o : mobj) : result mobj :=
  match knd o with
  | MScalar | MVariable => q <- cast_number o ;; make MScalar (XNum (rounded r q)) (Some (unt o))
  | _ => Raise TypeError
  end.
(** [round(x, n)]: numeric/_implementation.py 38-45 takes no second argument; the rounding
    of a variable to decimals is not modelled *)
Definition mround_digits (o : mobj) (n : Z) : result mobj :=
  match knd o with
  | MVariable => Raise (OtherError "unmodelled rounding")
  | _ => Raise TypeError
  end.

(** ** Conversion: measured/_context.py 31-68, _convert.py 7-33.  physical.Array converts by
    itself (PhysicalModel.v) *)
Definition mfactor (u v : U) : result Qc :=
  match factor u v with
  | Some w => Ok w
  | None => if consistent u v then Raise (OtherError "UnitConversionError") else Raise ValueError
  end.
Definition scaled (w : Qc) (d : mdata) : mdata :=
  match d with DNum q => DNum (w * q) | DArr a => DArr (nd_map (Qcmult w) a) end.
Definition mwithunit (o : mobj) (v : U) : result mobj :=
  w <- mfactor (unt o) v ;;
  if ueq (unt o) v then Ok o else make (knd o) (raw (scaled w (dat o))) (Some v).

End Measured.
