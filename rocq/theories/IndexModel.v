(** Model of [eprempy/numeric/_index.py] and of the subscription of
    [eprempy/numeric/_array.py].  Line numbers refer to
    /repo/src/eprempy/numeric/_index.py unless another file is named.

    Index values are exact integers: the overflow of numpy's 64-bit integers is
    not modelled. *)
From Verif Require Import PyBase ContainerModel Nd.

(** ** Shifting *)
(** 64-71 [Value.shift] *)
Definition value_shift (i x : Z) (floor ceil : option Z) : Z :=
  let index := (i + x)%Z in
  match floor with
  | Some f => if (index <? f)%Z then f
              else match ceil with
                   | Some c => if (c <? index)%Z then c else index
                   | None => index
                   end
  | None => match ceil with
            | Some c => if (c <? index)%Z then c else index
            | None => index
            end
  end.
(** 105-112 [Sequence.shift] *)
Definition sequence_shift (l : list Z) (x : Z) (floor ceil : option Z) : list Z :=
  let indices := map (fun i => (i + x)%Z) l in
  let indices := match floor with
                 | Some f => map (fun i => if (i <? f)%Z then f else i) indices
                 | None => indices
                 end in
  match ceil with
  | Some c => map (fun i => if (c <? i)%Z then c else i) indices
  | None => indices
  end.

(** ** Operators *)
(** operands: [Value], [Sequence], a built-in integer, or anything else *)
Inductive operand := OVal (z : Z) | OSeq (l : list Z) | OInt (z : Z) | OOther.
(** what [binary] returns: a number or a list *)
Inductive raw (R : Type) := RNum (r : R) | RList (l : list R).
Arguments RNum {R} r.
Arguments RList {R} l.
Definition OperandTypeError := OtherError "OperandTypeError".

Fixpoint zipM {R} (f : Z -> Z -> result R) (a b : list Z) : result (list R) :=
  match a, b with
  | x :: a', y :: b' => r <- f x y ;; rs <- zipM f a' b' ;; Ok (r :: rs)
  | _, _ => Ok []
  end.
(** 320-344 [binary] *)
Definition binary {R} (f : Z -> Z -> result R) (a b : operand) : result (raw R) :=
  match a, b with
  | OSeq x, OSeq y => r <- zipM f x y ;; Ok (RList r)
  | OSeq x, OVal y => r <- mapM (fun i => f i y) x ;; Ok (RList r)
  | OSeq x, OInt y => r <- mapM (fun i => f i y) x ;; Ok (RList r)
  | OSeq _, OOther => Raise OperandTypeError
  | OVal x, OSeq y => r <- mapM (fun i => f x i) y ;; Ok (RList r)
  | OInt x, OSeq y => r <- mapM (fun i => f x i) y ;; Ok (RList r)
  | OOther, OSeq _ => Raise OperandTypeError
  | OVal x, OVal y => r <- f x y ;; Ok (RNum r)
  | OVal x, OInt y => r <- f x y ;; Ok (RNum r)
  | OInt x, OVal y => r <- f x y ;; Ok (RNum r)
  | _, _ => Raise OperandTypeError
  end.
(** 306-317 [arithmetic] and 347-357 [_new_or_result]: integers always make a
    [Value], lists of integers always make a [Sequence] *)
Definition arithmetic (f : Z -> Z -> result Z) (a b : operand) : result operand :=
  r <- binary f a b ;;
  match a, b with
  | (OVal _ | OSeq _), (OVal _ | OSeq _ | OInt _) | OInt _, (OVal _ | OSeq _) =>
      Ok (match r with RNum z => OVal z | RList l => OSeq l end)
  | _, _ => Raise OperandTypeError
  end.
(** 264-273 [comparative] *)
Definition comparative (f : Z -> Z -> bool) (a b : operand) : result (raw bool) :=
  binary (fun x y => Ok (f x y)) a b.
(** 129-138 [eq], [ne]: an operand of another type is unequal *)
Definition index_eq (a b : operand) : result (raw bool) :=
  match comparative Z.eqb a b with
  | Raise (OtherError "OperandTypeError") => Ok (RNum false)
  | r => r
  end.
Definition index_ne (a b : operand) : result (raw bool) :=
  match comparative (fun x y => negb (Z.eqb x y)) a b with
  | Raise (OtherError "OperandTypeError") => Ok (RNum true)
  | r => r
  end.
(** 165-186 [lt] etc.: an operand of another type gives [NotImplemented] *)
Definition index_order (f : Z -> Z -> bool) (a b : operand) : result (raw bool) :=
  match comparative f a b with
  | Raise (OtherError "OperandTypeError") => Raise NotImplementedResult
  | r => r
  end.
(** 189-216: Python's integer operators; [//] and [%] round down *)
Definition index_add := arithmetic (fun x y => Ok (x + y)%Z).
Definition index_sub := arithmetic (fun x y => Ok (x - y)%Z).
Definition index_mul := arithmetic (fun x y => Ok (x * y)%Z).
Definition div_op (x y : Z) : result Z := if (y =? 0)%Z then Raise ZeroDivisionError else Ok (x / y)%Z.
Definition mod_op (x y : Z) : result Z := if (y =? 0)%Z then Raise ZeroDivisionError else Ok (x mod y)%Z.
Definition index_floordiv := arithmetic div_op.
Definition index_mod := arithmetic mod_op.
(** the truth value of a numpy array of booleans: ambiguous (ValueError) unless
    it has at most one member *)
Definition truth (r : raw bool) : result bool :=
  match r with
  | RNum b => Ok b
  | RList [] => Ok false
  | RList [b] => Ok b
  | RList _ => Raise ValueError
  end.
(** 219-231 [pow], called with an index object on either side; the comparison
    [b < 0] itself never raises ValueError, only the test of its result does *)
Definition index_pow (a b : operand) : result operand :=
  neg <- (match b with
          | OInt z => Ok (RNum (z <? 0)%Z)
          | OOther => Raise TypeError
          | _ => comparative Z.ltb b (OInt 0)
          end) ;;
  t <- truth neg ;;
  if t then Raise ValueError
  else arithmetic (fun x y => Ok (x ^ y)%Z) a b.
(** 141-162 and 238-246 [unary] *)
Definition unary (f : Z -> Z) (a : operand) : result operand :=
  match a with
  | OSeq l => Ok (OSeq (map f l))
  | OVal z => Ok (OVal (f z))
  | _ => Raise OperandTypeError
  end.

(** ** Subscripts *)
(** one subscript: a built-in integer, another integral object (numpy integer,
    index value), a slice, the ellipsis, [None], or a sequence of integers *)
Inductive sub := SInt (z : Z) | SIntegral (z : Z) | SSlice (sl : pyslice) | SEll | SNone | SSeq (l : list Z).
(** the argument of [a[...]], after [container.unwrap]: a single subscript, a
    tuple or a list of subscripts, or a numpy array of integers *)
Inductive sargs := ASub (x : sub) | ATuple (l : list sub) | AList (l : list sub) | AArray (l : list Z).
Definition full_slice : pyslice := {| sl_start := None; sl_stop := None; sl_step := None |}.

Definition is_ell (x : sub) : bool := match x with SEll => true | _ => false end.
(** 568, [_BUILTIN_TYPES] *)
Definition is_builtin (x : sub) : bool :=
  match x with SInt _ | SSlice _ | SEll | SNone => true | _ => false end.
Definition count_ell (l : list sub) : nat := length (filter is_ell l).
Fixpoint ell_pos (l : list sub) : nat :=
  match l with [] => 0 | x :: l' => if is_ell x then 0 else S (ell_pos l') end.
(** 663-700 [expand_ellipsis]; [args[-1]] of no arguments is not reached since
    then [nargs > ndim] is false *)
Definition expand_ellipsis (ndim : nat) (args : list sub) : result (list sub) :=
  let nargs := length args in
  if Nat.ltb ndim nargs && negb (is_ell (last args SNone)) then Raise IndexError
  else
    let count := count_ell args in
    if Nat.eqb count 0 then Ok args
    else if Nat.ltb 1 count then Raise IndexError
    else
      let nslice := (ndim + 1) - nargs in     (* [[x] * negative] is empty *)
      let ellpos := ell_pos args in
      Ok (firstn ellpos args ++ repeat (SSlice full_slice) nslice ++ skipn (ellpos + 1) args).
(** 648-660 [expand]; the comparison [indices == slice(None)] of a numpy array
    is not modelled *)
Definition expand (ndim : nat) (a : sargs) : result (list sub) :=
  match a with
  | ATuple l | AList l => expand_ellipsis ndim l
  | AArray l => if Nat.ltb 1 ndim then expand_ellipsis ndim [SSeq l; SEll] else Ok [SSeq l]
  | ASub x =>
      match x with
      | SSlice {| sl_start := None; sl_stop := None; sl_step := None |} => expand_ellipsis ndim [SEll]
      | SEll => expand_ellipsis ndim [SEll]
      | _ => if Nat.ltb 1 ndim then expand_ellipsis ndim [x; SEll] else Ok [x]
      end
  end.
(** what [normalize] returns: the arguments unchanged, or an open mesh *)
Inductive normal := NSame (a : sargs) | NMesh (ls : list (list Z)).
(** 639-645 [_normalized] *)
Definition is_normalized (a : sargs) : bool :=
  match a with
  | ASub x => is_builtin x
  | ATuple l => forallb is_builtin l
  | AList _ => false
  | AArray _ => true
  end.
Fixpoint mesh_of (shp : list nat) (expanded : list sub) : result (list (list Z)) :=
  match expanded with
  | [] => Ok []
  | x :: rest =>
      r <- mesh_of (tl shp) rest ;;
      match x with
      | SSlice _ => match shp with
                    | n :: _ => Ok (map Z.of_nat (seq 0 n) :: r)
                    | [] => Raise IndexError
                    end
      | SInt z | SIntegral z => Ok ([z] :: r)
      | SSeq l => Ok (l :: r)
      | _ => Raise ValueError        (* [numpy.ix_] of something else *)
      end
  end.
(** 610-636 [normalize] *)
Definition normalize (shp : list nat) (a : sargs) : result normal :=
  if is_normalized a then Ok (NSame a)
  else
    expanded <- expand_ellipsis (length shp)
                  (match a with ASub x => [x] | ATuple l | AList l => l | AArray l => [SSeq l] end) ;;
    m <- mesh_of shp expanded ;;
    Ok (NMesh m).
(** 592-607 [resolve] and [_has_ellipsis]; a bare ellipsis is not iterable *)
Definition resolve (shp : list nat) (a : sargs) : result normal :=
  n <- normalize shp a ;;
  match n with
  | NSame (ATuple l) => if existsb is_ell l then e <- expand (length shp) (ATuple l) ;; Ok (NSame (ATuple e)) else Ok n
  | _ => Ok n
  end.

(** ** Subscription of an array (numeric/_array.py 365-400) *)
(** the positions selected by a slice from an axis of length [n] (numpy) *)
Definition slice_step (sl : pyslice) : Z := match sl_step sl with Some z => z | None => 1%Z end.
Definition slice_positions (sl : pyslice) (n : nat) : result (list nat) :=
  let st := slice_step sl in
  let N := Z.of_nat n in
  let wrap z := if (z <? 0)%Z then (z + N)%Z else z in
  let lo := if (0 <? st)%Z then 0%Z else (-1)%Z in
  let hi := if (0 <? st)%Z then N else (N - 1)%Z in
  let clip z := Z.max lo (Z.min hi (wrap z)) in
  let first := match sl_start sl with Some z => clip z | None => if (0 <? st)%Z then lo else hi end in
  let final := match sl_stop sl with Some z => clip z | None => if (0 <? st)%Z then hi else lo end in
  if (st =? 0)%Z then Raise ValueError
  else Ok (map Z.to_nat (range_list first final st)).
(** numpy subscripts of the forms that reach the array: integers, slices, one
    ellipsis; [None] (a new axis) is not modelled *)
Fixpoint basics (shp : list nat) (l : list sub) : result (list basic) :=
  match l with
  | [] => Ok []
  | x :: l' =>
      r <- basics (tl shp) l' ;;
      match x, shp with
      | SInt z, _ | SIntegral z, _ => Ok (BInt z :: r)
      | SSlice sl, n :: _ => p <- slice_positions sl n ;; Ok (BList p :: r)
      | SSlice sl, [] => Raise IndexError
      | _, _ => Raise (OtherError "unmodelled subscript")
      end
  end.
(** numpy's own subscription [a[l]] with integers and slices *)
Definition numpy_getitem {A} (a : nd A) (l : list sub) : result (nd A) :=
  b <- basics (shape a) l ;; nd_basic b a.
(** 394-400 [_get_axis_size] (numeric/_array.py) *)
Definition get_axis_size (shp : list nat) (i : nat) (v : sub) : result Z :=
  match nth_error shp i with
  | None => Raise IndexError
  | Some n =>
      match v with
      | SInt _ => Ok 1%Z
      | SSlice sl => Ok (or_z (sl_stop sl) (Z.of_nat n) - or_z (sl_start sl) 0)%Z
      | _ => Ok (Z.of_nat n)
      end
  end.
Fixpoint axis_sizes (shp : list nat) (i : nat) (l : list sub) : result (list Z) :=
  match l with
  | [] => Ok []
  | v :: l' => x <- get_axis_size shp i v ;; r <- axis_sizes shp (S i) l' ;; Ok (x :: r)
  end.
(** 373-392 [_getitem] (numeric/_array.py); the array is in memory *)
Definition array_getitem {A} (a : nd A) (args : sargs) : result (nd A) :=
  ind <- resolve (shape a) args ;;
  match ind with
  | NMesh [] => Ok a                       (* 566: null index: the full array *)
  | NMesh ls =>
      loaded <- nd_mesh ls a ;;
      Ok (nd_ndmin (ndim a) loaded)
  | NSame (ASub SEll) => Ok a
  | NSame (ASub x) =>
      loaded <- numpy_getitem a [x] ;;
      Ok (nd_ndmin (ndim a) loaded)          (* not iterable: no reshape *)
  | NSame (ATuple []) => Ok a
  | NSame (ATuple l) =>
      loaded <- numpy_getitem a l ;;
      let array := nd_ndmin (ndim a) loaded in
      if negb (Nat.eqb (ndim loaded) (ndim a)) then
        shp <- axis_sizes (shape a) 0 l ;;
        nd_reshape shp array
      else Ok array
  | NSame (AList l) => Raise (OtherError "unmodelled subscript")   (* never: see [is_normalized] *)
  | NSame (AArray l) =>
      loaded <- nd_mesh [l] a ;;
      Ok (nd_ndmin (ndim a) loaded)
  end.

(** ** restrict (703-798), arrays of exact numbers; NaN is not modelled *)
Definition leq_positions (l : list Qc) (t : Qc) : list nat :=
  map fst (filter (fun p => qc_leb (snd p) t) (combine (seq 0 (length l)) l)).
Definition geq_positions (l : list Qc) (t : Qc) : list nat :=
  map fst (filter (fun p => qc_leb t (snd p)) (combine (seq 0 (length l)) l)).
(** 788-798 [_find_1d_indices] *)
Definition find_1d (l : list Qc) (t : Qc) : Z * Z :=
  let leq := leq_positions l t in
  let lower := match leq with [] => 0%Z | x :: r => Z.of_nat (fold_left Nat.max r x) end in
  let geq := geq_positions l t in
  let upper := match geq with [] => (Z.of_nat (length l) - 1)%Z | x :: r => Z.of_nat (fold_left Nat.min r x) end in
  (lower, upper).
(** the array given to [restrict] with the axis: one-dimensional, or
    two-dimensional as the rows that run along axis 1 *)
Inductive grid := G1 (l : list Qc) | G2 (rows : list (list Qc)).
(** 737-786 [_compute_bounds] for a one-dimensional array, and for a
    two-dimensional one along axis 1 *)
Definition compute_bounds (g : grid) (t : Qc) : result (Z * Z) :=
  match g with
  | G1 l => Ok (find_1d l t)
  | G2 rows =>
      match map (fun r => find_1d r t) rows with
      | [] => Raise ValueError
      | b :: bs => Ok (fold_left (fun m x => Z.min m (fst x)) bs (fst b),
                       fold_left (fun m x => Z.max m (snd x)) bs (snd b))
      end
  end.
Fixpoint bounds_loop (g : grid) (lo hi : Z) (targets : list Qc) : result (Z * Z) :=
  match targets with
  | [] => Ok (lo, hi)
  | t :: ts => b <- compute_bounds g t ;; bounds_loop g (Z.min lo (fst b)) (Z.max hi (snd b)) ts
  end.
(** 703-744 [restrict] *)
Definition restrict (g : grid) (targets : list Qc) : result (list Z) :=
  match targets with
  | [] => Raise ValueError
  | t :: ts =>
      b <- compute_bounds g t ;;
      r <- bounds_loop g (fst b) (snd b) ts ;;
      Ok (range_list (fst r) (snd r + 1) 1)
  end.
