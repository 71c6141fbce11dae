(** Model of the named dimensions and the real-valued arrays.
    Source: /repo/src/eprempy/numeric/_array.py (dimensions, [remesh],
    [transpose]) and /repo/src/eprempy/real/_array.py (operators and numpy
    functions).  The numpy primitives are those of [Nd].

    Elements have an arbitrary type [A]; the element-wise operations that numpy
    applies (addition, product, comparison, ...) are parameters.  Loading the
    array from disk on first use is not modelled: the data are an [nd]. *)
From Verif Require Import PyBase ContainerModel Nd IndexModel.

(** The object stored as [x.dimensions]: an instance of [Dimensions], or - when
    the library stores what it was given - a plain tuple or list of names. *)
Inductive dims := Named (l : list str) | PTuple (l : list str) | PList (l : list str).
Definition names (d : dims) : list str :=
  match d with Named l | PTuple l | PList l => l end.

(** _array.py 41-51 [Dimensions.__eq__]; two built-in sequences compare by type
    and content *)
Definition dims_eq (a b : dims) : bool :=
  match a, b with
  | PTuple x, PTuple y | PList x, PList y => list_eqb str_eqb x y
  | PTuple _, PList _ | PList _, PTuple _ => false
  | _, _ => list_eqb str_eqb (names a) (names b)
  end.

(** _array.py 280-292 [dimensions_factory] applied to names, and 284-285 applied
    to an integer: a tuple [x0, x1, ...], not a [Dimensions] *)
Definition dimensions_factory (l : list str) : dims := Named (unique_items str_eqb l).
Definition default_name (i : nat) : str := s "x" ++ str_of_N (N.of_nat i).
Definition default_dimensions (n : nat) : dims := PTuple (map default_name (seq 0 n)).

(** *** Set-like operations of [Dimensions]; [other] is any iterable of names *)
Definition smem (x : str) (l : list str) : bool := mem str_eqb x l.
(** 69-73 [_compare]: Python set inclusion *)
Definition subset (a b : list str) : bool := forallb (fun x => smem x b) a.
Definition dims_le (a b : list str) : bool := subset a b.
Definition dims_ge (a b : list str) : bool := subset b a.
Definition dims_lt (a b : list str) : bool := subset a b && negb (subset b a).
Definition dims_gt (a b : list str) : bool := subset b a && negb (subset a b).
(** 75-79 [replace] *)
Definition dims_replace (a : list str) (old new : str) : dims :=
  dimensions_factory (map (fun n => if str_eqb n old then new else n) a).
(** 81-88 [insert]; [list.insert] clips its index, negative ones count from the
    end *)
Definition list_insert (i : Z) (x : str) (l : list str) : list str :=
  let n := Z.of_nat (length l) in
  let j := if (i <? 0)%Z then Z.max 0 (i + n) else Z.min n i in
  firstn (Z.to_nat j) l ++ x :: skipn (Z.to_nat j) l.
Definition dims_insert (a : list str) (x : str) (i : option Z) : dims :=
  dimensions_factory (match i with Some i => list_insert i x a | None => a ++ [x] end).
(** 90-98 [__and__] *)
Definition dims_and (a b : list str) : dims :=
  dimensions_factory (filter (fun n => smem n a && smem n b) (a ++ b)).
(** 110-116 [__sub__] *)
Definition dims_sub (a b : list str) : dims :=
  dimensions_factory (filter (fun n => negb (smem n b)) a).
(** 124-136 [__or__], 138-150 [__ror__] *)
Definition dims_or_names (a b : list str) : result dims :=
  match merge str_eqb a b with
  | Ok m => Ok (dimensions_factory m)
  | Raise MergeError => Raise ValueError
  | Raise e => Raise e
  end.
(** [a | b] as dispatched by Python on the stored objects: two built-in
    sequences do not support it *)
Definition dims_or (a b : dims) : result dims :=
  match a, b with
  | Named x, _ => dims_or_names x (names b)
  | _, Named y => dims_or_names (names a) y
  | _, _ => Raise TypeError
  end.
(** 152-158 [__xor__]: [those] is a list, so [those - self] calls
    [self.__rsub__(those)] (118-122), which executes [raise NotImplemented]: a
    TypeError *)
Definition dims_rsub (other : dims) (a : list str) : result dims :=
  match other with
  | Named l => Ok (dims_sub l a)
  | _ => Raise TypeError
  end.
Definition dims_xor (a b : list str) : result dims :=
  r <- dims_rsub (PList b) a ;; dims_or (dims_sub a b) r.

(** 218-251 [mismatch] *)
Definition mismatch (a b : list str) : result unit :=
  if dims_lt a b then Raise ValueError
  else if dims_gt a b then Raise ValueError
  else Ok tt.
(** 206-216 [_permute] *)
Definition name_at (a : list str) (z : Z) : result str :=
  match norm_index (length a) z with
  | Some i => match nth_error a i with Some x => Ok x | None => Raise ValueError end
  | None => Raise ValueError
  end.
Definition dims_permute (a : list str) (axes : list Z) : result dims :=
  l <- mapM (name_at a) axes ;;
  _ <- mismatch a l ;;
  Ok (dimensions_factory l).

(** ** Arrays *)
Record array (A : Type) := mkarray { data : nd A; adims : dims }.
Arguments mkarray {A} data adims.
Arguments data {A} _.
Arguments adims {A} _.
Definition anames {A} (x : array A) : list str := names (adims x).

(** _array.py 645-681 [array_args]: from an ndarray with given names *)
Definition array_factory {A} (x : nd A) (l : list str) : result (array A) :=
  let d := dimensions_factory l in
  if negb (Nat.eqb (length (names d)) (ndim x)) then Raise ValueError
  else Ok (mkarray x d).
(** ... and without names *)
Definition array_default {A} (x : nd A) : array A := mkarray x (default_dimensions (ndim x)).

(** 615-618 [shapemap], with [get(d, 1)] *)
Fixpoint shapemap_get (l : list str) (sh : list nat) (d : str) : nat :=
  match l, sh with
  | x :: l', n :: sh' => if str_eqb x d then n else shapemap_get l' sh' d
  | _, _ => 1
  end.
Definition len_of {A} (x : array A) (d : str) : nat := shapemap_get (anames x) (shape (data x)) d.
(** [dimensions.index(d)] *)
Fixpoint pos (d : str) (l : list str) : nat :=
  match l with [] => 0 | x :: l' => if str_eqb x d then 0 else S (pos d l') end.

(** [a._load_array(idx)], [idx = tuple(idxmesh[dimensions.index(d)] for d in
    a.shapemap)]: numpy integer-array indexing with the open mesh arrays of the
    axes [ps].  The result has the length of the mesh along those axes and length
    one along the others.  (Arrays with an axis of length zero: numpy may skip
    the bounds check; not modelled.) *)
Fixpoint in_bounds_mesh (shp : list nat) (ps sh : list nat) : bool :=
  match ps, sh with
  | [], _ => true
  | p :: ps', n :: sh' => Nat.leb (nth p shp 0) n && in_bounds_mesh shp ps' sh'
  | _ :: _, [] => false
  end.
Definition nd_gather {A} (shp ps : list nat) (a : nd A) : result (nd A) :=
  if negb (in_bounds_mesh shp ps (shape a)) then Raise IndexError
  else Ok (mknd (map (fun k => if existsb (Nat.eqb k) ps then nth k shp 0 else 1) (seq 0 (length shp)))
                (fun ix => elem a (map (fun p => nth p ix 0) ps))).

(** 740-806 [remesh] *)
Definition remesh_operand {A} (dimensions : list str) (shp : list nat) (a : array A) : result (nd A) :=
  if Nat.eqb (nd_size (data a)) 1 then Ok (nd_ndmin (length dimensions) (data a))
  else nd_gather shp (map (fun d => pos d dimensions) (anames a)) (data a).
Definition lengths_clash {A} (a b : array A) (d : str) : bool :=
  Nat.ltb 1 (len_of a d) && Nat.ltb 1 (len_of b d) && negb (Nat.eqb (len_of a d) (len_of b d)).
Definition remesh {A} (a b : array A) : result (nd A * nd A) :=
  dimensions <- dims_or (adims a) (adims b) ;;
  let l := names dimensions in
  if existsb (lengths_clash a b) l then Raise ValueError
  else
    let shp := map (fun d => Nat.max (len_of a d) (len_of b d)) l in
    x <- remesh_operand l shp a ;;
    y <- remesh_operand l shp b ;;
    Ok (x, y).

(** ** Operators (real/_array.py) *)
(** An operand: an array, a real number, a bare ndarray, something else *)
Inductive aoperand (A : Type) := AArr (x : array A) | ANum (v : A) | ANd (x : nd A) | AOther.
Arguments AArr {A} x.
Arguments ANum {A} v.
Arguments ANd {A} x.
Arguments AOther {A}.
(** results: an array of this library or a bare numpy result *)
Inductive ares (A : Type) := RArr (x : array A) | RNd (x : nd A).
Arguments RArr {A} x.
Arguments RNd {A} x.
Definition nd_scalar {A} (v : A) : nd A := mknd [] (fun _ => v).

(** the data of an operand that is not an array: 256-269 [_get_operand] *)
Definition get_operand {A} (x : aoperand A) : result (nd A) :=
  match x with
  | AArr a => Ok (data a)
  | ANum v => Ok (nd_scalar v)
  | ANd x => Ok x
  | AOther => Raise TypeError
  end.
(** 246-253 [_get_operands] *)
Definition get_operands {A} (a b : aoperand A) : result (nd A * nd A) :=
  match a, b with
  | AArr x, AArr y => remesh x y
  | _, _ => u <- get_operand a ;; v <- get_operand b ;; Ok (u, v)
  end.
(** 230-243 [multiplicative] *)
Definition multiplicative {A} (f : A -> A -> A) (a b : aoperand A) : result (array A) :=
  operands <- match get_operands a b with
              | Raise TypeError => Raise OperandTypeError
              | r => r
              end ;;
  r <- nd_map2 f (fst operands) (snd operands) ;;
  match a, b with
  | AArr x, AArr y => d <- dims_or (adims x) (adims y) ;; array_factory r (names d)
  | AArr x, _ => array_factory r (anames x)
  | _, AArr y => array_factory r (anames y)
  | _, _ => Raise OperandTypeError
  end.
(** 217-227 [additive], as called by 131-147 [add] and [sub] *)
Definition additive {A} (f : A -> A -> A) (a b : aoperand A) : result (ares A) :=
  match a, b with
  | AArr x, AArr y =>
      if negb (dims_eq (adims x) (adims y)) then Raise ValueError
      else r <- nd_map2 f (data x) (data y) ;; z <- array_factory r (anames x) ;; Ok (RArr z)
  | AArr x, ANum v => r <- nd_map2 f (data x) (nd_scalar v) ;; Ok (RNd r)
  | AArr x, ANd y => r <- nd_map2 f (data x) y ;; Ok (RNd r)
  | ANum v, AArr y => r <- nd_map2 f (nd_scalar v) (data y) ;; Ok (RNd r)
  | ANd x, AArr y => r <- nd_map2 f x (data y) ;; Ok (RNd r)
  | AArr _, AOther | AOther, AArr _ => Raise TypeError
  | _, _ => Raise OperandTypeError
  end.
(** 206-214 [comparative] *)
Definition comparative {A} (f : A -> A -> bool) (a b : aoperand A) : result (nd bool) :=
  match a, b with
  | AArr x, AArr y =>
      if negb (dims_eq (adims x) (adims y)) then Raise ValueError
      else nd_map2 f (data x) (data y)
  | AArr x, ANum v => nd_map2 f (data x) (nd_scalar v)
  | AArr x, ANd y => nd_map2 f (data x) y
  | AArr _, AOther => Raise TypeError
  | _, _ => Raise AttributeError
  end.
(** 71-80 [eq], 83-86 [ne] *)
Definition array_eq {A} (eqb : A -> A -> bool) (a b : aoperand A) : bool :=
  match a, b with
  | AArr x, AArr y => nd_array_equal eqb (data x) (data y) && dims_eq (adims x) (adims y)
  | _, _ => false
  end.
Definition array_ne {A} (eqb : A -> A -> bool) (a b : aoperand A) : bool := negb (array_eq eqb a b).
(** 199-203 [unary] *)
Definition unary {A} (f : A -> A) (a : aoperand A) : result (array A) :=
  match a with
  | AArr x => array_factory (nd_map f (data x)) (anames x)
  | _ => Raise OperandTypeError
  end.

(** ** Transposition *)
(** The argument of [x.transpose]: nothing, names (positional: a tuple, or one
    tuple or list), axis numbers (at least two, or one iterable), or one bare
    integer *)
Inductive targs := TNone | TNames (d : dims) | TAxes (axes : list Z) | TBare (z : Z).
(** numpy: negative axes count from the end *)
Fixpoint norm_axes (n : nat) (axes : list Z) : result (list nat) :=
  match axes with
  | [] => Ok []
  | z :: r => match norm_index n z with
              | Some i => k <- norm_axes n r ;; Ok (i :: k)
              | None => Raise ValueError
              end
  end.
(** _array.py 513-518 [_transpose], 498-511 [transpose].  A plain tuple or list
    of dimensions has no [mismatch] or [permute]; the new array stores the given
    names unchanged (the constructor does not normalise them). *)
Definition array_transpose {A} (x : array A) (args : targs) : result (array A) :=
  match args with
  | TNone => Ok x
  | TBare _ => Raise TypeError
  | TNames d =>
      match adims x with
      | Named l =>
          _ <- mismatch l (names d) ;;
          axes <- mapM (fun a => index_of str_eqb a l) (names d) ;;
          r <- nd_transpose axes (data x) ;;
          Ok (mkarray r d)
      | _ => Raise AttributeError
      end
  | TAxes axes =>
      k <- norm_axes (ndim (data x)) axes ;;
      r <- nd_transpose k (data x) ;;
      match adims x with
      | Named l => d <- dims_permute l axes ;; Ok (mkarray r d)
      | _ => Raise AttributeError
      end
  end.
(** real/_array.py 323-332 [numpy.transpose(x, axes=axes)] *)
Definition name_of (a : list str) (z : Z) : result str :=
  match norm_index (length a) z with
  | Some i => match nth_error a i with Some x => Ok x | None => Raise IndexError end
  | None => Raise IndexError
  end.
Definition numpy_transpose {A} (x : array A) (axes : option (list Z)) : result (array A) :=
  let r := nd_reverse_axes (data x) in
  match axes with
  | None => array_factory r (rev (anames x))
  | Some l => d <- mapM (name_of (anames x)) l ;; array_factory r d
  end.

(** ** Reductions *)
(** numpy [x.squeeze()]: axes of length one removed *)
Fixpoint unsqueeze (sh ix : list nat) : list nat :=
  match sh with
  | [] => []
  | n :: sh' => if Nat.eqb n 1 then 0 :: unsqueeze sh' ix
                else nth 0 ix 0 :: unsqueeze sh' (tl ix)
  end.
Definition nd_squeeze {A} (a : nd A) : nd A :=
  mknd (filter (fun n => negb (Nat.eqb n 1)) (shape a)) (fun ix => elem a (unsqueeze (shape a) ix)).
(** numpy reduction of one axis by [g] (sum, mean, ...), and [keepdims=True] *)
Definition nd_line {A} (a : nd A) (k : nat) (pre post : list nat) : list A :=
  map (fun i => elem a (pre ++ i :: post)) (seq 0 (nth k (shape a) 0)).
Definition nd_reduce {A} (g : list A -> A) (k : nat) (a : nd A) : nd A :=
  mknd (firstn k (shape a) ++ skipn (S k) (shape a))
       (fun ix => g (nd_line a k (firstn k ix) (skipn k ix))).
Definition nd_reduce_keep {A} (g : list A -> A) (k : nat) (a : nd A) : nd A :=
  mknd (firstn k (shape a) ++ 1 :: skipn (S k) (shape a))
       (fun ix => g (nd_line a k (firstn k ix) (skipn (S k) ix))).
(** numpy [x.cumsum(axis)]; [g] sums a list *)
Definition nd_accumulate {A} (g : list A -> A) (k : nat) (a : nd A) : nd A :=
  mknd (shape a)
       (fun ix => g (map (fun i => elem a (firstn k ix ++ i :: skipn (S k) ix)) (seq 0 (S (nth k ix 0))))).

(** real/_array.py 276-285 [squeeze]: a number if no axis is left *)
Inductive squeezed (A : Type) := SqNum (v : A) | SqArr (x : array A).
Arguments SqNum {A} v.
Arguments SqArr {A} x.
Definition squeeze_names {A} (x : array A) : list str :=
  map fst (filter (fun p => negb (Nat.eqb (snd p) 1)) (combine (anames x) (shape (data x)))).
Definition array_squeeze {A} (x : array A) : result (squeezed A) :=
  let d := nd_squeeze (data x) in
  if Nat.eqb (ndim d) 0 then Ok (SqNum (elem d []))
  else r <- array_factory d (squeeze_names x) ;; Ok (SqArr r).
(** 288-311: the names without the reduced axis *)
Definition without_axis (l : list str) (ax : Z) : list str :=
  filter (fun d => negb (Z.eqb (Z.of_nat (pos d l)) ax)) l.
(** 288-297 [mean] with an axis; [keep]: the [keepdims] keyword, if given *)
Definition is_true (b : option bool) : bool := match b with Some true => true | _ => false end.
Definition array_mean {A} (g : list A -> A) (x : array A) (axis : Z) (keep : option bool) : result (array A) :=
  match norm_index (ndim (data x)) axis with
  | None => Raise ValueError
  | Some k =>
      let d := if is_true keep then nd_reduce_keep g k (data x) else nd_reduce g k (data x) in
      array_factory d (without_axis (anames x) (axis mod Z.of_nat (ndim (data x))))
  end.
(** 300-311 [sum] with an axis *)
Definition array_sum {A} (g : list A -> A) (x : array A) (axis : Z) (keep : option bool) : result (array A) :=
  match norm_index (ndim (data x)) axis with
  | None => Raise ValueError
  | Some k =>
      let d := if is_true keep then nd_reduce_keep g k (data x) else nd_reduce g k (data x) in
      match keep with
      | Some _ => array_factory d (anames x)
      | None => array_factory d
                  (without_axis (anames x) (if (axis <? 0)%Z then Z.of_nat (ndim (data x)) + axis else axis)%Z)
      end
  end.
(** 314-320 [cumsum] with an axis *)
Definition array_cumsum {A} (g : list A -> A) (x : array A) (axis : Z) : result (array A) :=
  match norm_index (ndim (data x)) axis with
  | None => Raise ValueError
  | Some k => array_factory (nd_accumulate g k (data x)) (anames x)
  end.
(** 366-376 [trapz] with coordinates fixed in [g] (the trapezoidal sum of a
    line): without an axis the last one *)
Definition array_trapz {A} (g : list A -> A) (x : array A) (axis : option Z) : result (array A) :=
  let z := match axis with Some z => z | None => (-1)%Z end in
  match norm_index (ndim (data x)) z with
  | None => Raise ValueError
  | Some k =>
      let d := nd_reduce g k (data x) in
      match axis with
      | None => array_factory d (removelast (anames x))
      | Some z => array_factory d (without_axis (anames x) (z mod Z.of_nat (ndim (data x))))
      end
  end.
