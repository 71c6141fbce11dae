(** A small fragment of numpy: n-dimensional arrays and the array operations
    that eprempy calls.  Nothing here models eprempy itself; these definitions
    fix the meaning of the numpy primitives (numpy reference manual,
    "Array manipulation" and "Indexing").

    An array is its shape and a function from multi-indices to elements; only
    the values at valid multi-indices (one in-range index per axis) matter. *)
From Verif Require Import PyBase.

Record nd (A : Type) := mknd { shape : list nat; elem : list nat -> A }.
Arguments mknd {A} shape elem.
Arguments shape {A} _.
Arguments elem {A} _ _.

Definition valid (ix sh : list nat) : Prop := Forall2 lt ix sh.
(** same shape, same elements *)
Definition nd_eq {A} (a b : nd A) : Prop :=
  shape a = shape b /\ forall ix, valid ix (shape a) -> elem a ix = elem b ix.

(** number of elements *)
Definition nd_size {A} (a : nd A) : nat := fold_right Nat.mul 1 (shape a).
Definition ndim {A} (a : nd A) : nat := length (shape a).

(** all valid multi-indices, the last axis fastest *)
Fixpoint indices (sh : list nat) : list (list nat) :=
  match sh with
  | [] => [[]]
  | n :: sh' => flat_map (fun i => map (cons i) (indices sh')) (seq 0 n)
  end.
(** row-major list of the elements: [a.flat] *)
Definition flat {A} (a : nd A) : list A := map (elem a) (indices (shape a)).

(** [numpy.array_equal] *)
Fixpoint nats_eqb (a b : list nat) : bool :=
  match a, b with
  | [], [] => true
  | x :: a', y :: b' => Nat.eqb x y && nats_eqb a' b'
  | _, _ => false
  end.
Definition nd_array_equal {A} (eqb : A -> A -> bool) (a b : nd A) : bool :=
  nats_eqb (shape a) (shape b) && forallb (fun ix => eqb (elem a ix) (elem b ix)) (indices (shape a)).

(** ** Element-wise functions and broadcasting *)
Definition nd_map {A B} (f : A -> B) (a : nd A) : nd B := mknd (shape a) (fun ix => f (elem a ix)).

(** broadcast shape of two shapes given from the last axis backwards *)
Fixpoint bcast_rev (a b : list nat) : option (list nat) :=
  match a, b with
  | [], _ => Some b
  | _, [] => Some a
  | x :: a', y :: b' =>
      match bcast_rev a' b' with
      | None => None
      | Some r => if Nat.eqb x y then Some (x :: r)
                  else if Nat.eqb x 1 then Some (y :: r)
                  else if Nat.eqb y 1 then Some (x :: r)
                  else None
      end
  end.
Definition bcast_shape (a b : list nat) : option (list nat) :=
  option_map (@rev nat) (bcast_rev (rev a) (rev b)).
(** the multi-index of an operand of shape [sh] used for the multi-index [ix]
    of the result: trailing axes are aligned, axes of length one are repeated *)
Fixpoint pin (sh ix : list nat) : list nat :=
  match sh, ix with
  | n :: sh', i :: ix' => (if Nat.eqb n 1 then 0 else i) :: pin sh' ix'
  | _, _ => []
  end.
Definition operand_index (sh ix : list nat) : list nat :=
  pin sh (skipn (length ix - length sh) ix).
(** a binary ufunc *)
Definition nd_map2 {A B C} (f : A -> B -> C) (a : nd A) (b : nd B) : result (nd C) :=
  match bcast_shape (shape a) (shape b) with
  | None => Raise ValueError
  | Some sh => Ok (mknd sh (fun ix => f (elem a (operand_index (shape a) ix))
                                        (elem b (operand_index (shape b) ix))))
  end.

(** ** [a.transpose(axes)]: axis [k] of the result is axis [axes[k]] of [a] *)
Fixpoint position (x : nat) (l : list nat) : nat :=
  match l with [] => 0 | y :: l' => if Nat.eqb x y then 0 else S (position x l') end.
Fixpoint natnodup (l : list nat) : bool :=
  match l with [] => true | x :: l' => negb (existsb (Nat.eqb x) l') && natnodup l' end.
(** one axis for every axis of the array, none repeated *)
Definition is_perm (n : nat) (axes : list nat) : bool :=
  Nat.eqb (length axes) n && forallb (fun k => Nat.ltb k n) axes && natnodup axes.
Definition nd_transpose {A} (axes : list nat) (a : nd A) : result (nd A) :=
  if is_perm (ndim a) axes then
    Ok (mknd (map (fun k => nth k (shape a) 0) axes)
             (fun ix => elem a (map (fun m => nth (position m axes) ix 0) (seq 0 (ndim a)))))
  else Raise ValueError.
(** [a.transpose()] reverses the axes *)
Definition nd_reverse_axes {A} (a : nd A) : nd A :=
  mknd (rev (shape a)) (fun ix => elem a (rev ix)).

(** ** [a[numpy.ix_(l1, ..., lk)]]: the open mesh of [k] index lists; further
    axes are kept whole.  Negative indices count from the end; an index outside
    the axis raises IndexError, too many lists raise IndexError. *)
Definition norm_index (n : nat) (z : Z) : option nat :=
  let j := if (z <? 0)%Z then (z + Z.of_nat n)%Z else z in
  if (j <? 0)%Z then None
  else if (Z.of_nat n <=? j)%Z then None
  else Some (Z.to_nat j).
Fixpoint norm_list (n : nat) (l : list Z) : option (list nat) :=
  match l with
  | [] => Some []
  | z :: l' => match norm_index n z, norm_list n l' with
               | Some i, Some r => Some (i :: r)
               | _, _ => None
               end
  end.
Fixpoint norm_mesh (sh : list nat) (ls : list (list Z)) : option (list (list nat)) :=
  match sh, ls with
  | _, [] => Some (map (fun n => seq 0 n) sh)
  | [], _ :: _ => None
  | n :: sh', l :: ls' => match norm_list n l, norm_mesh sh' ls' with
                          | Some m, Some r => Some (m :: r)
                          | _, _ => None
                          end
  end.
Fixpoint pick (mesh : list (list nat)) (ix : list nat) : list nat :=
  match mesh, ix with
  | m :: mesh', i :: ix' => nth i m 0 :: pick mesh' ix'
  | _, _ => []
  end.
Definition nd_mesh {A} (ls : list (list Z)) (a : nd A) : result (nd A) :=
  match norm_mesh (shape a) ls with
  | None => Raise IndexError
  | Some mesh => Ok (mknd (map (@length nat) mesh) (fun ix => elem a (pick mesh ix)))
  end.

(** ** Basic subscripts: integers remove an axis, slices select along it;
    missing subscripts keep the axis. *)
Inductive basic := BInt (z : Z) | BList (l : list nat).
(** [BList]: a slice, given by the positions that it selects *)
Fixpoint basic_shape (sh : list nat) (bs : list basic) : option (list nat) :=
  match sh, bs with
  | _, [] => Some sh
  | [], _ :: _ => None
  | n :: sh', BInt z :: bs' => match norm_index n z with
                               | Some _ => basic_shape sh' bs'
                               | None => None
                               end
  | n :: sh', BList l :: bs' => option_map (cons (length l)) (basic_shape sh' bs')
  end.
Fixpoint basic_index (sh : list nat) (bs : list basic) (ix : list nat) : list nat :=
  match sh, bs with
  | _, [] => ix
  | [], _ :: _ => []
  | n :: sh', BInt z :: bs' =>
      (match norm_index n z with Some i => i | None => 0 end) :: basic_index sh' bs' ix
  | n :: sh', BList l :: bs' =>
      nth (nth 0 ix 0) l 0 :: basic_index sh' bs' (tl ix)
  end.
Definition nd_basic {A} (bs : list basic) (a : nd A) : result (nd A) :=
  match basic_shape (shape a) bs with
  | None => Raise IndexError
  | Some sh => Ok (mknd sh (fun ix => elem a (basic_index (shape a) bs ix)))
  end.

(** ** Reshaping: the row-major order of the elements is kept *)
Fixpoint ravel (sh ix : list nat) : nat :=
  match sh, ix with
  | n :: sh', i :: ix' => i * fold_right Nat.mul 1 sh' + ravel sh' ix'
  | _, _ => 0
  end.
Fixpoint unravel (sh : list nat) (k : nat) : list nat :=
  match sh with
  | [] => []
  | n :: sh' => let m := fold_right Nat.mul 1 sh' in (k / m) :: unravel sh' (k mod m)
  end.
(** [numpy.array(a, ndmin=n)]: axes of length one are put in front *)
Definition nd_ndmin {A} (n : nat) (a : nd A) : nd A :=
  mknd (repeat 1 (n - ndim a) ++ shape a) (fun ix => elem a (skipn (n - ndim a) ix)).
(** [a.reshape(sh)]; one negative entry stands for the length that fits *)
Definition prod (l : list nat) : nat := fold_right Nat.mul 1 l.
Definition nd_reshape {A} (zs : list Z) (a : nd A) : result (nd A) :=
  let known := prod (map Z.to_nat (filter (fun z => (0 <=? z)%Z) zs)) in
  let unknown := filter (fun z => (z <? 0)%Z) zs in
  match unknown with
  | [] => if Nat.eqb known (nd_size a)
          then let sh := map Z.to_nat zs in
               Ok (mknd sh (fun ix => elem a (unravel (shape a) (ravel sh ix))))
          else Raise ValueError
  | [_] => if Nat.eqb known 0 then Raise ValueError
           else if Nat.eqb (nd_size a mod known) 0
           then let sh := map (fun z => if (z <? 0)%Z then nd_size a / known else Z.to_nat z) zs in
                Ok (mknd sh (fun ix => elem a (unravel (shape a) (ravel sh ix))))
           else Raise ValueError
  | _ => Raise ValueError
  end.
