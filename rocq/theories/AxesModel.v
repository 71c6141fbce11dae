(** Model of the collection of named axes.
    Source: /repo/src/eprempy/physical/_axes.py.

    A [dict] from name to axis is the list of its items in insertion order; the
    names are distinct.  What an axis is does not matter here: it is a type [B]
    with the equality, the length and the containment test of _axis.py. *)
From Verif Require Import PyBase ContainerModel Nd IndexModel ArrayModel.

Section Axes.
Context {B : Type}.
Definition axes := list (str * B).
Definition anames_of (a : axes) : list str := map fst a.
(** 42-57 [__getitem__] by name *)
Definition axis_named (a : axes) (d : str) : result B := lookup str_eqb a d.
(** 42-57 by position: [self.names[arg]] is tuple subscription *)
Definition axis_at (a : axes) (i : Z) : result B :=
  match norm_index (length a) i with
  | Some j => match nth_error a j with Some kv => Ok (snd kv) | None => Raise KeyError end
  | None => Raise KeyError
  end.

(** 173-183 [_merge]; a [MergeError] becomes a [ValueError] *)
Definition axes_merge (a b : axes) : result axes :=
  match merge str_eqb (anames_of a) (anames_of b) with
  | Raise MergeError => Raise ValueError
  | Raise e => Raise e
  | Ok keys =>
      mapM (fun k => v <- (if smem k (anames_of b) then axis_named b k else axis_named a k) ;; Ok (k, v)) keys
  end.

(** 140-166 [__add__].  Different names: the message refers to unbound
    variables, so that an [UnboundLocalError] is raised instead of the intended
    [ValueError]. *)
(** [beq]: ==, [blen]: len, [bin x y]: x in y *)
Context (beq : B -> B -> bool) (blen : B -> nat) (bin : B -> B -> bool).
Definition fill (a b : B) : result B :=
  if beq a b then Ok a
  else if Nat.eqb (blen b) 1 && bin b a then Ok a
  else if Nat.eqb (blen a) 1 && bin a b then Ok b
  else Raise ValueError.
Definition axes_add (a b : axes) : result axes :=
  if subset (anames_of a) (anames_of b) && subset (anames_of b) (anames_of a) then
    mapM (fun kv => v <- axis_named b (fst kv) ;; w <- fill (snd kv) v ;; Ok (fst kv, w)) a
  else Raise (OtherError "UnboundLocalError").

(** 66-77 [__eq__]; 78-138 the orderings, which raise when a shared name has
    different axes.  [neq] is [self[k] != other[k]]. *)
Definition axes_eq (aeq : B -> B -> bool) (a b : axes) : bool :=
  list_eqb str_eqb (anames_of a) (anames_of b)
  && forallb (fun kv => match axis_named b (fst kv) with Ok v => aeq (snd kv) v | Raise _ => false end) a.
Definition shared_differ (a b : axes) : bool :=
  existsb (fun kv => match axis_named b (fst kv) with Ok v => negb (beq (snd kv) v) | Raise _ => false end) a.
Definition axes_le (a b : axes) : result bool :=
  if shared_differ a b then Raise ValueError else Ok (subset (anames_of a) (anames_of b)).
Definition axes_lt (a b : axes) : result bool :=
  if shared_differ a b then Raise ValueError else Ok (dims_lt (anames_of a) (anames_of b)).

(** 192-245 [replace] with an axis, and with one [name=axis] pair *)
Definition replace_axis (a : axes) (d : str) (new : B) : result axes :=
  if smem d (anames_of a) then Ok (map (fun kv => if str_eqb (fst kv) d then (fst kv, new) else kv) a)
  else Raise KeyError.
(** 232-243: [mapping[key] = value] in a loop *)
Fixpoint replace_loop (acc a : axes) (d key : str) (new : B) : axes :=
  match a with
  | [] => acc
  | (k, v) :: a' =>
      if str_eqb k d then replace_loop (dict_put str_eqb acc key new) a' d key new
      else replace_loop (dict_put str_eqb acc k v) a' d key new
  end.
Definition replace_pair (a : axes) (d key : str) (new : B) : result axes :=
  if smem d (anames_of a) then Ok (replace_loop [] a d key new) else Raise KeyError.

(** 275-301 [insert].  The location keyword: *)
Inductive location := Anywhere | Before (d : str) | After (d : str) | Index (i : Z) | OtherKeyword.
Fixpoint insert_loop (acc : axes) (i : nat) (a : axes) (dim : str) (new : B) (loc : location) : axes :=
  match a with
  | [] => acc
  | (d, current) :: a' =>
      let put k v m := dict_put str_eqb m k v in
      let acc' :=
        match loc with
        | Before l => if str_eqb d l then put dim new (put d current acc) else put d current acc
        | After l => if str_eqb d l then put d current (put dim new acc) else put d current acc
        | Index z => if (Z.of_nat i =? z)%Z then put d current (put dim new acc) else put d current acc
        | _ => put d current acc
        end in
      insert_loop acc' (S i) a' dim new loc
  end.
Definition insert (a : axes) (dim : str) (new : B) (loc : location) : result axes :=
  match loc with
  | Anywhere => axes_merge a [(dim, new)]
  | _ => Ok (insert_loop [] 0 a dim new loc)
  end.

(** 303-333 [without] *)
Definition without (a : axes) (d : str) (strict : bool) : result axes :=
  if strict && negb (smem d (anames_of a)) then Raise KeyError
  else Ok (filter (fun kv => negb (str_eqb (fst kv) d)) a).

(** 335-361 [extract] *)
Definition extract (a : axes) (ds : list str) : result axes :=
  match ds with
  | [] => Raise TypeError
  | _ => l <- mapM (fun d => v <- axis_named a d ;; Ok (d, v)) ds ;; Ok (dict_of str_eqb l)
  end.

(** 375-402 [permute], [_permute], [_permute_dimensions]: a list of integers or a
    list of names (a bare string, whose characters would be the names, and
    lists of both kinds are not modelled).  No argument: [TypeError]
    (etc.py 527-560). *)
Inductive order := ByIndex (l : list Z) | ByName (l : list str).
Definition permute_dimensions (a : axes) (o : order) : result (list str) :=
  match o with
  | ByIndex [] | ByName [] => Raise TypeError
  | ByIndex l => d <- dims_permute (anames_of a) l ;; Ok (names d)
  | ByName l => _ <- mismatch (anames_of a) l ;; Ok (names (dimensions_factory l))
  end.
Definition permute (a : axes) (o : order) : result axes :=
  l <- permute_dimensions a o ;;
  mapM (fun d => v <- axis_named a d ;; Ok (d, v)) l.
End Axes.
Arguments axes : clear implicits.

(** 407-475 [_map_axes]: the ways to make axes.  [conv] is [convert_to_axis], a
    [ValueError] for what is not an axis (482-490); [points n] is
    [Points(range(n))].  Pairs given as keywords or as a mapping are one list. *)
Section Factory.
Context {B C : Type} (conv : C -> result B) (points : nat -> B).
Definition default_axes {X} (l : list X) : list (str * X) := combine (map default_name (seq 0 (length l))) l.
Definition convert_pairs (l : list (str * C)) : result (axes B) :=
  mapM (fun kc => b <- conv (snd kc) ;; Ok (fst kc, b)) l.
Definition map_axes (pairs : list (str * C)) (axs : option (list C)) (shape : option (list nat))
    (dimensions : option (list str)) : result (axes B) :=
  match pairs, axs, shape, dimensions with
  | _ :: _, _, _, _ => convert_pairs pairs
  | [], Some l, _, None => l' <- convert_pairs (default_axes l) ;; Ok (dict_of str_eqb l')
  | [], Some l, _, Some ds =>
      if Nat.eqb (length l) (length ds) then l' <- convert_pairs (combine ds l) ;; Ok (dict_of str_eqb l')
      else Raise ValueError
  | [], None, Some sh, None => Ok (dict_of str_eqb (default_axes (map points sh)))
  | [], None, Some sh, Some ds =>
      if Nat.eqb (length sh) (length ds) then Ok (dict_of str_eqb (combine ds (map points sh)))
      else Raise ValueError
  | [], None, None, Some _ => Raise TypeError
  | [], None, None, None => Raise ValueError
  end.
End Factory.
