(** * Model of observable quantities and of the observing context.
    Source: /repo/src/eprempy/observable/_objects.py unless another file is named.

    What an operator computes is a parameter of a quantity (the operators of
    _interfaces.py are modelled in DerivedModel.v, InterpModel.v, IntfluxModel.v).
    Numbers are exact rationals. *)
From Verif Require Import PyBase ContainerModel Nd IndexModel ArrayModel AxesModel AxisModel PhysicalModel AtomicModel.

Section Observable.
Context {U B : Type}.
Variables (ueq : U -> U -> bool) (umul udiv : U -> U -> result U) (upow : U -> Qc -> result U) (uone : U) (uinv : U -> result U).
Variables (factor : U -> U -> option Qc) (consistent : U -> U -> bool).
Variables (beq : B -> B -> bool) (blen : B -> nat) (bin : B -> B -> bool).
(** [unit.quantity == 'length'] *)
Variable is_length : U -> bool.

(** ** Arguments (166-275) *)
(** What a user gives for one dimension: integers; a slice; numbers with a unit
    (plain real numbers have the unit '1'); a name; points (only made by
    [_shell_or_radius]) *)
Inductive uval := VIndex (l : list Z) | VSlice (sl : pyslice) | VMeas (l : list Qc) (u : U) | VName (t : str) | VPoints (l : list Z).
(** a physical assumption: a measurement or a slice *)
Inductive assumption := HMeas (l : list Qc) (u : U) | HSlice (sl : pyslice).
(** 169-183: indices by dimension, and assumptions by name.  The aliases of the
    names are not modelled here (AliasedModel.v). *)
Inductive parsed := PPos (p : positions) | PAssume (h : assumption).
Record arguments := mkargs { aindices : list (str * parsed); aassumed : list (str * parsed) }.

(** ** Context (282-382) *)
(** datafile/_interfaces.py 16-140: the axes of the dataset *)
Inductive axis := ACoords (data : list Qc) (u : U) | APoints (data : list Z) | ASymbols (data : list str).
Record context := mkctx { caxes : list (str * axis); cgrid : list (list Qc); cgrid_unit : U }.
Definition AxisValueError := OtherError "AxisValueError".

(** [axis.index(v)]: physical/_axis.py 174-190, 211-229, 244-309 *)
Definition axis_find (x : axis) (v : uval) : result positions :=
  match x, v with
  | ACoords data u, VMeas l w =>
      coordinates_index ueq uone (fun a b => conversion_factor factor consistent a b) data u l w NoSide
  | APoints data, VPoints l => points_index data None (OneList (map (fun z => TNum (zq z)) l))
  | APoints data, VMeas l w => points_index data None (OneList (map TNum l))
  | ASymbols data, VName t => symbols_index data None (Args [TStr t])
  | _, _ => Raise TypeError
  end.
(** [axis.indices]: _axis.py 150-155, 192-196 *)
Definition axis_all (x : axis) : list Z :=
  match x with
  | ACoords data _ => map Z.of_nat (seq 0 (length data))
  | APoints data => data
  | ASymbols data => map Z.of_nat (seq 0 (length data))
  end.
(** [axis.indices[slice]]: numeric/_index.py 96-105 *)
Definition pick {A} (l : list A) (ps : list nat) : list A :=
  flat_map (fun p => match nth_error l p with Some a => [a] | None => [] end) ps.
Definition axis_slice (x : axis) (sl : pyslice) : result positions :=
  let all := axis_all x in ps <- slice_positions sl (length all) ;; Ok (These (pick all ps)).

(** 349-367 [_parse_user_arg]; a measured value without a unit that is not
    wrapped in a list of integers is not index-like (quantity/_functions.py
    21-29; physical objects with the unit '1' are not modelled) *)
Definition parse_user_arg (c : context) (k : str) (v : uval) : result parsed :=
  match v with
  | VIndex l => Ok (PPos (These l))
  | _ =>
      match lookup str_eqb (caxes c) k with
      | Ok x => match v with
                | VSlice sl => p <- axis_slice x sl ;; Ok (PPos p)
                | _ => p <- axis_find x v ;; Ok (PPos p)
                end
      | Raise _ =>
          match v with
          | VSlice sl => Ok (PAssume (HSlice sl))
          | VMeas l u => Ok (PAssume (HMeas l u))
          | VPoints l => Ok (PAssume (HMeas (map zq l) uone))
          | _ => Raise (OtherError "ArgumentError")
          end
      end
  end.
(** one turn of 318-333 *)
Definition state : Type := list (str * parsed) * list (str * parsed).
Definition implement_step (c : context) (st : state) (k : str) (v : uval) : result state :=
  let '(indexed, params) := st in
  match parse_user_arg c k v with
  | Raise (OtherError "AxisValueError") =>
      i <- parse_user_arg c k (VSlice full_slice) ;;
      p <- parse_user_arg c [] v ;;
      Ok (dict_put str_eqb indexed k i, dict_put str_eqb params k p)
  | Raise e => Raise e
  | Ok p => match lookup str_eqb (caxes c) k with
            | Ok _ => Ok (dict_put str_eqb indexed k p, params)
            | Raise _ => Ok (indexed, dict_put str_eqb params k p)
            end
  end.
Fixpoint implement_loop (c : context) (st : state) (user : list (str * uval)) : result state :=
  match user with
  | [] => Ok st
  | (k, v) :: user' => st' <- implement_step c st k v ;; implement_loop c st' user'
  end.
(** 334-340: restrict an axis to the values around the assumed ones *)
Definition narrow_axis (c : context) (st : state) (key : str) : result state :=
  match lookup str_eqb (snd st) key with
  | Raise _ => Ok st
  | Ok (PAssume (HMeas l u)) =>
      x <- lookup str_eqb (caxes c) key ;;
      match x with
      | ACoords data w =>
          v <- with_unit ueq (fun a b => conversion_factor factor consistent a b) l u w ;;
          idx <- restrict (G1 data) v ;;
          Ok (dict_put str_eqb (fst st) key (PPos (These idx)), snd st)
      | _ => Raise AttributeError
      end
  | Ok _ => Raise AttributeError
  end.
(** 341-346: the shells around the assumed radii *)
Definition narrow_shell (c : context) (st : state) : result state :=
  match lookup str_eqb (snd st) (s "radius") with
  | Raise _ => Ok st
  | Ok (PAssume (HMeas l u)) =>
      v <- with_unit ueq (fun a b => conversion_factor factor consistent a b) l u (cgrid_unit c) ;;
      idx <- restrict (G2 (cgrid c)) v ;;
      Ok (dict_put str_eqb (fst st) (s "shell") (PPos (These idx)), snd st)
  | Ok _ => Raise AttributeError
  end.
(** 310-347 [implement], up to the call of the operator.  The set in 334 is
    visited in any order; its turns do not depend on each other. *)
Definition implement (c : context) (user : list (str * uval)) : result arguments :=
  st <- implement_loop c ([], []) user ;;
  st <- narrow_axis c st (s "time") ;;
  st <- narrow_axis c st (s "energy") ;;
  st <- narrow_axis c st (s "mu") ;;
  st <- narrow_shell c st ;;
  Ok (mkargs (fst st) (snd st)).

(** ** Quantity (389-599) *)
Notation val := (pval (U := U) (B := B)).
Record quantity := mkqty { operator : arguments -> result val; qunit : U; qdims : list str }.

(** 463-467 [_normalize] with numeric.index.expand (_index.py 648-700): one
    value or a tuple of values; an ellipsis stands for whole axes *)
Inductive item := Ell | It (v : uval).
Inductive given := One (x : item) | Tuple (l : list item).
Definition whole : uval := VSlice full_slice.
Definition is_ellipsis (x : item) : bool := match x with Ell => true | _ => false end.
Fixpoint ellipsis_pos (l : list item) : nat := match l with [] => 0 | x :: l' => if is_ellipsis x then 0 else S (ellipsis_pos l') end.
Definition values_of (l : list item) : list uval := map (fun x => match x with It v => v | Ell => whole end) l.
Definition expand_items (n : nat) (l : list item) : result (list uval) :=
  if Nat.ltb n (length l) && negb (is_ellipsis (last l Ell)) then Raise IndexError
  else
    let count := length (filter is_ellipsis l) in
    if Nat.eqb count 0 then Ok (values_of l)
    else if Nat.ltb 1 count then Raise IndexError
    else
      let p := ellipsis_pos l in
      Ok (values_of (firstn p l) ++ repeat whole (n + 1 - length l) ++ values_of (skipn (p + 1) l)).
Definition is_full (x : item) : bool :=
  match x with
  | Ell => true
  | It (VSlice sl) => match sl_start sl, sl_stop sl, sl_step sl with None, None, None => true | _, _, _ => false end
  | _ => false
  end.
Definition normalize_given (n : nat) (g : given) : result (list uval) :=
  match g with
  | Tuple l => expand_items n l
  | One x => if is_full x then expand_items n [Ell]
             else if Nat.ltb 1 n then expand_items n [x; Ell] else expand_items n [x]
  end.
(** 469-477 [_shell_or_radius]; [points] makes integers of the numbers, which
    must not be negative (_axis_factories.py 21-39) *)
Definition points_of (l : list Z) : result uval := if forallb (fun z => (0 <=? z)%Z) l then Ok (VPoints l) else Raise TypeError.
Definition shell_or_radius (v : uval) : result (str * uval) :=
  match v with
  | VSlice sl => Ok (s "shell", v)
  | VMeas l u => if is_length u then Ok (s "radius", v) else p <- points_of (map py_int l) ;; Ok (s "shell", p)
  | VIndex l | VPoints l => p <- points_of l ;; Ok (s "shell", p)
  | VName _ => Raise (OtherError "MeasuringTypeError")
  end.
(** 440-446 *)
Definition shellless (mapped : list (str * uval)) : list (str * uval) := filter (fun kv => negb (str_eqb (fst kv) (s "shell"))) mapped.
Definition constraints (mapped : list (str * uval)) : result (list (str * uval)) :=
  match lookup str_eqb mapped (s "shell") with
  | Ok v => kv <- shell_or_radius v ;; Ok (dict_put str_eqb (shellless mapped) (fst kv) (snd kv))
  | Raise _ => Ok (shellless mapped)
  end.
(** 455-461: the observed array in the unit of the quantity *)
Definition in_unit (q : quantity) (r : val) : result (parr (U := U) (B := B)) :=
  match r with
  | PArr a => if consistent (aunit a) (qunit q) then arr_withunit ueq factor consistent a (qunit q)
              else Raise (OtherError "ObservationError")
  | _ => Raise AttributeError
  end.
(** 422-461 [__getitem__] from 440 on *)
Definition observe (c : context) (q : quantity) (mapped : list (str * uval)) : result (parr (U := U) (B := B)) :=
  user <- constraints mapped ;;
  args <- implement c user ;;
  r <- operator q args ;;
  in_unit q r.
(** 422-461 [__getitem__] *)
Definition getitem (c : context) (q : quantity) (g : given) : result (parr (U := U) (B := B)) :=
  l <- normalize_given (length (qdims q)) g ;;
  if negb (Nat.eqb (length l) (length (qdims q))) then Raise IndexError
  else observe c q (combine (qdims q) l).

(** 549-558 [_unequal_metadata]; numeric/_array.py 41-51: dimensions are equal
    as tuples *)
Fixpoint names_eqb (a b : list str) : bool :=
  match a, b with [], [] => true | x :: a', y :: b' => str_eqb x y && names_eqb a' b' | _, _ => false end.
Definition equal_metadata (a b : quantity) : bool := ueq (qunit a) (qunit b) && names_eqb (qdims a) (qdims b).
(** 560-565 [_apply] *)
Definition apply_op (op : val -> val -> result val) (a b : quantity) (u : U) (d : list str) : quantity :=
  mkqty (fun user => x <- operator a user ;; y <- operator b user ;; op x y) u d.
(** 489-519 [__add__], [__sub__] *)
Definition qadditive (f : Qc -> Qc -> Qc) (a b : quantity) : result quantity :=
  if equal_metadata a b then Ok (apply_op (padditive ueq uone beq blen bin f) a b (qunit a) (qdims a)) else Raise ValueError.
(** 521-535 [__mul__], [__truediv__] *)
Definition qmultiplicative (op : mulop) (f : Qc -> Qc -> Qc) (a b : quantity) : result quantity :=
  u <- unit_op umul udiv op (qunit a) (qunit b) ;;
  d <- dims_or_names (qdims a) (qdims b) ;;
  Ok (apply_op (pmultiplicative umul udiv uinv op f) a b u (names d)).
(** 537-547 [__pow__]: [_apply] subscripts the exponent, a number *)
Definition qpower (a : quantity) (p : Qc) : result quantity :=
  u <- upow (qunit a) p ;;
  Ok (mkqty (fun user => x <- operator a user ;; Raise TypeError) u (qdims a)).
(** 567-577 [withunit] *)
Definition qwithunit (a : quantity) (u : U) : result quantity :=
  if ueq (qunit a) u then Ok a
  else if consistent (qunit a) u then Ok (mkqty (operator a) u (qdims a))
  else Raise ValueError.

(** ** Quantities: _interfaces.py 1108-1143 *)
(** 1116-1134 [_build_observable], after the name has been made canonical and
    parsed; [get] is [_get_observable] (1136-1143) *)
Fixpoint multiply_terms (get : str -> result quantity) (this : quantity) (terms : list (str * Qc)) : result quantity :=
  match terms with
  | [] => Ok this
  | (b, e) :: terms' => q <- get b ;; p <- qpower q e ;; t <- qmultiplicative OMul Qcmult this p ;; multiply_terms get t terms'
  end.
Definition build_observable (get : str -> result quantity) (terms : list (str * Qc)) : result quantity :=
  match terms with
  | [] => Raise IndexError
  | (b, e) :: rest =>
      q <- get b ;;
      match rest with
      | [] => if qc_eqb e 1 then Ok q else qpower q e
      | _ => p <- qpower q e ;; multiply_terms get p rest
      end
  end.
(** 1116-1118, 1136-1143: [names] maps an alias to its canonical name,
    [defined] are the keys and aliases (_interfaces.py 1783-1792), [attr] the
    properties of the class *)
Definition canonical (names : list (str * str)) (k : str) : str := match lookup str_eqb names k with Ok n => n | Raise _ => k end.
Definition get_observable (names : list (str * str)) (defined : list str) (attr : str -> option quantity) (key : str) : result quantity :=
  let name := canonical names key in
  if mem str_eqb name defined then match attr name with Some q => Ok q | None => Raise AttributeError end
  else Raise KeyError.
End Observable.
