(** * Model of metric systems (metric/_systems.py) and of the quantities of a
    dimension (metric/_dimensions.py 17-36).

    Paths are relative to /repo/src/eprempy.  Units and dimensions are the lists
    of their terms; the cache of [unit_factory] is left out (see UnitModel.v and
    C24).  Names are ASCII.  A metric system is 'mks' or 'cgs'. *)
From Verif Require Import PyBase SymbolicModel MetricModel MetricTables UnitModel UnitOpsModel NormalizeModel.

(** Python [str.lower] *)
Definition lower_char (c : ascii) : ascii :=
  let n := nat_of_ascii c in if Nat.leb 65 n && Nat.leb n 90 then ascii_of_nat (n + 32) else c.
Definition lower (x : str) : str := map lower_char x.

(** ** Singletons *)

(** a [Quantity] or a [System]: an object number and a name; _systems.py
    174-197 and 393-415: [_quantities] and [_systems], keyed by name *)
Record sobj := mksobj { s_id : nat; s_name : str }.
Record sstate := mksstate { objects : list (str * sobj); next : nat }.
Definition no_objects : sstate := mksstate [] 0.
Fixpoint find_object (l : list (str * sobj)) (x : str) : option sobj :=
  match l with [] => None | (k, o) :: l' => if str_eqb k x then Some o else find_object l' x end.
(** _systems.py 177-197 [quantity_factory], 396-415 [system_factory], on a
    string; the objects are always true in a boolean context *)
Definition singleton (st : sstate) (x : str) : sobj * sstate :=
  let name := lower x in
  match find_object (objects st) name with
  | Some o => (o, st)
  | None => let o := mksobj (next st) name in (o, mksstate (objects st ++ [(name, o)]) (S (next st)))
  end.
Fixpoint singletons (st : sstate) (xs : list str) : list sobj * sstate :=
  match xs with
  | [] => ([], st)
  | x :: xs' => let '(o, st) := singleton st x in let '(os, st) := singletons st xs' in (o :: os, st)
  end.
(** _systems.py 115-129 [Quantity.__eq__] *)
Definition quantity_eq_str (q : sobj) (x : str) : bool := str_eqb (lower x) (s_name q).
Definition quantity_eq (a b : sobj) : bool := Nat.eqb (s_id a) (s_id b).

(** ** Units of a metric system *)
Definition QuantityError : exn := OtherError "QuantityError".
Definition SearchError : exn := OtherError "SearchError".
(** arguments of [get_unit]: strings or objects *)
Inductive unit_arg := UText (x : str) | UObj (ts : list operand).
Inductive dim_arg := DText (x : str) | DObj (d : list operand).
Inductive qty_arg := QName (x : str) | QObj (q : sobj).

Section Systems.
Variable libm : Qc -> Qc -> option Qc.
(** the recursion limit of the interpreter *)
Variable limit : nat.

(** _systems.py 75-83 [Quantity.__getitem__], with 22-34 [Properties]: the unit of
    the quantity; [UNITS[name]] never raises a [KeyError] (it recurses) *)
Definition quantity_getitem (name : str) (y : system) : result (list operand) :=
  match property libm limit true y name with
  | Raise KeyError => Raise QuantityError
  | Raise e => Raise e
  | Ok v => arg_terms libm named_unit (UStr v)
  end.
(** _systems.py 222-229 [System.__getitem__] *)
Definition system_getitem (y : system) (q : qty_arg) : result (list operand) :=
  quantity_getitem (match q with QName x => lower x | QObj o => s_name o end) y.
(** _systems.py 37-42 [Properties.dimension]: the dimension of the unit, in the system *)
Definition quantity_dimension (name : str) (y : system) : result (option (list operand)) :=
  u <- quantity_getitem name y ;; unit_dimension libm named_unit quantity_unit quantity_dim y u.
(** _systems.py 131-148 [Quantity.__or__]: equal dimensions in every system; the
    order of SYSTEMS is left open *)
Fixpoint quantity_or (order : list system) (a b : str) : result bool :=
  match order with
  | [] => Ok true
  | y :: order' =>
      da <- quantity_dimension a y ;; db <- quantity_dimension b y ;;
      if dim_eq da db then quantity_or order' a b else Ok false
  end.
(** _systems.py 214-220, 363-367: iteration over the values *)
Definition system_values (y : system) : result (list (list operand)) :=
  mapM (fun e => system_getitem y (QName (fst e))) QUANTITIES.

(** _systems.py 337: [dimension == target], where [dimension] is a string of
    CANONICAL['dimensions']: strings are compared as they are written,
    dimensions as expressions *)
Definition dim_matches (v : str) (d : dim_arg) : result bool :=
  match d with
  | DText x => Ok (str_eqb v x)
  | DObj d => e <- expression_of_str libm v ;; Ok (eeq d e)
  end.
Fixpoint first_dimension (y : system) (d : dim_arg) (l : list (str * (result str * result str))) : result (option str) :=
  match l with
  | [] => Ok None
  | (q, (m, c)) :: l' =>
      v <- (match y with Mks => m | Cgs => c end) ;;
      b <- dim_matches v d ;;
      if b then Ok (Some q) else first_dimension y d l'
  end.
(** _systems.py 332-339 [_unit_from_dimension] *)
Definition unit_from_dimension (y : system) (d : dim_arg) : result (option (list operand)) :=
  q <- first_dimension y d CANONICAL_DIMS ;;
  match q with
  | None => Ok None
  | Some q => match quantity_unit q y with
              | None => Raise KeyError
              | Some v => u <- arg_terms libm named_unit (UStr v) ;; Ok (Some u)
              end
  end.
(** _systems.py 324-330 [_unit_from_unit] *)
Definition unit_from_unit (y : system) (u : unit_arg) : result (list operand) :=
  ts <- (match u with UText x => arg_terms libm named_unit (UStr x) | UObj ts => Ok ts end) ;;
  normalize libm limit y ts.

(** _systems.py 298-313 [_get_unit]: one target at a time; [None] when it is null *)
Inductive target := TUnit (u : unit_arg) | TDim (d : dim_arg) | TQty (q : qty_arg).
Definition target_text (t : target) : str :=
  match t with
  | TUnit (UText x) | TDim (DText x) | TQty (QName x) => x
  | TUnit (UObj ts) | TDim (DObj ts) => format_expression ts
  | TQty (QObj o) => s_name o
  end.
Definition is_null (t : target) : bool :=
  match t with
  | TUnit (UText []) | TDim (DText []) | TQty (QName []) | TUnit (UObj []) | TDim (DObj []) => true
  | _ => false
  end.
Definition from_target (y : system) (t : target) : result (option (list operand)) :=
  match t with
  | TUnit u => r <- unit_from_unit y u ;; Ok (Some r)
  | TDim d => unit_from_dimension y d
  | TQty q => r <- system_getitem y q ;; Ok (Some r)
  end.
Fixpoint search_targets (y : system) (ts : list target) : result (list operand) :=
  match ts with
  | [] => Raise SearchError
  | t :: ts' =>
      if str_eqb (target_text t) (s "1") then system_getitem y (QName (s "identity"))
      else r <- from_target y t ;;
           match r with
           | Some (x :: r) => Ok (x :: r)
           | _ => search_targets y ts'
           end
  end.
Definition given {A} (f : A -> target) (o : option A) : list target :=
  match o with None => [] | Some a => if is_null (f a) then [] else [f a] end.
(** _systems.py 251-293 [get_unit] *)
Definition get_unit (y : system) (u : option unit_arg) (d : option dim_arg) (q : option qty_arg) : result (list operand) :=
  search_targets y (given TUnit u ++ given TDim d ++ given TQty q).

(** _dimensions.py 24-32 [Dimension.quantities] *)
Definition dimension_quantities (y : system) (d : list operand) : result (list str) :=
  bs <- mapM (fun e => v <- (match y with Mks => fst (snd e) | Cgs => snd (snd e) end) ;;
                       b <- dim_matches v (DObj d) ;; Ok (fst e, b)) CANONICAL_DIMS ;;
  Ok (map fst (filter snd bs)).
End Systems.
