(** * Model of conversions to a unit or to a metric system
    (metric/_conversions.py 411-575, metric/__init__.py 97-185,
    metric/_systems.py 85-111).

    Paths are relative to /repo/src/eprempy.  A metric system is 'mks' or 'cgs'. *)
From Verif Require Import PyBase SymbolicModel MetricModel MetricTables UnitModel UnitOpsModel NormalizeModel SystemsModel.

Definition system_name (y : system) : str := match y with Mks => s "mks" | Cgs => s "cgs" end.
Definition other_system (y : system) : system := match y with Mks => Cgs | Cgs => Mks end.
(** [target in _reference.SYSTEMS] *)
Definition named_system (x : str) : option system :=
  if str_eqb x (s "mks") then Some Mks else if str_eqb x (s "cgs") then Some Cgs else None.

Section Convert.
Variable libm : Qc -> Qc -> option Qc.
(** the recursion limit of the interpreter *)
Variable limit : nat.
(** the factor of [conversion_factory(u0, u1)], whatever is in its cache *)
Context {F : Type}.
Variable factor : str -> str -> result F.
Variable one_factor : F.

(** the units of a quantity: the mapping from metric systems to units that
    [UNITS[quantity]] gives; a [KeyError] becomes a [ValueError] *)
Definition units_of (quantity : str) : result (system -> str) :=
  match (m <- property libm limit true Mks quantity ;; c <- property libm limit true Cgs quantity ;; Ok (m, c)) with
  | Ok (m, c) => Ok (fun y => match y with Mks => m | Cgs => c end)
  | Raise KeyError => Raise ValueError
  | Raise e => Raise e
  end.
(** 503-528 [_get_substitutions] *)
Definition get_substitutions (quantity : str) : result (system -> str) :=
  if str_eqb (lower quantity) (s "mass number") || str_eqb (lower quantity) (s "mass_number")
  then match units_of (s "mass") with Raise ValueError => Raise KeyError | r => r end
  else units_of quantity.
(** [substitutions.get(x) or x] *)
Definition substitute (subs : system -> str) (x : str) : str :=
  match named_system x with
  | Some y => match subs y with [] => x | v => v end
  | None => x
  end.
(** 411-463 [Converter]: the unit to convert from, and the substitutions *)
Record converter := mkconverter { c_unit : str; c_quantity : str; c_subs : system -> str }.
(** 465-500 [converter_factory], with its cache *)
Definition converters := list ((str * str) * converter).
Fixpoint find_converter (l : converters) (k : str * str) : option converter :=
  match l with
  | [] => None
  | (h, c) :: l' => if str_eqb (fst h) (fst k) && str_eqb (snd h) (snd k) then Some c else find_converter l' k
  end.
Definition converter_factory (k : converters) (unit quantity : str) : result converter * converters :=
  match find_converter k (unit, quantity) with
  | Some c => (Ok c, k)
  | None => match get_substitutions quantity with
            | Raise e => (Raise e, k)
            | Ok subs => let c := mkconverter (substitute subs unit) quantity subs in (Ok c, k ++ [((unit, quantity), c)])
            end
  end.
(** the result of a conversion: the two units and the factor *)
Record conversion := mkconversion { cv_from : str; cv_to : str; cv_factor : F }.
Definition conversion_of (u0 u1 : str) : result conversion := f <- factor u0 u1 ;; Ok (mkconversion u0 u1 f).
(** 427-452 [Converter.to] *)
Definition convert_to (c : converter) (target : str) : result conversion :=
  let unit := substitute (c_subs c) target in
  if str_eqb (c_unit c) unit then Ok (mkconversion (c_unit c) unit one_factor) else conversion_of (c_unit c) unit.

(** 555-574 [_is_ambiguous]; _defined.py 171-180 [EQUIVALENT]: the units of the
    table, as expressions.  Expressions are members of a set by their terms. *)
Fixpoint same_terms (a b : list operand) : bool :=
  match a, b with
  | [], [] => true
  | t :: a', u :: b' => str_eqb (base t) (base u) && qc_eqb (coef t) (coef u) && qc_eqb (expo t) (expo u) && same_terms a' b'
  | _, _ => false
  end.
Definition unit_expression (y : system) (e : str * (result str * result str)) : result (list operand) :=
  v <- (match y with Mks => fst (snd e) | Cgs => snd (snd e) end) ;; expression_of_str libm v.
Fixpoint targets (y : system) (u : list operand) (l : list (str * (result str * result str))) : result (list (list operand)) :=
  match l with
  | [] => Ok []
  | e :: l' =>
      x <- unit_expression (other_system y) e ;;
      r <- targets y u l' ;;
      if eeq x u then v <- unit_expression y e ;; Ok (if existsb (same_terms v) r then r else v :: r)
      else Ok r
  end.
Definition is_ambiguous (u : str) (y : system) : result bool :=
  e <- expression_of_str libm u ;; r <- targets y e CANONICAL_UNITS ;; Ok (Nat.ltb 1 (length r)).

(** 530-553 [convert] *)
Definition convert_unit (k : converters) (source target : str) (quantity : option str) : result conversion * converters :=
  let with_quantity (q : str) :=
    match converter_factory k source q with
    | (Ok c, k') => (convert_to c target, k')
    | (Raise e, k') => (Raise e, k')
    end in
  match named_system target with
  | None => (conversion_of source target, k)
  | Some y =>
      if str_eqb source (s "1") then (conversion_of source (s "1"), k)
      else match quantity with
           | Some q => with_quantity q
           | None =>
               match (a <- is_ambiguous source y ;;
                      if (a : bool) then Raise UnitConversionError
                      else e <- expression_of_str libm source ;; q <- get_quantity libm e ;; Ok (format_expression q)) with
               | Ok q => with_quantity q
               | Raise e => (Raise e, k)
               end
           end
  end.
(** __init__.py 97-185 [metric.conversion]: None instead of an error, if the
    caller asks for it *)
Definition metric_conversion (k : converters) (source target : str) (quantity : option str) (error : bool) : result (option conversion) * converters :=
  match convert_unit k source target quantity with
  | (Ok c, k') => (Ok (Some c), k')
  | (Raise e, k') => (if is_exn e "UnitConversionError" && negb error then Ok None else Raise e, k')
  end.
(** a history of requests *)
Fixpoint requests (k : converters) (l : list (str * str * option str)) : converters :=
  match l with
  | [] => k
  | (a, b, q) :: l' => requests (snd (convert_unit k a b q)) l'
  end.
End Convert.
Arguments converter : clear implicits.
