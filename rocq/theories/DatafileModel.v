(** * Model of the interface to datafiles (datafile/_core.py, _reference.py,
    _viewers.py, _interfaces.py)

    Paths are relative to /repo/src/eprempy.  A NetCDF file is the list of its
    variables and the list of its dimensions, by name.  A variable has data, the
    names of its dimensions, a type (integer or not) and, if given, attributes
    [unit] and [units].  Numbers are exact.  Masked values, types other than
    numbers and reading parts of a file are not modelled: data are always read
    completely. *)
From Verif Require Import PyBase SymbolicModel ContainerModel Nd ArrayModel PhysicalModel PhysFuncModel EpremModel AtomicModel MetricModel MetricTables UnitModel UnitOpsModel NormalizeModel SystemsModel ConvertModel StandardModel.

Record variable := mkvar { v_data : nd Qc; v_dims : list str; v_unit : option str; v_units : option str; v_int : bool }.
Record datafile := mkfile { f_variables : list (str * variable); f_dimensions : list (str * nat) }.

(** ** datafile/_reference.py 6-50 *)
Definition ARRAYS : list str := map s ["phiOffset"; "time"; "shell"; "mu"; "mass"; "charge"; "egrid"; "vgrid"; "R"; "T"; "P";
  "Br"; "Bt"; "Bp"; "Vr"; "Vt"; "Vp"; "Rho"; "Dist"; "flux"]%string.
Definition SCALARS : list str := [s "preEruption"].
Definition AXES : list str := map s ["time"; "shell"; "species"; "energy"; "mu"]%string.

(** ** datafile/_viewers.py 65-127 [NetCDFViewer] *)
(** _core.py 30-61 [Array], 64-84 [Scalar], 87-96 [Axis] *)
Record farray := mkfarray { fa_data : nd Qc; fa_unit : option str; fa_dims : list str }.
Record fscalar := mkfscalar { fs_value : Qc; fs_unit : option str }.
(** 103-113 [_get_variable] *)
Definition get_variable (f : datafile) (name : str) : result variable := lookup str_eqb (f_variables f) name.
(** 119-125 [_get_unit_from_data] *)
Definition unit_attribute (v : variable) : option str := match v_unit v with Some u => Some u | None => v_units v end.
(** 99-101 [get_unit] *)
Definition get_unit (f : datafile) (name : str) : result (option str) :=
  v <- get_variable f name ;; Ok (unit_attribute v).
(** 70-74 [get_array] *)
Definition get_array (f : datafile) (name : str) : result farray :=
  v <- get_variable f name ;; u <- get_unit f name ;; Ok (mkfarray (v_data v) u (v_dims v)).
(** 76-88 [get_scalar]: data with a (non-empty) shape are refused; integers by
    [int], other numbers by [float] *)
Definition get_scalar (f : datafile) (name : str) : result fscalar :=
  v <- get_variable f name ;;
  match shape (v_data v) with
  | _ :: _ => Raise TypeError
  | [] => let x := elem (v_data v) [] in
          u <- get_unit f name ;; Ok (mkfscalar (if v_int v then zq (py_int x) else x) u)
  end.
(** 90-98 [get_axis] *)
Definition get_axis (f : datafile) (name : str) : result nat := lookup str_eqb (f_dimensions f) name.

(** ** 192-247 [View] *)
Definition view_arrays (f : datafile) : result (list (str * farray)) := view_map (get_array f) ARRAYS.
Definition view_scalars (f : datafile) : result (list (str * fscalar)) := view_map (get_scalar f) SCALARS.
Definition view_axes (f : datafile) : result (list (str * nat)) := view_map (get_axis f) AXES.
(** 218-222 [sizes] *)
Definition view_sizes (f : datafile) : result (list (str * nat)) := view_axes f.
(** 192-198 [units]: members without a value are left out (247) *)
Fixpoint with_value {A} (l : list (str * option A)) : list (str * A) :=
  match l with
  | [] => []
  | (k, Some v) :: l' => (k, v) :: with_value l'
  | (_, None) :: l' => with_value l'
  end.
Definition view_units (f : datafile) : result (list (str * str)) :=
  l <- view_map (get_unit f) (ARRAYS ++ SCALARS) ;; Ok (with_value l).

(** 129-142 [HINTS], [VIEWERS] and 249-258 [View.viewer]: by the suffix of the
    file name, else by the hint; calling [None] is a TypeError. *)
Inductive viewer := NetCDF.
Definition VIEWERS (x : str) : option viewer :=
  if existsb (str_eqb x) (map s [".nc"; "netcdf"; "NetCDF"; "NETCDF"]%string) then Some NetCDF else None.
Definition choose_viewer (name : str) (hint : option str) : result viewer :=
  match VIEWERS (suffix name) with
  | Some v => Ok v
  | None => match hint with
            | Some h => match VIEWERS h with Some v => Ok v | None => Raise TypeError end
            | None => Raise TypeError
            end
  end.

(** ** _interfaces.py *)
(** the texts of the units of mass and charge of the metric system: both
    interfaces take both, so neither can use the other's unnoticed *)
Record unit_texts := mkunittexts { mass_text : str; charge_text : str }.
Section Interfaces.
(** metric.unit of a text, the equality of units, and metric.conversion of a
    unit to a target (the name of a metric system or the text of a unit): the
    old unit, the new unit and the factor *)
Context {U : Type}.
Variables (ueq : U -> U -> bool) (munit : str -> result U) (conversion : U -> str -> result (U * U * Qc)).
(** the name of the metric system, and the texts of its units of mass and charge *)
Variables (system : str) (texts : unit_texts).

(** physical/_axis.py: the axes of a datafile.  Coordinates have data of any
    shape. *)
Inductive faxis := FCoords (d : nd Qc) (u : U) | FPoints (l : list Z) | FSymbols (l : list str).
Notation arr := (parr (U := U) (B := faxis)).
Notation obj := (pobj (U := U)).
Notation val := (pval (U := U) (B := faxis)).

(** measured/_context.py 71-105 [context_factory], [context_args]: no unit and an
    empty text mean '1'; TypeErrors and ValueErrors become TypeErrors *)
Definition context_unit (text : str) : result U :=
  match munit (match text with [] => s "1" | _ => text end) with
  | Ok u => Ok u
  | Raise ValueError => Raise TypeError
  | Raise e => Raise e
  end.
(** measured/_context.py 31-62 [Context.convert], measured/_convert.py 28-33 and
    physical/_array.py 149-167: unchanged if the units are equal.  (When the
    conversion fails, the error may be replaced by another one: not modelled.) *)
Definition tensor_to (x : obj) (target : str) : result obj :=
  c <- conversion (ounit x) target ;;
  let '(old, new, w) := c in
  if ueq old new then Ok x else build (okind x) (nd_map (Qcmult w) (odata x)) new.
Definition array_to (x : arr) (target : str) : result arr :=
  c <- conversion (aunit x) target ;;
  let '(old, new, w) := c in
  if ueq old new then Ok x
  else y <- parray_factory (data (face x)) new (paxes x) ;; Ok (mkparr (face y) w (aunit y) (paxes y)).

Variable f : datafile.

(** 127-141 [Axes._create] *)
Definition axes_create (name : str) (unit : option str) : result obj :=
  arrays <- view_arrays f ;;
  base <- lookup str_eqb arrays name ;;
  text <- standardize (fa_unit base) ;;
  u <- context_unit text ;;
  x <- build KTensor (fa_data base) u ;;
  tensor_to x (match unit with Some t => t | None => system end).

(** physical/_axis_factories.py 67-85 [coordinates_factory],
    measured/_factories.py 52-65: the data and the unit of the object *)
Definition coordinates (v : val) : result faxis :=
  match v with
  | PObj o => Ok (FCoords (odata o) (ounit o))
  | _ => Raise TypeError
  end.
(** physical/_axis_factories.py 15-38 [points_factory]: [int] of each number;
    negative ones are refused.  Data with two axes make the test for negative
    numbers fail. *)
Definition points (d : nd Qc) : result faxis :=
  if Nat.ltb 1 (ndim d) then Raise ValueError
  else let l := map py_int (flat d) in
       if existsb (fun z => (z <? 0)%Z) l then Raise TypeError else Ok (FPoints l).
(** the numbers of one-dimensional data; numpy cannot round a row *)
Definition numbers (o : obj) : result (list Qc) :=
  if Nat.eqb (ndim (odata o)) 1 then Ok (flat (odata o)) else Raise TypeError.
(** 96-102 [species] (also 216-221 with the arrays' [_create], where the axes play no role) *)
Definition species_symbols : result (list str) :=
  mass <- axes_create (s "mass") (Some (s "nuc")) ;;
  charge <- axes_create (s "charge") (Some (s "e")) ;;
  m <- numbers mass ;; c <- numbers charge ;; elements m c.
(** 79-125: the axes.  [__getitem__] (60-68) uses any attribute of the interface
    of that name; attributes other than the axes are not modelled (KeyError
    here). *)
Definition axis_of (name : str) : result faxis :=
  if str_eqb name (s "time") then x <- axes_create (s "time") None ;; coordinates (PObj x)
  else if str_eqb name (s "shell") then
    arrays <- view_arrays f ;; base <- lookup str_eqb arrays (s "shell") ;; points (fa_data base)
  else if str_eqb name (s "species") then l <- species_symbols ;; Ok (FSymbols l)
  else if str_eqb name (s "energy") then
    x <- axes_create (s "egrid") None ;; y <- psqueeze (PObj x) ;; coordinates y
  else if str_eqb name (s "mu") then x <- axes_create (s "mu") None ;; coordinates (PObj x)
  else Raise KeyError.
(** 70-76 [__len__], [__iter__] *)
Definition axes_names : list str := AXES.
(** physical/_axis.py [__len__]: [len(self.data)] *)
Definition faxis_len (x : faxis) : result nat :=
  match x with
  | FCoords d _ => match shape d with n :: _ => Ok n | [] => Raise TypeError end
  | FPoints l => Ok (length l)
  | FSymbols l => Ok (length l)
  end.

(** 345-361 [Arrays._create]; the mapping of axes is a dict *)
Definition arrays_create (name : str) (unit : option str) : result arr :=
  arrays <- view_arrays f ;;
  base <- lookup str_eqb arrays name ;;
  axes <- mapM (fun d => a <- axis_of d ;; Ok (d, a)) (fa_dims base) ;;
  text <- standardize (fa_unit base) ;;
  u <- context_unit text ;;
  x <- parray_factory (fa_data base) u (dict_of str_eqb axes) ;;
  array_to x (match unit with Some t => t | None => system end).

(** 363-398 [hasdist], [hasflux] *)
Definition hasdist : result bool := arrays <- view_arrays f ;; Ok (is_ok (lookup str_eqb arrays (s "Dist"))).
Definition hasflux : result bool := arrays <- view_arrays f ;; Ok (is_ok (lookup str_eqb arrays (s "flux"))).

(** 205-343: the array properties, by name.  The distribution and the flux may
    be missing ([None]). *)
Definition whole_arrays : list (str * str) := map (fun ab => (s (fst ab), s (snd ab))) [
  ("time", "time") (* 205-210 *); ("mu", "mu") (* 237-242 *); ("r", "R") (* 261-266 *); ("theta", "T") (* 268-273 *); ("phi", "P") (* 275-280 *);
  ("br", "Br") (* 282-287 *); ("btheta", "Bt") (* 289-294 *); ("bphi", "Bp") (* 296-301 *);
  ("ur", "Vr") (* 303-308 *); ("utheta", "Vt") (* 310-315 *); ("uphi", "Vp") (* 317-322 *); ("rho", "Rho") (* 324-329 *)]%string.
Definition whole_array (p : str) : result arr :=
  name <- lookup str_eqb whole_arrays p ;; arrays_create name None.
(** 223-235 [energy], [v] *)
Definition squeezed_array (name : str) : result val := x <- arrays_create name None ;; psqueeze (PArr x).
Definition arr_energy : result val := squeezed_array (s "egrid").
Definition arr_v : result val := squeezed_array (s "vgrid").
(** 244-259 [mass], [charge] *)
Definition arr_mass : result arr := arrays_create (s "mass") (Some (mass_text texts)).
Definition arr_charge : result arr := arrays_create (s "charge") (Some (charge_text texts)).
(** 331-343 [f], [flux] *)
Definition arr_f : result (option arr) :=
  h <- hasflux ;; if (h : bool) then Ok None else x <- arrays_create (s "Dist") None ;; Ok (Some x).
Definition arr_flux : result (option arr) :=
  h <- hasflux ;; if (h : bool) then x <- arrays_create (s "flux") None ;; Ok (Some x) else Ok None.
(** 211-215 [shell]: the data of the file variable *)
Definition arr_shell : result (nd Qc) :=
  arrays <- view_arrays f ;; base <- lookup str_eqb arrays (s "shell") ;; Ok (fa_data base).
(** 418-461 [Grid] *)
Definition grid_r : result arr := whole_array (s "r").
Definition grid_theta : result arr := whole_array (s "theta").
Definition grid_phi : result arr := whole_array (s "phi").
End Interfaces.

(** ** The actual metric package *)
Section Metric.
Variable libm : Qc -> Qc -> option Qc.
(** the recursion limit of the interpreter *)
Variable limit : nat.
(** the number that a factor stands for *)
Variable value : mono -> Qc.
(** the conversions asked for before *)
Variable history : list (str * str * option str).
(** metric/_units.py [unit_factory] of a text *)
Definition metric_unit (x : str) : result (list operand) := arg_terms libm named_unit (UStr x).
(** metric/__init__.py 79-185 [conversion] of a unit object, with the units
    [old] and [new] of the result *)
Definition unit_conversion (u : list operand) (target : str) : result (list operand * list operand * Qc) :=
  c <- fst (convert_unit libm limit (unit_factor libm NODES [Mks; Cgs]) mono_one
              (requests libm limit (unit_factor libm NODES [Mks; Cgs]) mono_one [] history) (format_expression u) target None) ;;
  a <- metric_unit (cv_from c) ;; b <- metric_unit (cv_to c) ;; Ok (a, b, value (cv_factor c)).
(** metric/_units.py 138-167 [Unit.__eq__] *)
Definition unit_equal (a b : list operand) : bool := eeq a b.
End Metric.
