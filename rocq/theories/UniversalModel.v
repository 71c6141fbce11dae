(** * Model of the universal physical constants (universal.py 16-293)

    Paths are relative to /repo/src/eprempy.  Numbers are the decimal numbers that
    the source writes, and exact products of them; numpy.pi is the double that
    stands for it.  [CONSTANTS] is an aliased mapping whose keys are single names,
    that is, a dictionary (AliasedModel.v).  The messages of errors, the text of a
    constant and [show] are not modelled. *)
From Verif Require Import PyBase SymbolicModel ContainerModel MetricModel MetricTables UnitModel SystemsModel DatafileModel.

(** a number written with a mantissa and an exponent of ten *)
Definition sci (m e : Z) : Qc := zq m * qpowz (zq 10) e.
(** numpy.pi *)
Definition numpy_pi : Qc := Q2Qc (884279719003555 # 281474976710656).
(** what a definition has under a key: a text, a number, or a unit and a value *)
Inductive field := FText (x : str) | FNumber (q : Qc) | FEntry (unit : str) (value : Qc).
Definition definition := list (str * field).
Definition entry (info : string) (mks : string * Qc) (cgs : string * Qc) (quantity : string) : definition :=
  [(s "info", FText (s info)); (s "mks", FEntry (s (fst mks)) (snd mks)); (s "cgs", FEntry (s (fst cgs)) (snd cgs)); (s "quantity", FText (s quantity))].
(** 16-142 [_constants] *)
Definition basic_constants : list (str * definition) := [
  (s "pi", [(s "info", FText (s "The ratio of a circle's circumference to its diameter.")); (s "all", FNumber numpy_pi); (s "quantity", FText (s "number"))]);
  (s "k", entry "Boltzmann's constant." ("J / K", sci 13807 (-27)) ("erg / K", sci 13807 (-20)) "energy / temperature");
  (s "e", entry "Elementary charge." ("C", sci 16022 (-23)) ("statC", sci 48032 (-14)) "charge");
  (s "me", entry "Electron mass." ("kg", sci 91094 (-35)) ("g", sci 91094 (-32)) "mass");
  (s "mp", entry "Proton mass." ("kg", sci 16726 (-31)) ("g", sci 16726 (-28)) "mass");
  (s "G", entry "Gravitational constant." ("m^3 / (s^2 * kg)", sci 66726 (-15)) ("dyn * cm^2 / g^2", sci 66726 (-12)) "force * area / mass^2");
  (s "g", entry "Gravitational acceleration." ("m / s^2", sci 98067 (-4)) ("cm / s^2", sci 98067 (-2)) "acceleration");
  (s "h", entry "Planck's constant." ("J * s", sci 66261 (-38)) ("erg * s", sci 66261 (-31)) "energy * time");
  (s "c", entry "Speed of light in a vacuum." ("m / s", sci 299792458 0) ("cm / s", sci 299792458 2) "speed");
  (s "epsilon0", entry "Permittivity of free space." ("F / m", sci 88542 (-16)) ("1", sci 1 0) "permittivity");
  (s "mu0", entry "Permeability of free space." ("H / m", (zq 4 * numpy_pi * sci 1 (-7))%Qc) ("1", sci 1 0) "permeability");
  (s "Rinfinity", entry "Rydberg constant." ("1 / m", sci 10974 3) ("1 / cm", sci 10974 1) "1 / length");
  (s "a0", entry "Bohr radius." ("m", sci 52918 (-15)) ("cm", sci 52918 (-13)) "length");
  (s "re", entry "Classical electron radius." ("m", sci 28179 (-19)) ("cm", sci 28179 (-17)) "length");
  (s "alpha", entry "Fine structure constant." ("1", sci 72974 (-7)) ("1", sci 72974 (-7)) "number");
  (s "c1", entry "First radiation constant." ("W * m^2", sci 37418 (-20)) ("erg * cm^2 / s", sci 37418 (-20)) "power * area");
  (s "c2", entry "Second radiation constant." ("m * K", sci 14388 (-6)) ("cm * K", sci 14388 (-4)) "length * temperature");
  (s "sigma", entry "Stefan-Boltzmann constant." ("W / (m^2 * K^4)", sci 56705 (-12)) ("(erg / s) / (cm^2 * K^4)", sci 56705 (-9)) "power / (area * temperature^4)");
  (s "eV", entry "Energy associated with 1 eV." ("J", sci 16022 (-23)) ("erg", sci 16022 (-16)) "energy");
  (s "amu", entry "Atomic mass unit." ("kg", sci 16605 (-31)) ("g", sci 16605 (-28)) "mass");
  (s "au", entry "Astronomical unit." ("m", sci 1495978707 2) ("cm", sci 1495978707 4) "length")]%string.
(** 143-166: [_constants['eV'][k]['unit']] and [x * _constants['eV'][k]['value']] *)
Definition multiple_of_eV (x : Qc) (k : string) : str * field :=
  match lookup str_eqb basic_constants (s "eV") with
  | Ok d => match lookup str_eqb d (s k) with Ok (FEntry u v) => (s k, FEntry u (x * v)) | _ => (s k, FText []) end
  | Raise _ => (s k, FText [])
  end.
Definition derived (info : string) (x : Qc) : definition :=
  [(s "info", FText (s info)); multiple_of_eV x "mks"; multiple_of_eV x "cgs"; (s "quantity", FText (s "energy"))].
Definition defined_constants : list (str * definition) :=
  basic_constants ++ [(s "H+", derived "First ionization energy of hydrogen." (sci 136 (-1))); (s "MeV", derived "Energy associated with 1 MeV." (sci 1 6))].
(** 169-182 [_normalize] *)
Definition normalize_definition (d : definition) : definition :=
  match lookup str_eqb d (s "all") with
  | Ok (FNumber q) => fold_left (fun d k => dict_put str_eqb d k (FEntry (s "1") q)) [s "mks"; s "cgs"] (filter (fun kv => negb (str_eqb (fst kv) (s "all"))) d)
  | _ => d
  end.
(** 186 [CONSTANTS] *)
Definition CONSTANTS : list (str * definition) := map (fun kd => (fst kd, normalize_definition (snd kd))) defined_constants.

Section Universal.
Variable libm : Qc -> Qc -> option Qc.
(** 189-240 [Constant] *)
Record constant := mkconstant { c_value : Qc; c_unit : list operand; c_quantity : str; c_info : str }.
(** 268-277 [Constants._create]: a text has no item 'value' *)
Definition create_constant (system : str) (d : definition) : result constant :=
  e <- lookup str_eqb d system ;;
  match e with
  | FEntry u v =>
      q <- lookup str_eqb d (s "quantity") ;; i <- lookup str_eqb d (s "info") ;;
      x <- metric_unit libm u ;;
      match q, i with FText q, FText i => Ok (mkconstant v x q i) | _, _ => Raise TypeError end
  | _ => Raise TypeError
  end.
(** 243-266 [Constants], with the name of a metric system *)
Definition constants_getitem (system name : str) : result constant :=
  match lookup str_eqb CONSTANTS name with
  | Ok d => create_constant (lower system) d
  | Raise _ => Raise KeyError
  end.
Definition constants_iter (system : str) : list str := map fst CONSTANTS.
Definition constants_len (system : str) : nat := length CONSTANTS.
End Universal.
