(** * The tables of metric/_reference.py

    Transcribed from the source text.  Non-Latin-1 characters: the Greek mu and
    the Greek capital omega are represented by two bytes that are neither ASCII
    letters nor digits.  Physical constants are formal generators (their
    numerical values play no role), so weights are exact. *)
From Verif Require Import PyBase SymbolicModel ContainerModel AliasedModel MetricModel.

Definition micro : ascii := ascii_of_nat 181.
Definition omega : ascii := ascii_of_nat 216.

(** ** Exact factors: products of rational powers of generators *)
Record mono := mkmono { e2 : Qc; e3 : Qc; e5 : Qc; e37 : Qc; ePI : Qc; eC : Qc; eRS : Qc; eQE : Qc; eAU : Qc; eMN : Qc }.
Definition mono_one : mono := mkmono 0 0 0 0 0 0 0 0 0 0.
Definition mono_mul (a b : mono) : mono :=
  mkmono (e2 a + e2 b) (e3 a + e3 b) (e5 a + e5 b) (e37 a + e37 b) (ePI a + ePI b) (eC a + eC b) (eRS a + eRS b) (eQE a + eQE b) (eAU a + eAU b) (eMN a + eMN b).
Definition mono_pw (a : mono) (p : Qc) : mono :=
  mkmono (e2 a * p) (e3 a * p) (e5 a * p) (e37 a * p) (ePI a * p) (eC a * p) (eRS a * p) (eQE a * p) (eAU a * p) (eMN a * p).
Definition mono_inv (a : mono) : mono := mono_pw a (- (1)).
Definition ten_ : mono := mkmono 1 0 1 0 0 0 0 0 0 0.
Definition monos : scales := mkscales mono mono_one mono_mul mono_inv mono_pw ten_.
(** 2^a 3^b 5^c 37^d PI^e C^f (C: the speed of light in cm/s) *)
Definition m6 (a b c d e f : Z) : mono := mkmono (zq a) (zq b) (zq c) (zq d) (zq e) (zq f) 0 0 0 0.
Definition tenpow (k : Z) : mono := m6 k 0 k 0 0 0.

(** _reference.py 16-39 [_PREFIXES]: symbol, name, decimal exponent of the factor;
    the null prefix has factor 0.0 ([None]) *)
Definition PREFIXES : list (str * str * option Z) := [
  (s "Y", s "yotta", Some (24)%Z);
  (s "Z", s "zetta", Some (21)%Z);
  (s "E", s "exa", Some (18)%Z);
  (s "P", s "peta", Some (15)%Z);
  (s "T", s "tera", Some (12)%Z);
  (s "G", s "giga", Some (9)%Z);
  (s "M", s "mega", Some (6)%Z);
  (s "k", s "kilo", Some (3)%Z);
  (s "h", s "hecto", Some (2)%Z);
  (s "da", s "deca", Some (1)%Z);
  ([], [], Some (0)%Z);
  (s " ", [], None);
  (s "d", s "deci", Some (-1)%Z);
  (s "c", s "centi", Some (-2)%Z);
  (s "m", s "milli", Some (-3)%Z);
  ([micro], s "micro", Some (-6)%Z);
  (s "n", s "nano", Some (-9)%Z);
  (s "p", s "pico", Some (-12)%Z);
  (s "f", s "femto", Some (-15)%Z);
  (s "a", s "atto", Some (-18)%Z);
  (s "z", s "zepto", Some (-21)%Z);
  (s "y", s "yocto", Some (-24)%Z)].
(** _reference.py 50-289 [_UNITS]: symbol, name, quantity *)
Definition UNITS : list (str * str * str) := [
  (s "m", s "meter", s "length");
  (s "au", s "astronomical unit", s "length");
  (s "Rs", s "solar radius", s "length");
  (s "g", s "gram", s "mass");
  (s "nuc", s "nucleon", s "mass number");
  (s "amu", s "atomic mass unit", s "mass number");
  (s "s", s "second", s "time");
  (s "min", s "minute", s "time");
  (s "h", s "hour", s "time");
  (s "d", s "day", s "time");
  (s "A", s "ampere", s "current");
  (s "K", s "kelvin", s "temperature");
  (s "mol", s "mole", s "amount");
  (s "#", s "count", s "number");
  (s "cd", s "candela", s "luminous intensity");
  (s "rad", s "radian", s "plane angle");
  (s "deg", s "degree", s "plane angle");
  (s "sr", s "steradian", s "solid angle");
  (s "Hz", s "hertz", s "frequency");
  (s "J", s "joule", s "energy");
  (s "erg", s "erg", s "energy");
  (s "eV", s "electronvolt", s "energy");
  (s "N", s "newton", s "force");
  (s "dyn", s "dyne", s "force");
  (s "Pa", s "pascal", s "pressure");
  (s "W", s "watt", s "power");
  (s "C", s "coulomb", s "charge");
  (s "statC", s "statcoulomb", s "charge");
  (s "statA", s "statampere", s "current");
  (s "statV", s "statvolt", s "potential");
  (s "e", s "fundamental charge", s "charge");
  (s "V", s "volt", s "potential");
  ([omega], s "ohm", s "resistance");
  (s "S", s "seimens", s "conductance");
  (s "F", s "farad", s "capacitance");
  (s "Wb", s "weber", s "magnetic flux");
  (s "Mx", s "maxwell", s "magnetic flux");
  (s "Oe", s "Oersted", s "magnetic intensity");
  (s "H", s "henry", s "inductance");
  (s "T", s "tesla", s "magnetic induction");
  (s "G", s "gauss", s "magnetic induction");
  (s "lm", s "lumen", s "luminous flux");
  (s "lx", s "lux", s "illuminance");
  (s "Bq", s "becquerel", s "radioactivity");
  (s "Ci", s "Curie", s "radioactivity");
  (s "Gy", s "gray", s "dosage");
  (s "P", s "poise", s "viscosity");
  (s "1", s "unitless", s "identity")].
(** _reference.py 292-334 [_build_named_units]: the items of [mapped], in order *)
Definition unit_items (u : str * str * str) : list (ukey * nunit) :=
  let '(sym, name, qty) := u in
  if str_eqb qty (s "identity") then [(KTup [sym; name], mknunit [] [] 0 sym name qty)]
  else flat_map (fun p => let '(psym, pname, pe) := p in
         match pe with
         | None => []
         | Some k =>
             if Z.eqb k 0 then [(KTup [sym; name], mknunit [] [] 0 sym name qty)]
             else [(KTup ([psym ++ sym; pname ++ name] ++ (if str_eqb psym [micro] then ["u"%char :: sym] else [])),
                    mknunit psym pname k sym name qty)]
         end) PREFIXES.
Definition named_items : list (ukey * nunit) := flat_map unit_items UNITS.
(** _reference.py 337 [NAMED_UNITS], an [aliased.Mapping]; the table is computed
    once, when this file is compiled, and [NAMED_is] says that it is the table
    the code builds *)
Definition NAMED : entries nunit := Eval vm_compute in build_from_aliases group_eqb named_items.
Lemma NAMED_is : NAMED = build_from_aliases group_eqb named_items.
Proof. vm_compute. reflexivity. Qed.
Definition unit_in (d : entries nunit) (x : str) : option nunit := match getitem d x with Ok n => Some n | Raise _ => None end.
Definition named_unit : str -> option nunit := unit_in NAMED.

(** _reference.py 366-752 [_QUANTITIES] *)
Inductive qdef := QDef (dim_mks dim_cgs unit_mks unit_cgs : str) | QText (x : str).
Definition QUANTITIES : list (str * qdef) := [
  (s "acceleration", QText (s "velocity / time"));
  (s "amount", QDef (s "N") (s "N") (s "mol") (s "mol"));
  (s "area", QText (s "length^2"));
  (s "capacitance", QDef (s "(T^2 * I)^2 / (M * L^2)") (s "L") (s "F") (s "cm"));
  (s "charge", QDef (s "I * T") (s "(M^1/2 * L^3/2) / T") (s "C") (s "statC"));
  (s "charge density", QText (s "charge / volume"));
  (s "conductance", QDef (s "(T^3 * I^2) / (M * L^2)") (s "L / T") (s "S") (s "cm / s"));
  (s "conductivity", QText (s "conductance / length"));
  (s "current", QDef (s "I") (s "(M^1/2 * L^3/2) / T^2") (s "A") (s "statA"));
  (s "current density", QText (s "current / area"));
  (s "displacement", QDef (s "I * T / L^2") (s "M^1/2 / (L^1/2 * T)") (s "C / m^2") (s "statC / m^2"));
  (s "dosage", QDef (s "L^2 / T^2") (s "L^2 / T^2") (s "Gy") (s "erg / g"));
  (s "electric charge", QText (s "charge"));
  (s "electric field", QText (s "potential / length"));
  (s "electromotance", QText (s "potential"));
  (s "energy", QDef (s "(M * L^2) / T^2") (s "(M * L^2) / T^2") (s "J") (s "erg"));
  (s "energy density", QText (s "energy / volume"));
  (s "fluence", QText (s "particle fluence"));
  (s "flux", QText (s "particle flux"));
  (s "force", QDef (s "(M * L) / T^2") (s "(M * L) / T^2") (s "N") (s "dyn"));
  (s "frequency", QDef (s "1 / T") (s "1 / T") (s "Hz") (s "Hz"));
  (s "identity", QDef (s "1") (s "1") (s "1") (s "1"));
  (s "illumunance", QDef (s "J / L^2") (s "J / L^2") (s "cd * sr / m^2") (s "cd * sr / cm^2"));
  (s "impedance", QDef (s "(M * L^2) / (T^3 * I)") (s "T / L") (s "ohm") (s "s / cm"));
  (s "inductance", QDef (s "(M * L^2) / (I * T)^2") (s "T^2 / L") (s "H") (s "s^2 / cm"));
  (s "induction", QText (s "magnetic induction"));
  (s "integral flux", QText (s "flux * energy"));
  (s "length", QDef (s "L") (s "L") (s "m") (s "cm"));
  (s "luminous flux", QDef (s "J") (s "J") (s "cd * sr") (s "cd * sr"));
  (s "luminous intensity", QDef (s "J") (s "J") (s "cd") (s "cd"));
  (s "magnetic field", QText (s "magnetic induction"));
  (s "magnetic flux", QDef (s "(M * L^2) / (T^2 * I)") (s "(M^1/2 * L^3/2) / T") (s "Wb") (s "Mx"));
  (s "magnetic induction", QDef (s "M / (T^2 * I)") (s "M^1/2 / (L^1/2 * T)") (s "T") (s "G"));
  (s "magnetic intensity", QDef (s "I / L") (s "M^1/2 / (L^1/2 * T)") (s "A / m") (s "Oe"));
  (s "magnetic moment", QDef (s "I * L^2") (s "(M^1/2 * L^5/2) / T") (s "A * m^2") (s "Oe * cm^3"));
  (s "magnetization", QText (s "magnetic intensity"));
  (s "magnetomotance", QText (s "current"));
  (s "mass", QDef (s "M") (s "M") (s "kg") (s "g"));
  (s "mass density", QText (s "mass / volume"));
  (s "mass number", QText (s "number"));
  (s "momentum", QDef (s "(M * L) / T") (s "(M * L) / T") (s "kg * m / s") (s "g * cm / s"));
  (s "momentum density", QText (s "momentum / volume"));
  (s "number", QText (s "identity"));
  (s "number density", QText (s "1 / volume"));
  (s "particle distribution", QText (s "1 / (length * velocity)^3"));
  (s "particle fluence", QText (s "number / (area * solid_angle * energy / mass_number)"));
  (s "particle flux", QText (s "fluence / time"));
  (s "permeability", QDef (s "(M * L) / (I * T)^2") (s "1") (s "H / m") (s "1"));
  (s "permittivity", QDef (s "T^4 * I / (M * L^3)") (s "1") (s "F / m") (s "1"));
  (s "plane angle", QDef (s "1") (s "1") (s "rad") (s "rad"));
  (s "polarization", QText (s "charge / area"));
  (s "potential", QDef (s "(M * L^2) / (T^3 * I)") (s "(M^1/2 * L^1/2) / T") (s "V") (s "statV"));
  (s "power", QDef (s "M * L^2 / T^3") (s "M * L^2 / T^3") (s "W") (s "erg / s"));
  (s "power density", QText (s "power / volume"));
  (s "pressure", QDef (s "M / (L * T^2)") (s "M / (L * T^2)") (s "Pa") (s "dyn / cm^2"));
  (s "radioactivity", QDef (s "1 / T") (s "1 / T") (s "Bq") (s "Ci"));
  (s "rate", QText (s "frequency"));
  (s "ratio", QText (s "identity"));
  (s "reluctance", QDef (s "(I * T)^2 / (M * L^2)") (s "1 / L") (s "A / Wb") (s "1 / cm"));
  (s "resistance", QText (s "impedance"));
  (s "resistivity", QText (s "resistance * length"));
  (s "temperature", QDef (s "H") (s "H") (s "K") (s "K"));
  (s "thermal conductivity", QText (s "power / (length * temperature)"));
  (s "time", QDef (s "T") (s "T") (s "s") (s "s"));
  (s "solid angle", QDef (s "1") (s "1") (s "sr") (s "sr"));
  (s "speed", QText (s "velocity"));
  (s "vector potential", QDef (s "(M * L) / (T^2 * I)") (s "(M^1/2 * L^1/2) / T") (s "Wb / m") (s "G * cm"));
  (s "velocity", QText (s "length / time"));
  (s "viscosity", QDef (s "M / (L * T)") (s "M / (L * T)") (s "kg / (m * s)") (s "P"));
  (s "volume", QText (s "length^3"));
  (s "vorticity", QText (s "frequency"));
  (s "wavenumber", QText (s "1 / length"));
  (s "work", QText (s "energy"))].
(** Python [str.replace] *)
Fixpoint starts_with (p x : str) : bool :=
  match p, x with
  | [], _ => true
  | c :: p', d :: x' => Ascii.eqb c d && starts_with p' x'
  | _, _ => false
  end.
Fixpoint replace_from (fuel : nat) (old new x : str) : str :=
  match fuel with
  | O => x
  | Datatypes.S f =>
      match x with
      | [] => []
      | c :: x' => if starts_with old x then new ++ replace_from f old new (skipn (length old) x)
                   else c :: replace_from f old new x'
      end
  end.
Definition replace (old new x : str) : str := replace_from (length x) old new x.
Definition blanks_to_underscores : str -> str := map (fun c => if Ascii.eqb c " " then "_"%char else c).
Definition underscores_to_blanks : str -> str := map (fun c => if Ascii.eqb c "_" then " "%char else c).

(** _defined.py 66-121 [_Property.__getitem__], [_get_property], [_parse],
    [_expand], for one key ('units' or 'dimensions') and system.  Operands are
    combined as exact products ([OperandFactory.create] prints and re-parses
    them).  The recursion has no bound in the source. *)
Fixpoint property (libm : Qc -> Qc -> option Qc) (fuel : nat) (key : bool) (y : system) (q : str) : result str :=
  match fuel with
  | O => Raise RecursionError
  | Datatypes.S f =>
      let parse (x : str) : result str :=
        let x := fold_left (fun x k => replace k (blanks_to_underscores k) x) (map fst QUANTITIES) x in
        e <- expression_of_str libm x ;;
        parts <- mapM (fun t => v <- property libm f key y (underscores_to_blanks (base t)) ;;
                                e <- expression_of_str libm v ;;
                                mapM (fun o => op_pow libm o (expo t)) e) e ;;
        r <- SymbolicModel.reduce (concat parts) ;; r <- expression_of_terms libm r ;;
        Ok (format_expression r) in
      match assoc QUANTITIES q with
      | None => parse q
      | Some (QText x) => parse x
      | Some (QDef dm dc um uc) =>
          Ok (match key, y with true, Mks => um | true, Cgs => uc | false, Mks => dm | false, Cgs => dc end)
      end
  end.
Definition no_libm : Qc -> Qc -> option Qc := fun _ _ => None.
(** _defined.py 146-155 [CANONICAL]: keyed by the quantities of [_QUANTITIES] *)
Definition canonical_table (key : bool) : list (str * (result str * result str)) :=
  map (fun e => (fst e, (property no_libm 8 key Mks (fst e), property no_libm 8 key Cgs (fst e)))) QUANTITIES.
Definition CANONICAL_UNITS : list (str * (result str * result str)) := Eval vm_compute in canonical_table true.
Definition CANONICAL_DIMS : list (str * (result str * result str)) := Eval vm_compute in canonical_table false.
Definition in_table (t : list (str * (result str * result str))) (q : str) (y : system) : option str :=
  match assoc t q with
  | Some (m, c) => match (match y with Mks => m | Cgs => c end) with Ok v => Some v | Raise _ => None end
  | None => None
  end.
Definition quantity_unit : str -> system -> option str := in_table CANONICAL_UNITS.
Definition quantity_dim : str -> system -> option str := in_table CANONICAL_DIMS.

(** _reference.py 755-806 [_CONVERSIONS] *)
Definition CONVERSIONS_BASE : list ((str * str) * mono) := [
  ((s "Rs", s "m"), mkmono 0 0 0 0 0 0 1 0 0 0) (* 6.96e8 *);
  ((s "F", s "cm"), m6 (-9) 0 (-9) 0 0 2) (* C××2 × 1e-9 *);
  ((s "C", s "statC"), m6 1 0 1 0 0 1) (* 10×C *);
  ((s "e", s "C"), mkmono 0 0 0 0 0 0 0 1 0 0) (* 1.6022e-19 *);
  ((s "S", s "cm / s"), m6 (-5) 0 (-5) 0 0 2) (* C××2 × 1e-5 *);
  ((s "A", s "statA"), m6 1 0 1 0 0 1) (* 10×C *);
  ((s "Gy", s "erg / g"), tenpow 4) (* 1e4 *);
  ((s "J", s "erg"), tenpow 7) (* 1e7 *);
  ((s "eV", s "J"), mkmono 0 0 0 0 0 0 0 1 0 0) (* 1.6022e-19 *);
  ((s "N", s "dyn"), tenpow 5) (* 1e5 *);
  ((s "ohm", s "s / cm"), m6 5 0 5 0 0 (-2)) (* 1e5 / C××2 *);
  ((s "H", s "s^2 / cm"), m6 5 0 5 0 0 (-2)) (* 1e5 / C××2 *);
  ((s "au", s "m"), mkmono 0 0 0 0 0 0 0 0 1 0) (* 1.495978707e11 *);
  ((s "Wb", s "Mx"), tenpow 8) (* 1e8 *);
  ((s "T", s "G"), tenpow 4) (* 1e4 *);
  ((s "A / m", s "Oe"), m6 (-1) 0 (-3) 0 1 0) (* 4×PI × 1e-3 *);
  ((s "nuc", s "kg"), mkmono 0 0 0 0 0 0 0 0 0 1) (* 1.6605e-27 *);
  ((s "amu", s "kg"), mkmono 0 0 0 0 0 0 0 0 0 1) (* 1.6605e-27 *);
  ((s "H / m", s "1"), m6 5 0 7 0 1 0) (* 1e7 / 4×PI *);
  ((s "F / m", s "1"), m6 11 2 9 0 1 0) (* 36×PI × 1e9 *);
  ((s "rad", s "deg"), m6 2 2 1 0 (-1) 0) (* 180 / PI *);
  ((s "V", s "statV"), m6 6 0 6 0 0 (-1)) (* 1e6 / C *);
  ((s "W", s "erg / s"), tenpow 7) (* 1e7 *);
  ((s "Pa", s "dyn / cm^2"), tenpow 1) (* 1e1 *);
  ((s "Bq", s "Ci"), m6 (-9) 0 (-9) (-1) 0 0) (* 1.0 / 3.7e10 *);
  ((s "A / Wb", s "1 / cm"), m6 (-7) 0 (-9) 0 1 0) (* 4×PI × 1e-9 *);
  ((s "s", s "min"), m6 (-2) (-1) (-1) 0 0 0) (* 1.0 / 60.0 *);
  ((s "s", s "h"), m6 (-4) (-2) (-2) 0 0 0) (* 1.0 / 3600.0 *);
  ((s "s", s "d"), m6 (-7) (-3) (-2) 0 0 0) (* 1.0 / 86400.0 *);
  ((s "Wb / m", s "G * cm"), tenpow 6) (* 1e6 *);
  ((s "kg / (m * s)", s "P"), tenpow 1) (* 1e1 *)].
(** container.py 352-428 [Graph.__init__], [add_connection] *)
Definition add_link (c : list ((str * str) * mono)) (e : (str * str) * mono) : list ((str * str) * mono) :=
  match conv_get monos c (fst e) with Some _ => c | None => c ++ [e] end.
Definition CONVERSIONS : list ((str * str) * mono) :=
  fold_left (fun c e => add_link (add_link c e) ((snd (fst e), fst (fst e)), mono_inv (snd e))) CONVERSIONS_BASE [].
Definition NODES : list str := unique_items str_eqb (conv_nodes monos CONVERSIONS).

(** ** The conversion code with the actual tables *)
Definition strings_factor (order : list str) : str -> str -> result (option mono) :=
  convert_as_strings monos named_unit CONVERSIONS order.
Definition unit_factor (libm : Qc -> Qc -> option Qc) (order : list str) (ys : list system) : str -> str -> result mono :=
  convert libm monos named_unit CONVERSIONS order ys quantity_unit quantity_dim.
