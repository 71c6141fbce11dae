(** * Model of atomic elements and ion species (atomic.py)

    Masses are exact decimals, charges rationals.  Not modelled: unit objects
    (the mass is in nucleons, the charge in e), printing, arrays that are not
    numeric. *)
From Verif Require Import PyBase ContainerModel ParameterModel.
Local Open Scope Qc_scope.

Inductive avalue := AStr (x : str) | ANum (q : Qc).
Definition avalue_eqb (a b : avalue) : bool :=
  match a, b with AStr x, AStr y => str_eqb x y | ANum p, ANum q => qc_eqb p q | _, _ => false end.
Record element := { e_symbol : str; e_name : str; e_mass : Qc }.
Definition el (symbol name : string) (mass : Qc) : element := {| e_symbol := s symbol; e_name := s name; e_mass := mass |}.
(** 21-131 [_elements] *)
Definition elements_table : list element := [
  el "H" "Hydrogen" (mkq 100797 100000);
  el "He" "Helium" (mkq 400260 100000);
  el "Li" "Lithium" (mkq 6941 1000);
  el "Be" "Beryllium" (mkq 901218 100000);
  el "B" "Boron" (mkq 1081 100);
  el "C" "Carbon" (mkq 12011 1000);
  el "N" "Nitrogen" (mkq 140067 10000);
  el "O" "Oxygen" (mkq 159994 10000);
  el "F" "Fluorine" (mkq 18998403 1000000);
  el "Ne" "Neon" (mkq 20179 1000);
  el "Na" "Sodium" (mkq 2298977 100000);
  el "Mg" "Magnesium" (mkq 24305 1000);
  el "Al" "Aluminum" (mkq 2698154 100000);
  el "Si" "Silicon" (mkq 280855 10000);
  el "P" "Phosphorus" (mkq 3097376 100000);
  el "S" "Sulfur" (mkq 3206 100);
  el "Cl" "Chlorine" (mkq 35453 1000);
  el "K" "Potassium" (mkq 390983 10000);
  el "Ar" "Argon" (mkq 39948 1000);
  el "Ca" "Calcium" (mkq 4008 100);
  el "Sc" "Scandium" (mkq 449559 10000);
  el "Ti" "Titanium" (mkq 4790 100);
  el "V" "Vanadium" (mkq 509415 10000);
  el "Cr" "Chromium" (mkq 51996 1000);
  el "Mn" "Manganese" (mkq 549380 10000);
  el "Fe" "Iron" (mkq 55847 1000);
  el "Ni" "Nickel" (mkq 5870 100);
  el "Co" "Cobalt" (mkq 589332 10000);
  el "Cu" "Copper" (mkq 63546 1000);
  el "Zn" "Zinc" (mkq 6538 100);
  el "Ga" "Gallium" (mkq 6972 100);
  el "Ge" "Germanium" (mkq 7259 100);
  el "As" "Arsenic" (mkq 749216 10000);
  el "Se" "Selenium" (mkq 7896 100);
  el "Br" "Bromine" (mkq 79904 1000);
  el "Kr" "Krypton" (mkq 8380 100);
  el "Rb" "Rubidium" (mkq 854678 10000);
  el "Sr" "Strontium" (mkq 8762 100);
  el "Y" "Yttrium" (mkq 889059 10000);
  el "Zr" "Zirconium" (mkq 9122 100);
  el "Nb" "Niobium" (mkq 929064 10000);
  el "Mo" "Molybdenum" (mkq 9594 100);
  el "Tc" "Technetium" (zq 98);
  el "Ru" "Ruthenium" (mkq 10107 100);
  el "Rh" "Rhodium" (mkq 1029055 10000);
  el "Pd" "Palladium" (mkq 1064 10);
  el "Ag" "Silver" (mkq 107868 1000);
  el "Cd" "Cadmium" (mkq 11241 100);
  el "In" "Indium" (mkq 11482 100);
  el "Sn" "Tin" (mkq 11869 100);
  el "Sb" "Antimony" (mkq 12175 100);
  el "I" "Iodine" (mkq 1269045 10000);
  el "Te" "Tellurium" (mkq 12760 100);
  el "Xe" "Xenon" (mkq 13130 100);
  el "Cs" "Cesium" (mkq 1329054 10000);
  el "Ba" "Barium" (mkq 13733 100);
  el "La" "Lanthanum" (mkq 1389055 10000);
  el "Ce" "Cerium" (mkq 14012 100);
  el "Pr" "Praseodymium" (mkq 1409077 10000);
  el "Nd" "Neodymium" (mkq 14424 100);
  el "Pm" "Promethium" (zq 145);
  el "Sm" "Samarium" (mkq 1504 10);
  el "Eu" "Europium" (mkq 15196 100);
  el "Gd" "Gadolinium" (mkq 15725 100);
  el "Tb" "Terbium" (mkq 1589254 10000);
  el "Dy" "Dysprosium" (mkq 16250 100);
  el "Ho" "Holmium" (mkq 1649304 10000);
  el "Er" "Erbium" (mkq 16726 100);
  el "Tm" "Thulium" (mkq 1689342 10000);
  el "Yb" "Ytterbium" (mkq 17304 100);
  el "Lu" "Lutetium" (mkq 174967 1000);
  el "Hf" "Hafnium" (mkq 17849 100);
  el "Ta" "Tantalum" (mkq 1809479 10000);
  el "W" "Tungsten" (mkq 18385 100);
  el "Re" "Rhenium" (mkq 186207 1000);
  el "Os" "Osmium" (mkq 1902 10);
  el "Ir" "Iridium" (mkq 19222 100);
  el "Pt" "Platinum" (mkq 19509 100);
  el "Au" "Gold" (mkq 1969665 10000);
  el "Hg" "Mercury" (mkq 20059 100);
  el "Tl" "Thallium" (mkq 20437 100);
  el "Pb" "Lead" (mkq 2072 10);
  el "Bi" "Bismuth" (mkq 2089804 10000);
  el "Po" "Polonium" (zq 209);
  el "At" "Astatine" (zq 210);
  el "Rn" "Radon" (zq 222);
  el "Fr" "Francium" (zq 223);
  el "Ra" "Radium" (mkq 2260254 10000);
  el "Ac" "Actinium" (mkq 2270278 10000);
  el "Pa" "Protactinium" (mkq 2310359 10000);
  el "Th" "Thorium" (mkq 2320381 10000);
  el "Np" "Neptunium" (mkq 2370482 10000);
  el "U" "Uranium" (mkq 238029 1000);
  el "Pu" "Plutonium" (zq 242);
  el "Am" "Americium" (zq 243);
  el "Bk" "Berkelium" (zq 247);
  el "Cm" "Curium" (zq 247);
  el "No" "Nobelium" (zq 250);
  el "Cf" "Californium" (zq 251);
  el "Es" "Einsteinium" (zq 252);
  el "Hs" "Hassium" (zq 255);
  el "Mt" "Meitnerium" (zq 256);
  el "Fm" "Fermium" (zq 257);
  el "Md" "Mendelevium" (zq 258);
  el "Lr" "Lawrencium" (zq 260);
  el "Rf" "Rutherfordium" (zq 261);
  el "Bh" "Bohrium" (zq 262);
  el "Db" "Dubnium" (zq 262);
  el "Sg" "Seaborgium" (zq 263)].
(** 133 [ELEMENTS] *)
Definition element_row (e : element) : list (str * avalue) :=
  [(s "symbol", AStr (e_symbol e)); (s "name", AStr (e_name e)); (s "mass", ANum (e_mass e))].
(** Python [round(x)]: to the nearest integer, ties to even *)
Definition py_floor (q : Qc) : Z := (qnum q / Zpos (qden q))%Z.
Definition py_round (q : Qc) : Z :=
  let f := py_floor q in
  let r := q - zq f in
  if qc_ltb r (mkq 1 2) then f
  else if qc_ltb (mkq 1 2) r then (f + 1)%Z
  else if Z.even f then f else (f + 1)%Z.
(** Python [int(x)]: towards zero *)
Definition py_int (q : Qc) : Z := if qc_ltb q 0 then (- py_floor (- q))%Z else py_floor q.
(** 135-138 [_nucleons]: symbols are distinct *)
Definition nucleons : list (str * Z) := map (fun e => (e_symbol e, py_round (e_mass e))) elements_table.
(** 169-181 [get_mass_indices]: [list.index] *)
Fixpoint index_of (l : list Z) (x : Z) : option nat :=
  match l with [] => None | y :: l' => if Z.eqb y x then Some O else match index_of l' x with Some n => Some (S n) | None => None end end.
Definition get_mass_indices (nuc : list (str * Z)) (targets : list Qc) : result (list nat) :=
  mapM (fun t => match index_of (map snd nuc) (py_round t) with Some n => Ok n | None => Raise (OtherError "MassValueError") end) targets.
(** 140-156 [elements] *)
Definition charge_signs (c : Qc) : str := repeat (if qc_ltb 0 c then "+"%char else "-"%char) (Z.to_nat (Z.abs (py_int c))).
Definition elements (mass charge : list Qc) : result (list str) :=
  if negb (Nat.eqb (length mass) (length charge)) then Raise TypeError
  else
    idx <- get_mass_indices nucleons mass ;;
    bases <- mapM (fun m => match nth_error (map fst nucleons) m with Some b => Ok b | None => Raise IndexError end) idx ;;
    Ok (map (fun bc => fst bc ++ snd bc) (combine bases (map charge_signs charge))).

(** ** species: 186-228 *)
Definition is_pm (c : ascii) : bool := Ascii.eqb c "+" || Ascii.eqb c "-".
Definition rstrip_chars (f : ascii -> bool) (x : str) : str := rev (lstrip_chars f (rev x)).
Definition species_base (symbol : str) : str := rstrip_chars is_pm symbol.
(** 204-212 [mass], in nucleons *)
Definition species_mass (symbol : str) : result Qc :=
  r <- table_find_unique avalue_eqb (map element_row elements_table) (AStr (species_base symbol)) ;;
  v <- row_get r (s "mass") ;;
  match v with ANum q => Ok q | AStr _ => Raise TypeError end.
(** 219-228 [charge], in e: [float(f"{s}1.0")] for the characters of the sign *)
Definition species_charge (symbol : str) : result Qc :=
  let base := species_base symbol in
  let sign := lstrip_chars (fun c => existsb (Ascii.eqb c) base) symbol in
  vs <- mapM (fun c => float_of_str (c :: s "1.0")) sign ;;
  Ok (fold_left Qcplus vs 0).
(** 243-265 [species]: by mass and charge *)
Definition species (mass charge : Qc) : result str :=
  l <- elements [mass] [charge] ;;
  match l with x :: _ => Ok x | [] => Raise IndexError end.
