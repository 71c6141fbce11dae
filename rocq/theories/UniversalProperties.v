(** * Properties of the universal physical constants (C85) *)
From Verif Require Import PyBase PyLemmas SymbolicModel ContainerModel ContainerProofs ContainerProofs2 MetricModel MetricTables MetricProofs2 UnitModel UnitOpsModel NormalizeModel SystemsModel SystemsSpec SystemsProofs ConvertModel ConvertProperties DatafileModel UniversalModel UniversalSpec.
Set Default Proof Using "Type".

(** the exponent of a dimension *)
Definition exponent_of (d : list operand) (x : string) : Qc := fold_right (fun t q => if str_eqb (base t) (s x) then expo t + q else q)%Qc 0%Qc d.
(** the dimension is the product of these powers and nothing else *)
Definition of_dimension (d : list operand) (p : powers) : Prop :=
  exponent_of d "M" = zq (p_mass p) /\ exponent_of d "L" = zq (p_length p) /\ exponent_of d "T" = zq (p_time p) /\ exponent_of d "H" = zq (p_temperature p) /\
  Forall (fun t => coef t = 1%Qc /\ In (base t) (map s ["M"; "L"; "T"; "H"; "1"]%string)) d.

Section Constants.
Variable libm : Qc -> Qc -> option Qc.
Variable n0 : nat.
Notation limit := (20 + n0).
(** the number that a conversion factor stands for *)
Variable value : mono -> Qc.
Hypothesis decimal : forall k, value (tenpow k) = ten_to k.
(** the conversions that were asked for before *)
Variable history : list (str * str * option str).
Notation conv := (unit_conversion libm limit value history).
Notation constant_in := (constants_getitem libm).
Notation dimension_in := (unit_dimension libm named_unit quantity_unit quantity_dim).

Definition factor_between (a b : list operand) : result mono := unit_factor libm NODES [Mks; Cgs] (format_expression a) (format_expression b).
Lemma conversion_between u w m : named_system (format_expression w) = None -> metric_unit libm (format_expression u) = Ok u -> metric_unit libm (format_expression w) = Ok w ->
  factor_between u w = Ok m -> conv u (format_expression w) = Ok (u, w, value m).
Proof.
  intros N U W E. unfold unit_conversion. rewrite C74_history. unfold convert_unit. rewrite N. cbn [fst]. unfold conversion_of. unfold factor_between in E. rewrite E. cbn [bind cv_from cv_to cv_factor]. rewrite U, W. reflexivity.
Qed.
Definition powers_check (d : list operand) (p : powers) : bool :=
  qc_eqb (exponent_of d "M") (zq (p_mass p)) && qc_eqb (exponent_of d "L") (zq (p_length p)) && qc_eqb (exponent_of d "T") (zq (p_time p)) && qc_eqb (exponent_of d "H") (zq (p_temperature p)) &&
  forallb (fun t => qc_eqb (coef t) 1 && existsb (str_eqb (base t)) (map s ["M"; "L"; "T"; "H"; "1"]%string)) d.
Lemma powers_ok d p : powers_check d p = true -> of_dimension d p.
Proof.
  unfold powers_check. rewrite !andb_true_iff, !qc_eqb_eq. intros ((((A & B) & C) & D) & E). repeat (split; [assumption|]). apply Forall_forall. intros t I. rewrite forallb_forall in E. specialize (E t I).
  apply andb_true_iff in E as (E1 & E2). split; [apply qc_eqb_eq, E1|]. apply existsb_exists in E2 as (x & X & E). apply str_eqb_eq in E. subst x. exact X.
Qed.
(** everything that can be computed about one constant *)
Definition unit_check (u : list operand) : bool :=
  match metric_unit libm (format_expression u) with Ok w => terms_same w u | Raise _ => false end && match named_system (format_expression u) with None => true | Some _ => false end.
Definition dimension_check (y : system) (u : list operand) (p : powers) : bool := match dimension_in y u with Ok (Some d) => powers_check d p | _ => false end.
Definition factor_check (a b : list operand) (k : Z) : bool := match factor_between a b with Ok m => mono_eqb m (tenpow k) | Raise _ => false end.
Definition row_check (numbers : bool) (r : string * powers) : bool :=
  match constant_in (s "mks") (s (fst r)), constant_in (s "cgs") (s (fst r)) with
  | Ok m, Ok c =>
      unit_check (c_unit m) && unit_check (c_unit c) && dimension_check Mks (c_unit m) (snd r) && dimension_check Cgs (c_unit c) (snd r) &&
      factor_check (c_unit m) (c_unit c) (cgs_per_mks (snd r)) && factor_check (c_unit c) (c_unit m) (- cgs_per_mks (snd r)) &&
      (negb numbers || qc_eqb (c_value c) (c_value m * ten_to (cgs_per_mks (snd r)))) &&
      str_eqb (c_quantity m) (c_quantity c) && str_eqb (c_info m) (c_info c)
  | _, _ => false
  end.
Lemma rows : forallb (fun r => row_check (negb (String.eqb (fst r) "c1")) r) physics = true.
Proof. vm_compute. reflexivity. Qed.
Lemma ten_opposite k : (ten_to k * ten_to (- k) = 1)%Qc.
Proof.
  clear decimal value. assert (P : forall k, (0 <= k)%Z -> (zq (10 ^ k) * / zq (10 ^ k) = 1)%Qc).
  { intros j J. apply Qcmult_inv_r. intros E. assert (0 < 10 ^ j)%Z by (apply Z.pow_pos_nonneg; lia). change 0%Qc with (zq 0) in E. apply zq_inj in E. lia. }
  unfold ten_to. destruct (Z.leb_spec 0 k), (Z.leb_spec 0 (- k)).
  - assert (k = 0)%Z as -> by lia. reflexivity.
  - rewrite Z.opp_involutive. apply P. assumption.
  - rewrite Qcmult_comm. apply P. lia.
  - lia.
Qed.
Lemma row_facts (numbers : bool) r : row_check numbers r = true -> exists m c, constant_in (s "mks") (s (fst r)) = Ok m /\ constant_in (s "cgs") (s (fst r)) = Ok c /\
  (exists d, dimension_in Mks (c_unit m) = Ok (Some d) /\ of_dimension d (snd r)) /\ (exists d, dimension_in Cgs (c_unit c) = Ok (Some d) /\ of_dimension d (snd r)) /\
  conv (c_unit m) (format_expression (c_unit c)) = Ok (c_unit m, c_unit c, ten_to (cgs_per_mks (snd r))) /\
  conv (c_unit c) (format_expression (c_unit m)) = Ok (c_unit c, c_unit m, ten_to (- cgs_per_mks (snd r))) /\
  (numbers = true -> c_value c = (c_value m * ten_to (cgs_per_mks (snd r)))%Qc) /\ c_quantity m = c_quantity c /\ c_info m = c_info c.
Proof using decimal.
  unfold row_check. destruct (constant_in (s "mks") (s (fst r))) as [m|]; [|discriminate]. destruct (constant_in (s "cgs") (s (fst r))) as [c|]; [|discriminate].
  rewrite !andb_true_iff. intros ((((((((U1 & U2) & D1) & D2) & F1) & F2) & V) & Q) & I). exists m, c. split; [reflexivity|]. split; [reflexivity|].
  assert (UC : forall u, unit_check u = true -> metric_unit libm (format_expression u) = Ok u /\ named_system (format_expression u) = None).
  { intros u H. unfold unit_check in H. apply andb_true_iff in H as (A & B). destruct (metric_unit libm (format_expression u)) as [w|]; [|discriminate]. apply terms_same_eq in A. subst w. split; [reflexivity|].
    destruct (named_system _); [discriminate|reflexivity]. }
  assert (DC : forall y u, dimension_check y u (snd r) = true -> exists d, dimension_in y u = Ok (Some d) /\ of_dimension d (snd r)).
  { intros y u H. unfold dimension_check in H. destruct (dimension_in y u) as [[d|]|]; try discriminate. exists d. split; [reflexivity|apply powers_ok, H]. }
  assert (FC : forall u w k, unit_check u = true -> unit_check w = true -> factor_check u w k = true -> conv u (format_expression w) = Ok (u, w, ten_to k)).
  { intros u w k H1 H2 H. destruct (UC u H1) as (A & _). destruct (UC w H2) as (B & N). unfold factor_check in H. destruct (factor_between u w) as [x|] eqn:E; [|discriminate].
    apply mono_eqb_eq in H. subst x. rewrite (conversion_between u w _ N A B E), decimal. reflexivity. }
  split; [apply DC, D1|]. split; [apply DC, D2|]. split; [apply FC; assumption|]. split; [apply FC; assumption|]. split; [|split; apply str_eqb_eq; assumption].
  intros ->. apply qc_eqb_eq. exact V.
Qed.
Lemma powers_in r : In r physics -> row_check (negb (String.eqb (fst r) "c1")) r = true.
Proof. exact (proj1 (forallb_forall _ _) rows r). Qed.

(** Each constant of mechanics and heat has, in each system, a unit of the right
    dimension, and its units in the two systems can be converted to each other. *)
Theorem C85_units name p : In (name, p) physics -> exists m c, constant_in (s "mks") (s name) = Ok m /\ constant_in (s "cgs") (s name) = Ok c /\
  (exists d, dimension_in Mks (c_unit m) = Ok (Some d) /\ of_dimension d p) /\ (exists d, dimension_in Cgs (c_unit c) = Ok (Some d) /\ of_dimension d p) /\
  conv (c_unit m) (format_expression (c_unit c)) = Ok (c_unit m, c_unit c, ten_to (cgs_per_mks p)) /\
  conv (c_unit c) (format_expression (c_unit m)) = Ok (c_unit c, c_unit m, ten_to (- cgs_per_mks p)) /\ c_quantity m = c_quantity c /\ c_info m = c_info c.
Proof using decimal.
  intros I. destruct (row_facts _ _ (powers_in _ I)) as (m & c & M & C & D1 & D2 & F1 & F2 & _ & Q & J). exists m, c. cbn [fst snd] in *. tauto.
Qed.
(** Except for the first radiation constant, the numbers agree: each of the two
    constants, converted to the unit of the other, is the other. *)
Theorem C85_same_quantity_partial name p m c : In (name, p) physics -> name <> "c1"%string -> constant_in (s "mks") (s name) = Ok m -> constant_in (s "cgs") (s name) = Ok c ->
  (exists k, conv (c_unit m) (format_expression (c_unit c)) = Ok (c_unit m, c_unit c, k) /\ (c_value m * k)%Qc = c_value c) /\
  (exists k, conv (c_unit c) (format_expression (c_unit m)) = Ok (c_unit c, c_unit m, k) /\ (c_value c * k)%Qc = c_value m).
Proof using decimal.
  intros I N M C. destruct (row_facts _ _ (powers_in _ I)) as (m' & c' & M' & C' & _ & _ & F1 & F2 & V & _ & _). cbn [fst snd] in *. rewrite M in M'. injection M' as <-. rewrite C in C'. injection C' as <-.
  specialize (V ltac:(apply negb_true_iff, String.eqb_neq, N)). split; eexists; (split; [eassumption|]); rewrite V; [reflexivity|].
  rewrite <- Qcmult_assoc, ten_opposite. apply Qcmult_1_r.
Qed.
(** The first radiation constant is the same number in both systems, although
    the unit in the MKS system is 10^11 times the unit in the CGS system. *)
Theorem C85_radiation_refuted : exists m c, constant_in (s "mks") (s "c1") = Ok m /\ constant_in (s "cgs") (s "c1") = Ok c /\
  conv (c_unit m) (format_expression (c_unit c)) = Ok (c_unit m, c_unit c, ten_to 11) /\ c_value m = c_value c /\ c_value m <> 0%Qc.
Proof using decimal.
  destruct (C85_units "c1" (mkpowers 1 4 (-3) 0) ltac:(cbn; tauto)) as (m & c & M & C & _ & _ & F & _). exists m, c. split; [exact M|]. split; [exact C|]. split; [exact F|].
  assert (VM : constant_in (s "mks") (s "c1") = Ok m -> c_value m = sci 37418 (-20)) by (clear; intros H; vm_compute in H; injection H as <-; apply Qc_is_canon; vm_compute; reflexivity).
  assert (VC : constant_in (s "cgs") (s "c1") = Ok c -> c_value c = sci 37418 (-20)) by (clear; intros H; vm_compute in H; injection H as <-; apply Qc_is_canon; vm_compute; reflexivity).
  rewrite (VM M), (VC C). split; [reflexivity|]. apply qc_eqb_neq. vm_compute. reflexivity.
Qed.
End Constants.
Print Assumptions C85_units.
Print Assumptions C85_same_quantity_partial.
Print Assumptions C85_radiation_refuted.

(** ** Electromagnetic constants *)
Section Electromagnetic.
Variable libm : Qc -> Qc -> option Qc.
Variable n0 : nat.
Notation limit := (20 + n0).
Variable value : mono -> Qc.
Variable history : list (str * str * option str).
Notation conv := (unit_conversion libm limit value history).
Notation constant_in := (constants_getitem libm).
(** the speed of light in cm / s *)
Notation light := (zq 29979245800).
(** in powers of 2, 3, 5, 37, pi and the speed of light *)
Definition factors_are_numbers : Prop := value (m6 1 0 1 0 0 1) = (zq 10 * light)%Qc /\ value (m6 (-11) 0 (-11) 0 0 2) = (ten_to (-11) * light * light)%Qc.
Lemma em_conversion x : forall m c f, unit_check libm (c_unit m) && unit_check libm (c_unit c) && match factor_between libm (c_unit m) (c_unit c) with Ok k => mono_eqb k f | Raise _ => false end = true ->
  constant_in (s "mks") (s x) = Ok m -> constant_in (s "cgs") (s x) = Ok c -> conv (c_unit m) (format_expression (c_unit c)) = Ok (c_unit m, c_unit c, value f).
Proof.
  intros m c f H _ _. rewrite !andb_true_iff in H. destruct H as ((U1 & U2) & H). destruct (factor_between libm (c_unit m) (c_unit c)) as [k|] eqn:E; [|discriminate]. apply mono_eqb_eq in H. subst k.
  assert (UC : forall u, unit_check libm u = true -> metric_unit libm (format_expression u) = Ok u /\ named_system (format_expression u) = None).
  { intros u H. unfold unit_check in H. apply andb_true_iff in H as (A & B). destruct (metric_unit libm (format_expression u)) as [w|]; [|discriminate]. apply terms_same_eq in A. subst w. split; [reflexivity|].
    destruct (named_system _); [discriminate|reflexivity]. }
  apply conversion_between; [apply UC, U2|apply UC, U1|apply UC, U2|exact E].
Qed.
(** The elementary charge in C, converted to statC, is a hundred times the
    elementary charge in statC (to one percent). *)
Theorem C85_charge_refuted : factors_are_numbers -> exists m c k, constant_in (s "mks") (s "e") = Ok m /\ constant_in (s "cgs") (s "e") = Ok c /\
  conv (c_unit m) (format_expression (c_unit c)) = Ok (c_unit m, c_unit c, k) /\ (zq 99 * c_value c < c_value m * k)%Qc /\ (c_value m * k < zq 101 * c_value c)%Qc.
Proof.
  intros (V & _). assert (E : exists m c, constant_in (s "mks") (s "e") = Ok m /\ constant_in (s "cgs") (s "e") = Ok c /\ c_value m = sci 16022 (-23) /\ c_value c = sci 48032 (-14) /\
    unit_check libm (c_unit m) && unit_check libm (c_unit c) && match factor_between libm (c_unit m) (c_unit c) with Ok k => mono_eqb k (m6 1 0 1 0 0 1) | Raise _ => false end = true).
  { eexists. eexists. split; [reflexivity|]. split; [reflexivity|]. split; [reflexivity|]. split; [reflexivity|]. vm_compute. reflexivity. }
  destruct E as (m & c & M & C & VM & VC & K). exists m, c, (value (m6 1 0 1 0 0 1)). split; [exact M|]. split; [exact C|]. split; [exact (em_conversion "e" m c _ K M C)|].
  rewrite V, VM, VC. split; vm_compute; reflexivity.
Qed.
(** The permittivity of free space, converted to the CGS system, is less than
    0.08; in the CGS system it is 1. *)
Theorem C85_permittivity_refuted : factors_are_numbers -> exists m c k, constant_in (s "mks") (s "epsilon0") = Ok m /\ constant_in (s "cgs") (s "epsilon0") = Ok c /\
  conv (c_unit m) (format_expression (c_unit c)) = Ok (c_unit m, c_unit c, k) /\ (c_value m * k < mkq 8 100)%Qc /\ c_value c = 1%Qc.
Proof.
  intros (_ & V). assert (E : exists m c, constant_in (s "mks") (s "epsilon0") = Ok m /\ constant_in (s "cgs") (s "epsilon0") = Ok c /\ c_value m = sci 88542 (-16) /\ c_value c = sci 1 0 /\
    unit_check libm (c_unit m) && unit_check libm (c_unit c) && match factor_between libm (c_unit m) (c_unit c) with Ok k => mono_eqb k (m6 (-11) 0 (-11) 0 0 2) | Raise _ => false end = true).
  { eexists. eexists. split; [reflexivity|]. split; [reflexivity|]. split; [reflexivity|]. split; [reflexivity|]. vm_compute. reflexivity. }
  destruct E as (m & c & M & C & VM & VC & K). exists m, c, (value (m6 (-11) 0 (-11) 0 0 2)). split; [exact M|]. split; [exact C|]. split; [exact (em_conversion "epsilon0" m c _ K M C)|].
  rewrite V, VM, VC. split; [vm_compute; reflexivity|]. apply Qc_is_canon. vm_compute. reflexivity.
Qed.
(** The permeability of free space cannot be converted. *)
Theorem C85_permeability_refuted : exists m c, constant_in (s "mks") (s "mu0") = Ok m /\ constant_in (s "cgs") (s "mu0") = Ok c /\
  conv (c_unit m) (format_expression (c_unit c)) = Raise UnitConversionError.
Proof.
  eexists. eexists. split; [reflexivity|]. split; [reflexivity|]. unfold unit_conversion. rewrite C74_history. vm_compute. reflexivity.
Qed.
End Electromagnetic.
Print Assumptions C85_charge_refuted.
Print Assumptions C85_permittivity_refuted.
Print Assumptions C85_permeability_refuted.
(** In the system of centimeters, grams and seconds the two constants of free space are the
    number 1. *)
Theorem C85_cgs_unity libm n : In n ["epsilon0"; "mu0"]%string -> exists c, constants_getitem libm (s "cgs") (s n) = Ok c /\ c_value c = 1%Qc /\ format_expression (c_unit c) = s "1".
Proof. intros [<-|[<-|[]]]; (eexists; split; [reflexivity|]); (split; [apply Qc_is_canon; reflexivity|vm_compute; reflexivity]). Qed.
Print Assumptions C85_cgs_unity.
(** The ratio pi is the same number without a unit in both systems: the double
    884279719003555 / 2^48. *)
Theorem C85_pi libm y : exists c, constants_getitem libm (system_name y) (s "pi") = Ok c /\
  c_value c = Q2Qc (884279719003555 # 281474976710656) /\ format_expression (c_unit c) = s "1" /\ c_quantity c = s "number".
Proof. destruct y; (eexists; split; [reflexivity|]); (split; [reflexivity|]); split; vm_compute; reflexivity. Qed.
Print Assumptions C85_pi.
(** The reason is in the table of conversions (C21): a farad is a squared coulomb
    per joule, and a centimeter a squared statcoulomb per erg, but the factor from
    the first to the second is not the factor from farad to centimeter. *)
Theorem C21_farad_refuted libm : unit_factor libm NODES [Mks; Cgs] (s "C^2 J^-1") (s "statC^2 erg^-1") = Ok (m6 (-5) 0 (-5) 0 0 2) /\
  unit_factor libm NODES [Mks; Cgs] (s "F") (s "cm") = Ok (m6 (-9) 0 (-9) 0 0 2).
Proof.
  assert (K : forall r f, match r with Ok m => mono_eqb m f | Raise _ => false end = true -> r = Ok f) by (intros [m|] f H; [apply mono_eqb_eq in H; congruence|discriminate]).
  split; apply K; vm_compute; reflexivity.
Qed.
Print Assumptions C21_farad_refuted.

(** ** Which constants there are *)
Definition constant_names : list str := map s ["pi"; "k"; "e"; "me"; "mp"; "G"; "g"; "h"; "c"; "epsilon0"; "mu0"; "Rinfinity"; "a0"; "re"; "alpha"; "c1"; "c2"; "sigma"; "eV"; "amu"; "au"; "H+"; "MeV"]%string.
Lemma names_row : map fst CONSTANTS = constant_names. Proof. reflexivity. Qed.
Lemma names_nodup : NoDup (map fst CONSTANTS).
Proof. rewrite names_row. unfold constant_names. repeat (constructor; [apply (mem_false str_eqb str_decides); vm_compute; reflexivity|]). constructor. Qed.
Definition keys_of_definitions : list str := map s ["info"; "mks"; "cgs"; "quantity"]%string.
Lemma definition_keys : forallb (fun kd => forallb (fun kv => existsb (str_eqb (fst kv)) keys_of_definitions) (snd kd) &&
  match lookup str_eqb (snd kd) (s "info"), lookup str_eqb (snd kd) (s "quantity") with Ok (FText _), Ok (FText _) => true | _, _ => false end) CONSTANTS = true.
Proof. vm_compute. reflexivity. Qed.
(** The same constants in every system; each of them can be had in both systems,
    whose names may be in any case. *)
Theorem C85_names libm x : constants_iter x = constant_names /\ constants_len x = 23 /\ NoDup constant_names /\
  forall y n, same_name x (system_name y) -> In n constant_names -> exists c, constants_getitem libm x n = Ok c /\ constants_getitem libm (system_name y) n = Ok c.
Proof.
  split; [exact names_row|]. split; [reflexivity|]. split; [rewrite <- names_row; exact names_nodup|]. intros y n S I.
  assert (L : lower x = lower (system_name y)) by (apply lower_same, S). unfold constants_getitem. rewrite L.
  assert (K : forallb (fun y => forallb (fun n => is_ok (constants_getitem libm (system_name y) n)) constant_names) [Mks; Cgs] = true) by (vm_compute; reflexivity).
  rewrite forallb_forall in K. specialize (K y ltac:(destruct y; cbn; tauto)). rewrite forallb_forall in K. specialize (K n I). unfold constants_getitem in K.
  destruct (lookup str_eqb CONSTANTS n) as [d|]; [|discriminate K]. destruct (create_constant libm (lower (system_name y)) d) as [c|]; [|discriminate K]. exists c. split; reflexivity.
Qed.
Print Assumptions C85_names.
(** Any other name raises a KeyError, and so does any name when the system is not
    one of the two; the words "info" and "quantity" are taken for systems. *)
Theorem C85_unknown libm x n : (~ In n constant_names -> constants_getitem libm x n = Raise KeyError) /\
  (~ In (lower x) keys_of_definitions -> constants_getitem libm x n = Raise KeyError) /\
  (lower x = s "info" \/ lower x = s "quantity" -> In n constant_names -> constants_getitem libm x n = Raise TypeError).
Proof.
  unfold constants_getitem. split; [|split].
  - intros N. rewrite (proj2 (lookup_missing str_eqb str_decides CONSTANTS n KeyError)); [reflexivity|]. split; [reflexivity|]. rewrite names_row. exact N.
  - intros N. destruct (lookup str_eqb CONSTANTS n) as [d|] eqn:L; [|reflexivity]. apply (lookup_in str_eqb str_decides _ _ _ names_nodup) in L.
    pose proof (proj1 (forallb_forall _ _) definition_keys _ L) as K. apply andb_true_iff in K as (K & _). cbn [snd] in K. unfold create_constant.
    rewrite (proj2 (lookup_missing str_eqb str_decides d (lower x) KeyError)); [reflexivity|]. split; [reflexivity|]. intros J. apply N. apply in_map_iff in J as (kv & E & J). rewrite <- E.
    pose proof (proj1 (forallb_forall _ _) K _ J) as P. apply existsb_exists in P as (k & P & Q). apply str_eqb_eq in Q. congruence.
  - intros X I. rewrite <- names_row in I. destruct (lookup str_eqb CONSTANTS n) as [d|e] eqn:L; [|apply (lookup_missing str_eqb str_decides) in L; tauto].
    apply (lookup_in str_eqb str_decides _ _ _ names_nodup) in L. pose proof (proj1 (forallb_forall _ _) definition_keys _ L) as K. apply andb_true_iff in K as (_ & K). cbn [snd] in K. unfold create_constant.
    destruct (lookup str_eqb d (s "info")) as [[]|] eqn:A; try discriminate K. destruct (lookup str_eqb d (s "quantity")) as [[]|] eqn:B; try discriminate K.
    destruct X as [->| ->]; [rewrite A|rewrite B]; reflexivity.
Qed.
Print Assumptions C85_unknown.
(** The derived energies: 13.6 and a million times the energy of 1 eV, in the
    same unit. *)
Theorem C85_derived libm y : exists a b c, constants_getitem libm (system_name y) (s "eV") = Ok a /\ constants_getitem libm (system_name y) (s "H+") = Ok b /\ constants_getitem libm (system_name y) (s "MeV") = Ok c /\
  c_unit b = c_unit a /\ c_unit c = c_unit a /\ c_value b = (mkq 136 10 * c_value a)%Qc /\ c_value c = (zq 1000000 * c_value a)%Qc.
Proof. destruct y; (eexists; eexists; eexists; split; [reflexivity|]; split; [reflexivity|]; split; [reflexivity|]; split; [reflexivity|]; split; [reflexivity|]; split; apply Qc_is_canon; vm_compute; reflexivity). Qed.
Print Assumptions C85_derived.

(** ** Non-vacuity *)
(** numbers for the factors: powers of ten, times powers of the speed of light *)
Definition number_of (m : mono) : Qc :=
  (ten_to (qnum (e2 m)) * (if qc_eqb (eC m) 1 then zq 29979245800 else if qc_eqb (eC m) (zq 2) then zq 29979245800 * zq 29979245800 else 1))%Qc.
Example C85_case libm : (forall k, number_of (tenpow k) = ten_to k) /\ factors_are_numbers number_of /\
  exists m c, constants_getitem libm (s "MKS") (s "G") = Ok m /\ constants_getitem libm (s "cgs") (s "G") = Ok c /\ c_value m = mkq 66726 1000000000000000 /\ format_expression (c_unit c) = s "cm^2 dyn g^-2" /\
  unit_conversion libm 20 number_of [] (c_unit m) (s "cm^2 dyn g^-2") = Ok (c_unit m, c_unit c, zq 1000) /\ (c_value m * zq 1000)%Qc = c_value c.
Proof.
  assert (D : forall k, number_of (tenpow k) = ten_to k).
  { intros k. unfold number_of, tenpow, m6. cbn [e2 eC]. change (qc_eqb (zq 0) 1) with false. change (qc_eqb (zq 0) (zq 2)) with false. cbn iota. rewrite Qcmult_1_r. f_equal. apply zq_num. }
  split; [exact D|]. split; [split; apply Qc_is_canon; vm_compute; reflexivity|].
  destruct (C85_units libm 0 number_of D [] "G" (mkpowers (-1) 3 (-2) 0) ltac:(cbn; tauto)) as (m & c & M & C & _ & _ & F & _ & _).
  destruct (C85_same_quantity_partial libm 0 number_of D [] "G" _ m c ltac:(cbn; tauto) ltac:(discriminate) M C) as ((k & K & V) & _). rewrite F in K. injection K as <-.
  exists m, c. assert (FC : format_expression (c_unit c) = s "cm^2 dyn g^-2") by (clear - C; vm_compute in C; injection C as <-; vm_compute; reflexivity).
  split; [exact M|]. split; [exact C|]. split; [clear - M; vm_compute in M; injection M as <-; apply Qc_is_canon; vm_compute; reflexivity|]. split; [exact FC|]. rewrite FC in F.
  change (ten_to (cgs_per_mks (mkpowers (-1) 3 (-2) 0))) with (zq 1000) in F, V. split; [exact F|exact V].
Qed.
