(** * Properties of the interface to datafiles (C76), with the actual units *)
From Verif Require Import PyBase PyLemmas SymbolicModel ContainerModel ContainerSpec ContainerProofs ContainerProofs2 Nd ArrayModel ArraySpec PhysicalModel PhysicalSpec PhysicalProofs PhysFuncModel EpremModel AtomicModel AtomicProperties MetricModel MetricTables MetricProofs2 UnitModel UnitOpsModel NormalizeModel SystemsModel SystemsProofs ConvertModel ConvertProperties StandardModel PhysFuncSpec PhysFuncProperties4 DatafileModel DatafileSpec DatafileProperties.
Set Default Proof Using "Type".

(** The units in files written by EPREM, and what they become in each system:
    the text of the new unit and the factor.  The factors are products of powers
    of numbers and of the constants of the metric package: the elementary charge
    (in C), the astronomical unit (in m), the mass of a nucleon (in kg). *)
Definition day_s : mono := m6 7 3 2 0 0 0.                        (* 86400 *)
Definition qe (k : Z) : mono := mkmono (zq k) 0 (zq k) 0 0 0 0 1 0 0.  (* e 10^k *)
Definition per_qe (k : Z) : mono := mkmono (zq k) 0 (zq k) 0 0 0 0 (zq (-1)) 0 0.  (* 10^k / e *)
Definition au_m (k : Z) : mono := mkmono (zq k) 0 (zq k) 0 0 0 0 0 1 0.  (* au 10^k *)
Definition eprem_units : list (string * ((string * mono) * (string * mono))) := [
  ("julian date", (("s", day_s), ("s", day_s)));
  ("cos(mu)", (("1", mono_one), ("1", mono_one)));
  ("MeV", (("J", qe 6), ("erg", qe 13)));
  ("km/s", (("m s^-1", tenpow 3), ("cm s^-1", tenpow 5)));
  ("au", (("m", au_m 0), ("cm", au_m 2)));
  ("radian", (("rad", mono_one), ("rad", mono_one)));
  ("nT", (("T", tenpow (-9)), ("G", tenpow (-5))));
  ("cm^-3", (("m^-3", tenpow 6), ("cm^-3", mono_one)));
  ("s^3/km^6", (("s^3 m^-6", tenpow (-18)), ("s^3 cm^-6", tenpow (-30))));
  ("# / cm^2 s sr MeV", (("J^-1 s^-1 sr^-1 m^-2", per_qe (-2)), ("erg^-1 s^-1 sr^-1 cm^-2", per_qe (-13))))]%string.

Section Actual.
Variable libm : Qc -> Qc -> option Qc.
Variable n0 : nat.
Notation limit := (20 + n0).
Variable value : mono -> Qc.
Hypothesis value_one : value mono_one = 1%Qc.
Variable history : list (str * str * option str).
Notation munit := (metric_unit libm).
Notation conv := (unit_conversion libm limit value history).

(** one conversion, without history and with the factor as it is *)
Definition fresh (u : list operand) (target : str) : result (conversion (F := mono)) :=
  fst (convert_unit libm limit (unit_factor libm NODES [Mks; Cgs]) mono_one [] (format_expression u) target None).
Definition row_check (text : string) (target : string) (new : string) (m : mono) : bool :=
  match standardize (Some (s text)) with
  | Ok (c :: t) =>
    match munit (c :: t) with
    | Ok u => match fresh u (s target) with
              | Ok r => match munit (cv_from r), munit (cv_to r) with
                        | Ok a, Ok b => if unit_equal a b then str_eqb (format_expression u) (s new) && mono_eqb mono_one m
                                        else str_eqb (format_expression b) (s new) && mono_eqb (cv_factor r) m
                        | _, _ => false
                        end
              | Raise _ => false
              end
    | Raise _ => false
    end
  | _ => false
  end.
Lemma fresh_any u target : fst (convert_unit libm limit (unit_factor libm NODES [Mks; Cgs]) mono_one (requests libm limit (unit_factor libm NODES [Mks; Cgs]) mono_one [] history) (format_expression u) target None) = fresh u target.
Proof. apply C74_history. Qed.
Lemma row_ok text target new m v : row_check text target new m = true -> stated_unit v (Some (s text)) ->
  exists u w, unit_in_file munit v u /\ becomes unit_equal conv u (s target) w (value m) /\ format_expression w = s new.
Proof using value_one.
  unfold row_check. destruct (standardize (Some (s text))) as [[|c t]|] eqn:St; try discriminate. destruct (munit (c :: t)) as [u|] eqn:M; [|discriminate].
  destruct (fresh u (s target)) as [r|] eqn:Fr; [|discriminate]. destruct (munit (cv_from r)) as [a|] eqn:A; [|discriminate]. destruct (munit (cv_to r)) as [b|] eqn:B; [|discriminate].
  intros R T. assert (C : conv u (s target) = Ok (a, b, value (cv_factor r))). { unfold unit_conversion. rewrite fresh_any, Fr. cbn [bind]. rewrite A. cbn [bind]. rewrite B. reflexivity. }
  assert (I : unit_in_file munit v u). { exists (s text), (c :: t). split; [exact T|]. split; [exact St|]. split; [discriminate|exact M]. }
  destruct (unit_equal a b) eqn:E; apply andb_true_iff in R as (R1 & R2); apply str_eqb_eq in R1; apply mono_eqb_eq in R2.
  - exists u, u. split; [exact I|]. split; [|exact R1]. exists a, b, (value (cv_factor r)). split; [exact C|]. rewrite <- R2, value_one. split; [split; reflexivity|]. intros X. rewrite E in X. discriminate X.
  - exists u, b. split; [exact I|]. split; [|exact R1]. exists a, b, (value (cv_factor r)). split; [exact C|]. rewrite <- R2. split; [|split; reflexivity]. intros X. rewrite E in X. discriminate X.
Qed.
Definition system_row (y : system) (r : (string * mono) * (string * mono)) : string * mono := match y with Mks => fst r | Cgs => snd r end.
Definition system_text (y : system) : string := match y with Mks => "mks"%string | Cgs => "cgs"%string end.
Lemma table_checks : forallb (fun y => forallb (fun r => row_check (fst r) (system_text y) (fst (system_row y (snd r))) (snd (system_row y (snd r)))) eprem_units) [Mks; Cgs] = true.
Proof. vm_compute. reflexivity. Qed.
Lemma unit_becomes text r y v : In (text, r) eprem_units -> stated_unit v (Some (s text)) ->
  exists u w, unit_in_file munit v u /\ becomes unit_equal conv u (system_name y) w (value (snd (system_row y r))) /\ format_expression w = s (fst (system_row y r)).
Proof using value_one.
  intros I T. pose proof table_checks as K. rewrite forallb_forall in K. specialize (K y). rewrite forallb_forall in K. specialize (K ltac:(destruct y; cbn; tauto) _ I). cbn [fst snd] in K.
  destruct (row_ok text (system_text y) _ _ v K T) as (u & w & A & B & C). exists u, w. split; [exact A|]. split; [|exact C]. destruct y; exact B.
Qed.
Variable f : datafile.
Hypothesis sound : sound_file f.
Variable y : system.
Notation create := (arrays_create unit_equal munit conv (system_name y) f).
Notation axis := (axis_of unit_equal munit conv (system_name y) f).
Notation whole := (whole_array unit_equal munit conv (system_name y) f).
Definition axes_ready (v : variable) (axes : list (faxis (U := list operand))) : Prop := Forall2 (fun d a => axis d = Ok a) (v_dims v) axes.
(** [x] shows the variable in the unit with the given text, every number
    multiplied by the factor *)
Definition shows_in (x : parr (U := list operand) (B := faxis (U := list operand))) (v : variable) axes (r : string * mono) : Prop :=
  reads x v axes (aunit x) (value (snd r)) /\ format_expression (aunit x) = s (fst r).

(** Every array property of a file with the units of EPREM is in the unit of the
    metric system, whatever conversions came before. *)
Theorem C76_eprem p n text r v axes : In (p, n) variable_behind -> In (text, r) eprem_units -> variable_of f n v -> stated_unit v (Some (s text)) -> fits v -> axes_ready v axes ->
  exists x, whole p = Ok x /\ shows_in x v axes (system_row y r).
Proof using sound value_one.
  intros P I V T F A. destruct (unit_becomes text r y v I T) as (u & w & Iu & B & W).
  destruct (proj2 (C76_properties unit_equal munit conv (system_name y) f sound p n P) v u axes w _ V F Iu A B) as (x & X & R).
  exists x. split; [exact X|]. assert (E : aunit x = w) by apply R. split; [rewrite E; exact R|rewrite E; exact W].
Qed.
Theorem C76_eprem_distribution text r v axes : In (text, r) eprem_units -> stated_unit v (Some (s text)) -> fits v -> axes_ready v axes ->
  (variable_of f (s "flux") v -> exists x, arr_flux unit_equal munit conv (system_name y) f = Ok (Some x) /\ shows_in x v axes (system_row y r) /\ arr_f unit_equal munit conv (system_name y) f = Ok None) /\
  (variable_of f (s "Dist") v -> ~ In (s "flux") (map fst (f_variables f)) -> exists x, arr_f unit_equal munit conv (system_name y) f = Ok (Some x) /\ shows_in x v axes (system_row y r) /\ arr_flux unit_equal munit conv (system_name y) f = Ok None).
Proof using sound value_one.
  intros I T F A. destruct (unit_becomes text r y v I T) as (u & w & Iu & B & W).
  destruct (C76_distribution unit_equal munit conv (system_name y) f sound) as (d & h & _ & _ & _ & Hh & H1 & H0).
  assert (G : forall n, In n array_names -> variable_of f n v -> exists x, create n None = Ok x /\ shows_in x v axes (system_row y r)).
  { intros n J V. destruct (C76_array unit_equal munit conv (system_name y) f sound n None v u axes w _ J V F Iu A B) as (x & X & R). exists x. split; [exact X|].
    assert (E : aunit x = w) by apply R. split; [rewrite E; exact R|rewrite E; exact W]. }
  split.
  - intros V. destruct (G (s "flux")) as (x & X & R); [apply (mem_spec str_eqb str_decides); vm_compute; reflexivity|exact V|]. destruct (H1 (proj2 Hh (in_map fst _ _ V))) as (E1 & E2). exists x. rewrite E2, X. split; [reflexivity|]. split; [exact R|exact E1].
  - intros V N. destruct (G (s "Dist")) as (x & X & R); [apply (mem_spec str_eqb str_decides); vm_compute; reflexivity|exact V|]. destruct h; [destruct (N (proj1 Hh eq_refl))|]. destruct (H0 eq_refl) as (E1 & E2). exists x. rewrite E2, X. split; [reflexivity|]. split; [exact R|exact E1].
Qed.

(** Masses are shown in the unit of mass, charges in the unit of charge. *)
Lemma mass_charge_checks : forallb (fun r => row_check (fst r) (fst (snd r)) (fst (snd r)) (snd (snd r)))
  [("nucleon", ("kg", mkmono 0 0 0 0 0 0 0 0 0 1)); ("nucleon", ("g", mkmono (zq 3) 0 (zq 3) 0 0 0 0 0 0 1)); ("nucleon", ("nuc", mono_one));
   ("e-", ("C", qe 0)); ("e-", ("statC", mkmono 1 0 1 0 0 1 0 1 0 0)); ("e-", ("e", mono_one))]%string = true.
Proof. vm_compute. reflexivity. Qed.
Definition mass_row : string * mono := match y with Mks => ("kg"%string, mkmono 0 0 0 0 0 0 0 0 0 1) | Cgs => ("g"%string, mkmono (zq 3) 0 (zq 3) 0 0 0 0 0 0 1) end.
Definition charge_row : string * mono := match y with Mks => ("C"%string, qe 0) | Cgs => ("statC"%string, mkmono 1 0 1 0 0 1 0 1 0 0) end.
Theorem C76_eprem_mass_charge v axes : fits v -> axes_ready v axes ->
  (variable_of f (s "mass") v -> stated_unit v (Some (s "nucleon")) -> exists x, arr_mass unit_equal munit conv (system_name y) (mkunittexts (s (fst mass_row)) (s (fst charge_row))) f = Ok x /\ shows_in x v axes mass_row) /\
  (variable_of f (s "charge") v -> stated_unit v (Some (s "e-")) -> exists x, arr_charge unit_equal munit conv (system_name y) (mkunittexts (s (fst mass_row)) (s (fst charge_row))) f = Ok x /\ shows_in x v axes charge_row).
Proof using sound value_one.
  intros F A. pose proof mass_charge_checks as K. rewrite forallb_forall in K.
  assert (G : forall n t text new m, In n array_names -> row_check text t new m = true -> variable_of f n v -> stated_unit v (Some (s text)) -> exists x, create n (Some (s t)) = Ok x /\ shows_in x v axes (new, m)).
  { intros n t text new m J R V T. destruct (row_ok text t new m v R T) as (u & w & Iu & B & W).
    destruct (C76_array unit_equal munit conv (system_name y) f sound n (Some (s t)) v u axes w _ J V F Iu A B) as (x & X & Rx). exists x. split; [exact X|].
    assert (E : aunit x = w) by apply Rx. split; cbn [fst snd]; rewrite E; [exact Rx|exact W]. }
  split; intros V T.
  - unfold arr_mass, mass_row. destruct y; (apply (G (s "mass") _ "nucleon"%string); [apply (mem_spec str_eqb str_decides); vm_compute; reflexivity| |exact V|exact T]).
    + exact (K _ (or_introl eq_refl)).
    + exact (K _ (or_intror (or_introl eq_refl))).
  - unfold arr_charge, charge_row. destruct y; (apply (G (s "charge") _ "e-"%string); [apply (mem_spec str_eqb str_decides); vm_compute; reflexivity| |exact V|exact T]).
    + exact (K _ (or_intror (or_intror (or_intror (or_introl eq_refl))))).
    + exact (K _ (or_intror (or_intror (or_intror (or_intror (or_introl eq_refl)))))).
Qed.
(** the units of mass and charge are those of the metric system *)
Theorem C76_system_units : quantity_unit (s "mass") y = Some (s (fst mass_row)) /\ quantity_unit (s "charge") y = Some (s (fst charge_row)).
Proof. unfold mass_row, charge_row. destruct y; cbn [fst]; split; vm_compute; reflexivity. Qed.

(** ** The axes of a file with the units of EPREM *)
(** times in days, shells, pitch-angle cosines, masses in nucleons and charges in
    elementary charges of known elements, energies in MeV of one species *)
Record eprem_axes (nt ns np nm ne : nat) : Prop := {
  has_time : exists v, variable_of f (s "time") v /\ stated_unit v (Some (s "julian date")) /\ shape (v_data v) = [nt];
  has_shell : exists v, variable_of f (s "shell") v /\ shape (v_data v) = [ns] /\ forall i, i < ns -> (0 <= py_int (elem (v_data v) [i]))%Z;
  has_mass : exists v, variable_of f (s "mass") v /\ stated_unit v (Some (s "nucleon")) /\ shape (v_data v) = [np] /\
    forall i, i < np -> exists e, In e elements_table /\ py_round (e_mass e) = py_round (elem (v_data v) [i]);
  has_charge : exists v, variable_of f (s "charge") v /\ stated_unit v (Some (s "e-")) /\ shape (v_data v) = [np] /\ exists zs, forall i, i < np -> elem (v_data v) [i] = zq (zs i);
  has_egrid : exists v, variable_of f (s "egrid") v /\ stated_unit v (Some (s "MeV")) /\ shape (v_data v) = [1; ne] /\ ne <> 1;
  has_mu : exists v, variable_of f (s "mu") v /\ stated_unit v (Some (s "cos(mu)")) /\ shape (v_data v) = [nm] }.
Definition size_of nt ns np nm ne (d : str) : nat :=
  if str_eqb d (s "time") then nt else if str_eqb d (s "shell") then ns else if str_eqb d (s "species") then np else if str_eqb d (s "energy") then ne else nm.
Lemma species_known ms zs : length ms = length zs -> (forall m, In m ms -> exists e, In e elements_table /\ py_round (e_mass e) = py_round m) -> exists l, elements ms (map zq zs) = Ok l.
Proof.
  clear. intros L H. rewrite (C41_lists ms zs L). revert zs L. induction ms as [|m ms IH]; intros [|z zs] L; try discriminate L; [exists []; reflexivity|]. injection L as L.
  destruct (IH (fun x I => H x (or_intror I)) zs L) as (l & E). cbn [combine mapM fst snd]. destruct (proj2 (C41_accepts m z) (H m (or_introl eq_refl))) as (x & X). rewrite X. cbn [bind]. rewrite E. eexists. reflexivity.
Qed.
(** All five axes exist and have as many points as the file. *)
Theorem C76_eprem_axes nt ns np nm ne : eprem_axes nt ns np nm ne -> forall d, In d axis_names -> exists a, axis d = Ok a /\ faxis_len a = Ok (size_of nt ns np nm ne d).
Proof using sound value_one.
  intros [(vt & Vt & Tt & St) (vs & Vs & Ss & Ps) (vp & Vp & Tp & Sp & Ep) (vc & Vc & Tc & Sc & zs & Zc) (ve & Ve & Te & Se & Ne) (vm & Vm & Tm & Sm)] d I.
  assert (R : forall text t new m v, row_check text t new m = true -> stated_unit v (Some (s text)) -> exists u w, unit_in_file munit v u /\ becomes unit_equal conv u (s t) w (value m))
    by (intros text t new m v K T; destruct (row_ok text t new m v K T) as (u & w & A & B & _); exists u, w; split; assumption).
  assert (E : exists a, axis d = Ok a).
  { destruct I as [<-|[<-|[<-|[<-|[<-|[]]]]]].
    - destruct (unit_becomes "julian date" (("s", day_s), ("s", day_s))%string y vt ltac:(left; reflexivity) Tt) as (u & w & A & B & _).
      destruct (C76_coordinate_axes unit_equal munit conv (system_name y) f sound (s "time") vt u w _ ltac:(left; reflexivity) Vt ltac:(rewrite St; discriminate) A B) as (x & X & _). eexists. exact X.
    - destruct (C76_shell_axis unit_equal munit conv (system_name y) f sound vs ns Vs Ss) as (X & _). eexists. exact (X Ps).
    - pose proof mass_charge_checks as K. rewrite forallb_forall in K.
      destruct (R "nucleon" "nuc" "nuc" mono_one vp)%string as (um & wm & Am & Bm); [exact (K ("nucleon", ("nuc", mono_one))%string (or_intror (or_intror (or_introl eq_refl))))|exact Tp|].
      destruct (R "e-" "e" "e" mono_one vc)%string as (uc & wc & Ac & Bc); [exact (K ("e-", ("e", mono_one))%string (or_intror (or_intror (or_intror (or_intror (or_intror (or_introl eq_refl))))))) |exact Tc|].
      change (map s ["time"; "shell"; "species"; "energy"; "mu"]%string) with axis_names. 
      rewrite (C76_species_axis unit_equal munit conv (system_name y) f sound np vp um _ vc uc _ wm wc Vp Am Bm Sp Vc Ac Bc Sc), value_one.
      replace (map (fun i => (1 * elem (v_data vc) [i])%Qc) (seq 0 np)) with (map zq (map zs (seq 0 np))).
      + destruct (species_known (map (fun i => (1 * elem (v_data vp) [i])%Qc) (seq 0 np)) (map zs (seq 0 np))) as (l & El).
        * rewrite !map_length. reflexivity.
        * intros m Im. apply in_map_iff in Im as (i & <- & Ii). apply in_seq in Ii. replace (1 * elem (v_data vp) [i])%Qc with (elem (v_data vp) [i]) by ring. apply Ep, Ii.
        * rewrite El. eexists. reflexivity.
      + rewrite map_map. apply map_ext_in. intros i Ii. apply in_seq in Ii. rewrite (Zc i (proj2 Ii)). ring.
    - destruct (unit_becomes "MeV" (("J", qe 6), ("erg", qe 13))%string y ve ltac:(right; right; left; reflexivity) Te) as (u & w & A & B & _).
      destruct (C76_energy_axis unit_equal munit conv (system_name y) f sound ve u w _ Ve ltac:(rewrite Se; discriminate) A B) as (x & X & _). eexists. exact X.
    - destruct (unit_becomes "cos(mu)" (("1", mono_one), ("1", mono_one))%string y vm ltac:(right; left; reflexivity) Tm) as (u & w & A & B & _).
      destruct (C76_coordinate_axes unit_equal munit conv (system_name y) f sound (s "mu") vm u w _ ltac:(right; left; reflexivity) Vm ltac:(rewrite Sm; discriminate) A B) as (x & X & _). eexists. exact X. }
  destruct E as (a & E). exists a. split; [exact E|]. apply (C76_axis_length unit_equal munit conv (system_name y) f sound d _ a); [|exact E].
  destruct I as [<-|[<-|[<-|[<-|[<-|[]]]]]].
  - left. split; [left; reflexivity|]. exists vt. split; [exact Vt|exact St].
  - left. split; [right; left; reflexivity|]. exists vs. split; [exact Vs|exact Ss].
  - right; left. split; [reflexivity|]. exists vp. split; [exact Vp|exact Sp].
  - right; right. split; [reflexivity|]. exists ve. split; [exact Ve|]. split; [exact Ne|]. right. exact Se.
  - left. split; [right; right; left; reflexivity|]. exists vm. split; [exact Vm|exact Sm].
Qed.
End Actual.
Print Assumptions C76_array.
Print Assumptions C76_missing.
Print Assumptions C76_no_unit.
Print Assumptions C76_properties.
Print Assumptions C76_mass_charge.
Print Assumptions C76_squeezed.
Print Assumptions C76_grid.
Print Assumptions C76_distribution.
Print Assumptions C76_coordinate_axes.
Print Assumptions C76_shell_axis.
Print Assumptions C76_species_axis.
Print Assumptions C76_energy_axis.
Print Assumptions C76_no_axis.
Print Assumptions C76_axis_length.
Print Assumptions C76_eprem.
Print Assumptions C76_eprem_distribution.
Print Assumptions C76_eprem_mass_charge.
Print Assumptions C76_system_units.
Print Assumptions C76_eprem_axes.

(** ** A file *)
Definition line (l : list Qc) : nd Qc := mknd [length l] (fun ix => nth (nth 0 ix 0) l 0%Qc).
Definition table (r : nat) (l : list Qc) : nd Qc := mknd [r; length l / r] (fun ix => nth (nth 0 ix 0 * (length l / r) + nth 1 ix 0) l 0%Qc).
Definition demo_var (d : nd Qc) (dims : list string) (u : string) : variable := mkvar d (map s dims) None (Some (s u)) false.
Definition demo_R : variable := demo_var (table 2 [zq 1; zq 2; zq 3; zq 4]) ["time"; "shell"]%string "au".
Definition demo_flux : variable := mkvar (mknd [1] (fun _ => zq 5)) [s "time"] (Some (s "# / cm^2 s sr MeV")) (Some (s "m")) false.
Definition demo : datafile := mkfile (map (fun nv => (s (fst nv), snd nv)) [
  ("time", demo_var (line [zq 1; mkq 3 2]) ["time"] "julian date"); ("shell", demo_var (line [zq 0; zq 1]) ["shell"] "shell");
  ("mass", demo_var (line [zq 1]) ["species"] "nucleon"); ("charge", demo_var (line [zq 1]) ["species"] "e-");
  ("egrid", demo_var (table 1 [zq 1; zq 10; zq 100]) ["species"; "energy"] "MeV"); ("mu", demo_var (line [zq (-1); zq 0; zq 1; zq 1]) ["mu"] "cos(mu)");
  ("R", demo_R); ("flux", demo_flux); ("Dist", demo_R); ("other", demo_R); ("preEruption", mkvar (nd_scalar (mkq 7 2)) [] None None true)]%string)
  [(s "time", 2); (s "shell", 2); (s "other", 9)].
Definition demo_value (m : mono) : Qc := if mono_eqb m mono_one then 1%Qc else if mono_eqb m (au_m 0) then zq 149597870700 else zq 86400.
Lemma demo_sound : sound_file demo.
Proof. split; repeat (constructor; [apply (mem_false str_eqb str_decides); vm_compute; reflexivity|]); constructor. Qed.
Lemma demo_one : demo_value mono_one = 1%Qc. Proof. reflexivity. Qed.
Example C76_demo_axes : eprem_axes demo 2 2 1 4 3.
Proof.
  constructor; eexists; (split; [repeat (left; reflexivity) || (do 1 right; repeat (left; reflexivity)) || (do 2 right; repeat (left; reflexivity)) || (do 3 right; repeat (left; reflexivity)) || (do 4 right; repeat (left; reflexivity)) || (do 5 right; repeat (left; reflexivity))|]).
  - split; [split; [discriminate|reflexivity]|reflexivity].
  - split; [reflexivity|]. intros [|[|i]] Hi; [vm_compute; discriminate|vm_compute; discriminate|lia].
  - split; [split; [discriminate|reflexivity]|]. split; [reflexivity|]. intros [|i] Hi; [|lia]. exists (el "H" "Hydrogen" (mkq 100797 100000)). split; [left; reflexivity|vm_compute; reflexivity].
  - split; [split; [discriminate|reflexivity]|]. split; [reflexivity|]. exists (fun _ => 1%Z). intros [|i] Hi; [reflexivity|lia].
  - split; [split; [discriminate|reflexivity]|]. split; [reflexivity|lia].
  - split; [split; [discriminate|reflexivity]|reflexivity].
Qed.
Example C76_demo_r libm : exists x axes, whole_array unit_equal (metric_unit libm) (unit_conversion libm 20 demo_value []) (s "mks") demo (s "r") = Ok x /\
  shows_in demo_value x demo_R axes ("m"%string, au_m 0) /\ value_at x (fun d => if str_eqb d (s "time") then 1 else 0) = (zq 149597870700 * zq 3)%Qc.
Proof.
  destruct (C76_eprem_axes libm 0 demo_value demo_one [] demo demo_sound Mks _ _ _ _ _ C76_demo_axes (s "time") ltac:(left; reflexivity)) as (a & A & _).
  destruct (C76_eprem_axes libm 0 demo_value demo_one [] demo demo_sound Mks _ _ _ _ _ C76_demo_axes (s "shell") ltac:(right; left; reflexivity)) as (b & B & _).
  destruct (C76_eprem libm 0 demo_value demo_one [] demo demo_sound Mks (s "r") (s "R") "au"%string (("m", au_m 0), ("cm", au_m 2))%string demo_R [a; b]) as (x & X & Sx).
  - do 2 right. left. reflexivity.
  - do 4 right. left. reflexivity.
  - do 6 right. left. reflexivity.
  - split; [discriminate|reflexivity].
  - split; [repeat (constructor; [apply (mem_false str_eqb str_decides); vm_compute; reflexivity|]); constructor|]. split; [discriminate|]. split; [reflexivity|]. repeat constructor.
  - constructor; [exact A|constructor; [exact B|constructor]].
  - exists x, [a; b]. split; [exact X|]. split; [exact Sx|]. destruct Sx as ((_ & _ & _ & _ & _ & V) & _). rewrite V.
    + cbn [snd system_row fst]. apply Qc_is_canon. vm_compute. reflexivity.
    + unfold within_variable. cbn. repeat constructor.
Qed.
(** its views: the variables of EPREM but not others; the attribute [unit] before [units] *)
Example C76_demo_view : match view_arrays demo with Ok l => map fst l | Raise _ => [] end = map s ["time"; "shell"; "mu"; "mass"; "charge"; "egrid"; "R"; "Dist"; "flux"]%string /\
  (exists l, view_units demo = Ok l /\ lookup str_eqb l (s "flux") = Ok (s "# / cm^2 s sr MeV") /\ lookup str_eqb l (s "R") = Ok (s "au")) /\
  view_sizes demo = Ok [(s "time", 2); (s "shell", 2)] /\ (exists x, view_scalars demo = Ok [(s "preEruption", x)] /\ fs_value x = zq 3) /\
  choose_viewer (s "obs000001.nc") None = Ok NetCDF /\ choose_viewer (s "obs000001.dat") (Some (s "NetCDF")) = Ok NetCDF /\ choose_viewer (s "obs000001.dat") None = Raise TypeError.
Proof.
  split; [vm_compute; reflexivity|]. split; [eexists; split; [vm_compute; reflexivity|]; split; vm_compute; reflexivity|]. split; [vm_compute; reflexivity|].
  split; [|repeat split; vm_compute; reflexivity]. eexists. split; [reflexivity|]. apply Qc_is_canon. vm_compute. reflexivity.
Qed.

(** ** What fails *)
Section Refuted.
Context {U : Type}.
Variables (ueq : U -> U -> bool) (munit : str -> result U) (conversion : U -> str -> result (U * U * Qc)) (system : str).
(** Refuted: with several species the energy axis has as many points as there are
    species; with one species and one energy it has no length. *)
Theorem C76_energies_refuted f v a b ax : sound_file f -> variable_of f (s "egrid") v -> axis_of ueq munit conversion system f (s "energy") = Ok ax ->
  (shape (v_data v) = [a; b] -> a <> 1 -> b <> 1 -> faxis_len ax = Ok a) /\ (shape (v_data v) = [1; 1] -> faxis_len ax = Raise TypeError).
Proof.
  intros S V. rewrite (proj2 (proj2 (proj2 (proj2 (axis_cases ueq munit conversion system f))))). destruct (axes_create _ _ _ _ _ _ None) as [y|] eqn:Y; [|discriminate].
  destruct (acreate_shape ueq munit conversion system f S _ _ _ _ V Y) as (Ky & Sy). cbn [bind]. intros A. split; intros Sh.
  - intros Na Nb. destruct (C67_squeeze_objects (B := faxis (U := U)) y) as (_ & _ & N). { unfold well_formed. rewrite Ky, Sy, Sh. discriminate. }
    destruct N as (z & P & _ & _ & _ & Sz & _); [rewrite Ky; discriminate|rewrite Sy, Sh; intros X; inversion X; contradiction|]. rewrite P in A. cbn [bind coordinates] in A. injection A as <-. cbn [faxis_len].
    rewrite Sz, Sy, Sh. apply Nat.eqb_neq in Na. cbn [filter]. rewrite Na. reflexivity.
  - destruct (C67_squeeze_objects (B := faxis (U := U)) y) as (_ & O & _). { unfold well_formed. rewrite Ky, Sy, Sh. discriminate. }
    destruct O as (o & P & _ & So & _); [rewrite Ky; discriminate|rewrite Sy, Sh; repeat constructor|]. rewrite P in A. cbn [bind coordinates] in A. injection A as <-. cbn [faxis_len]. rewrite So. reflexivity.
Qed.
(** Refuted: a file with both has a distribution, but [f] is None. *)
Theorem C76_both_refuted f : sound_file f -> In (s "Dist") (map fst (f_variables f)) -> In (s "flux") (map fst (f_variables f)) ->
  hasdist f = Ok true /\ arr_f ueq munit conversion system f = Ok None.
Proof.
  intros S D F. destruct (C76_distribution ueq munit conversion system f S) as (d & h & Hd & _ & Dd & Hh & H1 & _). rewrite Hd, (proj2 Dd D). split; [reflexivity|]. exact (proj1 (H1 (proj2 Hh F))).
Qed.
End Refuted.
(** Refuted: speeds in "cm/s" and times in "s" cannot be read in the system mks:
    the conversion has two meanings. *)
Theorem C76_ambiguous_refuted libm n0 value history f y n v text : sound_file f -> variable_of f n v -> stated_unit v (Some (s text)) -> text = "cm/s"%string \/ text = "s"%string ->
  y = Mks -> forall x, arrays_create unit_equal (metric_unit libm) (unit_conversion libm (20 + n0) value history) (system_name y) f n None <> Ok x.
Proof.
  intros S V T Te -> x. unfold arrays_create. destruct (arrays_view_ok f) as (l & W). rewrite W. cbn [bind]. rewrite (arrays_lookup f n l W), get_array_eq, (proj2 (file_lookup f n v S) V).
  destruct (existsb (str_eqb n) array_names); [|discriminate]. cbn [bind fa_dims fa_unit fa_data]. destruct (mapM _ (v_dims v)) as [ax|]; [|discriminate]. cbn [bind]. apply stated in T. rewrite T.
  assert (K : match standardize (Some (s text)) with Ok t => match context_unit (metric_unit libm) t with Ok u => is_ok (fresh libm n0 u (s "mks")) | Raise _ => false end | Raise _ => false end = false) by (destruct Te as [-> | ->]; vm_compute; reflexivity).
  destruct (standardize (Some (s text))) as [t|]; [|discriminate]. cbn [bind]. destruct (context_unit (metric_unit libm) t) as [u|]; [|discriminate]. cbn [bind].
  destruct (parray_factory (v_data v) u (dict_of str_eqb ax)) as [z|] eqn:Z; [|discriminate]. cbn [bind]. unfold array_to.
  assert (Uz : aunit z = u). { unfold parray_factory in Z. destruct (dict_of str_eqb ax) as [|kv r]; [injection Z as <-; reflexivity|]. destruct (array_factory _ _) as [q|]; [|discriminate Z]. injection Z as <-. reflexivity. }
  rewrite Uz. unfold unit_conversion. rewrite fresh_any. change (system_name Mks) with (s "mks"). destruct (fresh libm n0 u (s "mks")); [discriminate K|]. discriminate.
Qed.
Print Assumptions C76_energies_refuted.
Print Assumptions C76_both_refuted.
Print Assumptions C76_ambiguous_refuted.
