(** * Vocabulary of the properties of datafiles (no eprempy code) *)
From Verif Require Import PyBase Nd ContainerSpec ArrayModel ArraySpec PhysicalModel PhysicalSpec DatafileModel.

(** the names that EPREM gives to the variables and dimensions of a file *)
Definition array_names : list str := map s ["phiOffset"; "time"; "shell"; "mu"; "mass"; "charge"; "egrid"; "vgrid"; "R"; "T"; "P";
  "Br"; "Bt"; "Bp"; "Vr"; "Vt"; "Vp"; "Rho"; "Dist"; "flux"]%string.
Definition scalar_names : list str := [s "preEruption"].
Definition axis_names : list str := map s ["time"; "shell"; "species"; "energy"; "mu"]%string.
(** the variable of the file behind each property of the arrays *)
Definition variable_behind : list (str * str) := map (fun ab => (s (fst ab), s (snd ab))) [
  ("time", "time"); ("mu", "mu"); ("r", "R"); ("theta", "T"); ("phi", "P"); ("br", "Br"); ("btheta", "Bt"); ("bphi", "Bp");
  ("ur", "Vr"); ("utheta", "Vt"); ("uphi", "Vp"); ("rho", "Rho")]%string.

(** a file has at most one variable and one dimension of a name *)
Definition sound_file (f : datafile) : Prop := NoDup (map fst (f_variables f)) /\ NoDup (map fst (f_dimensions f)).
Definition variable_of (f : datafile) (n : str) (v : variable) : Prop := In (n, v) (f_variables f).
(** the unit of a variable: its attribute [unit], or else its attribute [units] *)
Definition stated_unit (v : variable) (o : option str) : Prop :=
  (forall u, v_unit v = Some u -> o = Some u) /\ (v_unit v = None -> o = v_units v).
(** what is read from the file about an array *)
Definition read_array (f : datafile) (n : str) (a : farray) : Prop :=
  exists v, variable_of f n v /\ fa_data a = v_data v /\ fa_dims a = v_dims v /\ stated_unit v (fa_unit a).
(** data of a variable that fit its dimensions: as many axes as names, at least
    one; no name twice; no axis empty *)
Definition fits (v : variable) : Prop :=
  NoDup (v_dims v) /\ v_dims v <> [] /\ length (shape (v_data v)) = length (v_dims v) /\ Forall (fun n => 0 < n) (shape (v_data v)).
(** coordinates inside the data of a variable *)
Definition within_variable (v : variable) (c : coords) : Prop := Forall2 (fun d n => c d < n) (v_dims v) (shape (v_data v)).
(** the number in the file at named coordinates *)
Definition in_file (v : variable) (c : coords) : Qc := elem (v_data v) (map c (v_dims v)).
(** [x] has the axes of the variable, the unit [u], and everywhere [k] times the
    number in the file *)
Definition reads {U B} (x : parr (U := U) (B := B)) (v : variable) (axes : list B) (u : U) (k : Qc) : Prop :=
  tidy x /\ paxes x = combine (v_dims v) axes /\ aunit x = u /\ shape (data (face x)) = shape (v_data v) /\
  (forall c, inside x c <-> within_variable v c) /\ forall c, within_variable v c -> value_at x c = (k * in_file v c)%Qc.
