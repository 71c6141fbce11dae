(** * Model of the names of quantities (reference.py) and of parameters
    (parameter/_metadata.py 610-619), and of the arguments of an observable
    (observable/_objects.py 166-183).

    Paths are relative to /repo/src/eprempy.  The units and dimensions of the
    quantities (reference.py 216-246) are left out. *)
From Verif Require Import PyBase ContainerModel AliasedModel AliasedModel2 DatafileModel.

(** reference.py 12-161 [_metadata]: a name, its quantity, and other names *)
Record refrow := mkref { r_name : str; r_quantity : str; r_aliases : list str }.
Definition ref_metadata : list refrow := [
  mkref (s "phiOffset") (s "plane angle") [];
  mkref (s "time") (s "time") [s "t"; s "times"];
  mkref (s "shell") (s "number") [s "shells"];
  mkref (s "mu") (s "ratio") [s "mu"; s "pitch angle"; s "pitch-angle"; s "pitch-angle cosine"; s "pitch angles"; s "pitch-angles"; s "pitch-angle cosines"];
  mkref (s "mass") (s "mass") [s "m"];
  mkref (s "charge") (s "charge") [s "q"];
  mkref (s "energy") (s "energy") [s "energies"; s "E"; s "egrid"];
  mkref (s "v") (s "velocity") [s "speed"; s "vgrid"];
  mkref (s "r") (s "length") [s "radius"; s "R"];
  mkref (s "theta") (s "plane angle") [s "T"];
  mkref (s "phi") (s "plane angle") [s "P"];
  mkref (s "br") (s "magnetic field") [s "Br"];
  mkref (s "btheta") (s "magnetic field") [s "bt"; s "Btheta"; s "Bt"];
  mkref (s "bphi") (s "magnetic field") [s "bp"; s "Bphi"; s "Bp"];
  mkref (s "ur") (s "velocity") [s "Ur"; s "Vr"; s "vr"];
  mkref (s "utheta") (s "velocity") [s "ut"; s "Utheta"; s "Ut"; s "Vtheta"; s "Vt"];
  mkref (s "uphi") (s "velocity") [s "up"; s "Uphi"; s "Up"; s "Vphi"; s "Vp"];
  mkref (s "rho") (s "number density") [s "Rho"];
  mkref (s "f") (s "particle distribution") [s "dist"; s "Dist"];
  mkref (s "flux") (s "number / (area * solid_angle * time * energy)") [s "Flux"; s "J"; s "J(E)"; s "j"; s "j(E)"];
  mkref (s "x") (s "length") [s "X"];
  mkref (s "y") (s "length") [s "Y"];
  mkref (s "z") (s "length") [s "Z"];
  mkref (s "bmag") (s "magnetic field") [s "B"; s "b"; s "|B|"; s "|b|"; s "b_mag"; s "b mag"];
  mkref (s "umag") (s "velocity") [s "U"; s "u"; s "|U|"; s "|u|"; s "u_mag"; s "u mag"];
  mkref (s "upara") (s "velocity") [s "Upara"; s "u_para"];
  mkref (s "uperp") (s "velocity") [s "Uperp"; s "u_perp"];
  mkref (s "angle") (s "plane angle") [s "flow_angle"; s "flow angle"];
  mkref (s "divu") (s "1 / time") [s "div_u"; s "divU"; s "div U"; s "div u"; s "div(U)"; s "div(u)"];
  mkref (s "rigidity") (s "momentum / charge") [s "Rg"; s "R_g"];
  mkref (s "mfp") (s "length") [s "mean_free_path"; s "mean free path"];
  mkref (s "ar") (s "1 / time") [s "acceleration_rate"; s "acceleration rate"];
  mkref (s "energy_density") (s "energy / volume") [s "energy density"];
  mkref (s "average_energy") (s "energy") [s "average energy"];
  mkref (s "fluence") (s "number / (area * solid_angle * energy / mass_number)") [];
  mkref (s "intflux") (s "number / (area * solid_angle * time)") [s "integral_flux"; s "integral flux"]].

(** parameter/_metadata.py 8-610 [_metadata]: the names of all parameters and
    their aliases, if there are any *)
Definition par_metadata : list (str * list str) := [
  (s "minimum_energy", [s "Emin"; s "minimum energy"]);
  (s "AU", []);
  (s "C", []);
  (s "DAY", []);
  (s "DEG2RAD", []);
  (s "EV", []);
  (s "F", []);
  (s "FCONVERT", []);
  (s "GEV", []);
  (s "HALF_PI", []);
  (s "LARGEFLOAT", []);
  (s "LARGEINT", []);
  (s "MAX_STRING_SIZE", []);
  (s "MEV", []);
  (s "MHD_B_NORM", []);
  (s "MHD_COUPLED", []);
  (s "MHD_DEFAULT", []);
  (s "MHD_DENSITY_NORM", []);
  (s "MP", []);
  (s "MZERO", []);
  (s "OM", []);
  (s "PI", []);
  (s "Q", []);
  (s "RAD2DEG", []);
  (s "RSAU", []);
  (s "RSUN", []);
  (s "SMALLFLOAT", []);
  (s "T", []);
  (s "TAU", []);
  (s "THRESH", []);
  (s "TWO_PI", []);
  (s "VOLT", []);
  (s "FailModeDump", []);
  (s "adiabaticChangeAlg", []);
  (s "adiabaticFocusAlg", []);
  (s "aziSunStart", []);
  (s "boundaryFunctAmplitude", [s "J0"]);
  (s "boundaryFunctBeta", [s "beta"]);
  (s "boundaryFunctEcutoff", [s "E0"]);
  (s "boundaryFunctEr", [s "Er"; s "reference energy"]);
  (s "boundaryFunctGamma", [s "gamma"]);
  (s "boundaryFunctR0", [s "R0"; s "r0"; s "reference radius"]);
  (s "boundaryFunctXi", [s "xi"]);
  (s "boundaryFunctionInitDomain", []);
  (s "charge", []);
  (s "checkSeedPopulation", []);
  (s "dumpFreq", []);
  (s "eMax", []);
  (s "eMin", []);
  (s "epCalcStartTime", []);
  (s "epEquilibriumCalcDuration", []);
  (s "epremDomain", []);
  (s "epremDomainOutputTime", []);
  (s "flowMag", []);
  (s "fluxLimiter", []);
  (s "gammaEhigh", []);
  (s "gammaElow", []);
  (s "idealShock", []);
  (s "idealShockFalloff", []);
  (s "idealShockInitTime", []);
  (s "idealShockJump", []);
  (s "idealShockPhi", []);
  (s "idealShockPhiWidth", []);
  (s "idealShockScale", []);
  (s "idealShockScaleLength", []);
  (s "idealShockSharpness", []);
  (s "idealShockSpeed", []);
  (s "idealShockTheta", []);
  (s "idealShockThetaWidth", []);
  (s "idealShockWidth", []);
  (s "idw_p", []);
  (s "kperxkpar", [s "kper_kpar"; s "kper/kpar"; s "kper / kpar"]);
  (s "lamo", [s "lam0"; s "lambda0"]);
  (s "mass", []);
  (s "mfpRadialPower", [s "mfp_radial_power"]);
  (s "mhdBAu", []);
  (s "mhdBConvert", []);
  (s "mhdCouple", []);
  (s "mhdCoupledTime", []);
  (s "mhdDigits", []);
  (s "mhdDensityAu", []);
  (s "mhdDirectory", []);
  (s "mhdInitFromOuterBoundary", []);
  (s "mhdInitRadius", []);
  (s "mhdInitTimeStep", []);
  (s "mhdNumFiles", []);
  (s "mhdRadialMax", []);
  (s "mhdRadialMin", []);
  (s "mhdRhoConvert", []);
  (s "mhdRotateSolution", []);
  (s "mhdStartTime", []);
  (s "mhdSteadyState", []);
  (s "mhdTimeConvert", []);
  (s "mhdVConvert", []);
  (s "mhdVmin", []);
  (s "mhdVmax", []);
  (s "minInjectionEnergy", []);
  (s "numColumnsPerFace", []);
  (s "numEnergySteps", []);
  (s "numEpSteps", []);
  (s "numMuSteps", []);
  (s "numNodesPerStream", []);
  (s "numObservers", []);
  (s "numRowsPerFace", []);
  (s "numSpecies", []);
  (s "obsPhi", []);
  (s "obsR", []);
  (s "obsTheta", []);
  (s "omegaSun", []);
  (s "outputFloat", []);
  (s "pointObserverOutput", []);
  (s "pointObserverOutputTime", []);
  (s "preEruptionDuration", []);
  (s "rScale", []);
  (s "rigidityPower", [s "rigidity_power"]);
  (s "shockDetectPercent", []);
  (s "shockInjectionFactor", []);
  (s "shockSolver", []);
  (s "simStartTime", []);
  (s "simStopTime", []);
  (s "streamFluxOutput", []);
  (s "streamFluxOutputTime", []);
  (s "streamSpawnLocAzi", []);
  (s "streamSpawnLocZen", []);
  (s "subTimeCouple", []);
  (s "tDel", []);
  (s "unifiedOutput", []);
  (s "unifiedOutputTime", []);
  (s "unstructuredDomain", []);
  (s "unstructuredDomainOutputTime", []);
  (s "useAdiabaticChange", []);
  (s "useAdiabaticFocus", []);
  (s "useDegrees", []);
  (s "useDrift", []);
  (s "useManualStreamSpawnLoc", []);
  (s "useMhdSteadyStateDt", []);
  (s "useParallelDiffusion", []);
  (s "useShellDiffusion", []);
  (s "warningsFile", [])].

Section Reference.
(** see AliasedModel: whether a [dict] takes two groups for the same key *)
Variable same : group -> group -> bool.
(** the tables: the ones above, or any others *)
Variable table : list refrow.
Variable parameters : list (str * list str).

(** reference.py 164-168 [_quantities], [QUANTITIES] *)
Definition ref_quantities : entries str :=
  build_from_aliases same (map (fun r => (KTup (r_name r :: r_aliases r), r_quantity r)) table).
(** reference.py 172 [ALIASES] *)
Definition ref_aliases : list gentry := groups_init (map fst ref_quantities).
(** reference.py 192-197: [ALIASES.get(key, [key])] *)
Definition group_of (key : str) : list str :=
  match groups_get ref_aliases key with Some g => gnames g | None => [key] end.
(** reference.py 176-181 [Subset] *)
Record subset := mksubset { sub_aliases : list gentry; sub_names : entries (pyval str) }.
(** reference.py 192-197, given the keys; the [dict] of line 196 has every key once *)
Definition build_keys (keys : list str) : result subset :=
  m <- namemap (DMap (map (fun k => (k, group_of k)) (unique_items str_eqb keys))) None ;;
  Ok (mksubset (groups_init (map group_of keys)) m).
(** reference.py 184-189 [_SUBSETS] *)
Definition SUBSETS : list (str * list str) := [
  (s "arrays", ARRAYS); (s "scalars", SCALARS); (s "axes", AXES); (s "observables", map r_name table)].
(** reference.py 192-197 [build(names, subset=which)] *)
Definition build (names : list str) (which : option str) : result subset :=
  build_keys (match which with
              | None => names
              | Some w => match assoc SUBSETS w with Some keys => keys | None => names end
              end).
(** [names.get(key, key)], as in observable/_interfaces.py 1118 and 1138 and
    observable/_objects.py 353: a value is the text of a name *)
Definition name_for (u : subset) (key : str) : str :=
  match namemap_get (sub_names u) key with Ok (Plain k) => k | _ => key end.

(** parameter/_metadata.py 613-619 [METADATA], [ALIASES]: one group for every
    parameter (aliased.py 272-275) *)
Definition par_aliases : list gentry := groups_init (map (fun p => fst p :: snd p) parameters).
(** observable/_objects.py 174, 229: [reference.ALIASES | parameter.ALIASES]
    (collections.abc [Set.__or__]: the groups of both, in a new [Groups]) *)
Definition all_aliases : list gentry := groups_init (map gnames ref_aliases ++ map gnames par_aliases).
(** observable/_objects.py 169-175, 224-231: a mapping from the names of the
    assumptions.  Keyword arguments have distinct names. *)
Definition arguments {V} (assumptions : list (str * V)) : entries V :=
  build_from_groups same (map (fun kv => (KOne (fst kv), snd kv)) assumptions) all_aliases.
End Reference.
