(** * The tables of constants and parameters that the package ships (parameter/reference.json), generated from the text
    (names, types and default texts; the types of the constants are from parameter/_metadata.py 20-176). *)
From Verif Require Import PyBase AliasedModel ParameterModel ParameterSpec.

Definition shipped_constants : list (str * (bool * str)) := [
  (s "AU", (false, s "1.495978707e13"));
  (s "C", (false, s "2.99792458e10"));
  (s "DAY", (false, s "( TAU / (24.0 * 60.0 * 60.0)  )"));
  (s "DEG2RAD", (false, s "(PI/180.0)"));
  (s "EV", (false, s "1.6022e-12"));
  (s "F", (true, s "0"));
  (s "FCONVERT", (false, s "( 1.0e30 / (C * C * C * C) )"));
  (s "GEV", (false, s "1.6022e-3"));
  (s "HALF_PI", (false, s "1.5707963267948966"));
  (s "LARGEFLOAT", (false, s "1.0e33"));
  (s "LARGEINT", (true, s "2147483647"));
  (s "MAX_STRING_SIZE", (true, s "240"));
  (s "MEV", (false, s "1.6022e-6"));
  (s "MHD_B_NORM", (false, s "( sqrt(MP*MHD_DENSITY_NORM) * C )"));
  (s "MHD_COUPLED", (true, s "1"));
  (s "MHD_DEFAULT", (true, s "0"));
  (s "MHD_DENSITY_NORM", (false, s "1.0"));
  (s "MP", (false, s "1.6726e-24"));
  (s "MZERO", (false, s "(MP*C*C/GEV)"));
  (s "OM", (false, s "( MHD_B_NORM * Q * AU / (MP * C * C) )"));
  (s "PI", (false, s "3.141592653589793"));
  (s "Q", (false, s "4.80320425e-10"));
  (s "RAD2DEG", (false, s "(180.0/PI)"));
  (s "RSAU", (false, s "(RSUN/AU)"));
  (s "RSUN", (false, s "6.96e10"));
  (s "SMALLFLOAT", (false, s "1.0e-33"));
  (s "T", (true, s "1"));
  (s "TAU", (false, s "( AU / C )"));
  (s "THRESH", (false, s "0.025"));
  (s "TWO_PI", (false, s "6.283185307179586"));
  (s "VOLT", (false, s "0.33333e-2"))].
Definition shipped_parameters : list (str * (kind * str)) := [
  (s "FailModeDump", (KInt, s "1"));
  (s "adiabaticChangeAlg", (KInt, s "1"));
  (s "adiabaticFocusAlg", (KInt, s "1"));
  (s "aziSunStart", (KFloat, s "0.0"));
  (s "boundaryFunctAmplitude", (KFloat, s "1.0"));
  (s "boundaryFunctBeta", (KFloat, s "2.0"));
  (s "boundaryFunctEcutoff", (KFloat, s "1.0"));
  (s "boundaryFunctEr", (KFloat, s "1.0"));
  (s "boundaryFunctGamma", (KFloat, s "2.0"));
  (s "boundaryFunctR0", (KFloat, s "1.0"));
  (s "boundaryFunctXi", (KFloat, s "1.0"));
  (s "boundaryFunctionInitDomain", (KInt, s "1"));
  (s "charge", (KArray, s "[1.0]"));
  (s "checkSeedPopulation", (KInt, s "1"));
  (s "dsh_hel_min", (KFloat, s "2.5e-4"));
  (s "dsh_min", (KFloat, s "5.0e-5"));
  (s "dumpFreq", (KInt, s "1"));
  (s "dumpOnAbort", (KInt, s "0"));
  (s "eMax", (KFloat, s "1000.0"));
  (s "eMin", (KFloat, s "1.0"));
  (s "epCalcStartTime", (KFloat, s "config.simStartTime"));
  (s "epEquilibriumCalcDuration", (KFloat, s "0.0"));
  (s "epremDomain", (KInt, s "0"));
  (s "epremDomainOutputTime", (KFloat, s "0.0"));
  (s "fieldAligned", (KInt, s "0"));
  (s "flowMag", (KFloat, s "400.0e5"));
  (s "fluxLimiter", (KInt, s "1"));
  (s "focusingLimit", (KFloat, s "1.0"));
  (s "gammaEhigh", (KFloat, s "0.0"));
  (s "gammaElow", (KFloat, s "0.0"));
  (s "idealShock", (KInt, s "0"));
  (s "idealShockFalloff", (KFloat, s "0.0"));
  (s "idealShockInitTime", (KFloat, s "config.simStartTime"));
  (s "idealShockJump", (KFloat, s "4.0"));
  (s "idealShockPhi", (KFloat, s "0.0"));
  (s "idealShockPhiWidth", (KFloat, s "config.idealShockWidth"));
  (s "idealShockScale", (KFloat, s "config.idealShockSharpness / config.idealShockScaleLength"));
  (s "idealShockScaleLength", (KFloat, s "0.0046491"));
  (s "idealShockSharpness", (KFloat, s "1.0"));
  (s "idealShockSpeed", (KFloat, s "1500e5"));
  (s "idealShockTheta", (KFloat, s "HALF_PI"));
  (s "idealShockThetaWidth", (KFloat, s "config.idealShockWidth"));
  (s "idealShockWidth", (KFloat, s "0.0"));
  (s "idw_p", (KFloat, s "3.0"));
  (s "kperxkpar", (KFloat, s "0.01"));
  (s "lamo", (KFloat, s "1.0"));
  (s "mass", (KArray, s "[1.0]"));
  (s "mfpRadialPower", (KFloat, s "2.0"));
  (s "mhdBAu", (KFloat, s "1.60e-5"));
  (s "mhdBConvert", (KFloat, s "1.0"));
  (s "mhdCouple", (KInt, s "0"));
  (s "mhdCoupledTime", (KInt, s "1"));
  (s "mhdDensityAu", (KFloat, s "8.30"));
  (s "mhdDigits", (KInt, s "3"));
  (s "mhdDirectory", (KString, s ""));
  (s "mhdInitFromOuterBoundary", (KInt, s "2"));
  (s "mhdInitMonteCarlo", (KInt, s "0"));
  (s "mhdInitRadius", (KFloat, s "0.0"));
  (s "mhdInitTimeStep", (KFloat, s "0.000011574074074"));
  (s "mhdNumFiles", (KInt, s "0"));
  (s "mhdRadialMax", (KFloat, s "0.0"));
  (s "mhdRadialMin", (KFloat, s "0.0"));
  (s "mhdRhoConvert", (KFloat, s "1.0"));
  (s "mhdRotateSolution", (KInt, s "1"));
  (s "mhdStartTime", (KFloat, s "0.0"));
  (s "mhdSteadyState", (KInt, s "1"));
  (s "mhdTimeConvert", (KFloat, s "1.0"));
  (s "mhdVConvert", (KFloat, s "1.0"));
  (s "mhdVmin", (KFloat, s "50.0e5"));
  (s "minInjectionEnergy", (KFloat, s "0.01"));
  (s "numColumnsPerFace", (KInt, s "2"));
  (s "numEnergySteps", (KInt, s "20"));
  (s "numEpSteps", (KInt, s "30"));
  (s "numMuSteps", (KInt, s "20"));
  (s "numNodesPerStream", (KInt, s "N_PROCS"));
  (s "numObservers", (KInt, s "0"));
  (s "numRowsPerFace", (KInt, s "2"));
  (s "numSpecies", (KInt, s "1"));
  (s "obsPhi", (KArray, s "[0.0]"));
  (s "obsR", (KArray, s "[config.rScale]"));
  (s "obsTheta", (KArray, s "[0.0]"));
  (s "omegaSun", (KFloat, s "0.001429813"));
  (s "outputFloat", (KInt, s "0"));
  (s "outputRestart", (KInt, s "0"));
  (s "parallelFlow", (KFloat, s "0.0"));
  (s "pointObserverOutput", (KInt, s "0"));
  (s "pointObserverOutputTime", (KFloat, s "0.0"));
  (s "preEruptionDuration", (KFloat, s "0.0"));
  (s "rScale", (KFloat, s "RSAU"));
  (s "rigidityPower", (KFloat, s "third"));
  (s "saveRestartFile", (KInt, s "0"));
  (s "seedFunctionTest", (KInt, s "0"));
  (s "shockDetectPercent", (KFloat, s "1.0"));
  (s "shockInjectionFactor", (KFloat, s "1.0"));
  (s "shockSolver", (KInt, s "0"));
  (s "simStartTime", (KFloat, s "0.0"));
  (s "simStopTime", (KFloat, s "config.simStartTime + config.tDel"));
  (s "streamFluxOutput", (KInt, s "0"));
  (s "streamFluxOutputTime", (KFloat, s "0.0"));
  (s "streamSpawnLocAzi", (KArray, s "[0.0]"));
  (s "streamSpawnLocZen", (KArray, s "[0.0]"));
  (s "subTimeCouple", (KInt, s "0"));
  (s "tDel", (KFloat, s "0.01041666666667"));
  (s "unifiedOutput", (KInt, s "1"));
  (s "unifiedOutputTime", (KFloat, s "0.0"));
  (s "unstructuredDomain", (KInt, s "0"));
  (s "unstructuredDomainOutputTime", (KFloat, s "0.0"));
  (s "useAdiabaticChange", (KInt, s "1"));
  (s "useAdiabaticFocus", (KInt, s "1"));
  (s "useBoundaryFunction", (KInt, s "1"));
  (s "useDegrees", (KInt, s "0"));
  (s "useDrift", (KInt, s "0"));
  (s "useEPBoundary", (KInt, s "1"));
  (s "useManualStreamSpawnLoc", (KInt, s "0"));
  (s "useMhdSteadyStateDt", (KInt, s "1"));
  (s "useParallelDiffusion", (KInt, s "1"));
  (s "useShellDiffusion", (KInt, s "0"));
  (s "useStochastic", (KInt, s "0"));
  (s "warningsFile", (KString, s "warningsXXX.txt"))].
(** _metadata.py: units of the parameters that have metadata, and alias groups *)
Definition shipped_units : list (str * option str) := [
  (s "FailModeDump", None);
  (s "adiabaticChangeAlg", None);
  (s "adiabaticFocusAlg", None);
  (s "aziSunStart", Some (s "rad"));
  (s "boundaryFunctAmplitude", Some (s "1 / (cm^2 * s * sr * (MeV/nuc))"));
  (s "boundaryFunctBeta", Some (s "1"));
  (s "boundaryFunctEcutoff", Some (s "MeV"));
  (s "boundaryFunctEr", Some (s "MeV"));
  (s "boundaryFunctGamma", Some (s "1"));
  (s "boundaryFunctR0", Some (s "au"));
  (s "boundaryFunctXi", Some (s "1"));
  (s "boundaryFunctionInitDomain", None);
  (s "charge", Some (s "e"));
  (s "checkSeedPopulation", None);
  (s "dumpFreq", None);
  (s "eMax", Some (s "MeV/nuc"));
  (s "eMin", Some (s "MeV/nuc"));
  (s "epCalcStartTime", Some (s "day"));
  (s "epEquilibriumCalcDuration", Some (s "day"));
  (s "epremDomain", None);
  (s "epremDomainOutputTime", Some (s "day"));
  (s "flowMag", Some (s "cm/s"));
  (s "fluxLimiter", None);
  (s "gammaEhigh", Some (s "1"));
  (s "gammaElow", Some (s "1"));
  (s "idealShock", None);
  (s "idealShockFalloff", None);
  (s "idealShockInitTime", Some (s "day"));
  (s "idealShockJump", Some (s "1"));
  (s "idealShockPhi", Some (s "rad"));
  (s "idealShockPhiWidth", Some (s "rad"));
  (s "idealShockScale", Some (s "au"));
  (s "idealShockScaleLength", Some (s "au"));
  (s "idealShockSharpness", Some (s "1"));
  (s "idealShockSpeed", Some (s "cm/s"));
  (s "idealShockTheta", Some (s "rad"));
  (s "idealShockThetaWidth", Some (s "rad"));
  (s "idealShockWidth", Some (s "rad"));
  (s "idw_p", Some (s "1"));
  (s "kperxkpar", Some (s "1"));
  (s "lamo", Some (s "au"));
  (s "mass", Some (s "nucleon"));
  (s "mfpRadialPower", Some (s "1"));
  (s "mhdBAu", Some (s "G"));
  (s "mhdBConvert", Some (s "1"));
  (s "mhdCouple", None);
  (s "mhdCoupledTime", None);
  (s "mhdDigits", None);
  (s "mhdDensityAu", Some (s "cm^-3"));
  (s "mhdDirectory", None);
  (s "mhdInitFromOuterBoundary", None);
  (s "mhdInitRadius", Some (s "au"));
  (s "mhdInitTimeStep", Some (s "day"));
  (s "mhdNumFiles", None);
  (s "mhdRadialMax", Some (s "au"));
  (s "mhdRadialMin", Some (s "au"));
  (s "mhdRhoConvert", Some (s "1"));
  (s "mhdRotateSolution", None);
  (s "mhdStartTime", Some (s "day"));
  (s "mhdSteadyState", None);
  (s "mhdTimeConvert", Some (s "1"));
  (s "mhdVConvert", Some (s "1"));
  (s "mhdVmin", Some (s "cm/s"));
  (s "mhdVmax", Some (s "cm/s"));
  (s "minInjectionEnergy", Some (s "MeV"));
  (s "numColumnsPerFace", None);
  (s "numEnergySteps", None);
  (s "numEpSteps", None);
  (s "numMuSteps", None);
  (s "numNodesPerStream", None);
  (s "numObservers", Some (s "1"));
  (s "numRowsPerFace", None);
  (s "numSpecies", None);
  (s "obsPhi", Some (s "rad"));
  (s "obsR", Some (s "au"));
  (s "obsTheta", Some (s "rad"));
  (s "omegaSun", Some (s "rad * cm / (au * s)"));
  (s "outputFloat", None);
  (s "pointObserverOutput", None);
  (s "pointObserverOutputTime", Some (s "day"));
  (s "preEruptionDuration", Some (s "day"));
  (s "rScale", Some (s "au"));
  (s "rigidityPower", Some (s "1"));
  (s "shockDetectPercent", Some (s "1"));
  (s "shockInjectionFactor", Some (s "1"));
  (s "shockSolver", None);
  (s "simStartTime", Some (s "day"));
  (s "simStopTime", Some (s "day"));
  (s "streamFluxOutput", None);
  (s "streamFluxOutputTime", Some (s "day"));
  (s "streamSpawnLocAzi", Some (s "rad"));
  (s "streamSpawnLocZen", Some (s "rad"));
  (s "subTimeCouple", None);
  (s "tDel", Some (s "day"));
  (s "unifiedOutput", None);
  (s "unifiedOutputTime", Some (s "day"));
  (s "unstructuredDomain", None);
  (s "unstructuredDomainOutputTime", Some (s "day"));
  (s "useAdiabaticChange", None);
  (s "useAdiabaticFocus", None);
  (s "useDegrees", None);
  (s "useDrift", None);
  (s "useManualStreamSpawnLoc", None);
  (s "useMhdSteadyStateDt", None);
  (s "useParallelDiffusion", None);
  (s "useShellDiffusion", None);
  (s "warningsFile", None);
  (s "minimum_energy", Some (s "MeV"))].
(** _metadata.py 8-14: parameters known to eprempy only *)
Definition shipped_locals : list (str * pvalue) := [(s "minimum_energy", PNum 0%Qc)].
(** the groups of [ALIASES] with more than one name *)
Definition shipped_aliases : list (list str) := [
  [s "minimum_energy"; s "Emin"; s "minimum energy"];
  [s "boundaryFunctAmplitude"; s "J0"];
  [s "boundaryFunctBeta"; s "beta"];
  [s "boundaryFunctEcutoff"; s "E0"];
  [s "boundaryFunctEr"; s "Er"; s "reference energy"];
  [s "boundaryFunctGamma"; s "gamma"];
  [s "boundaryFunctR0"; s "R0"; s "r0"; s "reference radius"];
  [s "boundaryFunctXi"; s "xi"];
  [s "kperxkpar"; s "kper_kpar"; s "kper/kpar"; s "kper / kpar"];
  [s "lamo"; s "lam0"; s "lambda0"];
  [s "mfpRadialPower"; s "mfp_radial_power"];
  [s "rigidityPower"; s "rigidity_power"]].
