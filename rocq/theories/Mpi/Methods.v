(** The methods that the root announces and the workers perform in the MPI build. *)
From Coq Require Import ZArith.
From stdpp Require Import prelude.
Local Open Scope Z_scope.

(** The collective methods of PhreeqcRM, in the order of the enumeration (src/PhreeqcRM.h 61-123) *)
Inductive collective_method :=
| Construct | CreateMapping | DumpModule | FindComponents | GetConcentrations | GetDensityCalculated
| GetErrorString | GetGasCompMoles | GetGasCompPressures | GetGasCompPhi | GetGasPhaseVolume | GetPressure
| GetSaturationCalculated | GetSelectedOutput | GetSolutionVolume | GetSpeciesConcentrations
| GetSpeciesLog10Gammas | GetSpeciesLog10Molalities | GetTemperature | GetViscosity
| InitialPhreeqc2Module | InitialPhreeqcCell2Module | LoadDatabase | MpiWorkerBreak | RunCells | RunFile
| RunString | SetComponentH2O | SetConcentrations | SetDensityUser | SetErrorHandlerMode | SetFilePrefix
| SetGasCompMoles | SetGasPhaseVolume | SetPartitionUZSolids | SetPorosity | SetPressure
| SetPrintChemistryOn | SetPrintChemistryMask | SetRebalanceByCell | SetRebalanceFraction
| SetRepresentativeVolume | SetSaturationUser | SetSelectedOutputOn | SetSpeciesSaveOn | SetTemperature
| SetTime | SetTimeConversion | SetTimeStep | SetUnitsExchange | SetUnitsGasPhase | SetUnitsKinetics
| SetUnitsPPassemblage | SetUnitsSolution | SetUnitsSSassemblage | SetUnitsSurface
| SpeciesConcentrations2Module | StateSave | StateApply | StateDelete | UseSolutionDensityVolume.
Global Instance collective_method_dec : EqDecision collective_method. Proof. solve_decision. Defined.

Definition all_methods : list collective_method :=
  [Construct; CreateMapping; DumpModule; FindComponents; GetConcentrations; GetDensityCalculated;
   GetErrorString; GetGasCompMoles; GetGasCompPressures; GetGasCompPhi; GetGasPhaseVolume; GetPressure;
   GetSaturationCalculated; GetSelectedOutput; GetSolutionVolume; GetSpeciesConcentrations;
   GetSpeciesLog10Gammas; GetSpeciesLog10Molalities; GetTemperature; GetViscosity;
   InitialPhreeqc2Module; InitialPhreeqcCell2Module; LoadDatabase; MpiWorkerBreak; RunCells; RunFile;
   RunString; SetComponentH2O; SetConcentrations; SetDensityUser; SetErrorHandlerMode; SetFilePrefix;
   SetGasCompMoles; SetGasPhaseVolume; SetPartitionUZSolids; SetPorosity; SetPressure;
   SetPrintChemistryOn; SetPrintChemistryMask; SetRebalanceByCell; SetRebalanceFraction;
   SetRepresentativeVolume; SetSaturationUser; SetSelectedOutputOn; SetSpeciesSaveOn; SetTemperature;
   SetTime; SetTimeConversion; SetTimeStep; SetUnitsExchange; SetUnitsGasPhase; SetUnitsKinetics;
   SetUnitsPPassemblage; SetUnitsSolution; SetUnitsSSassemblage; SetUnitsSurface;
   SpeciesConcentrations2Module; StateSave; StateApply; StateDelete; UseSolutionDensityVolume].

(** What each method broadcasts when it runs on the root, as a number of the enumeration. The lines
    of the announcements in src/PhreeqcRM.cpp are given (also those in disabled code);
    GetViscosity broadcasts METHOD_GETSOLUTIONVOLUME (5363). *)
Definition announces (m : collective_method) : Z :=
  match m with
  | Construct => 0 (* 214 *)
  | CreateMapping => 1 (* 1467, 1581, 1695 *)
  | DumpModule => 2 (* 1992, 2236 *)
  | FindComponents => 3 (* 2842 *)
  | GetConcentrations => 4 (* 3466 *)
  | GetDensityCalculated => 5 (* 3663 *)
  | GetErrorString => 6 (* 3729 *)
  | GetGasCompMoles => 7 (* 3780 *)
  | GetGasCompPressures => 8 (* 3922 *)
  | GetGasCompPhi => 9 (* 4063 *)
  | GetGasPhaseVolume => 10 (* 4205 *)
  | GetPressure => 11 (* 4358 *)
  | GetSaturationCalculated => 12 (* 4445 *)
  | GetSelectedOutput => 13 (* 4507 *)
  | GetSolutionVolume => 14 (* 4758 *)
  | GetSpeciesConcentrations => 15 (* 4806 *)
  | GetSpeciesLog10Gammas => 16 (* 4947 *)
  | GetSpeciesLog10Molalities => 17 (* 5089 *)
  | GetTemperature => 18 (* 5251 *)
  | GetViscosity => 14 (* 5363 *)
  | InitialPhreeqc2Module => 20 (* 6266 *)
  | InitialPhreeqcCell2Module => 21 (* 6551, 6725 *)
  | LoadDatabase => 22 (* 6938 *)
  | MpiWorkerBreak => 23 (* 7487 *)
  | RunCells => 24 (* 9696 *)
  | RunFile => 25 (* 10521 *)
  | RunString => 26 (* 10657 *)
  | SetComponentH2O => 27 (* 11053 *)
  | SetConcentrations => 28 (* 11095 *)
  | SetDensityUser => 29 (* 11591 *)
  | SetErrorHandlerMode => 30 (* 11731 *)
  | SetFilePrefix => 31 (* 11789 *)
  | SetGasCompMoles => 32 (* 11172, 11305 *)
  | SetGasPhaseVolume => 33 (* 11452 *)
  | SetPartitionUZSolids => 34 (* 11899 *)
  | SetPorosity => 35 (* 11936 *)
  | SetPressure => 36 (* 11953 *)
  | SetPrintChemistryOn => 37 (* 12021 *)
  | SetPrintChemistryMask => 38 (* 12054 *)
  | SetRebalanceByCell => 39 (* 12083 *)
  | SetRebalanceFraction => 40 (* 12113 *)
  | SetRepresentativeVolume => 41 (* 12128 *)
  | SetSaturationUser => 42 (* 12148 *)
  | SetSelectedOutputOn => 43 (* 12178 *)
  | SetSpeciesSaveOn => 44 (* 12206 *)
  | SetTemperature => 45 (* 12237 *)
  | SetTime => 46 (* 12291 *)
  | SetTimeConversion => 47 (* 12316 *)
  | SetTimeStep => 48 (* 12340 *)
  | SetUnitsExchange => 49 (* 12364 *)
  | SetUnitsGasPhase => 50 (* 12395 *)
  | SetUnitsKinetics => 51 (* 12426 *)
  | SetUnitsPPassemblage => 52 (* 12457 *)
  | SetUnitsSolution => 53 (* 12488 *)
  | SetUnitsSSassemblage => 54 (* 12519 *)
  | SetUnitsSurface => 55 (* 12550 *)
  | SpeciesConcentrations2Module => 56 (* 12581, 12670 *)
  | StateSave => 57 (* 12758 *)
  | StateApply => 58 (* 12786 *)
  | StateDelete => 59 (* 12827 *)
  | UseSolutionDensityVolume => 60 (* 13004 *)
  end.

(** The method that MpiWorker calls for a broadcast number (src/PhreeqcRM.cpp 7032-7465; the line of
    the case is given). MpiWorkerBreak ends the loop. Other numbers go to the functions registered by
    the user. *)
Definition performs (code : Z) : option collective_method :=
  match code with
  | 0 => Some Construct (* 7035 *)
  | 1 => Some CreateMapping (* 7041 *)
  | 2 => Some DumpModule (* 7048 *)
  | 3 => Some FindComponents (* 7055 *)
  | 4 => Some GetConcentrations (* 7059 *)
  | 5 => Some GetDensityCalculated (* 7066 *)
  | 6 => Some GetErrorString (* 7073 *)
  | 7 => Some GetGasCompMoles (* 7079 *)
  | 8 => Some GetGasCompPressures (* 7086 *)
  | 9 => Some GetGasCompPhi (* 7093 *)
  | 10 => Some GetGasPhaseVolume (* 7100 *)
  | 11 => Some GetPressure (* 7107 *)
  | 12 => Some GetSaturationCalculated (* 7113 *)
  | 13 => Some GetSelectedOutput (* 7120 *)
  | 14 => Some GetSolutionVolume (* 7127 *)
  | 15 => Some GetSpeciesConcentrations (* 7133 *)
  | 16 => Some GetSpeciesLog10Gammas (* 7140 *)
  | 17 => Some GetSpeciesLog10Molalities (* 7147 *)
  | 18 => Some GetTemperature (* 7154 *)
  | 19 => Some GetViscosity (* 7160 *)
  | 20 => Some InitialPhreeqc2Module (* 7166 *)
  | 21 => Some InitialPhreeqcCell2Module (* 7174 *)
  | 22 => Some LoadDatabase (* 7181 *)
  | 23 => Some MpiWorkerBreak (* 7188 *)
  | 24 => Some RunCells (* 7192 *)
  | 25 => Some RunFile (* 7196 *)
  | 26 => Some RunString (* 7204 *)
  | 27 => Some SetComponentH2O (* 7212 *)
  | 28 => Some SetConcentrations (* 7219 *)
  | 29 => Some SetDensityUser (* 7226 *)
  | 30 => Some SetErrorHandlerMode (* 7233 *)
  | 31 => Some SetFilePrefix (* 7240 *)
  | 32 => Some SetGasCompMoles (* 7247 *)
  | 33 => Some SetGasPhaseVolume (* 7254 *)
  | 34 => Some SetPartitionUZSolids (* 7261 *)
  | 35 => Some SetPorosity (* 7268 *)
  | 36 => Some SetPressure (* 7275 *)
  | 37 => Some SetPrintChemistryOn (* 7282 *)
  | 38 => Some SetPrintChemistryMask (* 7289 *)
  | 39 => Some SetRebalanceByCell (* 7296 *)
  | 40 => Some SetRebalanceFraction (* 7303 *)
  | 41 => Some SetRepresentativeVolume (* 7310 *)
  | 42 => Some SetSaturationUser (* 7317 *)
  | 43 => Some SetSelectedOutputOn (* 7324 *)
  | 44 => Some SetSpeciesSaveOn (* 7331 *)
  | 45 => Some SetTemperature (* 7338 *)
  | 46 => Some SetTime (* 7345 *)
  | 47 => Some SetTimeConversion (* 7352 *)
  | 48 => Some SetTimeStep (* 7359 *)
  | 49 => Some SetUnitsExchange (* 7366 *)
  | 50 => Some SetUnitsGasPhase (* 7373 *)
  | 51 => Some SetUnitsKinetics (* 7380 *)
  | 52 => Some SetUnitsPPassemblage (* 7387 *)
  | 53 => Some SetUnitsSolution (* 7394 *)
  | 54 => Some SetUnitsSSassemblage (* 7401 *)
  | 55 => Some SetUnitsSurface (* 7408 *)
  | 56 => Some SpeciesConcentrations2Module (* 7415 *)
  | 57 => Some StateSave (* 7422 *)
  | 58 => Some StateApply (* 7429 *)
  | 59 => Some StateDelete (* 7436 *)
  | 60 => Some UseSolutionDensityVolume (* 7443 *)
  | _ => None
  end.
