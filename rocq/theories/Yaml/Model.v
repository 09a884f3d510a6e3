(** Recording calls as a YAML document and replaying it.

    Source: src/YAMLPhreeqcRM.cpp (the recorder), src/YAML_interface_C.cpp (its C interface) and
    src/PhreeqcRM.cpp InitializeYAML, GetGridCellCountYAML (the reader).

    The library yaml-cpp is not part of the repository and is modelled only at its interface: a
    document is a list of maps, a map is a list of fields in the order of insertion, a value is a
    scalar (a text) or a sequence of scalars, and loading a written document gives it back. Texts of
    truth values and integers are concrete (of the spellings that yaml-cpp accepts, only the ones it
    writes); texts of doubles are a pair of functions that the theorems take as a parameter. *)
From Coq Require Import String Decimal DecimalString DecimalZ ZArith.
From stdpp Require Import prelude strings.
From Verif.Base Require Import Result.
Local Open Scope string_scope.
Local Open Scope list_scope.

(** ** Nodes *)

Inductive yvalue := Scalar (t : string) | Seq (l : list string).
(** A map node: its fields in order *)
Notation ynode := (list (string * yvalue)).

(** node[name] = v: replaces the value of the name or appends a field *)
Fixpoint put (name : string) (v : yvalue) (n : ynode) : ynode :=
  match n with
  | [] => [(name, v)]
  | p :: n' => if String.eqb p.1 name then (name, v) :: n' else p :: put name v n'
  end.

(** ** Texts *)

Definition text_of_bool (b : bool) : string := if b then "true" else "false".
Definition bool_of_text (s : string) : option bool :=
  if String.eqb s "true" then Some true else if String.eqb s "false" then Some false else None.
Definition text_of_int (z : Z) : string := NilZero.string_of_int (Z.to_int z).
(** Out of the range of int, the conversion fails. *)
Definition int_in_range (z : Z) : bool := ((-2147483648 <=? z) && (z <=? 2147483647))%Z.
Definition int_of_text (s : string) : option Z :=
  match NilZero.int_of_string s with
  | Some d => let z := Z.of_int d in if int_in_range z then Some z else None
  | None => None
  end.

(** How doubles are written and read. *)
Record numbers (D : Type) := Numbers { num_text : D -> string; num_of_text : string -> option D }.
Arguments num_text {D}. Arguments num_of_text {D}.

Section Yaml.
Context {D : Type} (N : numbers D).

(** ** The recorder *)

(** The methods of YAMLPhreeqcRM, with their arguments. *)
Inductive call :=
| YAddOutputVars (option : string) (definition : string)
| YCloseFiles
| YCreateMapping (grid2chem : list Z)
| YDumpModule (dump_on : bool) (append : bool)
| YFindComponents
| YInitialSolutions2Module (solutions : list Z)
| YInitialEquilibriumPhases2Module (equilibrium_phases : list Z)
| YInitialExchanges2Module (exchanges : list Z)
| YInitialSurfaces2Module (surfaces : list Z)
| YInitialGasPhases2Module (gas_phases : list Z)
| YInitialSolidSolutions2Module (solid_solutions : list Z)
| YInitialKinetics2Module (kinetics : list Z)
| YInitialPhreeqc2Module (initial_conditions1 : list Z)
| YInitialPhreeqc2Module_mix (initial_conditions1 : list Z) (initial_conditions2 : list Z) (fraction1 : list D)
| YInitialPhreeqcCell2Module (n : Z) (cell_numbers : list Z)
| YLoadDatabase (database : string)
| YLogMessage (str : string)
| YOpenFiles
| YOutputMessage (str : string)
| YRunCells
| YRunFile (workers : bool) (initial_phreeqc : bool) (utility : bool) (chemistry_name : string)
| YRunString (workers : bool) (initial_phreeqc : bool) (utility : bool) (input_string : string)
| YScreenMessage (str : string)
| YSetComponentH2O (tf : bool)
| YSetConcentrations (c : list D)
| YSetCurrentSelectedOutputUserNumber (n_user : Z)
| YSetDensityUser (density : list D)
| YSetDumpFileName (dump_name : string)
| YSetErrorHandlerMode (mode : Z)
| YSetErrorOn (tf : bool)
| YSetFilePrefix (prefix : string)
| YSetGasCompMoles (gas_moles : list D)
| YSetGasPhaseVolume (gas_volume : list D)
| YSetGridCellCount (count : Z)
| YSetNthSelectedOutput (n : Z)
| YSetPartitionUZSolids (tf : bool)
| YSetPorosity (por : list D)
| YSetPressure (p : list D)
| YSetPrintChemistryMask (cell_mask : list Z)
| YSetPrintChemistryOn (workers : bool) (initial_phreeqc : bool) (utility : bool)
| YSetRebalanceByCell (tf : bool)
| YSetRebalanceFraction (f : D)
| YSetRepresentativeVolume (rv : list D)
| YSetSaturationUser (sat : list D)
| YSetScreenOn (tf : bool)
| YSetSelectedOutputOn (tf : bool)
| YSetSpeciesSaveOn (save_on : bool)
| YSetTemperature (t : list D)
| YSetTime (time : D)
| YSetTimeConversion (conv_factor : D)
| YSetTimeStep (time_step : D)
| YSetUnitsExchange (option : Z)
| YSetUnitsGasPhase (option : Z)
| YSetUnitsKinetics (option : Z)
| YSetUnitsPPassemblage (option : Z)
| YSetUnitsSolution (option : Z)
| YSetUnitsSSassemblage (option : Z)
| YSetUnitsSurface (option : Z)
| YSpeciesConcentrations2Module (species_conc : list D)
| YStateSave (istate : Z)
| YStateApply (istate : Z)
| YStateDelete (istate : Z)
| YThreadCount (nthreads : Z)
| YUseSolutionDensityVolume (tf : bool)
| YWarningMessage (warnstr : string).

Definition e_str (s : string) : yvalue := Scalar s.
Definition e_bool (b : bool) : yvalue := Scalar (text_of_bool b).
Definition e_int (z : Z) : yvalue := Scalar (text_of_int z).
Definition e_num (d : D) : yvalue := Scalar (num_text N d).
Definition e_ints (l : list Z) : yvalue := Seq (map text_of_int l).
Definition e_nums (l : list D) : yvalue := Seq (map (num_text N) l).

(** A node with its key and its arguments *)
Definition node (key : string) (args : ynode) : ynode :=
  foldl (fun n p => put p.1 p.2 n) [("key", Scalar key)] args.

(** One node per call; YAMLPhreeqcRM.cpp at the lines given *)
Definition emit (c : call) : ynode :=
  match c with
  | YAddOutputVars option definition => node "AddOutputVars" [("option", e_str option); ("definition", e_str definition)] (* 47-55 *)
  | YCloseFiles => node "CloseFiles" [] (* 56-62 *)
  | YCreateMapping grid2chem => node "CreateMapping" [("grid2chem", e_ints grid2chem)] (* 63-71 *)
  | YDumpModule dump_on append => node "DumpModule" [("dump_on", e_bool dump_on); ("append", e_bool append)] (* 72-80 *)
  | YFindComponents => node "FindComponents" [] (* 81-87 *)
  | YInitialSolutions2Module solutions => node "InitialSolutions2Module" [("solutions", e_ints solutions)] (* 88-96 *)
  | YInitialEquilibriumPhases2Module equilibrium_phases => node "InitialEquilibriumPhases2Module" [("equilibrium_phases", e_ints equilibrium_phases)] (* 97-105 *)
  | YInitialExchanges2Module exchanges => node "InitialExchanges2Module" [("exchanges", e_ints exchanges)] (* 106-114 *)
  | YInitialSurfaces2Module surfaces => node "InitialSurfaces2Module" [("surfaces", e_ints surfaces)] (* 115-123 *)
  | YInitialGasPhases2Module gas_phases => node "InitialGasPhases2Module" [("gas_phases", e_ints gas_phases)] (* 124-132 *)
  | YInitialSolidSolutions2Module solid_solutions => node "InitialSolidSolutions2Module" [("solid_solutions", e_ints solid_solutions)] (* 133-141 *)
  | YInitialKinetics2Module kinetics => node "InitialKinetics2Module" [("kinetics", e_ints kinetics)] (* 142-150 *)
  | YInitialPhreeqc2Module initial_conditions1 => node "InitialPhreeqc2Module" [("initial_conditions1", e_ints initial_conditions1)] (* 152-160 *)
  | YInitialPhreeqc2Module_mix initial_conditions1 initial_conditions2 fraction1 => node "InitialPhreeqc2Module" [("initial_conditions1", e_ints initial_conditions1); ("initial_conditions2", e_ints initial_conditions2); ("fraction1", e_nums fraction1)] (* 162-172 *)
  | YInitialPhreeqcCell2Module n cell_numbers => node "InitialPhreeqcCell2Module" [("n", e_int n); ("cell_numbers", e_ints cell_numbers)] (* 174-183 *)
  | YLoadDatabase database => node "LoadDatabase" [("database", e_str database)] (* 185-192 *)
  | YLogMessage str => node "LogMessage" [("str", e_str str)] (* 193-200 *)
  | YOpenFiles => node "OpenFiles" [] (* 201-207 *)
  | YOutputMessage str => node "OutputMessage" [("str", e_str str)] (* 208-215 *)
  | YRunCells => node "RunCells" [] (* 216-222 *)
  | YRunFile workers initial_phreeqc utility chemistry_name => node "RunFile" [("workers", e_bool workers); ("initial_phreeqc", e_bool initial_phreeqc); ("utility", e_bool utility); ("chemistry_name", e_str chemistry_name)] (* 223-234 *)
  | YRunString workers initial_phreeqc utility input_string => node "RunString" [("workers", e_bool workers); ("initial_phreeqc", e_bool initial_phreeqc); ("utility", e_bool utility); ("input_string", e_str input_string)] (* 235-246 *)
  | YScreenMessage str => node "ScreenMessage" [("str", e_str str)] (* 247-254 *)
  | YSetComponentH2O tf => node "SetComponentH2O" [("tf", e_bool tf)] (* 255-262 *)
  | YSetConcentrations c => node "SetConcentrations" [("c", e_nums c)] (* 263-271 *)
  | YSetCurrentSelectedOutputUserNumber n_user => node "SetCurrentSelectedOutputUserNumber" [("n_user", e_int n_user)] (* 272-279 *)
  | YSetDensityUser density => node "SetDensityUser" [("density", e_nums density)] (* 280-288 *)
  | YSetDumpFileName dump_name => node "SetDumpFileName" [("dump_name", e_str dump_name)] (* 289-296 *)
  | YSetErrorHandlerMode mode => node "SetErrorHandlerMode" [("mode", e_int mode)] (* 297-304 *)
  | YSetErrorOn tf => node "SetErrorOn" [("tf", e_bool tf)] (* 305-312 *)
  | YSetFilePrefix prefix => node "SetFilePrefix" [("prefix", e_str prefix)] (* 313-320 *)
  | YSetGasCompMoles gas_moles => node "SetGasCompMoles" [("gas_moles", e_nums gas_moles)] (* 321-329 *)
  | YSetGasPhaseVolume gas_volume => node "SetGasPhaseVolume" [("gas_volume", e_nums gas_volume)] (* 330-338 *)
  | YSetGridCellCount count => node "SetGridCellCount" [("count", e_int count)] (* 339-346 *)
  | YSetNthSelectedOutput n => node "SetNthSelectedOutput" [("n", e_int n)] (* 347-354 *)
  | YSetPartitionUZSolids tf => node "SetPartitionUZSolids" [("tf", e_bool tf)] (* 355-362 *)
  | YSetPorosity por => node "SetPorosity" [("por", e_nums por)] (* 363-371 *)
  | YSetPressure p => node "SetPressure" [("p", e_nums p)] (* 372-380 *)
  | YSetPrintChemistryMask cell_mask => node "SetPrintChemistryMask" [("cell_mask", e_ints cell_mask)] (* 381-389 *)
  | YSetPrintChemistryOn workers initial_phreeqc utility => node "SetPrintChemistryOn" [("workers", e_bool workers); ("initial_phreeqc", e_bool initial_phreeqc); ("utility", e_bool utility)] (* 390-400 *)
  | YSetRebalanceByCell tf => node "SetRebalanceByCell" [("tf", e_bool tf)] (* 401-408 *)
  | YSetRebalanceFraction f => node "SetRebalanceFraction" [("f", e_num f)] (* 409-416 *)
  | YSetRepresentativeVolume rv => node "SetRepresentativeVolume" [("rv", e_nums rv)] (* 417-425 *)
  | YSetSaturationUser sat => node "SetSaturationUser" [("sat", e_nums sat)] (* 426-434 *)
  | YSetScreenOn tf => node "SetScreenOn" [("tf", e_bool tf)] (* 435-442 *)
  | YSetSelectedOutputOn tf => node "SetSelectedOutputOn" [("tf", e_bool tf)] (* 443-450 *)
  | YSetSpeciesSaveOn save_on => node "SetSpeciesSaveOn" [("save_on", e_bool save_on)] (* 451-458 *)
  | YSetTemperature t => node "SetTemperature" [("t", e_nums t)] (* 459-467 *)
  | YSetTime time => node "SetTime" [("time", e_num time)] (* 468-475 *)
  | YSetTimeConversion conv_factor => node "SetTimeConversion" [("conv_factor", e_num conv_factor)] (* 476-483 *)
  | YSetTimeStep time_step => node "SetTimeStep" [("time_step", e_num time_step)] (* 484-491 *)
  | YSetUnitsExchange option => node "SetUnitsExchange" [("option", e_int option)] (* 492-499 *)
  | YSetUnitsGasPhase option => node "SetUnitsGasPhase" [("option", e_int option)] (* 500-507 *)
  | YSetUnitsKinetics option => node "SetUnitsKinetics" [("option", e_int option)] (* 508-515 *)
  | YSetUnitsPPassemblage option => node "SetUnitsPPassemblage" [("option", e_int option)] (* 516-523 *)
  | YSetUnitsSolution option => node "SetUnitsSolution" [("option", e_int option)] (* 524-531 *)
  | YSetUnitsSSassemblage option => node "SetUnitsSSassemblage" [("option", e_int option)] (* 532-539 *)
  | YSetUnitsSurface option => node "SetUnitsSurface" [("option", e_int option)] (* 540-547 *)
  | YSpeciesConcentrations2Module species_conc => node "SpeciesConcentrations2Module" [("species_conc", e_nums species_conc)] (* 548-556 *)
  | YStateSave istate => node "StateSave" [("istate", e_int istate)] (* 557-564 *)
  | YStateApply istate => node "StateApply" [("istate", e_int istate)] (* 565-572 *)
  | YStateDelete istate => node "StateDelete" [("istate", e_int istate)] (* 573-580 *)
  | YThreadCount nthreads => node "ThreadCount" [("nthreads", e_int nthreads)] (* 581-588 *)
  | YUseSolutionDensityVolume tf => node "UseSolutionDensityVolume" [("tf", e_bool tf)] (* 589-596 *)
  | YWarningMessage warnstr => node "WarningMessage" [("warnstr", e_str warnstr)] (* 597-604 *)
  end.
(** YAML_doc after the calls: each pushes its node at the end *)
Definition record (cs : list call) : list ynode := foldl (fun d c => d ++ [emit c]) [] cs.

(** ** The reader *)

(** it1->second: past the last field it is undefined (the asserts on the size are compiled out). *)
Definition field (n : ynode) (i : nat) : outcome yvalue :=
  match n !! i with Some p => Ret p.2 | None => UB end.
(** as<T>(): throws if the value is not a T *)
Definition conv {T} (o : option T) : outcome T := match o with Some x => Ret x | None => Throw end.
Fixpoint all_of {T} (f : string -> option T) (l : list string) : option (list T) :=
  match l with
  | [] => Some []
  | s :: l' => match f s, all_of f l' with Some x, Some r => Some (x :: r) | _, _ => None end
  end.
Definition scalar {T} (f : string -> option T) (v : yvalue) : outcome T :=
  conv (match v with Scalar s => f s | Seq _ => None end).
Definition sequence {T} (f : string -> option T) (v : yvalue) : outcome (list T) :=
  conv (match v with Seq l => all_of f l | Scalar _ => None end).
Definition as_str (v : yvalue) : outcome string := scalar Some v.
Definition as_bool (v : yvalue) : outcome bool := scalar bool_of_text v.
Definition as_int (v : yvalue) : outcome Z := scalar int_of_text v.
Definition as_num (v : yvalue) : outcome D := scalar (num_of_text N) v.
Definition as_ints (v : yvalue) : outcome (list Z) := sequence int_of_text v.
Definition as_nums (v : yvalue) : outcome (list D) := sequence (num_of_text N) v.

(** it1++->second.as<T>() for the field at place [i] *)
Definition arg {T} (f : yvalue -> outcome T) (n : ynode) (i : nat) : outcome T := obind (field n i) f.
Definition get {T} (f : yvalue -> outcome T) (i : nat) (k : T -> ynode -> outcome (option call)) (n : ynode)
  : outcome (option call) := obind (arg f n i) (fun x => k x n).
Definition does (c : call) (n : ynode) : outcome (option call) := Ret (Some c).
Definition skip (n : ynode) : outcome (option call) := Ret None.
Local Notation "'let*' x := f @ i 'in' k" := (get f i (fun x => k))
  (at level 200, x name, f at level 0, i at level 0, k at level 200).

(** The branches, in order: the keyword and what is read and called; PhreeqcRM.cpp at the lines
    given. [skip] is a branch that calls nothing. *)
Definition branches : list (string * (ynode -> outcome (option call))) := [
  ("AddOutputVars", let* option := as_str @ 1 in let* definition := as_str @ 2 in does (YAddOutputVars option definition)); (* 5513-5520 *)
  ("CloseFiles", does YCloseFiles); (* 5521-5525 *)
  ("CreateMapping", let* grid2chem := as_ints @ 1 in does (YCreateMapping grid2chem)); (* 5526-5531 *)
  ("DumpModule", let* dump_on := as_bool @ 1 in let* append := as_bool @ 2 in does (YDumpModule dump_on append)); (* 5532-5539 *)
  ("FindComponents", does YFindComponents); (* 5540-5545 *)
  ("InitialSolutions2Module", let* solutions := as_ints @ 1 in does (YInitialSolutions2Module solutions)); (* 5546-5551 *)
  ("InitialEquilibriumPhases2Module", let* equilibrium_phases := as_ints @ 1 in does (YInitialEquilibriumPhases2Module equilibrium_phases)); (* 5552-5557 *)
  ("InitialExchanges2Module", let* exchanges := as_ints @ 1 in does (YInitialExchanges2Module exchanges)); (* 5558-5563 *)
  ("InitialSurfaces2Module", let* surfaces := as_ints @ 1 in does (YInitialSurfaces2Module surfaces)); (* 5564-5569 *)
  ("InitialGasPhases2Module", let* gas_phases := as_ints @ 1 in does (YInitialGasPhases2Module gas_phases)); (* 5570-5575 *)
  ("InitialSolidSolutions2Module", let* solid_solutions := as_ints @ 1 in does (YInitialSolidSolutions2Module solid_solutions)); (* 5576-5581 *)
  ("InitialKinetics2Module", let* kinetics := as_ints @ 1 in does (YInitialKinetics2Module kinetics)); (* 5582-5588 *)
  ("InitialPhreeqc2Module", (fun n => if Nat.eqb (length n) 2 then (let* initial_conditions1 := as_ints @ 1 in does (YInitialPhreeqc2Module initial_conditions1)) n
      else if Nat.eqb (length n) 4 then (let* initial_conditions1 := as_ints @ 1 in let* initial_conditions2 := as_ints @ 2 in let* fraction1 := as_nums @ 3 in does (YInitialPhreeqc2Module_mix initial_conditions1 initial_conditions2 fraction1)) n
      else Throw)); (* 5589-5608 *)
  ("InitialPhreeqc2Module_mix", (fun n => if Nat.eqb (length n) 4 then (let* initial_conditions1 := as_ints @ 1 in let* initial_conditions2 := as_ints @ 2 in let* fraction1 := as_nums @ 3 in does (YInitialPhreeqc2Module_mix initial_conditions1 initial_conditions2 fraction1)) n else Throw)); (* 5609-5622 *)
  ("InitialPhreeqcCell2Module", let* n := as_int @ 1 in let* cell_numbers := as_ints @ 2 in does (YInitialPhreeqcCell2Module n cell_numbers)); (* 5623-5630 *)
  ("LoadDatabase", let* database := as_str @ 1 in does (YLoadDatabase database)); (* 5631-5636 *)
  ("OpenFiles", does YOpenFiles); (* 5637-5641 *)
  ("OutputMessage", let* str := as_str @ 1 in does (YOutputMessage str)); (* 5642-5647 *)
  ("RunCells", does YRunCells); (* 5648-5652 *)
  ("RunFile", let* workers := as_bool @ 1 in let* initial_phreeqc := as_bool @ 2 in let* utility := as_bool @ 3 in let* chemistry_name := as_str @ 4 in does (YRunFile workers initial_phreeqc utility chemistry_name)); (* 5653-5662 *)
  ("RunString", let* workers := as_bool @ 1 in let* initial_phreeqc := as_bool @ 2 in let* utility := as_bool @ 3 in let* input_string := as_str @ 4 in does (YRunString workers initial_phreeqc utility input_string)); (* 5663-5672 *)
  ("ScreenMessage", let* str := as_str @ 1 in does (YScreenMessage str)); (* 5673-5678 *)
  ("SetComponentH2O", let* tf := as_bool @ 1 in does (YSetComponentH2O tf)); (* 5679-5684 *)
  ("SetConcentrations", let* c := as_nums @ 1 in does (YSetConcentrations c)); (* 5685-5690 *)
  ("SetCurrentSelectedOutputUserNumber", let* n_user := as_int @ 1 in does (YSetCurrentSelectedOutputUserNumber n_user)); (* 5691-5696 *)
  ("SetDensityUser", let* density := as_nums @ 1 in does (YSetDensityUser density)); (* 5697-5702 *)
  ("SetDumpFileName", let* dump_name := as_str @ 1 in does (YSetDumpFileName dump_name)); (* 5703-5708 *)
  ("SetErrorHandlerMode", let* mode := as_int @ 1 in does (YSetErrorHandlerMode mode)); (* 5709-5714 *)
  ("SetErrorOn", let* tf := as_bool @ 1 in does (YSetErrorOn tf)); (* 5715-5720 *)
  ("SetFilePrefix", let* prefix := as_str @ 1 in does (YSetFilePrefix prefix)); (* 5721-5726 *)
  ("SetGasCompMoles", let* gas_moles := as_nums @ 1 in does (YSetGasCompMoles gas_moles)); (* 5727-5732 *)
  ("SetGasPhaseVolume", let* gas_volume := as_nums @ 1 in does (YSetGasPhaseVolume gas_volume)); (* 5733-5738 *)
  ("SetGridCellCount", skip); (* 5739-5743 *)
  ("SetPartitionUZSolids", let* tf := as_bool @ 1 in does (YSetPartitionUZSolids tf)); (* 5744-5749 *)
  ("SetPorosity", let* por := as_nums @ 1 in does (YSetPorosity por)); (* 5750-5755 *)
  ("SetPressure", let* p := as_nums @ 1 in does (YSetPressure p)); (* 5756-5761 *)
  ("SetPrintChemistryMask", let* cell_mask := as_ints @ 1 in does (YSetPrintChemistryMask cell_mask)); (* 5762-5767 *)
  ("SetPrintChemistryOn", let* workers := as_bool @ 1 in let* initial_phreeqc := as_bool @ 2 in let* utility := as_bool @ 3 in does (YSetPrintChemistryOn workers initial_phreeqc utility)); (* 5768-5776 *)
  ("SetRebalanceByCell", let* tf := as_bool @ 1 in does (YSetRebalanceByCell tf)); (* 5777-5782 *)
  ("SetRebalanceFraction", let* f := as_num @ 1 in does (YSetRebalanceFraction f)); (* 5783-5788 *)
  ("SetRepresentativeVolume", let* rv := as_nums @ 1 in does (YSetRepresentativeVolume rv)); (* 5789-5794 *)
  ("SetSaturationUser", let* sat := as_nums @ 1 in does (YSetSaturationUser sat)); (* 5795-5800 *)
  ("SetScreenOn", let* tf := as_bool @ 1 in does (YSetScreenOn tf)); (* 5801-5806 *)
  ("SetSelectedOutputOn", let* tf := as_bool @ 1 in does (YSetSelectedOutputOn tf)); (* 5807-5812 *)
  ("SetSpeciesSaveOn", let* save_on := as_bool @ 1 in does (YSetSpeciesSaveOn save_on)); (* 5813-5818 *)
  ("SetTemperature", let* t := as_nums @ 1 in does (YSetTemperature t)); (* 5819-5824 *)
  ("SetTime", let* time := as_num @ 1 in does (YSetTime time)); (* 5825-5830 *)
  ("SetTimeConversion", let* conv_factor := as_num @ 1 in does (YSetTimeConversion conv_factor)); (* 5831-5836 *)
  ("SetTimeStep", let* time_step := as_num @ 1 in does (YSetTimeStep time_step)); (* 5837-5842 *)
  ("SetUnitsExchange", let* option := as_int @ 1 in does (YSetUnitsExchange option)); (* 5843-5848 *)
  ("SetUnitsGasPhase", let* option := as_int @ 1 in does (YSetUnitsGasPhase option)); (* 5849-5854 *)
  ("SetUnitsKinetics", let* option := as_int @ 1 in does (YSetUnitsKinetics option)); (* 5855-5860 *)
  ("SetUnitsPPassemblage", let* option := as_int @ 1 in does (YSetUnitsPPassemblage option)); (* 5861-5866 *)
  ("SetUnitsSolution", let* option := as_int @ 1 in does (YSetUnitsSolution option)); (* 5867-5872 *)
  ("SetUnitsSSassemblage", let* option := as_int @ 1 in does (YSetUnitsSSassemblage option)); (* 5873-5878 *)
  ("SetUnitsSurface", let* option := as_int @ 1 in does (YSetUnitsSurface option)); (* 5879-5884 *)
  ("SpeciesConcentrations2Module", let* species_conc := as_nums @ 1 in does (YSpeciesConcentrations2Module species_conc)); (* 5885-5890 *)
  ("StateSave", let* istate := as_int @ 1 in does (YStateSave istate)); (* 5891-5896 *)
  ("StateApply", let* istate := as_int @ 1 in does (YStateApply istate)); (* 5897-5902 *)
  ("StateDelete", let* istate := as_int @ 1 in does (YStateDelete istate)); (* 5903-5908 *)
  ("ThreadCount", skip); (* 5909-5911 *)
  ("UseSolutionDensityVolume", let* tf := as_bool @ 1 in does (YUseSolutionDensityVolume tf)); (* 5912-5917 *)
  ("WarningMessage", let* warnstr := as_str @ 1 in does (YWarningMessage warnstr)) (* 5918-5922 *)
].

Fixpoint branch (k : string) (l : list (string * (ynode -> outcome (option call)))) (n : ynode)
  : outcome (option call) :=
  match l with
  | [] => Throw
  | b :: l' => if String.eqb k b.1 then b.2 n else branch k l' n
  end.
(** PhreeqcRM.cpp 5509-5922: one node. The keyword is the value of the first field, whatever its name. *)
Definition read_node (n : ynode) : outcome (option call) :=
  obind (arg as_str n 0) (fun k => branch k branches n).

(** InitializeYAML, PhreeqcRM.cpp 5500-5926, on an object whose methods are [run] *)
Fixpoint initialize {St} (run : call -> St -> outcome St) (doc : list ynode) (s : St) : outcome St :=
  match doc with
  | [] => Ret s
  | n :: doc' =>
      obind (read_node n) (fun o =>
      obind (match o with Some c => run c s | None => Ret s end) (initialize run doc'))
  end.

(** GetGridCellCountYAML, PhreeqcRM.cpp 124-146, for a file that opens *)
Fixpoint grid_cell_count (doc : list ynode) : outcome Z :=
  match doc with
  | [] => Ret 0%Z
  | n :: doc' =>
      obind (arg as_str n 0) (fun k =>
      if String.eqb k "SetGridCellCount" then arg as_int n 1 else grid_cell_count doc')
  end.

End Yaml.
Arguments call : clear implicits.
