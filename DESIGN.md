# Machine-checked model of PhreeqcRM: design

## Layout

Sources: `rocq/theories/<Topic>/`. Each topic has

* `Model.v`  – executable Gallina definitions, each citing the file and lines of `/repo` it transcribes,
* `Spec.v`   – a small specification written without the model's helpers,
* `Proofs.v` (and further files) – lemmas,
* `Props.v`  – the property theorems, with `Print Assumptions` beneath each, next to an `Example`
  showing a concrete non-trivial instance of the hypotheses. (C15 and C16 are in `Conc/Ith.v`.)

`properties.jsonl` states the properties in English, `MANIFEST.json` says which theorems prove which.
A property that the code does not satisfy in full is stated, and proved, in two parts: a theorem
under the guard that makes it true, and one or more `..._refuted` theorems, each a computed run of
the model (or a proof for all inputs) showing that the claim fails without the guard. "proved" in
the manifest means that both parts of the statement in `properties.jsonl` are proved.

`seeded/LOG.jsonl` records the wrong programs that the theorems were tried against.

## Modelling conventions

* Machine `int`/`size_t` values are `Z` or `nat` without wrap-around, unless stated.
* `double` is an abstract type where values are only moved; exact rationals (`Qc`, canonical
  rationals with Leibniz equality) where they are added and multiplied, so rounding is not
  modelled there and a division by zero gives 0 (theorems exclude it or say so); and IEEE binary64
  (Flocq) for load balancing, where truncation and NaN decide the outcome.
* `std::map` is a key-sorted association list or a `gmap`, as stated at each definition.
* Undefined behaviour (out-of-range `operator[]`, null dereference, NaN to int) is a separate outcome `UB`.
* `assert`s are absent, as in release builds.
* The chemistry solver (`Phreeqc::run_simulations`) is an arbitrary function of the cell content
  (a Section variable generalised in each theorem), never an axiom.
* OpenMP threads are interleavings of per-cell atomic steps.
* The default build is the OpenMP/thread build; the MPI build is the subject of `Mpi/` and of parts
  of `Gas/` and `Run/`.

## Topics: what is modelled, how faithfully

| Topic | Code | Simplifications |
|---|---|---|
| Base | result codes; `arith` record of float operations; binary64 instance | none |
| Registry | `StaticIndexer`, Create/Destroy of both instance kinds, the lock | objects are their kind |
| Mapping | `CreateMapping` loop by loop | messages |
| Partition | `SetEndCells`, the range computations of `RebalanceLoad` and `RebalanceLoadPerCell` | measured times are arbitrary inputs |
| Bin | `cxxStorageBin`, `phreeqc2cxxStorageBin`, `cxxStorageBin2phreeqc` | reactants are opaque |
| Core | worker contents, moving cells, `StateSave/Apply/Delete`, `RunCells` as interleavings, histories of calls | contents opaque; initial conditions as writes |
| Names | `cxxNameDouble` (add, multiply, redox, codec), `Dictionary` | text I/O of the dictionary at character level |
| Solution | `cxxSolution` mixing, `add`, `multiply`, isotopes, species maps, gammas | master activities, logarithm maps, potV, descriptions |
| Conc | `Set/GetConcentrations`, conversions in all units, with and without H2O, `Get/SetIthConcentration`, density and saturation getters | cells of all workers in one list |
| Reactant | mixing, `add`, `multiply` of the six non-solution reactants | fields not read by these functions |
| Uz | `PartitionUZ` and its callers | exact arithmetic |
| Init | `CellInitialize`, `InitialXxx2Module`, the DELETE of the previous contents, `InitialPhreeqcCell2Module`, `CheckCells` | OpenMP build |
| SelOut | `CSelectedOutput` incl. codec, `RunCellsThread`'s rows, `GetSelectedOutput`, `CheckSelectedOutput`, choice of the current output and its headings | allocation succeeds |
| Find | the engine's lists, `FindComponents` | `get_elt` as the text before `(`; test runs are arbitrary answers |
| Settings | setters of units, modes, flags, times, properties; `ReturnHandler`; `GetTemperature/GetPressure` | cells in one list; BMI refresh |
| Files | `DumpModule`, `FileRename`, `SetDumpFileName`, dump ranges | the system's buffering; texts of reactants opaque |
| Lang | C and Fortran string interface | compilers' descriptors |
| Run | `RunFile`, `RunString`, `LoadDatabase`, error collection | a schedule is an order of instances: they share only the message log |
| Boundary | `InitialPhreeqc2(Species)Concentrations` | only solutions of the storage bin |
| Utility | `Concentrations2Utility` and its C wrapper | numbers rational; the solver's run of the utility instance is left out |
| Wrap | the RM_ and RMF_ functions with array arguments, the array helpers and checks of RM_interface.F90 | the methods behind them are parameters; wrappers with the same body are one definition with a table of sizes and tests; texts, callbacks and optional second arrays left out |
| Raw | `dump_raw`/`read_raw` of the seven kinds of reactants and of mixes, reactions, temperatures and pressures, `CParser` options and keywords, `Rxn_read_raw`, whole dump files | lines are lists of tokens; printing then reading a double is an arbitrary function; no `#`, `;`, backslash in names; finite doubles; `*_MODIFY` absent |
| Reload | `DumpModule` from the workers' reactants to the file (`phreeqc2cxxStorageBin`, `Set_*`, `Add_uz`, `Rxn_dump_raw_range`) and reading it back; joins Files and Raw | the constructors that join saturated and unsaturated parts are arbitrary; pieces are cut in lists of lines |
| Step | the RUN_CELLS text of `RunCellsThread` as numbers of six digits, `runner`, `run_as_cells` of the engine (times, steps, clock), `TOTAL_TIME`, column `time` | doubles are exact rationals; the characters of the number are not modelled, only its value; what a step does chemically; errors that stop a run |
| Inst | `IPhreeqc` as its caller sees it: `AccumulateLine`, `RunAccumulated`, `RunString`, `RunFile`, `LoadDatabase(String)`, `UnLoadDatabase`, `check_database`, `do_run`'s bookkeeping, `update_errors`, message hooks, `fpunchf` texts, `ListComponents`, string and line getters, string switches | what the engine does with an input is an arbitrary sequence of events and an end or a stop; files; the tables of selected output (topic SelOut); the two switches of `PHRQ_io` for output and log |
| Ids | the instances of a process and their ids: constructors and destructors of `IPhreeqc` and `IPhreeqcPhast`, `CreateIPhreeqc`, `DestroyIPhreeqc`, both `GetInstance`, `IPhreeqcPhastLib`, creation and destruction of the workers of a module, `RM_GetIPhreeqcId`; the locks around the three maps of instances, under any interleaving of threads | the contents of instances; ids of modules (topic Registry; here a module is named by the number of its creation); a throwing `new` inside a constructor of `IPhreeqc`; memory order of accesses outside of locks |
| BmiText | text, selected-output and flag variables of `VarManager`: sizes, types, initialisation; `GetValue`/`SetValue` on memory and texts; `RM_Bmi*` and `bmif_*` for them; grid functions | the module underneath is a record of what its getters return; numbers are any type with 8 bytes each; one array variable stands for the others; the Python builds absent |
| Auto | `GenerateAutoOutputVars`, `AddOutputVars`, `tokenize`, `GetValue` of the automatic variables | the definition text is taken at its meaning; names without blanks, quotes, semicolons |
| Gas | gas setters and getters, thread and MPI build | cells in one list; scatter of values in MPI |
| Yaml | recorder, C interface, `InitializeYAML`, instance store | yaml-cpp at its interface; `faithful` hypothesis for texts of doubles |
| Bmi | `VarManager`, `BMIPhreeqcRM` variables, pointers, time | the module underneath is a lawful parameter; text and selected-output variables are in BmiText, automatic ones in Auto; storage is reallocated whenever it grows |
| Mpi | `MpiWorker`'s dispatch and the root and worker half of every method: broadcasts, scatters, sends, gathers; `DumpModule`; sessions of calls | collectives synchronise, sends are buffered; error mode 2; the transfers inside rebalancing are one abstract move; Ith concentrations and BMI updates absent; a cell without solution has some value |
| Species | `SpeciesConcentrations2Module`, `GetSpeciesConcentrations`, `GetSpeciesLog10Gammas`, `GetSpeciesLog10Molalities`; `Get/SetIthSpeciesConcentration` and the staging in `RunCells` | the three getters are one definition, given the map they read; activities are not recomputed |
| Transfer | `Serialize`/`Deserialize` of all nine classes of reactants and their components, `Serializer`, the transfer part of `RebalanceLoad` and `RebalanceLoadPerCell` under MPI | doubles abstract, moved only; keys of `g_map` compared by a parameter; ints unbounded; packing and MPI messages as plain lists; pairs exchanged one after the other; `TransferCellsUZ` in UzMove |
| UzMove | the part of both `RebalanceLoad`s under MPI that moves `uz_bin`, `TransferCellsUZ`, `cxxStorageBin::dump_raw` of one number, `read_raw`, `Remove`, `Remove_Solution` | texts as the lines of Raw; the text arrives unchanged; `*_MODIFY` blocks, which no dump writes, are not read |
| Print | the output text of `RunCellsThread`, both builds of `RunCells` from there to the end, `HandleErrorsInternal`, `ErrorMessage`, `ReturnHandler` of a failure, the clearing of the error string by `PartitionUZ` and `GetConcentrations` | what PHREEQC prints and reports for a cell is a parameter that depends on the cell only; selected output and rebalancing left out; files open; MPI messages as plain text; `GetConcentrations` does not fail |
| Direct | for each call that the YAML recorder knows: what the recorder is given and which method is called, from C and from Fortran (texts, numbers, arrays) | an instance and pointers that exist; arrays of C have the number of elements passed; truth values for ints; what the methods do is a parameter (with the equation of `InitialPhreeqc2Module` without second arrays) |
| Delete | DELETE from the words of the block to the tables: `StorageBinListItem::Augment`, `StorageBinList::Read`, `TransferAll`, `read_delete`, `delete_entities`, when they happen in a simulation; the DELETE texts of PhreeqcRM | lines are lists of words (cut at `;` and ends of lines); `operator>>(int&)` as in libstdc++; what else an input does is a function of the tables that may stop |
| Copy | `cxxNumKeyword::read_number_description` (both readers in use), `Rxn_copies`, `Rxn_copy`, `Rxn_read_raw`, COPY from the words of its line to the tables: `read_copy`, `copier_add`, `copy_entities`, and when copying and deleting happen in a simulation | contents of entities opaque; which keyword a COPY line names has been found; `operator>>(int&)` as in libstdc++, `%d` of a number that is no int and a loop that never ends are undefined behaviour |
| Lists | the flags and the switch of all 26 `_Var` functions of `VarManager`, the lists of names and item counts of `BMIPhreeqcRM`, which calls of `SetValue`, `GetValue`, `GetValuePtr` and `GetVar...` are accepted, `RM_BmiGet...VarName`, `RMF_BMI_GetNames` and `bmif_get_..._var_names` | values, sizes and types (topics Bmi, BmiText, Auto); the Python builds; the checks particular overloads make first; a null pointer to an array without elements |
| Worker | the loop of `MpiWorker` with its `default` branch, `ErrorHandler` and the catch, `SetMpiWorkerCallbackC/Cookie/Fortran` | the methods of the module and the registered functions are arbitrary code on the state of the process; the communication inside of the methods is in Mpi; exit in `ReturnHandler` cannot occur here, as the loop ends with `IRM_OK` |
| Python | `GetBackwardMappingSWIG`, `GetSpeciesStoichiometrySWIG` and the Python functions of `swig/PhreeqcRM.i` that unpack their vectors, `GetIntVector` | the code that SWIG generates is taken from its documentation (new empty output vectors, what `push_back` accepts); `GetDoubleVector` and the wrappers that only call `np.array` are not modelled |
| Start | the constructors of `BMIPhreeqcRM`, `Initializer`, `BMIPhreeqcRM::Construct` and `Initialize` | the document is that of Yaml, the mapping that of Mapping; all else of the constructed instance is an arbitrary function of the mapping, and the calls of a document are arbitrary; OpenMP build with YAML |
| Modes | `SetErrorHandlerMode` over a program (both builds) and how `RunCells` ends in the mode reached | what RunCells writes is that of Print, ReturnHandler that of Settings; no other call changes the mode; the MPI build is taken to be without OpenMP; what a worker process of MPI does in mode 1 or 2 is not modelled here |
| Balance | the MPI build of `RebalanceLoad` and `RebalanceLoadPerCell` up to the broadcast of the new ranges, with the collection of the times of cells | measured and standard times are arbitrary; broadcasts and the moving of cells are those of Mpi and Transfer |

## Properties

| Id | How proved |
|---|---|
| C01 | refinement of registry histories to a map from ids; interleavings for the concurrent part |
| C02, C03 | equivalence of `CreateMapping`'s acceptance with a set-level predicate; frame lemma; witness |
| C04 | arithmetic on the split; partition predicate |
| C05, C06 | invariant of the split loop over any arithmetic; binary64 lemmas on truncated products (`FloatStep`) |
| C07 | pointwise reasoning on worker maps; witnesses |
| C08 | induction over interleavings, commutation of disjoint writes; cell-wise semantics |
| C09–C14 | field reasoning over `Qc`; characterisation of every position of the vectors |
| C15, C16 | invariants over histories of staged values |
| C17–C20, C48 | refinement to an abstract map of snapshots; invariant over all histories |
| C21, C52, C53 | conservation per element and kind, induction over steps; witnesses |
| C22, C23 | decision table of `CellInitialize` against a mixture specification; witnesses |
| C24–C27, C54, C55 | log of punches as specification; codec round trip; row index reasoning |
| C28–C30 | fold invariants over sorted lists; codec round trip |
| C31, C51, C56 | linearity, permutation invariance; witnesses for undiluted species and gammas |
| C32–C34, C57, C58 | sorted-set reasoning over histories; merging loop with termination; exact success condition |
| C35–C37, C59 | step functions and histories |
| C38, C60 | all crash prefixes of the operation list; exact content of the dump |
| C39, C40 | buffer reasoning for every number, length and text |
| C41, C64 | induction over documents; refinement of the recorder store |
| C42–C44 | invariant: memory behind each pointer given equals the getter's value |
| C45, C63 | map reasoning over cells |
| C46, C61 | case analysis for any number of workers and any order |
| C47, C62 | index reasoning + mixture specification |
| C49 | map laws |
| C50 | finite table of methods |
| C65–C68 | every call's programs terminate in step (induction over steps of the processes), relation `in_step` kept by each call, then by sessions |
| C69, C70 | decision table of the copying and checking loops; witnesses |
| C71, C72 | sums over sorted name lists; characterisation of every position of the vectors |
| C77 | key sets of tables and definitions over histories, on top of C26 |
| C78 | options read character by character into a relation of wanted variables; columns, headings and punches agree; on top of C26 |
| C79 | wrappers as functions of the caller's array; overlay and prefix are stated element by element; guards by enumeration of the functions |
| C80 | tables as extents and a list in array element order; positions of elements; composition with C10 and C02 |
| C81 | invariant of the variables' sizes over all histories; bytes of integers, numbers and padded names specified by position |
| C82 | composition of C81 with the C and Fortran functions; buffers with explicit contents |
| C83 | a grammar of raw blocks, one reader per reactant kind; reading what was written by induction over the fields |
| C84 | C83 for each block; induction over the blocks of a file, with the maps of the reading instance as state |
| C85 | composition of C83 with the division of cells, block loop of DumpModule and the file; induction over workers and blocks |
| C86 | the number of six digits nearest to a rational (bounds of the exponent search, half-even); induction over calls |
| C87 | induction over the steps left; field arithmetic in Qc |
| C88 | invariant over the events of a run (no lines, no unwanted text); fold over the defined selected outputs; induction over histories for the dump |
| C89 | invariant over histories: list current or marked for renewal |
| C90 | induction over histories with the part of the history that holds the lines to run; the part is unique |
| C91 | refinement: induction over the blocks of a dump, exchange of all texts of a block; confluence for the executions that never end |
| C92 | refinement between the maps and a table of owners; induction over histories with the instance that each id was given to |
| C93 | invariant: lock discipline of the programs and mutual exclusion; levels of locks for progress; explicit interleavings for the races |
| C94 | texts of a list of cells are the dump of a list of distinct reactants; invariant of the cells still to be sent, on relations instead of maps since reading is only determined up to `restored` |
| C95, C96 | induction over the cells of a worker; ranges of a valid distribution concatenate to all cells; what is said in a trace is a permutation of what the threads say |
| C97 | case analysis of each recorded call from both languages, composed with the reader and writer of C41 |
| C98, C99, C102 | induction over the lines of a block and the numbers of a range, against sets of numbers |
| C100, C101 | induction over the characters of a line; the table after a range, number by number |
| C103, C104 | invariant over histories of the flags of a variable; case analysis over the variables |
| C105 | induction over the tasks a worker receives, with arbitrary registered functions; registration over any list of calls |
| C106 | unpacking undoes packing, by induction over the rows with the position in the packed vectors |
| C107 | induction over the nodes of the document with the two counts found so far |
| C108 | induction over requests, composed with C96 for any distribution and order of threads |
| C109 | invariant over the processes of what was received; the induction of C06 over a list of parts; the steps of C05, with bounds on exponents for completion |
| C75 | amounts per set over the component list; witnesses |
| C76 | invariants over histories of staged species, on top of C16's |
| C73, C74 | reader undoes writer, composed member by member; invariant of the cells still to be sent over the list of pairs; printed pair keys are injective |

## Behaviour of the code that the proofs brought out

Each is a `..._refuted` theorem or part of a characterisation:

* `CleanupBMIModuleInstances` locks itself out; concurrent Destroy of one id may free twice (C01).
* A rejected `CreateMapping` has already overwritten mapping members (C03); an empty grid divides by zero (C04).
* All-zero times convert NaN to `int` (C05); fractions below 1/2 give empty or overlapping ranges (C06).
* Moving a cell drops its REACTION data; unsaturated-zone solids stay behind when partitioning is off (C07).
* With default settings (density/saturation from the solver) Set/GetConcentrations do not agree (C09).
* `GetDensityCalculated`/`GetSaturationCalculated` leave inactive cells at another value (C12).
* Gas phases created by setters are lost by `StateSave` except in cell 1 (C18).
* Saturation history is not part of a state (C20); slow changes of saturation are never applied (C53).
* Idle workers lose initial conditions (C22); second KINETICS numbers are looked up in another map (C23).
* A failing cell shifts the selected-output rows (C26) and stops the rows of its thread (C27).
* Words with line ends or too long do not survive the dictionary (C28).
* Redox merging counts an element twice or deletes it (C30); isotope ratios of mixtures (C31).
* Species and gammas absent from one part of a mixture are not diluted (C51, C56).
* Name lists: solid-solution names, SI names and surface names go wrong on repeated calls (C33, C34, C58).
* A crash while dumping loses the previous dump (C38).
* Name getters accept a number equal to the count (C39); padded strings may be unterminated (C40).
* YAML: order and missing arguments (C41); recorder numbers wrap (C64).
* BMI: pointers stale after `RunCells`, after exceptions and after `FindComponents` (C42); end time (C43); arrays of one cell (C44).
* MPI: `GetViscosity` is announced as another method (C50); remapping or applying a state leaves distributed vectors behind (C66); calls that hang (C67); lost errors (C68); gas phases (C63).
* `InitialPhreeqcCell2Module` copies without clearing and beyond the grid (C69); `CheckCells` names no cell (C70).
* `SpeciesConcentrations2Module` empties dry cells and reads short vectors past their end (C71); species getters never set the documented 1e30 (C72).
* `Concentrations2Utility`: mass fractions with H2O scale only the water by the density; it divides by zero before `FindComponents`; short vectors are read past their end (C75).
* The count of selected outputs is that of the last run's tables, their numbers those of the present definitions; any non-negative number can be made current (C77).
* Automatic output variables are never removed and the cached array is not cleared by FindComponents: stale variables show other columns or read out of bounds; without a table 333 every read is out of bounds; names are case-insensitive (C78).
* RM_GetPorosity, RM_GetPressure, RM_GetTemperature and RM_GetViscosity fail without filling the array; NULL is not tested everywhere; RM_GetSelectedOutput throws when no table is chosen (C79).
* Fortran tables with more rows than cells pass all checks and are filled and read with the wrong stride; unallocated tables are inquired; RM_GetBackwardMapping returns undefined numbers on failure (C80).
* BMI `ErrorString` is cut to the length it had at the last `FindComponents`; `SelectedOutputOn` has three different sizes, and setting it from C ignores the value (C81); Fortran `ErrorString`, spelling of `NthSelectedOutput`, grids in C and Fortran (C82).
* Times go to the engine with six digits: at ten million seconds a step of one second does not move `TOTAL_TIME`; steps with more digits drift (C86). `TOTAL_TIME` is 0 without kinetics, and the selected-output column `time` is unrelated to the time step under INCREMENTAL_REACTIONS (C87). `DumpModule` loses REACTION_PRESSURE (C85).
* After a stopped run the output, log and selected-output lines of an IPhreeqc instance are empty though the texts are not; failed `LoadDatabase`, `AccumulateLine` and `GetSelectedOutputValue` leave old error lines; `get_sel_out_string_on` ignores its argument, so the switch of the current number decides for all selected outputs (C88). A stopped run that defined something leaves the old list of components (C89).
* In the MPI build a failed write of the dump file makes the root leave DumpModule while the other processes wait at a barrier for ever (C91).
* The id that `RM_GetIPhreeqcId` gives is taken by `DestroyIPhreeqc`: the module then deletes its worker a second time; `CleanupIPhreeqcPhast` does this to the workers of all modules. A failed construction of a module leaves its workers registered for good. After 2^32 instances an id leads to another instance (C92).
* Modules made or destroyed by two threads race on `IPhreeqcPhast::PhastInstances`, which no lock protects there; `IPhreeqcPhastLib` changes it in `critical(IPhreeqcPhastLib)` and reads it in `critical(IPhreeqcLib)`; `PhreeqcRM::Destroy` searches the map of modules without its lock (C93).
* With `partition_uz_solids`, what a cell leaves behind when the water level falls moves between processes as text, not by `Serialize`: the silicon of a phase becomes its target index, lanthanum leaves an exchanger, and `TransferCellsUZ` never looks at the errors of the parser (C94).
* After a failed RunCells the error string never has the texts of PHREEQC: GetConcentrations, called at the end of RunCells, clears it (C96). `PartitionUZ` clears it too, in every thread, without the critical section of `ErrorMessage`. In mode 3 a failed cell is reported only in the output file, and only if it is printed; a failed cell that is not printed writes "GetOutputString: OutputStringOn not set." there (C95).
* Numbers and ranges in first lines: `2nd water`, `5- 7` and the like are read differently by the two readers; a descending range is its first number in a definition and something else in DELETE; the largest int overflows the loop over a range (C100, C101). A COPY range ending at -1 never ends (C102).
* The BMI lists depend on what was asked before (headings of selected output stay listed), and the BMI calls follow a null pointer before Initialize (C103, C104).
* `MpiWorker` returns IRM_OK whatever failed, and numbers 0 to 60 of a program never reach its function (C105).
* `GetSpeciesStoichiometrySWIG` adds to three of the four vectors that it is given (C106).
* A document with two grid cell counts gives one to `GetGridCellCountYAML` and mostly the other to Initialize (C107).
* Balancing by averages treats a time of zero differently in the two builds, and converts NaN to int if all are zero (C109).
* In mode 3 all cells may fail and RunCells returns IRM_OK without a trace; a refused mode sets mode 0 (C108).
* Dumps: an element named like an option is read as that option (silicon of a phase becomes its target saturation index, lanthanum of an exchanger is lost), fluorine is lost beside Fe redox states, isotopes and totals of exchangers and surfaces give errors, partial pressures are lost (C83).
* Species staged while saving is off are dropped silently; a run with saving off leaves an old vector to be reported later (C76).
* Cells moved between MPI processes lose `calc_DDL_viscosity`, `z_gMCD_map`, `viscos_0` and their REACTION_TEMPERATURE and REACTION_PRESSURE (C73).

## Not modelled

The chemical solver, the Basic interpreter, input parsing, database reading, console and file output
formatting, wall-clock times (arbitrary inputs), the MPI library and the operating system beyond the
interface described above.

Of `src/PhreeqcRM.cpp`, these are never called or never compiled, and left out: `Collapse2Nchem`, `Scale_solids`,
`SetEndCellsHeterogeneous`, `RunCellsThreadNoPrint`. Also left out are `TimeStandardTask` (its times are inputs of
the rebalancing), `MpiAbort` (the end of the program), `GetIPhreeqcPointer`, and the BMI questions about grids, which
answer with constants or the number of cells.

## Trusted base

* Coq 8.16.1's kernel (and `coqchk`, used by the check).
* The axioms that `Print Assumptions` prints under each theorem. All theorems are "Closed under the
  global context", except those that run or reason about binary64 numbers through Flocq:
  `rebalance_avg_partition`, `rebalance_avg_completes`, `rebalance_avg_zero_times_refuted`,
  `rebalance_avg_large_grid_refuted` (C05), `rebalance_cell_partition`,
  `rebalance_cell_empty_refuted`, `rebalance_cell_overlap_refuted` (C06), `b64_fractions_sound`
  (C08, C48), `balance_cell_partition`, `balance_avg_partition`, `balance_avg_completes`, `balance_zero_times_refuted`,
  `balance_avg_threads_refuted` (C109), `failed_step_distribution_refuted` (C08) and `state_replay_uz_refuted` (C20). These use
  four axioms of the standard library, on which its real numbers rest:
  `ClassicalDedekindReals.sig_forall_dec`, `ClassicalDedekindReals.sig_not_dec`,
  `FunctionalExtensionality.functional_extensionality_dep` and `Classical_Prop.classic`.
* The faithfulness of the hand transcription, whose source lines are cited at each definition.
