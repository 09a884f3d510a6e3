{"id": "C01", "title": "Instance ids are unique, never reused, and dead ids are rejected", "statement": "For any history of creations and destructions of reaction-module instances, every creation returns an id different from every id ever returned before; looking up an id returns exactly the instance created under that id while it is alive and nothing otherwise; destroying a live id succeeds and affects no other id; destroying an unknown, negative or already destroyed id reports IRM_BADINSTANCE and changes nothing. A BMI-only destroy or lookup never touches a plain instance.", "quantifier": "all finite sequences of create/destroy/cleanup/lookup calls, of either instance kind, with arbitrary integer ids", "why_tests_cant": "A test exercises a few create/destroy orders; uniqueness and isolation are statements about every history of calls.", "anchors": ["src/PhreeqcRM.h: StaticIndexer", "src/PhreeqcRM.cpp: CreateReactionModule, DestroyReactionModule", "src/BMIPhreeqcRM.cpp: CreateBMIModule, DestroyBMIModule, GetInstance, CleanupBMIModuleInstances"]}
{"id": "C02", "title": "A successful CreateMapping gives mutually consistent grid/chemistry mappings", "statement": "When CreateMapping(grid2chem) returns IRM_OK, the number of chemistry cells is one more than the largest entry, every chemistry cell number in 0..count-1 is represented, the list of grid cells reported for chemistry cell k by GetBackwardMapping is exactly the increasing list of grid cells i with grid2chem[i]=k, no grid cell appears twice, and grid cells with a negative entry belong to no chemistry cell. It returns IRM_OK exactly when the array has one entry per grid cell, its non-negative entries are exactly 0..max, and there are at least as many chemistry cells as threads.", "quantifier": "every integer array, every grid size and every thread count", "why_tests_cant": "The set of mapping arrays is infinite; acceptance must coincide exactly with the documented well-formedness condition.", "anchors": ["src/PhreeqcRM.cpp: CreateMapping", "src/PhreeqcRM.h: GetBackwardMapping, GetForwardMapping doc"]}
{"id": "C03", "title": "A rejected CreateMapping must leave the module usable", "statement": "If CreateMapping returns an error, the mapping, the number of chemistry cells and the distribution of cells over threads are what they were before. (True when the array has the wrong length; the model exhibits arrays of the right length that are rejected after the old mapping has been destroyed.)", "quantifier": "every module state and every rejected mapping array", "why_tests_cant": "Needs every error path; the damage shows only in later calls.", "anchors": ["src/PhreeqcRM.cpp: CreateMapping"]}
{"id": "C04", "title": "The initial distribution assigns every chemistry cell to exactly one thread", "statement": "After construction or a successful CreateMapping, the per-thread cell ranges reported by GetStartCell/GetEndCell are contiguous, in order, start at 0, end at count-1, no thread is empty, and the sizes of any two ranges differ by at most one.", "quantifier": "every number of cells and of threads with threads <= cells", "why_tests_cant": "All (cells, threads) pairs.", "anchors": ["src/PhreeqcRM.cpp: SetEndCells, Construct", "src/PhreeqcRM.h: GetStartCell, GetEndCell"]}
{"id": "C05", "title": "Rebalancing by thread averages keeps the distribution a partition", "statement": "With SetRebalanceByCell(false), any rebalance fraction f with 0 < f <= 1 and up to 2^26 cells, whenever RunCells has rebalanced, the thread ranges are again contiguous, ordered, non-empty and cover 0..count-1 exactly, whatever run times were measured; rebalancing completes when the times are zero or ordinary and not all zero. With f <= 0 nothing moves. The model exhibits that all-zero times convert NaN to int, and that above 2^29 cells rounding can leave a thread with an empty range.", "quantifier": "every valid distribution, every vector of measured times, every fraction in (0,1]", "why_tests_cant": "Measured times are nondeterministic; a test sees one timing.", "anchors": ["src/PhreeqcRM.cpp: RebalanceLoad"]}
{"id": "C06", "title": "Rebalancing by cell keeps the distribution a partition (and where it does not)", "statement": "With SetRebalanceByCell(true) and any fraction f with 1/2 <= f <= 1, after RunCells has rebalanced, the thread ranges are again contiguous, ordered, non-empty and cover 0..count-1 exactly, whatever per-cell times were measured. For fractions below 1/2, which the documentation allows, the model exhibits executions after which a thread has an empty or overlapping range.", "quantifier": "every valid distribution, every vector of per-cell times, every fraction", "why_tests_cant": "Measured times are nondeterministic; the failing fractions need particular timings.", "anchors": ["src/PhreeqcRM.cpp: RebalanceLoadPerCell, SetRebalanceFraction"]}
{"id": "C07", "title": "Rebalancing moves cells without changing their chemistry", "statement": "When RunCells moves cells between threads, every cell's solution, equilibrium phases, exchange, surface, gas phase, solid solutions and kinetics are found unchanged on the cell's new thread and nowhere else, so no API getter can observe the move. The same for MIX, REACTION, REACTION_TEMPERATURE and REACTION_PRESSURE data of a cell, which the documentation of the state functions treats as part of a cell, fails: they are lost.", "quantifier": "every distribution, every new distribution, every chemical content of every cell", "why_tests_cant": "Which cells move depends on timing; any reactant combination can be present.", "anchors": ["src/PhreeqcRM.cpp: RebalanceLoad, RebalanceLoadPerCell", "src/IPhreeqcPhast/IPhreeqc/phreeqcpp/structures.cpp: phreeqc2cxxStorageBin, cxxStorageBin2phreeqc", "src/IPhreeqcPhast/IPhreeqcPhast.cxx: Put_cell_in_storage_bin, Get_cell_from_storage_bin"]}
{"id": "C08", "title": "Results of a reaction step do not depend on thread scheduling or thread count", "statement": "Running the cells on any number of threads under any interleaving of the threads' cell computations gives each cell the result of running its chemistry alone and one selected-output row per cell in cell order, hence identical results for one thread and for many, provided the thread ranges are a partition; RunCells fails exactly if some cell fails. After a failure the claim is false: which other cells have reacted depends on the distribution over threads.", "quantifier": "every interleaving, every partition of the cells, every per-cell reaction function", "why_tests_cant": "Schedules are exponentially many and nondeterministic.", "anchors": ["src/PhreeqcRM.cpp: RunCells, RunCellsThread"]}
{"id": "C09", "title": "SetConcentrations followed by GetConcentrations returns the same concentrations (no H2O component)", "statement": "For each solution unit (mg/L, mol/L, mass fraction), with positive formula weights, porosity, saturation, representative volume and density, and with the user-specified volume and density in force, GetConcentrations after SetConcentrations returns for every active cell the H, O and charge concentrations that were set and, for other components, the value set, or 0 if it amounts to less than 1e-25 moles (negative values included). The model refutes the same for use_solution_density_volume, the default: amounts are computed from the user's volume and reported in the volume of the last calculation.", "quantifier": "every concentration vector, every cell property vector, every unit", "why_tests_cant": "All real-valued inputs; unit-conversion factors must cancel in every unit.", "anchors": ["src/PhreeqcRM.cpp: SetConcentrations, Concentrations2SolutionsNoH2O, cxxSolution2concentrationNoH2O, GetConcentrations"]}
{"id": "C10", "title": "SetConcentrations followed by GetConcentrations with an H2O component preserves elements and total H and O", "statement": "With component H2O the charge and the elements other than H and O round-trip as in C09 and the total hydrogen 2*H2O+H and total oxygen H2O+O round-trip exactly. The model refutes that the split between H2O and excess H, O does: it is re-derived from the mass of water.", "quantifier": "every concentration vector, every cell property vector, every unit", "why_tests_cant": "All real-valued inputs.", "anchors": ["src/PhreeqcRM.cpp: Concentrations2SolutionsH2O, cxxSolution2concentrationH2O"]}
{"id": "C11", "title": "Changing the solution unit rescales concentrations consistently", "statement": "For the same cell contents, the concentrations reported in mg/L, mol/L and mass fraction are related by the formula weight and the density: mg/L = mol/L * 1000 * gfw and kg/kgs = mg/L * 1e-6 / density, for every component. Conversely the same concentrations given in any two units leave the cells in the same state.", "quantifier": "every cell content and every positive volume, density, formula weight", "why_tests_cant": "All real-valued states.", "anchors": ["src/PhreeqcRM.cpp: cxxSolution2concentrationNoH2O, cxxSolution2concentrationH2O, SetUnitsSolution"]}
{"id": "C12", "title": "Inactive grid cells report the inactive value", "statement": "GetConcentrations sets every grid cell that belongs to no chemistry cell to the inactive value whatever the caller's vector contained. The documentation makes the same promise for GetDensityCalculated, GetSaturationCalculated and the species getters; the model shows that these keep whatever the caller's vector held when it already has the right size. The value delivered is the single-precision 1e30 converted to double, which differs from the documented 1e30.", "quantifier": "every mapping, every previous content of the output vector", "why_tests_cant": "The failure depends on the caller's previous buffer contents.", "anchors": ["src/PhreeqcRM.cpp: GetConcentrations, GetDensityCalculated, GetSaturationCalculated, GetSpeciesConcentrations", "src/IPhreeqcPhast/IPhreeqcPhast.h: INACTIVE_CELL_VALUE"]}
{"id": "C13", "title": "Grid cells that share a chemistry cell always report the same values", "statement": "After any GetConcentrations, two grid cells mapped to the same chemistry cell have equal concentrations for every component, and SetConcentrations reads the values of the lowest-numbered grid cell of each chemistry cell only.", "quantifier": "every mapping, every cell content", "why_tests_cant": "All many-to-one mappings.", "anchors": ["src/PhreeqcRM.cpp: GetConcentrations, SetConcentrations"]}
{"id": "C14", "title": "Data layout: value of component i in grid cell j is at index i*nxyz+j", "statement": "For all mappings and cell contents, element i*nxyz+j of the vector returned by GetConcentrations is the concentration of component i in grid cell j, and the same position of the vector given to SetConcentrations is what is stored for component i of the chemistry cell represented by j; no other position influences it.", "quantifier": "all sizes, mappings and contents", "why_tests_cant": "Index arithmetic must hold for all sizes.", "anchors": ["src/PhreeqcRM.cpp: GetConcentrations, SetConcentrations"]}
{"id": "C15", "title": "GetIthConcentration returns the concentrations of the last reaction step", "statement": "After RunCells, GetIthConcentration(i) equals column i of GetConcentrations until the next change of cell contents; an out-of-range component index returns IRM_INVALIDARG. The model shows that after a later SetConcentrations or StateApply GetIthConcentration and GetConcentrations disagree.", "quantifier": "every history of RunCells, SetConcentrations, StateApply and getters", "why_tests_cant": "Staleness depends on the order of calls.", "anchors": ["src/PhreeqcRM.cpp: GetIthConcentration, RunCells"]}
{"id": "C16", "title": "Setting concentrations component by component is all-or-nothing", "statement": "When every component has been supplied with SetIthConcentration (in any order, with repetitions) RunCells starts from exactly the same state as if SetConcentrations had been called with the assembled array holding the last value given for each component. If only some have been supplied RunCells raises an error before any cell is changed; if none, the concentrations are not touched. The bookkeeping is cleared afterwards.", "quantifier": "every order and multiplicity of SetIthConcentration calls, every number of components", "why_tests_cant": "All call orders and subsets.", "anchors": ["src/PhreeqcRM.cpp: SetIthConcentration, RunCells"]}
{"id": "C17", "title": "StateApply restores exactly what StateSave saved", "statement": "After StateSave(k), any sequence of operations that changes cell contents, distribution of cells over threads (including rebalancing) or other saved states, StateApply(k) returns IRM_OK and makes every cell's reactants, unsaturated-zone reactants and thread ranges equal to those at the save, provided each reactant is stored under its own number and the mapping was not changed in between. It can be repeated any number of times.", "quantifier": "every state, every intervening history, every state id", "why_tests_cant": "All histories between save and apply.", "anchors": ["src/PhreeqcRM.cpp: StateSave, StateApply", "src/IPhreeqcPhast/IPhreeqc/phreeqcpp/structures.cpp: phreeqc2cxxStorageBin(sb), cxxStorageBin2phreeqc(sb)", "src/IPhreeqcPhast/IPhreeqcPhast.h: IPhreeqcPhast::State"]}
{"id": "C18", "title": "Gas phases created by SetGasCompMoles or SetGasPhaseVolume survive StateSave/StateApply", "statement": "A gas phase created in a cell by SetGasCompMoles or SetGasPhaseVolume is still in that cell after StateSave and StateApply. The model refutes this: such gas phases carry the default number 1 and all of them are saved as the gas phase of cell 1.", "quantifier": "every cell other than cell 1", "why_tests_cant": "Needs the combination of two API families; the loss is silent.", "anchors": ["src/PhreeqcRM.cpp: SetGasCompMoles, SetGasPhaseVolume, StateSave, StateApply", "src/IPhreeqcPhast/IPhreeqc/phreeqcpp/structures.cpp: phreeqc2cxxStorageBin"]}
{"id": "C19", "title": "Unknown state ids are rejected without effect; states are independent", "statement": "StateApply and StateDelete of an id that was never saved or has been deleted return IRM_INVALIDARG and change nothing; saving, applying or deleting one id never changes what another id holds; saving an id twice keeps the later one.", "quantifier": "every history of StateSave/StateApply/StateDelete calls with arbitrary ids", "why_tests_cant": "All histories.", "anchors": ["src/PhreeqcRM.cpp: StateSave, StateApply, StateDelete"]}
{"id": "C20", "title": "Restoring a state makes the following steps repeat", "statement": "If two histories reach equal cell contents, running the same step gives the same result: RunCells after StateApply reproduces RunCells after StateSave. The model shows it fails with SetPartitionUZSolids(true), because the saturation history used for the partition is not part of the saved state.", "quantifier": "every cell content and saturation history", "why_tests_cant": "Needs a two-run comparison over all histories.", "anchors": ["src/PhreeqcRM.cpp: StateSave, StateApply, PartitionUZ"]}
{"id": "C21", "title": "Moving solids between saturated and unsaturated zones conserves mass", "statement": "With SetPartitionUZSolids(true), for any old and new saturation and any number of reaction steps, the amount of every exchanger, equilibrium phase, gas, solid-solution component, kinetic reactant and surface in the saturated plus the unsaturated zone of a cell is unchanged by the partition step, all amounts stay non-negative, a filled cell keeps nothing in the unsaturated zone, a dry cell keeps nothing in the saturated zone, other cells are untouched, and an evenly spread reactant keeps the share given by the saturation. This needs the reactant to be present in the saturated zone: the model shows that one present only in the unsaturated zone is destroyed when the cell fills, and that draining from a saturation above 1 leaves too little.", "quantifier": "every pair of saturations, every amount, every history of saturations", "why_tests_cant": "All real-valued saturation pairs, amounts and histories, including the branch boundaries.", "anchors": ["src/PhreeqcRM.cpp: PartitionUZ, RunCellsThread", "src/IPhreeqcPhast/IPhreeqc/phreeqcpp: mixing constructors and add/multiply of cxxExchange, cxxPPassemblage, cxxGasPhase, cxxSSassemblage, cxxKinetics, cxxSurface"]}
{"id": "C22", "title": "Initial conditions are mixed and scaled as documented", "statement": "After a successful InitialPhreeqc2Module every cell holds, in the worker that owns it, fraction1 times the first requested definition plus (1-fraction1) times the second (fraction1 of the first alone when the second number is negative): solutions scaled by volume so that two solutions fill porosity*saturation*volume, other reactants by the volume, porosity*volume or (1-porosity)*volume according to the unit; a negative first number leaves that kind of reactant of the cell as it was, other cells and workers are untouched, and the seven one-kind versions change only their kind. Temperature, pH and the like are averages by water mass. The model shows the exception: with fewer chemistry cells than workers the empty range makes the DELETE remove everything worker 0 holds, so the call succeeds and the cells of worker 0 are empty.", "quantifier": "every initial-condition array, fraction, porosity, saturation, representative volume, unit choice, worker count", "why_tests_cant": "All arrays and real parameters.", "anchors": ["src/PhreeqcRM.cpp: CellInitialize, InitialPhreeqc2Module, InitialSolutions2Module", "phreeqcpp/StorageBinList.cpp"]}
{"id": "C23", "title": "Missing reactants in initial conditions are reported", "statement": "With vectors of full size InitialPhreeqc2Module never reads out of range and succeeds exactly when every active cell has nonnegative porosity and volume and refers only to defined numbers; otherwise it fails, its messages name exactly the missing numbers, and workers other than 0 keep their contents; a vector of wrong size is refused and changes nothing. The model shows the exceptions: the second KINETICS number is looked up among the solid solutions, so a missing one is accepted and a present one rejected; an empty second or fraction vector passes the size check and is then read; a failed call leaves new contents in worker 0.", "quantifier": "every initial-condition array and every set of defined reactants", "why_tests_cant": "All combinations of definitions and references.", "anchors": ["src/PhreeqcRM.cpp: CellInitialize, InitialPhreeqc2Module"]}
{"id": "C24", "title": "Selected-output tables stay rectangular", "statement": "Whatever sequence of values is punched and rows ended, every column of a selected-output table has the same number of values, a value punched under a heading appears in that column and current row, later values overwrite earlier ones of the same row, headings never change position and values missing in a row are empty.", "quantifier": "every sequence of PushBack and EndRow with arbitrary headings", "why_tests_cant": "All interleavings of new headings and row ends.", "anchors": ["src/IPhreeqcPhast/IPhreeqc/CSelectedOutput.cpp: PushBack, EndRow, Get, GetRowCount, GetColCount"]}
{"id": "C25", "title": "A selected-output row survives the transfer encoding", "statement": "Encoding a row with Serialize and decoding it into another table with DeSerialize appends one row holding the same value (integer, double, string, empty, error) under every heading of the row; headings the row lacks are empty, earlier rows and headings keep their values and positions, and an empty table gets the headings in the same order.", "quantifier": "every table, row, heading and value, and every receiving table", "why_tests_cant": "All type combinations and string contents, and all histories of the two tables.", "anchors": ["src/IPhreeqcPhast/IPhreeqc/CSelectedOutput.cpp: Serialize, DeSerialize"]}
{"id": "C26", "title": "GetSelectedOutput assigns each cell its own row independently of the thread count", "statement": "After a RunCells in which every cell of every thread reacted or was dry, column-major position c*nxyz+j of GetSelectedOutput holds the number that the chemistry cell of grid cell j punched under heading c (1e30 for a string, an empty or an error), for every mapping and every split of the cells over threads, so any two splits give equal vectors. It does not hold after a failed RunCells: rows of later threads are given to the wrong cells although the call returns IRM_OK. Grid cells without chemistry keep what the caller's vector held instead of 1e30. A thread with fewer columns than worker 0 is read out of bounds.", "quantifier": "every mapping, split, table content and pattern of dry cells", "why_tests_cant": "All partitions and mappings.", "anchors": ["src/PhreeqcRM.cpp: GetSelectedOutput, RunCellsThread", "src/IPhreeqcPhast/IPhreeqc/CSelectedOutput.cpp: Doublize"]}
{"id": "C27", "title": "RunCells records exactly one selected-output row per chemistry cell", "statement": "Whatever subset of the thread's cells is dry, and for every definition whose headings the dummy run produced, the thread's table has exactly one row for each cell up to the first failing one, in cell order; each row holds what the cell punched first under each heading and is empty for dry cells; the thread succeeds exactly when no cell fails. A failing cell leaves all later cells of the thread without rows, and a definition without headings in the dummy run loses the rows of leading dry cells.", "quantifier": "every pattern of active, dry and failing cells, every definition and punched table", "why_tests_cant": "2^n activity patterns.", "anchors": ["src/PhreeqcRM.cpp: RunCellsThread"]}
{"id": "C28", "title": "Transfer encoding of element lists and words is loss-free", "statement": "Encoding a list of names and amounts with the word dictionary and decoding it gives the same list, for every list without an empty name; dictionary indices are stable, dense and injective for every sequence of lookups, and a dictionary rebuilt from its word string is the same dictionary provided no word contains a newline or is longer than the line buffer.", "quantifier": "every list of names and values; every lookup sequence", "why_tests_cant": "All contents and orders.", "anchors": ["src/IPhreeqcPhast/IPhreeqc/phreeqcpp/Dictionary.cpp", "src/IPhreeqcPhast/IPhreeqc/phreeqcpp/NameDouble.cxx: Serialize, Deserialize"]}
{"id": "C29", "title": "Collapsing redox states conserves every element", "statement": "Simplify_redox turns totals given by valence state into totals by element such that each element's total is the sum over its valence states and the previous bare total, each element appears once, and elements not involved keep their amount.", "quantifier": "every total list with well-formed element names", "why_tests_cant": "All combinations of valence states.", "anchors": ["src/IPhreeqcPhast/IPhreeqc/phreeqcpp/NameDouble.cxx: Simplify_redox"]}
{"id": "C30", "title": "Redefining a total replaces the element's older totals", "statement": "When a solution is modified by giving totals, giving a bare element removes its valence states, so no element is counted twice. The model refutes the converse: giving a total for a valence state never removes the bare total of its element (the name is computed one character too short), so the element is counted twice; instead it deletes the element whose name is one letter shorter (Fe(2) deletes F).", "quantifier": "every pair of total lists", "why_tests_cant": "All names.", "anchors": ["src/IPhreeqcPhast/IPhreeqc/phreeqcpp/NameDouble.cxx: merge_redox", "src/IPhreeqcPhast/IPhreeqc/phreeqcpp/Solution.cxx: read_raw"]}
{"id": "C31", "title": "Mixing solutions conserves mass and averages intensive properties", "statement": "The mixture of any list of solutions with non-negative factors has each total, total H, total O, charge balance, mass of water and volume equal to the factor-weighted sum of the parts, in whatever order they are added, and temperature, pH, pe and ionic strength are weighted means that lie between the smallest and largest of the parts. Isotope ratios violate it: mixing a solution with itself changes its ratio.", "quantifier": "every list of solutions and factors", "why_tests_cant": "All lists, factors and orders.", "anchors": ["src/IPhreeqcPhast/IPhreeqc/phreeqcpp/Solution.cxx: cxxSolution(mix), add, multiply, Add_isotopes"]}
{"id": "C32", "title": "The component list is complete, sorted, duplicate-free and stable", "statement": "After FindComponents the list starts with H2O (if selected), H, O, Charge followed by every other element with a primary aqueous master species held by any initial reactant, once, in alphabetical order; calling it again without new definitions changes neither names nor formula weights; with new definitions no component disappears. The model shows one limit: an element that occurs only in gas or solid-solution components of zero amount is not listed.", "quantifier": "every history of definitions and FindComponents calls with a fixed H2O choice", "why_tests_cant": "Tests call FindComponents once on one input file; they cannot cover every combination of reactants or every sequence of calls.", "anchors": ["src/PhreeqcRM.cpp:2824-2900", "src/IPhreeqcPhast/IPhreeqc/phreeqcpp/Phreeqc.cpp:79-196"]}
{"id": "C33", "title": "Auxiliary name lists returned after FindComponents are consistent", "statement": "After a successful call the lists of equilibrium phases, gas components and kinetic reactions are the sorted unions of what was listed before and what the engine lists; exchange and surface species stand beside the site or surface type that produced them; solid-solution components that are new stand beside their own solid solution. The model refutes the rest of the expectation: the saturation-index list repeats every phase on each call, a new solid-solution component met after a known one gets the wrong name, and a surface type used by two surfaces keeps one name.", "quantifier": "every engine answer, every previous content of the lists, every number of calls", "why_tests_cant": "Each defect needs a second call or an unusual definition; the tests call once.", "anchors": ["src/PhreeqcRM.cpp:2901-3256"]}
{"id": "C34", "title": "Changing the H2O choice between FindComponents calls keeps the list well formed", "statement": "After SetComponentH2O changes the choice and FindComponents is called again, the list is the one a fresh module would produce. The model refutes it and says what happens instead: choosing H2O later forgets the first variable component unless the engine lists it again, and giving it up later always lists Charge twice.", "quantifier": "every component list, every engine answer, both directions", "why_tests_cant": "No test changes the choice after FindComponents.", "anchors": ["src/PhreeqcRM.cpp:2847-2887", "src/PhreeqcRM.cpp:11046-11070"]}
{"id": "C35", "title": "Unit and mode setters reject invalid options without effect", "statement": "Each SetUnits... function accepts exactly its documented options and returns IRM_INVALIDARG leaving the unit unchanged otherwise, so after any history every unit is one of the documented options. SetErrorHandlerMode with an undocumented mode reports IRM_INVALIDARG but, as the model shows, resets the mode to 0.", "quantifier": "all integers, all histories of setter calls", "why_tests_cant": "All integers and histories.", "anchors": ["src/PhreeqcRM.cpp: SetUnitsSolution, SetUnitsPPassemblage, SetUnitsExchange, SetUnitsSurface, SetUnitsGasPhase, SetUnitsSSassemblage, SetUnitsKinetics, SetErrorHandlerMode"]}
{"id": "C36", "title": "Per-cell property setters are all-or-nothing", "statement": "SetPorosity, SetSaturationUser, SetRepresentativeVolume, SetDensityUser, SetTemperature, SetPressure and SetPrintChemistryMask given fewer values than grid cells return an error and change nothing; otherwise value j becomes the property of grid cell j for every j and no other property changes.", "quantifier": "every vector length, every value, every history", "why_tests_cant": "All lengths.", "anchors": ["src/PhreeqcRM.cpp: SetGeneric, SetPorosity, SetSaturationUser, SetRepresentativeVolume, SetDensityUser, SetTemperature, SetPressure, SetPrintChemistryMask"]}
{"id": "C37", "title": "Error handling follows the selected mode", "statement": "In mode 0 a failing call returns its negative code, in mode 1 it raises, in mode 2 the process exits; successful calls return in every mode. The exception: RunCells with a partial SetIthConcentration set raises in every mode.", "quantifier": "every mode and every result code", "why_tests_cant": "All combinations of modes and failures along every history.", "anchors": ["src/PhreeqcRM.cpp: ReturnHandler, SetErrorHandlerMode, RunCells"]}
{"id": "C38", "title": "What a crash leaves of the dump file", "statement": "FileRename, whichever of its remove and rename calls fail and wherever the process dies, leaves the previous text under its own or the backup name or the new one under the name, provided the three names differ. DumpModule does not use it: appending keeps the previous dump as a prefix of the file at every moment, but writing anew truncates the previous dump before the first byte of the new one is written, so that a crash can lose both. DumpModule returns IRM_OK exactly when every write worked, and the file then holds the whole text.", "quantifier": "every crash point, every pattern of failing operations, every initial combination of files, all texts", "why_tests_cant": "Crash points and failing file operations cannot be hit reliably by tests.", "anchors": ["src/PhreeqcRM.cpp: FileRename, DumpModule"]}
{"id": "C39", "title": "C and Fortran name getters stay in bounds", "statement": "Each name getter delivers the name for a number of its list and refuses any other number without touching the buffer. This holds for the Fortran getters, for RM_GetComponent and for RM_GetSpeciesName; the other eleven C getters accept the number of names itself and read past the end of the vector, whatever it holds. RM_GetSpeciesName accepts a negative length and then overruns every buffer.", "quantifier": "every getter, every num, every list, every buffer and length", "why_tests_cant": "All integers; reading one past the end is often invisible to tests.", "anchors": ["src/RM_interface_C.cpp: RM_GetComponent, RM_GetExchangeSpeciesName, RM_GetExchangeName, RM_GetSurfaceSpeciesName, RM_GetSurfaceType, RM_GetSurfaceName, RM_GetEquilibriumPhasesName, RM_GetGasComponentsName, RM_GetKineticReactionsName, RM_GetSolidSolutionComponentsName, RM_GetSolidSolutionName, RM_GetSIName, RM_GetSpeciesName", "src/RM_interface_F.cpp"]}
{"id": "C40", "title": "String results are delivered within the caller's buffer", "statement": "Fortran string results fill exactly the stated length, blank padded or truncated, and TRIM gives the text back when it fits; packed name lists can be taken apart again. C results of rmpadfstring are always terminated within the stated length and whole when IRM_OK is returned, but a text that fits exactly is reported as an invalid argument and a negative length overruns the buffer. C names copied by strncpy are whole when shorter than the length; when as long as the length or longer they are delivered with IRM_OK, cut and without terminator. The error string is whole with one character more than RM_GetErrorStringLength.", "quantifier": "every string and every buffer length", "why_tests_cant": "All lengths around the boundary.", "anchors": ["src/RM_interface_C.cpp: rmpadfstring, RM_GetComponent, RM_GetErrorString", "src/RM_interface_F.cpp: rmpadfstring", "src/BMI_interface_F.cpp: RMF_BMI_GetNames"]}
{"id": "C41", "title": "YAML record and replay", "statement": "For every sequence of recorded calls other than LogMessage and SetNthSelectedOutput, InitializeYAML on the recorded document does what making the calls directly, in order and with the same arguments, would do, wherever one of them throws; GetGridCellCountYAML finds the first recorded count, or 0. The model shows that LogMessage and SetNthSelectedOutput can be recorded but make the replay throw, that field names are ignored, that fields in another order are taken for each other, and that a missing field is read past the end of its map.", "quantifier": "every sequence of calls of the 65 recorder methods, every argument, every behaviour of the called methods", "why_tests_cant": "All sequences and arguments; a test records a few methods.", "anchors": ["src/YAMLPhreeqcRM.cpp", "src/PhreeqcRM.cpp: InitializeYAML, GetGridCellCountYAML"]}
{"id": "C42", "title": "BMI pointers stay current", "statement": "After FindComponents, through any history of GetValue, SetValue, GetValuePtr, direct setters, Update and UpdateUntil calls that does not throw, the memory obtained from GetValuePtr shows what the corresponding getter returns, and every variable with a getter has a pointer. The model delimits this: pointers are stale after RunCells called directly, after a setter that follows a refused GetValue on a write-only variable (CurrentVar stays set), after FindComponents called again (dangling when there are more components), and for temperatures of cells that share a solution.", "quantifier": "every lawful module underneath, every history of BMI calls", "why_tests_cant": "All histories.", "anchors": ["src/VarManager.cpp", "src/BMIPhreeqcRM.cpp: UpdateVariables, UpdateBMI, SetValue, GetValuePtr, GenerateAutoOutputVars"]}
{"id": "C43", "title": "BMI time advances consistently", "statement": "Update advances the time by exactly one time step, to what GetEndTime announced; UpdateUntil(t) ends at time t when t is not in the past, performing one reaction step of length t - now, and does nothing when t is in the past; time never decreases under any history that does not set the clock back when time steps are non-negative. The reactions of a step, however, start at now - step instead of now, because RunCells takes the time of the module for the end of the step and Update sets it only afterwards; and RM_BmiGetEndTime of C returns the current time.", "quantifier": "every history of BMI calls", "why_tests_cant": "All histories.", "anchors": ["src/BMIPhreeqcRM.cpp: Update, UpdateUntil, GetCurrentTime, GetEndTime", "src/PhreeqcRM.cpp: RunCellsThread -start_time", "src/RM_interface_C.cpp: RM_BmiGetEndTime"]}
{"id": "C44", "title": "BMI array access works for any grid size", "statement": "GetValue into a vector delivers the values of an array of any size, and into a caller's memory those of a scalar or of an array of more than one element; SetValue of a vector of the right size reaches the module unchanged and one of the wrong size does nothing; SetValue from a caller's memory reaches the module for scalars and arrays of more than one element. The model shows that for a grid of one cell reading into memory delivers an unrelated scalar and setting from memory sets what the last call left in the exchange buffer, and that setting porosity before FindComponents writes the concentrations past the end of an empty buffer.", "quantifier": "every grid size, every value, every history before", "why_tests_cant": "Degenerate sizes and orders of first use.", "anchors": ["src/BMIPhreeqcRM.cpp: GetValue, SetValue", "src/VarManager.cpp: Porosity_Var", "src/BMIVariant.h: SetDoubleVector"]}
{"id": "C45", "title": "Setting and getting gas moles and volumes", "statement": "For every cell in the chemistry and listed component, SetGasCompMoles gives it the moles of the cell's first grid cell, adds it if new, removes it if they are negative, leaves unlisted components and the rest of the gas phase alone, and removes a gas phase left empty; the getters then return the moles set (or -1) in every grid cell that shares the chemistry cell, and 1e30 in grid cells outside the chemistry. SetGasPhaseVolume and GetGasPhaseVolume agree in the same way. This needs component names that differ and no component twice in a gas phase; the model shows a counterexample without, that 1e30 here is not the inactive value of the other getters, and that a short vector is read out of bounds.", "quantifier": "every mapping, every component list, every input vector, every previous gas content", "why_tests_cant": "All combinations of present, absent, new and removed components.", "anchors": ["src/PhreeqcRM.cpp: SetGasCompMoles, GetGasCompMoles, SetGasPhaseVolume, GetGasPhaseVolume", "src/IPhreeqcPhast/IPhreeqc/phreeqcpp/GasPhase.cxx"]}
{"id": "C46", "title": "RunFile and RunString run on exactly the selected instances and report any failure", "statement": "The input is run on all workers iff the first flag is set, on InitialPhreeqc iff the second is, on Utility iff the third is, each instance once from its own state whatever the order in which threads take them; the call returns IRM_OK iff every selected instance succeeded; the error text of every failed instance is written, and the output text of exactly those that succeeded and have printing on. In the MPI build only the workers' results are gathered: failures of InitialPhreeqc and Utility are never reported.", "quantifier": "every flag combination, thread count, engine, order of threads and failure pattern", "why_tests_cant": "All failure patterns and schedules.", "anchors": ["src/PhreeqcRM.cpp: RunFile, RunString, RunFileThread, RunStringThread, HandleErrorsInternal"]}
{"id": "C47", "title": "Boundary concentrations mix two initial solutions", "statement": "InitialPhreeqc2Concentrations returns for boundary i and component k, at position k*n+i, the concentration of the mixture of the two requested solutions with the given fraction (moles and volumes weighted by fraction, density averaged by mass of water), of the single one when no second is given (whatever its fraction), and of the highest-numbered solution when the number is negative; an empty list fails and leaves the caller's vector alone. The model shows that an undefined solution is never reported: every non-empty request returns success. A missing first solution yields the undiluted second one; when nothing asked for exists, also when a negative number means a MIX that was not kept as a solution, the mixture has volume zero and the result is a division by zero; a negative number with nothing defined yields the default water.", "quantifier": "every request vector and every set of solutions", "why_tests_cant": "All vectors.", "anchors": ["src/PhreeqcRM.cpp: InitialPhreeqc2Concentrations"]}
{"id": "C48", "title": "After any history the module's distribution and contents stay well formed", "statement": "After any sequence of successful API calls (initial conditions, changes of reactants in place, reaction steps with rebalancing at fractions 1/2..1 by cell or (0,1] by averages, state save/apply/delete), thread ranges partition the cells, each cell's reactants live on the thread owning the cell and only there, and saved states have the same property; hence every getter finds every active cell. It fails after an InitialPhreeqc2Module that reports an error and after a second CreateMapping.", "quantifier": "all finite histories of API calls, all timings", "why_tests_cant": "Histories and timings are unbounded.", "anchors": ["src/PhreeqcRM.cpp: CreateMapping, InitialPhreeqc2Module, SetConcentrations, RunCells, RebalanceLoad, RebalanceLoadPerCell, StateSave, StateApply, StateDelete"]}
{"id": "C49", "title": "Cell bins behave as independent slots", "statement": "In a storage bin, copying cell a to b makes b equal to a for all reactant types and leaves every other cell alone; removing a cell removes all its reactants and no others; storing an entity under n makes it retrievable under n and numbered n.", "quantifier": "every bin content and every sequence of copy/remove/store", "why_tests_cant": "All histories.", "anchors": ["src/IPhreeqcPhast/IPhreeqc/phreeqcpp/StorageBin.cxx"]}
{"id": "C50", "title": "MPI: the announced method is the performed one", "statement": "For every public method that is collective in the MPI build, the method number the root announces is the one the workers then perform, and no two methods share a number. The model shows that GetViscosity breaks this: it announces GetSolutionVolume, so in every execution the other processes answer with solution volumes.", "quantifier": "all 61 collective methods; all executions of the MPI session", "why_tests_cant": "A test compares results of the methods it calls with one number of processes; the single-process run never shows the mismatch.", "anchors": ["src/PhreeqcRM.h:61", "src/PhreeqcRM.cpp:5363", "src/PhreeqcRM.cpp:7015"]}
{"id": "C51", "title": "Species concentrations of a mixture", "statement": "When solutions that all list a species are mixed, its concentration in the mixture is the average of the parts' concentrations weighted by their mass of water. The model refutes that the same holds for a species only some parts list: its concentration is kept undiluted.", "quantifier": "every list of solutions and positive fractions", "why_tests_cant": "Quantifies over all species lists and all fractions; the undiluted case needs parts with different species sets.", "anchors": ["src/IPhreeqcPhast/IPhreeqc/phreeqcpp/Solution.cxx: add", "src/PhreeqcRM.cpp: InitialPhreeqc2SpeciesConcentrations"]}
{"id": "C52", "title": "Partitioning changes the pressure of a gas phase", "statement": "Draining and refilling a cell without any reaction should give back its gas phase. The model refutes this: the mixing constructor divides by the sum of all fractions although the unsaturated part may not exist, so the prescribed pressure of a fixed-pressure gas phase of 1 becomes 2/3 after draining to one half and refilling, with the moles back to the original.", "quantifier": "a concrete history refutes the claim; the amounts are conserved for every history (C21)", "why_tests_cant": "Needs the exact pressure after a cycle of saturations with partitioning on; no test covers it.", "anchors": ["src/PhreeqcRM.cpp: PartitionUZ", "src/IPhreeqcPhast/IPhreeqc/phreeqcpp/GasPhase.cxx: mixing constructor"]}
{"id": "C53", "title": "Slow changes of saturation are never applied to the solids", "statement": "After any history of saturations the solids should be divided according to the current saturation. The model refutes this: a change below 1e-8 is skipped, but RunCells then records the new saturation as the old one, so a cell can drain from 1 to 1/2 in small steps with all solids still in the saturated zone.", "quantifier": "every content of the cell, a history of 10^8 steps", "why_tests_cant": "The history is too long to execute; the proof is by induction on the number of steps.", "anchors": ["src/PhreeqcRM.cpp: PartitionUZ 7558, RunCells 9896-9899"]}
{"id": "C54", "title": "RunCells and the current selected output", "statement": "RunCells leaves the current selected-output number of worker 0 at the largest defined number when selected output is on (and alone when it is off); so with one definition the caller's choice survives, with two or more it is silently replaced.", "quantifier": "every set of selected-output definitions and every current number", "why_tests_cant": "Depends on the set of definitions and the order of calls; tests always select again before reading.", "anchors": ["src/PhreeqcRM.cpp: RunCellsThread (10285), GetSelectedOutput"]}
{"id": "C55", "title": "CheckSelectedOutput compares only row totals in the thread build", "statement": "In the thread build CheckSelectedOutput accepts whenever the rows of each of worker 0's definitions add up to the number of chemistry cells, whatever the headings, since its comparisons of definitions, columns and headings run over mpi_tasks, which is 1; threads with different headings are accepted.", "quantifier": "every set of worker tables", "why_tests_cant": "The check is itself the test; no run makes threads differ.", "anchors": ["src/PhreeqcRM.cpp: CheckSelectedOutput"]}
{"id": "C56", "title": "Activity coefficients of a mixture", "statement": "When solutions are mixed with positive factors, the log activity coefficient of a species listed in every part is the mean of the parts' values weighted by mass of water. A species listed in only some parts has no such rule: added first it keeps its full value, added later it is scaled by the water fraction, so the result depends on the order of the parts.", "quantifier": "for all lists of parts with positive factors and positive water, and all species names listed in every part", "why_tests_cant": "Test runs mix a fixed pair of solutions that list the same species, so neither the weighting over any number of parts nor the order dependence for species missing from a part is exercised.", "anchors": ["/repo/src/IPhreeqcPhast/IPhreeqc/phreeqcpp/Solution.cxx:1411-1484", "/repo/src/IPhreeqcPhast/IPhreeqc/phreeqcpp/NameDouble.cxx:222-243"]}
{"id": "C57", "title": "Solid solutions that share components are merged into disjoint groups", "statement": "The engine's solid-solution list names every component of every solid solution exactly once; components connected through a chain of solid solutions sharing components carry the same name, which is the name of a solid solution of that group; the merging loop terminates.", "quantifier": "every number of solid solutions, every set of components", "why_tests_cant": "The merging loop's behaviour depends on the overlap pattern of arbitrarily many sets.", "anchors": ["src/IPhreeqcPhast/IPhreeqc/phreeqcpp/Phreeqc.cpp:286-362"]}
{"id": "C58", "title": "A failing FindComponents leaves the lists as they were", "statement": "If a test run inside FindComponents fails the call reports failure; if the first one fails, only the component names and weights have changed. The model refutes that nothing changes: the component list is replaced before the first test run, and a failing surface or exchange run leaves the species lists emptied, so that types known before are forgotten by later calls too.", "quantifier": "every engine answer and every previous content of the lists", "why_tests_cant": "Failures of the hidden test runs are not triggered by tests.", "anchors": ["src/PhreeqcRM.cpp:2888-3133"]}
{"id": "C59", "title": "GetTemperature and GetPressure report the solutions", "statement": "Each returns for every grid cell the value of the solution of its chemistry cell. The model shows what happens elsewhere: grid cells without chemistry (or without solution) report the value last set instead of the inactive value, and asking overwrites the stored vector, so values set for further grid cells of a chemistry cell are lost.", "quantifier": "every mapping, every content of the cells, every stored vector", "why_tests_cant": "Tests use grids in which every cell is active and uniform.", "anchors": ["src/PhreeqcRM.cpp:4385-4422", "src/PhreeqcRM.cpp:5279-5317"]}
{"id": "C60", "title": "A dump holds every reactant exactly once", "statement": "For any division of the cells among workers and any block size the dump looks at every kind of reactant of every cell of every worker exactly once, in the order block, worker, kind, cell, and the pieces of at most 4094 characters that are written make up exactly that text; reaction pressures are never dumped. SetDumpFileName always leaves a non-empty name, but reports an invalid argument for an empty one although it uses the default.", "quantifier": "all numbers of workers, cell ranges, block sizes, texts", "why_tests_cant": "A block is 10000 cells; small grids never reach the second block.", "anchors": ["src/PhreeqcRM.cpp: DumpModule, SetDumpFileName", "src/IPhreeqcPhast/IPhreeqc/phreeqcpp/StorageBin.cxx: dump_raw_range"]}
{"id": "C61", "title": "LoadDatabase loads into every instance and reports any failure", "statement": "LoadDatabase gives the database to every instance, and returns IRM_OK iff the name is not empty and every instance loaded it; with an empty name nothing is loaded.", "quantifier": "every number of instances and failure pattern", "why_tests_cant": "All failure patterns.", "anchors": ["src/PhreeqcRM.cpp: LoadDatabase, SetDatabaseFileName, HandleErrorsInternal"]}
{"id": "C62", "title": "Boundary species concentrations of mixed initial solutions", "statement": "InitialPhreeqc2SpeciesConcentrations returns, for each boundary condition, in the place of each species that all mixed solutions list, the average by mass of water, and 0 in the places of species none of them lists, provided every species number of the solutions is in the species table. It reports success exactly when there is at least one boundary condition and one species, and otherwise reports failure and leaves the destination alone. The model shows that a species number missing from the table overwrites the first species.", "quantifier": "every request vector, every set of solutions, every species table", "why_tests_cant": "All vectors and tables; the overwriting needs a species table older than the solutions.", "anchors": ["src/PhreeqcRM.cpp: InitialPhreeqc2SpeciesConcentrations", "src/IPhreeqcPhast/IPhreeqc/phreeqcpp/Solution.cxx: add"]}
{"id": "C63", "title": "Gas phases set in the MPI build", "statement": "In the MPI build SetGasCompMoles does to a cell what the threaded build does, on rank 0 always and on other ranks when the cell keeps a gas phase it had. The model shows that on ranks 1 and 2 a new gas phase goes to the InitialPhreeqc or Utility instance and the cell gets none, that rank 3 and later store past the end of the instances, and that on rank 1 an emptied gas phase stays while InitialPhreeqc's own definition of that number is erased.", "quantifier": "every rank, cell, component list, row of values and content of the instances", "why_tests_cant": "Needs MPI runs with several ranks and cells whose gas phase appears or vanishes.", "anchors": ["src/PhreeqcRM.cpp: SetGasCompMoles"]}
{"id": "C64", "title": "YAML recorders do not interfere", "statement": "After every history of creating, destroying, clearing and recording through the C interface with fewer than 2^31 creations, the document under a number is the record of the calls addressed to it since its recorder was created or last cleared; creation answers a new number; a request for a recorder that does not live answers IRM_BADINSTANCE and changes nothing. The model shows that recorder number 2^31 answers a number under which it cannot be found.", "quantifier": "every history of requests", "why_tests_cant": "Unbounded histories; 2^31 creations are out of reach of a test.", "anchors": ["src/YAMLPhreeqcRM.cpp: constructor, destructor, YAMLPhreeqcRMLib", "src/YAML_interface_C.cpp"]}
{"id": "C65", "title": "MPI sessions keep all processes in agreement", "statement": "Whatever sequence of the modelled methods the user calls on the root (setters, getters, CreateMapping, SetConcentrations, RunString, RunCells with rebalancing, states), in every interleaving of the processes all of them come to the end with the same answers, the answers are the required ones, and settings, mapping, ranges, saved states and distributed vectors agree on all processes.", "quantifier": "all numbers of processes, mappings, call sequences, values, solver behaviours and interleavings of messages", "why_tests_cant": "Message matching depends on the sequence of calls and the number of processes; a test runs few of them, and an interleaving that hangs is not reproducible.", "anchors": ["src/PhreeqcRM.cpp:7015", "src/PhreeqcRM.cpp:9672", "src/PhreeqcRM.cpp:9795"]}
{"id": "C66", "title": "MPI: distributed vectors follow the ranges", "statement": "After any session, every per-cell vector given since the ranges were last replaced is held by each process for exactly its own cells, and GetConcentrations uses for each cell the density, porosity, volume and saturation the user gave. The model shows that vectors given before CreateMapping or StateApply are not distributed again: concentrations then use the porosity of another cell, or memory beyond the local part is read.", "quantifier": "all sessions, processes, mappings, vectors; all interleavings", "why_tests_cant": "Tests mostly give the same porosity to every cell, which hides slices of the wrong cells.", "anchors": ["src/PhreeqcRM.cpp:1676", "src/PhreeqcRM.cpp:10920", "src/PhreeqcRM.cpp:12753"]}
{"id": "C67", "title": "MPI: every call comes to an end on all processes", "statement": "No execution of an admissible session stops before all processes are through, and none is infinite; GetSelectedOutput gathers the rows of all processes when each has the table. The model shows executions that wait for ever: a table missing on one process, a table not received by the root, and a short print mask.", "quantifier": "all sessions, numbers of processes and interleavings", "why_tests_cant": "Absence of deadlock is a statement about all interleavings and all inputs that make one process fail and another not.", "anchors": ["src/PhreeqcRM.cpp:4496", "src/PhreeqcRM.cpp:12045", "src/PhreeqcRM.cpp:3713"]}
{"id": "C68", "title": "MPI: errors of other processes reach the user", "statement": "RunString reports failure exactly if the worker instance of some process failed. The model shows that errors of the InitialPhreeqc and Utility instances are not reported in the MPI build, and that GetErrorString reads text without a terminator once another process has an error.", "quantifier": "all sessions, inputs and solver behaviours; all interleavings", "why_tests_cant": "Error paths of single processes need a failing solver on one of them.", "anchors": ["src/PhreeqcRM.cpp:10647", "src/PhreeqcRM.cpp:3713"]}
{"id": "C69", "title": "InitialPhreeqcCell2Module copies one definition to a list of grid cells", "statement": "If number n (or, when n is negative, the largest solution number) has a solution in the InitialPhreeqc instance, every listed active grid cell receives each kind of reactant defined under that number, scaled to its own water, rock or total volume, in the worker that owns the cell; several grid cells of one chemistry cell count by the last one listed; nothing else changes. A number without a solution is refused with nothing changed. The model refutes the documented removal of the previous reactants of the cells: kinds that are not defined under n are kept; and cell numbers outside the grid are undefined behaviour.", "quantifier": "every set of definitions, mapping, list of cells, previous contents and distribution over workers", "why_tests_cant": "The stale reactants appear only when cells held other kinds before, and out-of-range numbers read memory at random.", "anchors": ["src/PhreeqcRM.cpp: InitialPhreeqcCell2Module", "src/IPhreeqcPhast/IPhreeqc/phreeqcpp/structures.cpp: cxxStorageBin2phreeqc(sb, n)", "src/PhreeqcRM.h: InitialPhreeqcCell2Module doc"]}
{"id": "C70", "title": "Cells without a solution stop the run and are named", "statement": "The first reaction step stops with an error exactly when some chemistry cell has no solution. The model refutes that the message names those cells: it names cells 0, 1, ... with their grid cells, as many as are missing.", "quantifier": "every distribution over workers and every set of cells without solutions", "why_tests_cant": "With all cells undefined, the usual test, the message is right by accident.", "anchors": ["src/PhreeqcRM.cpp: CheckCells"]}
{"id": "C71", "title": "Setting cells from species concentrations conserves elements and charge", "statement": "SpeciesConcentrations2Module gives every chemistry cell exactly the moles of hydrogen, oxygen, charge and every element that the species concentrations given for its representative grid cell contain in the water volume of that cell (amounts below 1e-25 moles are dropped), lists no other element, leaves cells without solution alone and ignores the values of all other grid cells. Without species saving it refuses and changes nothing. Reading the species and setting the cells from what was read restores every solution whose species account for its contents. The model shows that a vector that is too short is read past its end and that a cell with saturation 0 loses all its contents, while SetConcentrations leaves such a cell alone.", "quantifier": "every species table, every mapping, every vector, every cell contents", "why_tests_cant": "All vectors, stoichiometries and mappings; tests compare a few cells of one example.", "anchors": ["src/PhreeqcRM.cpp: SpeciesConcentrations2Module, FindComponents", "src/IPhreeqcPhast/IPhreeqc/phreeqcpp/Solution.cxx: Update"]}
{"id": "C72", "title": "Species vectors: layout, shared cells, inactive cells", "statement": "GetSpeciesConcentrations, GetSpeciesLog10Gammas and GetSpeciesLog10Molalities return species by species, for every grid cell, the value the solution of its chemistry cell has for the species, 0 where it has none, and the same value for all grid cells of one chemistry cell, provided every species number is in the table. After SpeciesConcentrations2Module they still return the species of the last calculation. The model shows that inactive cells, documented to be set to 1e30, hold 0 or what the caller's vector held, that a species number missing from the table overwrites the first species, and that a cell without solution is dereferenced.", "quantifier": "every mapping, species table, cell contents and previous content of the vector", "why_tests_cant": "Depends on the caller's buffer and on tables older than the solutions.", "anchors": ["src/PhreeqcRM.cpp: GetSpeciesConcentrations, GetSpeciesLog10Gammas, GetSpeciesLog10Molalities"]}
{"id": "C73", "title": "Cells sent to another process arrive with their chemistry", "statement": "When RebalanceLoad sends cells to another MPI process, decoding what was encoded succeeds for every set of cells and every content with non-empty names shorter than 256 characters and without line ends; solutions, exchangers, gas phases, kinetics, equilibrium phases, solid solutions and surfaces arrive with every number, name and amount the encoding is meant to carry, the receiver keeps its other reactants, and the sender is left without the cells. The model says exactly what is not carried: descriptions and number ranges, the pure-water viscosity and input data of a solution, the flag to calculate the viscosity of a surface's diffuse layer and its concentration factors; and REACTION_TEMPERATURE and REACTION_PRESSURE are deleted without being sent. An empty name shifts the amounts behind it.", "quantifier": "every list of cells, every content of all seven kinds of reactants, every content of the receiver", "why_tests_cant": "The encoding is a flat stream of integers and doubles whose reader must match the writer member by member for every combination of optional reactants and list lengths; a lost flag changes results only for rare options after a move.", "anchors": ["src/IPhreeqcPhast/IPhreeqc/phreeqcpp/Serializer.cxx", "src/IPhreeqcPhast/IPhreeqc/phreeqcpp/Solution.cxx: Serialize, Deserialize", "src/IPhreeqcPhast/IPhreeqc/phreeqcpp/Surface.cxx: Serialize, Deserialize", "src/PhreeqcRM.cpp: RebalanceLoad"]}
{"id": "C74", "title": "Rebalancing over MPI processes puts every cell on its new owner", "statement": "For every old and new distribution of the cells over the processes, the exchanges planned by RebalanceLoad and RebalanceLoadPerCell under MPI leave the reactants of every cell on the process that owns it in the new distribution and on no other, unchanged if the owner stays and as they arrive (C73) if it changes; reactants with numbers outside the cells stay where they are.", "quantifier": "every number of processes and cells, every pair of valid distributions, every content of the cells", "why_tests_cant": "Which cells move depends on timing and on the number of processes; the plan is keyed by printed pairs of process numbers.", "anchors": ["src/PhreeqcRM.cpp: RebalanceLoad, RebalanceLoadPerCell"]}
{"id": "C75", "title": "Concentrations2Utility makes one solution per set with the given amounts", "statement": "For every number of sets, every component list and unit, Concentrations2Utility stores under the numbers 1..n solutions that have the given temperature and pressure and the hydrogen, oxygen, charge and elements of one litre (or kilogram, by unit) with the given concentrations, negative amounts as zero, and leaves all other numbers alone; concentrations that were reported for a solution give back that solution up to one common factor. A set without positive hydrogen and oxygen becomes a kilogram of pure water. It does not hold for mass fractions with H2O as a component: only the water is multiplied by the density of the cell with the number of the set. Called before FindComponents it divides by zero, and short temperature, pressure or density vectors are read past their end.", "quantifier": "every number of sets, component list, unit, vector of concentrations", "why_tests_cant": "Tests use one set in mg/L with density 1; the factor, the missing checks and the dry set only show for other units, other densities and shorter vectors.", "anchors": ["src/PhreeqcRM.cpp: Concentrations2Utility", "src/RM_interface_C.cpp: RM_Concentrations2Utility"]}
{"id": "C76", "title": "Species concentrations given one at a time act together at the next run", "statement": "For every sequence of SetIthConcentration, SetIthSpeciesConcentration and SetSpeciesSaveOn calls: if every species was given, in any order, the next RunCells with saving on first applies the staged components and then acts as SpeciesConcentrations2Module with the last column given for each species, whatever components were staged; if only some were given it throws; if none was, it acts as the run with components alone. After a run with saving on, GetIthSpeciesConcentration returns for each grid cell the concentration of that species in the solution of its cell, until the next change. It does not hold with saving off: staged species are dropped without an error, and a run made with saving off leaves the previous vector to be reported when saving is on again.", "quantifier": "every sequence of calls, number of species, mapping, solver", "why_tests_cant": "The order of staging calls, and mixing of species, components and the saving flag, give unboundedly many histories.", "anchors": ["src/PhreeqcRM.cpp: GetIthSpeciesConcentration, SetIthSpeciesConcentration, RunCells"]}
{"id": "C77", "title": "The documented loop over selected outputs visits every definition once and shows its own table", "statement": "After every RunCells with selected output on, whatever numbers were chosen since, the loop 'for i below GetSelectedOutputCount: GetNthSelectedOutputUserNumber, SetCurrentSelectedOutputUserNumber (or SetNthSelectedOutput)' meets each definition exactly once; the headings, the number of columns and the array then reported are those of that definition's table, with one value per grid cell and heading, and the array's length is rows times columns. A single heading is given exactly for the columns of the chosen table, without reading outside it. It does not hold when definitions change after the run: a definition added with a smaller number shifts the numbering so that a table is never visited, after LoadDatabase tables are counted that have no number; and a number without table is accepted by SetCurrentSelectedOutputUserNumber. Definitions with negative numbers are outside the claim.", "quantifier": "every set of definitions, run, number of threads, mapping, sequence of choices", "why_tests_cant": "Needs several definitions with gaps in their numbers, changed between runs, and several threads.", "anchors": ["src/PhreeqcRM.cpp: GetSelectedOutputCount, GetNthSelectedOutputUserNumber, SetCurrentSelectedOutputUserNumber, SetNthSelectedOutput, GetSelectedOutputHeadings, GetSelectedOutputColumnCount"]}
{"id": "C78", "title": "Automatic BMI output variables show what their names say", "statement": "FindComponents of the BMI class makes an output variable for everything the options set with AddOutputVars ask for (true, false, or a list of names separated by blanks, tabs or commas) and for nothing else. After FindComponents and a RunCells with selected output on, GetValue with any spelling of the name of such a variable gives, for every grid cell, the value that the named quantity has in the chemistry cell of that grid cell (the inactive value when the cell is dry, zero for grid cells without chemistry), whatever other variables were read and whatever selected outputs were chosen in between, and the chosen selected output stays chosen. This needs the lower-cased names to be distinct and no variables left from earlier options. The model refutes it otherwise: variables that are no longer asked for stay with their old columns and show another variable or read past the array; the array of the last run is not cleared by FindComponents, so a variable shows an old column until the next run; without a table of the definition (before the first run, or selected output off) every read is out of bounds; names that differ in case only are one variable; a component of two solid solutions has one variable only; FindComponents always makes 333 the current selected output.", "quantifier": "all option settings and texts of name lists, all component lists, all tables and values of the runs, all mappings, all thread partitions, all sequences of reads and choices", "why_tests_cant": "The column of a variable, the heading and the punched function are three lists that must agree for every combination of options and component lists; tests use one chemistry and read variables once after one FindComponents.", "anchors": ["src/VarManager.cpp:1632-2430", "src/BMIPhreeqcRM.cpp:280-284", "src/BMIPhreeqcRM.cpp:684-712", "src/PhreeqcRM.cpp:9940"]}
{"id": "C79", "title": "C and Fortran functions read and write exactly the documented part of the caller's array", "statement": "For every function of the C interface and every RMF_ function of the Fortran interface that fills an array (concentrations, gas and species tables, selected output, density, saturation, volumes, porosity, pressure, temperature, viscosity, weights, charges, diffusion coefficients, start and end cells): given an array of at least the documented length, on success the array begins with the values of the C++ method and nothing behind them is touched; if the method fails the array is left alone; if the method's vector does not cover the grid, density, saturation and solution volume fill the documented length with the inactive value. Every function that reads an array hands the method exactly the documented number of elements in order. Without an instance nothing is read or written. RM_GetBackwardMapping gives the user cells of a chemistry cell in ascending order and their number, and changes nothing otherwise. The model refutes: NULL is tested by most C functions but not by nine result functions and three kinds of argument functions, nor from Fortran; porosity, pressure, temperature and viscosity return IRM_FAIL with the array unwritten (the inactive values go to a local vector); when no selected output table is chosen an exception leaves RM_GetSelectedOutput; a count of zero takes the address of the first element of an empty vector; a negative number of cells in RM_InitialPhreeqcCell2Module throws.", "quantifier": "all wrappers in both languages, all instances and counts, all results of the methods, all array contents and lengths, all cell numbers and mappings", "why_tests_cant": "A write or read one element too far is invisible to a test that allocates generously or compares only the values; about forty functions would need arrays with guard elements, and the failure paths need states the tests never reach.", "anchors": ["src/RM_interface_C.cpp:791-811", "src/RM_interface_C.cpp:878-900", "src/RM_interface_C.cpp:1300-1968", "src/RM_interface_C.cpp:2137-2203", "src/RM_interface_C.cpp:2425-2977", "src/RM_interface_F.cpp:121-231", "src/RM_interface_F.cpp:644-1485", "src/RM_interface_F.cpp:1607-1815", "src/RM_interface_F.cpp:2090-2631"]}
{"id": "C80", "title": "Element (i, j) of a Fortran table is the value of cell i in column j", "statement": "For every Fortran function with a table c(cells, columns): a result table with the documented extents, or with fewer rows or another number of columns (it is reallocated), has the documented extents afterwards and element (i, j) is value i of column j; result arrays of rank 1 get exactly the documented length and values, allocated before or not. An argument table with the documented extents is handed over with element (i, j) at position i + j*cells, with and without the debug checks. With the checks a table with another number of columns or fewer rows ends the program and every other table is read inside its bounds. Concentrations set from a Fortran table and read into another come back at the same place (C10). The list of RM_GetBackwardMapping is exactly the user cells for chemistry cells of at most 1000 user cells. The model refutes: a table with more rows than cells passes the checks and is not reallocated, but values are laid out with the number of cells, so the second column is read from and written to the wrong elements; the extents of an unallocated table (and of unallocated start and end cells) are asked for, which is undefined; without the checks, and in the functions that have none (one component or species, initial conditions of one reactant), a short array is read past its end; RM_GetBackwardMapping returns 1000 undefined numbers when the chemistry cell does not exist or has more than 1000 user cells.", "quantifier": "all Fortran table and vector functions, all extents and contents of the caller's arrays, all counts of cells, components, gases, species and columns, all results of the methods, all mappings", "why_tests_cant": "Tests allocate tables with exactly the documented extents, for which the layouts coincide; the claim is about every pair of extents.", "anchors": ["src/RM_interface.F90:688-715", "src/RM_interface.F90:918-936", "src/RM_interface.F90:4270-4320", "src/RM_interface.F90:5505-5540", "src/RM_interface.F90:7676-7806"]}
{"id": "C81", "title": "A BMI variable delivers what was announced for it", "statement": "In every history in which the component list changes in FindComponents only, for Components, FilePrefix, the selected output table and its counts, headings and current number, and the arrays of cells: GetValue into memory writes exactly as many bytes as GetVarNbytes announced, and they are the current value in elements of the announced item size (names filled up with blanks, numbers in order, integers of four bytes). GetValue into a string or a vector of strings always gives the current error text, prefix, components and headings. SetValue with a bool sets SelectedOutputOn, SetValue with a text sets the prefix, and both are read back. ErrorString through memory is the beginning of the current text, of the length the text had when the variable was initialised. The model refutes: after a FindComponents without errors 0 bytes are announced and delivered for every later error text; a text that has become shorter is read past its end; one byte is announced for SelectedOutputOn and four are written, while RM_BmiGetValueInt writes one byte of the caller's int; RM_BmiSetValueInt ignores its argument for SelectedOutputOn and switches output off after any other variable was read; components that change outside a completed FindComponents are written beyond the announced size; a selected output of a single number is not delivered; SetValue from memory divides by zero while the prefix is empty.", "quantifier": "all histories of module changes, FindComponents, announcements, readings and settings; all texts, names, tables and counts; all numbers and memory contents", "why_tests_cant": "Tests ask for a variable once, in one order, with generously sized buffers; the claim is about every order of calls that initialise the variables and every length of the texts.", "anchors": ["src/VarManager.cpp:9-141", "src/VarManager.cpp:205-260", "src/VarManager.cpp:455-560", "src/VarManager.cpp:655-700", "src/VarManager.cpp:810-1090", "src/VarManager.cpp:1240-1275", "src/VarManager.cpp:1465-1625", "src/BMIVariant.cpp:2-66", "src/BMIPhreeqcRM.cpp:253-303", "src/BMIPhreeqcRM.cpp:342-391", "src/BMIPhreeqcRM.cpp:465-712", "src/BMIPhreeqcRM.cpp:860-1005", "src/BMIPhreeqcRM.cpp:1025-1203"]}
{"id": "C82", "title": "C and Fortran BMI functions pass text, flags, numbers and the grid on unchanged", "statement": "RM_BmiGetValueChar with a buffer longer than the announced bytes stores exactly the bytes of the variable and a null character behind them and nothing else, and otherwise reports an error. In Fortran the logical of SelectedOutputOn is the flag; FilePrefix is assigned to the caller's variable cut or filled up with blanks; Components and SelectedOutputHeadings arrive complete with every name filled up with blanks to one length, if one of them is not empty; NthSelectedOutput = n selects number n-1 counted from 0. In C++ the grid of a variable has rank 1, the number of cells and the type points. The model refutes: SelectedOutputOn overruns the buffer it asks for in C; without components Fortran divides by zero, and the headings of a module without selected output end the program; after a FindComponents without errors the first Fortran request for ErrorString gives blanks and the second uninitialised memory; spelled in any other case, NthSelectedOutput selects the next selected output in Fortran; in C and Fortran variables are on grid 1, which has rank and size 0, and in Fortran no grid has rank, size and type.", "quantifier": "all histories as in C81, all buffer lengths and contents, all names and spellings, all numbers of selected output, all grid identifiers", "why_tests_cant": "The tests use one spelling, sufficiently large buffers and a module with components and selected output; uninitialised memory is usually zero in a test.", "anchors": ["src/RM_interface_C.cpp:150-188", "src/RM_interface_C.cpp:332-384", "src/RM_interface_C.cpp:441-447", "src/RM_interface_C.cpp:500-553", "src/BMI_interface.F90:1010-1018", "src/BMI_interface.F90:1518-1660", "src/BMI_interface.F90:2126-2153", "src/BMI_interface.F90:2337-2417", "src/BMIPhreeqcRM.cpp:1287-1312"]}
{"id": "C83", "title": "A dumped reactant is read back complete", "statement": "Reading the SOLUTION_RAW, EXCHANGE_RAW, GAS_PHASE_RAW, KINETICS_RAW, EQUILIBRIUM_PHASES_RAW, SOLID_SOLUTIONS_RAW, SURFACE_RAW, MIX_RAW, REACTION_RAW, REACTION_TEMPERATURE_RAW or REACTION_PRESSURE_RAW block that is written for a reactant gives, without an error, a reactant with the same members - every double as it is after being printed and read, components of exchangers and surfaces sorted by name, descriptions without leading blanks - except that it is not newly defined (where so dumped) and has lost partial pressures of gas components, character parameters and moles of reaction of kinetics, the factors of multi-component diffusion, and the count of temperatures given one by one. This holds if no name of an element list is a keyword, looks like an option or is the name of an option at that place, component names differ, no exchange component is named after an element of one before it, exchangers and surfaces have no totals of their own, a solution has no isotopes, no element name is that of an element with redox states without its last letter, and the units of a reaction are one word. The model refutes each condition: the silicon of a phase is read as its target saturation index, lanthanum on an exchanger is lost, phosphorus replaces the parameters of a solid solution, fluorine is lost beside Fe(2), isotopes and totals of exchangers and surfaces give errors, exchange component X is lost after CaX2, a reaction without units gives an error.", "quantifier": "all reactants of the eleven kinds with any number of components and entries, all numbers and texts, any rounding of doubles by printing", "why_tests_cant": "The round trip depends on names of elements and phases colliding with option names, in any of the nested lists; tests dump a few reactants and rarely compare every member.", "anchors": ["src/IPhreeqcPhast/IPhreeqc/phreeqcpp/common/Parser.cxx:628-835", "src/IPhreeqcPhast/IPhreeqc/phreeqcpp/Solution.cxx:200-1000", "src/IPhreeqcPhast/IPhreeqc/phreeqcpp/ExchComp.cxx:50-300", "src/IPhreeqcPhast/IPhreeqc/phreeqcpp/PPassemblageComp.cxx:60-300", "src/IPhreeqcPhast/IPhreeqc/phreeqcpp/SS.cxx:60-480", "src/IPhreeqcPhast/IPhreeqc/phreeqcpp/Surface.cxx:110-480", "src/IPhreeqcPhast/IPhreeqc/phreeqcpp/SurfaceCharge.cxx:100-434", "src/IPhreeqcPhast/IPhreeqc/phreeqcpp/cxxMix.cxx:40-137", "src/IPhreeqcPhast/IPhreeqc/phreeqcpp/Reaction.cxx:43-283", "src/IPhreeqcPhast/IPhreeqc/phreeqcpp/Temperature.cxx:157-316", "src/IPhreeqcPhast/IPhreeqc/phreeqcpp/Pressure.cxx:157-316"]}
{"id": "C84", "title": "A dump file restores all its reactants and touches nothing else", "statement": "Reading a dump of any list of reactants that meet the conditions of C83 and of which no two of one kind have the same number gives no error; each reactant is then stored in the map of its kind under its number as C83 describes; every reactant of another number or kind is as before. Dumping what was read and reading that gives the same reactants again, if printing and reading a double twice does.", "quantifier": "all lists of reactants of the eleven kinds, all previous contents", "why_tests_cant": "The number and order of blocks is unbounded; a reader that stops a line late or early shows only with certain neighbours.", "anchors": ["src/IPhreeqcPhast/IPhreeqc/phreeqcpp/Phreeqc.h:1989-2012", "src/IPhreeqcPhast/IPhreeqc/phreeqcpp/read.cpp:319-348", "src/PhreeqcRM.cpp:1986-2225"]}
{"id": "C85", "title": "A dump of the whole module, read back, restores the reactants of every cell", "statement": "If the cells are divided among the workers, every reactant of a worker carries the number of its cell and meets the conditions of C83, then after a DumpModule that returned IRM_OK the file is read by a PHREEQC instance without error: every solution, exchanger, gas phase, kinetics, mineral assemblage, solid solution, surface, mix, reaction and list of temperatures of every cell is stored under the cell's number as C83 describes, the unsaturated parts joined to the saturated ones if the partitioning of solids is on, and nothing else changes, compared with what earlier contents of the file, if appended to, leave there. The number of workers, the division of cells and the block size make no difference. Reaction pressures are not in the file and are lost; a reactant that carries another number than its cell's may not be written.", "quantifier": "all numbers of workers, divisions of cells, reactants, block and buffer sizes, previous contents of the file and of the reading instance", "why_tests_cant": "Tests dump a small module and at most look whether a file is there; that no cell is written twice or left out at a block or worker boundary, and that blocks written by different workers are separated when read, concerns all divisions.", "anchors": ["src/PhreeqcRM.cpp:2443-2618", "src/IPhreeqcPhast/IPhreeqc/phreeqcpp/StorageBin.cxx:195-344", "src/IPhreeqcPhast/IPhreeqc/phreeqcpp/StorageBin.cxx:917-952", "src/IPhreeqcPhast/IPhreeqc/phreeqcpp/structures.cpp:3016-3114", "src/IPhreeqcPhast/IPhreeqc/phreeqcpp/Phreeqc.h:1912-1926"]}
{"id": "C86", "title": "The time a cell reacts in RunCells is the time step, to six digits", "statement": "RunCells runs every active cell that has a solution exactly once. A cell with kinetics reacts for the number written for the time step, starting at the number written for time minus time step, whatever the times are (neither can be mistaken for the mark of a missing value), and a cell without kinetics for no time. The number written is a nearest one with six decimal digits: it equals the time exactly if that has at most six digits and is within five millionths of it otherwise; TOTAL_TIME in a cell with kinetics is thus within that of the module's time and a simulation of any number of steps reacts for the sum of the steps as written. With longer times the cells do not follow the module: steps of 1234567 s make the cells react 3 s more in every step, and at ten million seconds a step of one second leaves TOTAL_TIME where it was.", "quantifier": "all times, time steps, cells, sequences of calls of RunCells, with and without INCREMENTAL_REACTIONS", "why_tests_cant": "Tests use days or years, which have few digits; only a statement on all doubles shows which times are passed on exactly and how far the clock of the engine may go from that of the module in a long simulation.", "anchors": ["src/PhreeqcRM.cpp:9873", "src/PhreeqcRM.cpp:10372-10377", "src/IPhreeqcPhast/IPhreeqc/phreeqcpp/ReadClass.cxx:677-864", "src/IPhreeqcPhast/IPhreeqc/phreeqcpp/PBasic.cpp:4695-4720"]}
{"id": "C87", "title": "RUN_CELLS with several steps divides the time step", "statement": "A RUN_CELLS block runs exactly those of its cells that have a solution or a mix, all from the same starting time, and, unless one step is asked for, each in as many steps as the longest of its reaction, kinetics, temperature and pressure definitions has. With a time step given and kinetics in the cell: with INCREMENTAL_REACTIONS each call goes on where the one before ended, only the first mixes, and together they take exactly the time step; otherwise each starts anew, step k of n takes k n-ths of the time step and the last the whole. Afterwards the clock of the instance has moved on by the time step if the last cell run has kinetics, and not at all otherwise. RunCells leaves the instance asking for one step, so the same block in RunString gives other steps before the first RunCells than after. The column time of selected output is the time step, but with INCREMENTAL_REACTIONS a time from the definition of the kinetics; TOTAL_TIME is 0 in cells without kinetics.", "quantifier": "all time steps, starting times, cells, numbers of steps, sets of cells in a block", "why_tests_cant": "The parts of the time step add up for every number of steps only by induction over the loop; the tests have no block with more than one step.", "anchors": ["src/IPhreeqcPhast/IPhreeqc/phreeqcpp/ReadClass.cxx:677-864", "src/IPhreeqcPhast/IPhreeqc/phreeqcpp/cxxKinetics.cxx:475-543", "src/IPhreeqcPhast/IPhreeqc/phreeqcpp/print.cpp:3030-3067", "src/PhreeqcRM.cpp:9873"]}
{"id": "C88", "title": "The lines of an IPhreeqc instance are the lines of its texts", "statement": "After a run or LoadDatabase that came to its end, whatever was called before, the error, warning, output and log lines and those of the current selected output, if defined, are exactly the lines of the corresponding text, as far as its switch is on; after a stopped run those of errors and warnings still are, and those of the dump always are. A line out of range is empty. What is recorded for a selected output is what was punched for it in the last run, if the string switch of the current number was on, so its own switch is obeyed as long as it equals that of the current number. Otherwise it is not: set for number 2 with 1 current nothing is recorded for 2, set for 1 only the text of 2 is recorded too. After a stopped run there are output, log and selected-output texts without lines, and a failed LoadDatabase, AccumulateLine, GetSelectedOutputValue and AddError change the error text but not its lines.", "quantifier": "all histories of calls, all behaviours of the engine (sequences of messages, definitions, stops), all texts", "why_tests_cant": "The agreement after any history and any sequence of messages needs an invariant of the instance; tests compare a few runs with all switches set alike.", "anchors": ["src/IPhreeqcPhast/IPhreeqc/IPhreeqc.cpp:1153-1180", "src/IPhreeqcPhast/IPhreeqc/IPhreeqc.cpp:1182-1585", "src/IPhreeqcPhast/IPhreeqc/IPhreeqc.cpp:1837-1846", "src/IPhreeqcPhast/IPhreeqc/IPhreeqc.cpp:578-712"]}
{"id": "C89", "title": "The list of components of an instance is that of its present definitions", "statement": "ListComponents, from which GetComponentCount and GetComponent and thereby FindComponents take their answer, is the list of components of the engine's present definitions after every history in which each run either came to its end or left the definitions unchanged, and after every LoadDatabase. A run that defined something and was then stopped leaves the old list in place.", "quantifier": "all histories of calls and behaviours of the engine", "why_tests_cant": "A cache is right only by an invariant over all orders of runs, loads and questions; tests ask once after a successful run.", "anchors": ["src/IPhreeqcPhast/IPhreeqc/IPhreeqc.cpp:561-576", "src/IPhreeqcPhast/IPhreeqc/IPhreeqc.cpp:1072-1127", "src/IPhreeqcPhast/IPhreeqc/IPhreeqc.cpp:1511", "src/PhreeqcRM.cpp:2862"]}
{"id": "C90", "title": "RunAccumulated runs exactly the lines accumulated since the input was last started anew", "statement": "If a database is loaded, which the last LoadDatabase alone decides, RunAccumulated gives the engine the lines of all AccumulateLine calls, in order, since the last ClearAccumulatedLines, RunString, RunFile or LoadDatabase, or since the last RunAccumulated that was followed by a line; there is exactly one such part of every history. Called again without further lines it runs the same input again, also after a stopped run. Without a database nothing is given to the engine.", "quantifier": "all histories of calls, all lines, all behaviours of the engine", "why_tests_cant": "Which lines count depends on the whole history of calls; only induction over histories covers them.", "anchors": ["src/IPhreeqcPhast/IPhreeqc/IPhreeqc.cpp:95-132", "src/IPhreeqcPhast/IPhreeqc/IPhreeqc.cpp:735-927"]}
{"id": "C91", "title": "MPI: DumpModule writes the file of the threaded build, once per cell", "statement": "After any admissible session, DumpModule of the MPI build, when the file can be opened and written, ends on all processes in every execution and leaves exactly the file that the threaded build would leave if its workers held the reactants of the processes: the previous contents if appending, then the raw text of every dumped kind of reactant of every cell once, taken from the process that has the cell. With dumping switched off or a file that cannot be opened, nothing changes and all processes end the call. The model shows that if writing any piece fails, no execution gets to the end of the session: the root returns IRM_FAIL while the other processes wait at the barrier.", "quantifier": "all sessions before the call, numbers of processes, ranges, texts, old files, failing writes and interleavings", "why_tests_cant": "The number of blocks, pieces and messages depends on the numbers of cells and the lengths of the texts, and the end of the call on all interleavings.", "anchors": ["src/PhreeqcRM.cpp:1985-2225", "src/PhreeqcRM.cpp:2443-2618"]}
{"id": "C92", "title": "Ids of IPhreeqc instances: one instance per id, workers of modules included", "statement": "For every sequence of creations, destructions, lookups and cleanups of IPhreeqc and IPhreeqcPhast instances and of modules, and of RM_GetIPhreeqcId, in which the user does not destroy workers of modules by id and fewer than 2^31 instances are made: nothing undefined happens; every lookup finds the instance the id was given to exactly as long as it exists; destroying a module invalidates the ids of its workers and no others; RM_GetIPhreeqcId(m, i) is the id of worker i of m; and two answers are the same id only if they name the same instance, so no id is ever used again. The model refutes the claim without these limits: destroying a worker by the id that RM_GetIPhreeqcId gave, or by CleanupIPhreeqcPhast, makes the destruction of its module undefined; the workers of a module that could not be made stay registered for good; after 2^32 creations id 0 is given to a new instance and leads to the first one.", "quantifier": "all sequences of calls, ids, numbers of cells, threads and cores", "why_tests_cant": "Histories are unbounded, and the ids of workers interleave with those of the user in any order.", "anchors": ["src/IPhreeqcPhast/IPhreeqc/IPhreeqc.cpp:50-92", "src/IPhreeqcPhast/IPhreeqc/IPhreeqcLib.cpp:1041-1084", "src/IPhreeqcPhast/IPhreeqcPhast.cxx:8-34", "src/IPhreeqcPhast/IPhreeqcPhastLib.cpp:23-98", "src/PhreeqcRM.cpp:295-310", "src/RM_interface_C.cpp:1581-1595"]}
{"id": "C93", "title": "Threads: which maps of instances are protected", "statement": "For any number of threads making any calls that create, destroy or look up instances and modules, in every interleaving: no two threads are ever about to access the map of all IPhreeqc instances with one of them changing it, and as long as not all threads have finished some thread can go on (no deadlock on the locks of the maps). The map of modules is free of such races if no module is destroyed meanwhile, and the map of IPhreeqcPhast instances if only one thread makes, destroys or looks up such instances or modules. The model refutes both without these limits: two threads that each make a module race on the map of IPhreeqcPhast instances, as do CreateIPhreeqcPhast and a lookup, and DestroyReactionModule races with CreateReactionModule on the map of modules.", "quantifier": "all numbers of threads, programs of calls, numbers of workers and interleavings", "why_tests_cant": "Races depend on the interleaving; the number of interleavings is unbounded.", "anchors": ["src/IPhreeqcPhast/IPhreeqc/IPhreeqc.cpp:50-92", "src/IPhreeqcPhast/IPhreeqcPhast.cxx:11-34", "src/IPhreeqcPhast/IPhreeqcPhastLib.cpp:23-98", "src/PhreeqcRM.h:128-215"]}
{"id": "C94", "title": "Rebalancing over MPI moves the unsaturated parts of cells", "statement": "With partition_uz_solids on, for every pair of valid distributions of the cells over the processes: the exchanges of RebalanceLoad leave the solids kept apart in uz_bin for a cell on the process that owns the cell afterwards and on no other, unchanged if the owner stays, and as their raw texts read back if it changes (all members, doubles as printed), provided the names in them can be read back; parts with other numbers stay, and the saturated reactants move exactly as with partition_uz_solids off. Pressures and solutions in uz_bin are dropped. The model refutes it for other names: the silicon of quartz becomes its target saturation index and lanthanum on an exchanger is lost on the way, and no error of this kind ever makes a rebalancing fail.", "quantifier": "all numbers of processes and cells, pairs of valid distributions, contents of cells and of unsaturated parts, precisions of printing", "why_tests_cant": "Needs MPI, changing saturation and a rebalancing at once; which cells move depends on timing.", "anchors": ["src/PhreeqcRM.cpp:8033-8057", "src/PhreeqcRM.cpp:9020-9042", "src/PhreeqcRM.cpp:12949-12984", "src/IPhreeqcPhast/IPhreeqc/phreeqcpp/StorageBin.cxx:850-915", "src/IPhreeqcPhast/IPhreeqc/phreeqcpp/StorageBin.cxx:955-1110", "src/IPhreeqcPhast/IPhreeqc/phreeqcpp/StorageBin.cxx:1220-1254"]}
{"id": "C95", "title": "The output of RunCells does not depend on how cells are distributed", "statement": "If no cell fails, or in error mode 3, RunCells adds to the output file exactly the entries of the chemistry cells whose first grid cell is in the print mask, in the order of the chemistry cells, each with time, number, grid cells and its output, 'Cell is dry.' or 'Calculation failure.', and nothing to the log; this holds for every number of threads, every valid distribution and every order in which threads take turns, and the MPI build writes the same. If a cell fails in modes 0 to 2, every worker gets as far as its first failed cell and the file has the errors in some order, the texts of the workers, and the errors again in the order of workers; in the MPI build the first errors are the root's only and the second are headed by the number of the process. The model refutes more: after a failure what is printed depends on the distribution, a failed cell that is not printed leaves a complaint of GetOutputString in the file, in mode 3 its failure is reported nowhere, and the mask of a grid cell that is not the first of its chemistry cell has no effect.", "quantifier": "all mappings, masks, saturations, results of cells, distributions, interleavings, error modes", "why_tests_cant": "The order of threads and the distribution after rebalancing vary from run to run.", "anchors": ["src/PhreeqcRM.cpp:9720-9823", "src/PhreeqcRM.cpp:9868-9942", "src/PhreeqcRM.cpp:10192-10510"]}
{"id": "C96", "title": "The error string after RunCells", "statement": "After RunCells, in both builds, the error string is empty and the result IRM_OK, or the result is IRM_FAIL and the error string is exactly the report of the method ('PhreeqcRM failed.', 'PhreeqcRM::RunCells'); it is the latter exactly if some cell fails in error mode 0 to 2; for all cells, failures, distributions and orders of turns. So the texts of PHREEQC are never found there, though RunCells adds them: GetConcentrations clears the string before RunCells ends. The model also shows that with partition_uz_solids one thread clears the error string while another may be adding to it.", "quantifier": "all inputs, distributions and interleavings", "why_tests_cant": "That no failure at all leaves its text is a statement about all failures; the race depends on timing.", "anchors": ["src/PhreeqcRM.cpp:2777-2794", "src/PhreeqcRM.cpp:3460", "src/PhreeqcRM.cpp:3572", "src/PhreeqcRM.cpp:7545", "src/PhreeqcRM.cpp:9926-9942"]}
{"id": "C97", "title": "A recorded run does what the calls would have done, from C and from Fortran", "statement": "For every sequence of calls, every instance behaviour and state: if the texts are what the language means by them (no NUL, in Fortran padded by blanks), the arrays have the sizes the instance takes, and the calls are not among those named below, then the recorder of either language writes a document that, when read by InitializeYAML, has exactly the effect that the same calls made directly on the instance through the RM_ functions of that language would have had, failures included. The model refutes it for: OutputMessage, ScreenMessage and WarningMessage of Fortran (a direct call adds an end of line, a recorded one does not); LogMessage and SetNthSelectedOutput (recorded but refused by the reader; and Fortran counts from 1 when it calls but records the number unchanged); names with blanks at the ends in C. Mixing arrays of different lengths: the Fortran recorder stops, the C one reads past the end if a later array is shorter than the first and drops the rest if it is longer.", "quantifier": "all sequences of calls, texts, arrays, instance states and behaviours; both languages", "why_tests_cant": "The two paths through the interface are different code for each of some eighty calls; tests run one document and never the same calls directly with padded texts and other sizes.", "anchors": ["src/YAML_interface.F90:284-3185", "src/YAML_interface_F.cpp:16-761", "src/YAML_interface_C.cpp:16-761", "src/RM_interface_F.cpp:121-2701", "src/RM_interface_C.cpp:791-3047", "src/RM_interface.F90:6214"]}
{"id": "C98", "title": "DELETE removes exactly what is named", "statement": "For every DELETE block made of names of reactants (or of cells) with numbers and ranges on the same or on further lines, positive or negative, in either order, whatever the tables of the engine contain and whatever the simulation does before: afterwards a reactant is gone if and only if its number is within a range given for its kind or for cells, or its kind (or cells) was named without any number; all else is as the calculations left it, and nothing is waiting to be deleted. '-all' removes everything. The model refutes: that naming more deletes more ('-all', then '-solution 2', keeps the other solutions); that a number that is no int names nothing (it is taken for no number: everything of the kind goes); a range that ends at the largest int is undefined; and a simulation that stops leaves its deletions waiting: the next input that succeeds carries them out on what is there by then.", "quantifier": "all blocks of requests, ints, ranges, tables and simulations", "why_tests_cant": "Ranges, signs, orders of names and lines are unbounded; the deletions left over by a failing input need two runs and a failure between.", "anchors": ["src/IPhreeqcPhast/IPhreeqc/phreeqcpp/StorageBinList.cpp:46-358", "src/IPhreeqcPhast/IPhreeqc/phreeqcpp/ReadClass.cxx:84-131", "src/IPhreeqcPhast/IPhreeqc/phreeqcpp/ReadClass.cxx:264-463", "src/IPhreeqcPhast/IPhreeqc/IPhreeqc.cpp:1233-1487"]}
{"id": "C99", "title": "The DELETE texts of PhreeqcRM", "statement": "For every list of cells: the text 'DELETE; -cells' with a line per cell that InitialPhreeqc2Module has worker 0 run removes exactly these cells' reactants of all kinds, and everything if the list is empty, which is what the model of InitialPhreeqc2Module takes it to do; 'DELETE; -cell n' and 'DELETE; -solution n' remove exactly that cell or solution. The model shows that 'DELETE -surface n' and 'DELETE -exchange n', which FindComponents writes without a semicolon to remove its test reactants, remove nothing for any n: the line of the keyword is not read, so the test surface and exchanger stay in the instance.", "quantifier": "all cells, numbers and tables", "why_tests_cant": "The left-over reactants have numbers beyond those in use, so that no output shows them unless a program names just these numbers.", "anchors": ["src/PhreeqcRM.cpp:2972", "src/PhreeqcRM.cpp:3086", "src/PhreeqcRM.cpp:3125", "src/PhreeqcRM.cpp:6380-6388", "src/PhreeqcRM.cpp:8662", "src/IPhreeqcPhast/IPhreeqc/phreeqcpp/ReadClass.cxx:84-131"]}
{"id": "C100", "title": "Both readers of a first line read the number, the range and the description as written", "statement": "For every first line of a data block made of a keyword, a number or a range of ints of either sign, and a description that does not begin with a blank, with any blanks between: the reader used for the _RAW and _MODIFY blocks and the reader used for the other blocks give the same first number, the same last number (the larger of the two) and the same description. Without a number, and if the description does not begin with a digit, a dash or a point, both give 1, 1 and the description. The first line that a dump writes is read back by either. The model refutes: that other lines are read the same ('2nd water', '-deep water', '.5 m deep', '5- 7', '-4-', and numbers that are no ints differ or lose words); and that a descending range means the same here as in DELETE (here its first number alone).", "quantifier": "all keywords, ints, ranges, descriptions and blanks", "why_tests_cant": "Texts and numbers are unbounded; the two readers are separate code for the same line.", "anchors": ["src/IPhreeqcPhast/IPhreeqc/phreeqcpp/NumKeyword.cxx:55-98", "src/IPhreeqcPhast/IPhreeqc/phreeqcpp/NumKeyword.cxx:134-187", "src/IPhreeqcPhast/IPhreeqc/phreeqcpp/common/Parser.cxx:550-607", "src/IPhreeqcPhast/IPhreeqc/phreeqcpp/common/Utils.cxx:102-112"]}
{"id": "C101", "title": "A definition for a range defines every number of the range", "statement": "For every entity read from a _RAW block with a range of numbers that ends below the largest int, whatever the table: afterwards every number of the range has the contents and the description that were read, with its own number; every other number is unchanged; and exactly the numbers of the range are added to those that are new. The model refutes: that a definition with errors leaves the table as it was (nothing is stored, but if the first number of the range existed it is copied over the others); and that the largest int can be used (undefined, even as the only number).", "quantifier": "all entities, ranges and tables", "why_tests_cant": "Ranges and tables are unbounded; copying goes from each number to the next.", "anchors": ["src/IPhreeqcPhast/IPhreeqc/phreeqcpp/Phreeqc.h:1951-2012"]}
{"id": "C102", "title": "COPY copies what is asked for, before DELETE", "statement": "For every list of COPY lines for kinds or for cells whose ranges lie on one side of zero (below -1 if negative), whatever the tables and whatever the simulation does before: each line in turn gives every number of its range, except the source, the source's entity with the number changed, if the source exists by then, in all kinds named and in no other; all else is unchanged and nothing is left waiting, although the program goes kind by kind and not line by line and counts in an unsigned type. DELETE comes after COPY, so COPY cell i j with DELETE; -cells i moves the cell. A simulation that stops leaves its requests waiting, and the next that succeeds carries them out. The model refutes: that a descending range, or one from a negative number to one that is not, copies anything; that a range may end at -1 (the loop does not end); and that the order of lines does not matter.", "quantifier": "all lists of lines, ints, ranges, tables and simulations", "why_tests_cant": "Unbounded numbers of lines, ranges and tables; the comparison of signed and unsigned numbers shows only for negative numbers.", "anchors": ["src/IPhreeqcPhast/IPhreeqc/phreeqcpp/read.cpp:9887-10060", "src/IPhreeqcPhast/IPhreeqc/phreeqcpp/mainsubs.cpp:1861-2025", "src/IPhreeqcPhast/IPhreeqc/phreeqcpp/structures.cpp:2877-2903", "src/IPhreeqcPhast/IPhreeqc/phreeqcpp/Phreeqc.h:1951-1968", "src/IPhreeqcPhast/IPhreeqc/phreeqcpp/tidy.cpp:141-144", "src/IPhreeqcPhast/IPhreeqc/IPhreeqc.cpp:1448-1487"]}
{"id": "C103", "title": "The lists of BMI variables are the documented ones and agree with their counts", "statement": "After Initialize, through any history of calls, GetInputVarNames, GetReadOnlyVarNames and GetPointableVarNames give the documented names in the order of the enumeration, and GetOutputVarNames gives the documented names followed by the automatic variables; the headings of selected output are among them if there is a selected output and are not if there never was one. The automatic variables listed are those made so far, each once whatever its case. The item counts are the lengths of the lists, asking again changes nothing, the C functions give the name at every index below the count, and the array allocated in Fortran is filled exactly with one name per element. The model refutes: that the output list depends only on the present state (the headings stay listed after the selected outputs are gone if the list was asked for before), that the lists can be asked for before Initialize (a null pointer is followed), and that the C functions check the index.", "quantifier": "all histories of calls, numbers of selected outputs, automatic variables and indices", "why_tests_cant": "Flags are set lazily by whatever call comes first, so the lists could depend on any history; automatic variables are unbounded.", "anchors": ["src/VarManager.cpp:16-87", "src/VarManager.cpp:155-1625", "src/BMIVariant.h:80-100", "src/BMIPhreeqcRM.cpp:252-460", "src/RM_interface_C.cpp:186-281", "src/BMI_interface_F.cpp:171-240", "src/BMI_interface.F90:836-872"]}
{"id": "C104", "title": "BMI calls are accepted just for the variables listed", "statement": "After Initialize, through any history of calls and for every name in any case: SetValue is accepted just for the names of the input list, refused as not supported for those of the read-only list, and fails without effect for all others. GetValue is accepted for every name of the output list, automatic variables included, and once there is a selected output for no other, provided no automatic variable has the name of a fixed one. GetValuePtr gives a pointer, each time, just for the names of the pointable list, and refuses all others except Components. Type, units and sizes are answered just for the names in one of the lists. The model refutes: that GetValue of the headings is refused while they are not listed, that GetValuePtr of Components is refused (it gives a null pointer), that automatic variables are read-only variables for SetValue and GetReadOnlyVarNames (they are unknown to them), and that GetValue fails cleanly before Initialize (a null pointer is followed).", "quantifier": "all histories of calls and all names", "why_tests_cant": "The flags and the switch are written separately for each of 26 variables, and the flags depend on the history.", "anchors": ["src/VarManager.cpp:131-141", "src/VarManager.cpp:155-1625", "src/BMIPhreeqcRM.cpp:462-1322"]}
{"id": "C105", "title": "A worker hands every task of the program to the registered functions and goes on after failures", "statement": "For every sequence of numbers broadcast to a worker: each number before the first METHOD_MPIWORKERBREAK is handled in order; one of 0 to 60 calls the method at this place of the enumeration and no function of the program; any other calls no method, and the registered Fortran function and then the registered C function, with the cookie registered last, once each (none if none is registered). Whatever methods and functions do - fail, throw, register others - the worker goes on with the next number, MpiWorker returns exactly at the first METHOD_MPIWORKERBREAK and takes no number after it. A task whose function returns other than 0, or whose method returns a negative result, is reported exactly once, others are not. Hence for every program on the root that ends with MpiWorkerBreak each worker makes, in the same order, just the calls made on the root (GetViscosity excepted, which the model refutes), and returns. The model refutes: that MpiWorker's result tells of a failed task (it is always IRM_OK), that every number chosen by a program reaches its function (0 to 60 never do), that the C function gets the number broadcast (it gets what the Fortran one left there) or is called if the Fortran one throws, and that an exception is reported.", "quantifier": "all sequences of numbers, all states, all registered functions and all behaviours of functions and methods", "why_tests_cant": "Tests use one task number, functions that succeed, and one kind of callback.", "anchors": ["src/PhreeqcRM.cpp:7016-7479", "src/PhreeqcRM.cpp:11846-11871", "src/PhreeqcRM.cpp:110-120"]}
{"id": "C106", "title": "Tables packed for Python arrive unchanged", "statement": "For every backward mapping, Python's GetBackwardMapping raises no IndexError and gives a dictionary with exactly the chemistry cells as keys, each with its cells of the grid in ascending order, empty rows included; after a successful CreateMapping these are the cells with that number in the array. For every list of species with distinct names, Python's GetSpeciesStoichiometry gives exactly the elements and coefficients of each species. GetIntVector passes an array, list or tuple on element by element just if it is not empty and all elements are integers of 32 bits. The model refutes: that GetSpeciesStoichiometrySWIG can be called again with the same vectors (all but the names are added to, so the old stoichiometry is read), and that empty arrays are accepted (they raise an exception), as well as that arrays starting with another type are refused (they are passed on as they are).", "quantifier": "all tables with rows of fewer than 2^31 elements, all lists of species, all Python arrays", "why_tests_cant": "Tests have rows of one or two cells and call the C++ function once with empty vectors.", "anchors": ["src/PhreeqcRM.cpp:3440-3453", "src/PhreeqcRM.cpp:5219-5237", "swig/PhreeqcRM.i:187-216", "swig/PhreeqcRM.i:351-362"]}
{"id": "C107", "title": "Initialize constructs the grid that the document asks for, and then plays the document", "statement": "For every sequence of recorded calls: Initialize of a new BMI instance constructs it with the last grid cell count and thread count in the part of the document that ends where one of each was found (those given to the constructor where there is none), with at most as many threads as cells, and then makes all calls of the document in order on this instance, ending with the first that throws. If the document has one count it is used wherever it stands, and equals what GetGridCellCountYAML gives; likewise for threads. Initialize without a document constructs with the arguments of the constructor. Once constructed, Initialize constructs nothing again and makes the calls of its document on the instance as it is. The model refutes: that the instance always has the number of cells that GetGridCellCountYAML gives (with two counts that gives the first, Initialize mostly takes the second; without any it gives 0 and the instance has 10 cells), and that after a second Initialize the instance has the number of cells of that document.", "quantifier": "all sequences of recorded calls, all instances and all behaviours of the methods called", "why_tests_cant": "Test documents have one count of each kind at the top and are read once.", "anchors": ["src/BMIPhreeqcRM.cpp:108-206", "src/PhreeqcRM.h:5805-5820", "src/PhreeqcRM.cpp:124-146"]}
{"id": "C108", "title": "A failed cell is reported by RunCells in the mode that was last accepted", "statement": "After any sequence of SetErrorHandlerMode calls the mode is the last one asked for if the build offers it (0 to 2, and 3 with OpenMP), otherwise 0; each call returns a code and none throws or ends the process, whatever the mode was; the MPI build, which skips a request for the present mode, comes to the same. Unless mode 3 was asked for last in a build with OpenMP, RunCells after such a program returns IRM_FAIL, throws or ends the process, according to the mode, whenever some cell that is not dry fails, and returns IRM_OK if none fails; the MPI build always does. The model refutes: that a failed cell is always noticed (in mode 3 every cell may fail and RunCells returns IRM_OK with an empty error string and empty files), and that a refused mode leaves the mode as it was (after mode 2, a refused request sets mode 0).", "quantifier": "all lists of requested modes, both builds with and without OpenMP, all numbers of cells and valid distributions over workers, all orders of turns of threads, all engines (which cells fail, with which texts), masks, saturations, print flags and prior contents of files", "why_tests_cant": "The reply depends on the whole history of requests, the distribution of cells, the interleaving of threads and which cells fail; a test has one history and one schedule.", "anchors": ["src/PhreeqcRM.cpp:164", "src/PhreeqcRM.cpp:9633-9662", "src/PhreeqcRM.cpp:9720-9821", "src/PhreeqcRM.cpp:9868-9942", "src/PhreeqcRM.cpp:10380-10390", "src/PhreeqcRM.cpp:11721-11762"]}
{"id": "C109", "title": "Balancing between processes gives every cell to one process", "statement": "MPI build: for every valid distribution of cells over processes where each process has measured a time for each of its cells, the root reads the times of all cells in their order. Balancing by cell, with doubles, up to 2^26 cells and a fraction in [1/2,1], always completes, and its ranges are contiguous, not empty and cover every cell exactly once over the same number of processes, whatever the measured times and standard times of processes are (zero, negative, infinite, NaN). With equal standard times the ranges are those of the thread build, in any arithmetic. Balancing by averages with a fraction in (0,1] gives such ranges if it completes, and never throws; it completes if every time of a process is zero or in [2^-100,2^100] and not all are zero. The model refutes: that balancing by averages always completes (all times zero: NaN is converted to int), and that it gives the ranges of the thread build (a time of zero is replaced before or after the division by the number of cells).", "quantifier": "all numbers of processes and cells up to 2^26, all valid distributions, all vectors of doubles as measured times and standard times, all fractions in the stated ranges; the agreement of builds for every arithmetic", "why_tests_cant": "Measured times differ from run to run and cannot be chosen by a test; a wrong range loses or duplicates cells only for some of them.", "anchors": ["src/PhreeqcRM.cpp:7698-7866", "src/PhreeqcRM.cpp:8704-8868", "src/PhreeqcRM.cpp:8099-8267", "src/PhreeqcRM.cpp:9084-9248"]}
