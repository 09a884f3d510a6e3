{"claims": [
{"property": "C01", "status": "proved", "theorems": ["registry_history_expected", "registry_only_cleanup_bmi_stuck", "registry_cleanup_bmi_refuted", "registry_concurrent_ids_unique", "registry_concurrent_destroy_exclusive", "registry_concurrent_double_destroy_refuted"], "note": "Sequential histories against a map-from-ids spec; CleanupBMIModuleInstances self-deadlock and the unlocked Destroy race are exhibited."},
{"property": "C02", "status": "proved", "theorems": ["create_mapping_accepts_iff", "create_mapping_consistent", "create_mapping_backward_disjoint"], "note": ""},
{"property": "C03", "status": "proved", "theorems": ["create_mapping_wrong_length_unchanged", "create_mapping_rejected_refuted"], "note": "The claim holds for a grid of the wrong length and is refuted (by a concrete run) for other rejected mappings, as the property says."},
{"property": "C04", "status": "proved", "theorems": ["construct_distribution", "create_mapping_distribution", "construct_empty_grid_refuted"], "note": "An empty grid is refuted (division by zero)."},
{"property": "C05", "status": "proved", "theorems": ["rebalance_avg_partition", "rebalance_avg_completes", "rebalance_avg_zero_times_refuted", "rebalance_avg_large_grid_refuted", "rebalance_off", "rebalance_partition_any_arith"], "note": "Binary64. Partition for up to 2^26 cells and any measured times; completion for ordinary times; all-zero times are refuted (conversion of NaN to int), and so are grids above 2^29 cells (rounding); between 2^26 and 2^29 cells nothing is claimed."},
{"property": "C06", "status": "proved", "theorems": ["rebalance_cell_partition", "rebalance_cell_empty_refuted", "rebalance_cell_overlap_refuted", "rebalance_off", "rebalance_partition_any_arith"], "note": "Binary64, up to 2^26 cells, fractions in [1/2,1]; refuted below 1/2."},
{"property": "C07", "status": "proved", "theorems": ["move_keeps_contents", "move_loses_reaction_refuted", "move_leaves_uz_refuted"], "note": "guarded claim proved; REACTION data and UZ solids with partitioning switched off refuted"},
{"property": "C08", "status": "proved", "theorems": ["run_cells_cellwise", "run_cells_schedules", "run_cells_independent", "b64_fractions_sound", "failed_step_distribution_refuted"], "note": "every finished interleaving, any number of threads; after a failing cell the state depends on the distribution (refuted part)"},
{"property": "C09", "status": "proved", "theorems": ["set_then_get", "set_then_get_default_refuted"], "note": "Exact rationals; the default setting is the refuted part."},
{"property": "C10", "status": "proved", "theorems": ["set_then_get_h2o", "set_then_get_h2o_split_refuted"], "note": "Exact rationals; the split is the refuted part."},
{"property": "C11", "status": "proved", "theorems": ["get_units", "set_units"], "note": "Both directions, with and without H2O as a component."},
{"property": "C12", "status": "proved", "theorems": ["get_inactive_shared", "get_density_inactive_refuted", "inactive_value"], "note": "The two single-value getters modelled are GetDensityCalculated and GetSaturationCalculated."},
{"property": "C13", "status": "proved", "theorems": ["get_inactive_shared", "set_reads"], "note": ""},
{"property": "C14", "status": "proved", "theorems": ["get_layout", "set_stores", "set_reads"], "note": "get_layout and set_stores give the meaning of every position, set_reads that nothing else is read."},
{"property": "C15", "status": "proved", "theorems": ["get_ith_current", "get_ith_stale_refuted"], "note": "The reaction step is an arbitrary function that keeps a well-formed solution in every cell."},
{"property": "C16", "status": "proved", "theorems": ["set_ith_all_or_nothing"], "note": "Any calls in any order between the staged values."},
{"property": "C17", "status": "proved", "theorems": ["state_roundtrip"], "note": "all histories between save and apply"},
{"property": "C18", "status": "proved", "theorems": ["created_gas_lost_refuted", "created_gas_cell1_survives"], "note": "the claim is false for every cell but cell 1; refutation proved for all such cells"},
{"property": "C19", "status": "proved", "theorems": ["state_ids", "state_ids_independent"], "note": ""},
{"property": "C20", "status": "proved", "theorems": ["state_replay", "state_replay_uz_refuted"], "note": "holds without partitioning; refuted with it"},
{"property": "C21", "status": "proved", "theorems": ["uz_conserves", "uz_nonneg", "uz_extremes", "uz_proportional", "uz_runs_conserve", "uz_runs_proportional", "uz_lost_refuted", "uz_above_one_refuted"], "note": "Hypothesis: the reactant exists in the saturated zone (or the cell does not fill up). Rounding not modelled; consistent add-formula per phase and one gas type per cell."},
{"property": "C22", "status": "proved", "theorems": ["init_mixes", "init_water", "init_row_only", "init_idle_worker_refuted", "init_idle_worker_loses"], "note": "Proved for the OpenMP build with exact arithmetic; the case of idle workers is refuted."},
{"property": "C23", "status": "proved", "theorems": ["init_reports", "init_wrong_size", "init_empty_vector_refuted", "init_second_kinetics_refuted", "init_failure_leaves_contents_refuted"], "note": "Proved where no second KINETICS number is given; that case, empty vectors and contents left by a failed call are refuted."},
{"property": "C24", "status": "proved", "theorems": ["table_faithful", "table_rectangular", "table_headings_stay"], "note": "PushBack/EndRow/Get for every event sequence, against a log of punches."},
{"property": "C25", "status": "proved", "theorems": ["row_transfer"], "note": "Serialize then DeSerialize for every pair of tables."},
{"property": "C26", "status": "proved", "theorems": ["selected_output_cells", "selected_output_threads", "selected_output_shift_refuted", "selected_output_unmapped_refuted", "selected_output_columns_refuted"], "note": "End to end from RunCellsThread to GetSelectedOutput; refutations for failed steps, unmapped cells and differing columns."},
{"property": "C27", "status": "proved", "theorems": ["thread_rows", "thread_stops_refuted", "thread_rows_no_heading_refuted"], "note": "One row per cell up to the first failure; refutations for failure and for no headings."},
{"property": "C28", "status": "proved", "theorems": ["dictionary_indices", "dictionary_stable", "dictionary_text", "dictionary_text_newline_refuted", "dictionary_text_long_refuted", "name_list_codec", "name_list_codec_empty_refuted"], "note": "Codec proved for all lists without an empty name and all dictionaries; dictionary numbering for all lookup sequences; the rebuild guard (no newline/NUL, at most 255 bytes) is shown necessary by witnesses."},
{"property": "C29", "status": "proved", "theorems": ["simplify_redox_sums", "total_element_sums", "simplify_redox_plain", "simplify_redox_names_refuted"], "note": "For any zero and addition (so also rounded addition) and all well-formed names; ill-formed names refuted by witness."},
{"property": "C30", "status": "proved", "theorems": ["merge_redox_guarded", "merge_redox_bare", "merge_redox_counts_twice_refuted", "merge_redox_deletes_refuted"], "note": "Guarded theorem gives the exact condition under which merging works; the unguarded claim is refuted for every bare total meeting a valence state."},
{"property": "C31", "status": "proved", "theorems": ["mix_conserves", "mix_averages", "mix_order", "mix_table", "multiply_scales", "multiply_by_zero_refuted", "isotope_ratio_refuted"], "note": "Extensive amounts add, intensive ones average by water mass, order of parts does not matter, the solution table is searched as the code does; refuted: multiply by zero does nothing, isotope ratios of a mixture. Amounts are exact rationals."},
{"property": "C32", "status": "proved", "theorems": ["engine_components", "components_of_history", "components_complete", "components_again", "zero_moles_refuted"], "note": "Lists as the engine reports them, for every history; the zero-amount limit is witnessed."},
{"property": "C33", "status": "proved", "theorems": ["name_lists_union", "species_lists", "solid_solutions_first", "solid_solution_names_refuted", "si_names_grow", "si_names_refuted", "surface_names_refuted"], "note": "Unions and pairing proved; the three defects have witnesses."},
{"property": "C34", "status": "proved", "theorems": ["h2o_on_later", "h2o_on_refuted", "h2o_off_refuted"], "note": "Both directions characterised for every list, with witnesses."},
{"property": "C35", "status": "proved", "theorems": ["units_exact", "units_always_documented", "error_mode_refuted"], "note": "All integers, all histories; the reset of the error mode is characterised."},
{"property": "C36", "status": "proved", "theorems": ["property_short", "property_set", "mask_set", "property_last"], "note": "All vector lengths and histories."},
{"property": "C37", "status": "proved", "theorems": ["error_modes", "codes_passed_on", "set_ith_all_or_nothing"], "note": "The exception (RunCells with a partial SetIthConcentration set) is part of set_ith_all_or_nothing."},
{"property": "C38", "status": "proved", "theorems": ["file_rename_keeps", "file_rename_result", "file_rename_same_refuted", "append_keeps", "dump_crash_refuted", "dump_complete"], "note": "FileRename for every failure pattern and crash point; DumpModule's truncation refuted by a crash after opening; the operating system's buffering is abstracted to 'each piece reaches the file or fails'"},
{"property": "C39", "status": "proved", "theorems": ["c_getter", "c_getter_refuted", "c_species_length_refuted", "f_getter", "getter_instance"], "note": "the failing number is refuted for each of the eleven getters"},
{"property": "C40", "status": "proved", "theorems": ["c_padded", "c_padded_exact_refuted", "c_padded_negative_refuted", "c_getter_unterminated_refuted", "c_error_whole", "f_padded", "names_packed"], "note": ""},
{"property": "C41", "status": "proved", "theorems": ["yaml_replay", "played_once", "yaml_unknown_refuted", "yaml_names_ignored", "yaml_order_refuted", "yaml_missing_refuted", "yaml_cell_count"], "note": "yaml-cpp itself is modelled only at its interface; that reading the text of a double gives it back is a hypothesis (faithful)."},
{"property": "C42", "status": "proved", "theorems": ["pointer_current", "pointer_given", "pointer_run_cells_refuted", "pointer_throw_refuted", "pointer_find_refuted", "pointer_find_stale_refuted", "pointer_shared_refuted"], "note": "BMI layer over an arbitrary lawful module; string, selected-output and automatic output variables not modelled; storage taken to be reallocated whenever it grows"},
{"property": "C43", "status": "proved", "theorems": ["update_time", "time_onward", "update_reacts", "update_interval_refuted", "end_time", "end_time_c_refuted"], "note": "times as rationals"},
{"property": "C44", "status": "proved", "theorems": ["array_read", "array_written", "array_one_refuted", "array_before_find_refuted"], "note": ""},
{"property": "C45", "status": "proved", "theorems": ["gas_shown", "gas_moles_set", "gas_moles_round_trip", "gas_volume_round_trip", "gas_inactive_refuted", "gas_twice_refuted", "gas_short_refuted"], "note": "Doubles as rationals, cells of all threads as one list. gas_twice_refuted, gas_inactive_refuted and gas_short_refuted show where the plain claim fails."},
{"property": "C46", "status": "proved", "theorems": ["run_routing", "run_any_order", "run_messages", "run_file_empty", "mpi_run_result", "mpi_initial_refuted"], "note": "instances share only the message log, so a schedule is an order of instances"},
{"property": "C47", "status": "proved", "theorems": ["boundary_values", "boundary_single", "boundary_reports", "boundary_missing_refuted", "boundary_nothing_refuted", "boundary_default"], "note": "boundary conditions from initial solutions; refutations: unreported missing solutions"},
{"property": "C48", "status": "proved", "theorems": ["history_consistent", "b64_fractions_sound", "failed_initial_strays_refuted", "remap_strays_refuted"], "note": "all histories of successful calls; failed initial conditions and a second CreateMapping refuted"},
{"property": "C49", "status": "proved", "theorems": ["bin_copy_slots", "bin_remove_slots", "bin_set_slots", "bin_add_slots", "phreeqc2bin_exact"], "note": ""},
{"property": "C50", "status": "proved", "theorems": ["announced_is_performed", "announcements_differ", "announced_is_performed_refuted", "viscosity_refuted"], "note": "Positive part for every method but GetViscosity; GetViscosity refuted."},
{"property": "C51", "status": "proved", "theorems": ["species_average", "species_not_diluted_refuted"], "note": "Average proved for species listed by every part; the undiluted case is the refuted one."},
{"property": "C52", "status": "proved", "theorems": ["uz_pressure_refuted"], "note": "Refuted by a concrete history."},
{"property": "C53", "status": "proved", "theorems": ["uz_creep_refuted"], "note": "Refuted for every cell content."},
{"property": "C54", "status": "proved", "theorems": ["current_kept_one", "current_after_run", "current_kept_refuted"], "note": "Current selected-output number after RunCells."},
{"property": "C55", "status": "proved", "theorems": ["check_accepts_rows", "check_headings_refuted"], "note": "CheckSelectedOutput, thread build."},
{"property": "C56", "status": "proved", "theorems": ["gamma_average", "gamma_order_refuted"], "note": "Water-weighted mean for names listed in every part; the order dependence of the others is refuted by a witness."},
{"property": "C57", "status": "proved", "theorems": ["solid_solutions_merged"], "note": "Proved for every family of sorted sets, including termination of the merging loop."},
{"property": "C58", "status": "proved", "theorems": ["find_failure_early", "find_failure_refuted", "find_success"], "note": "Early failure characterised; loss of surface types after a failure witnessed."},
{"property": "C59", "status": "proved", "theorems": ["get_property_value", "get_property_refuted"], "note": ""},
{"property": "C60", "status": "proved", "theorems": ["dump_exact", "dump_each_cell_once", "dump_ordered", "dump_pieces_fit", "pressure_refuted", "dump_name"], "note": "texts of reactants are abstract; the digits printed (14) are not modelled"},
{"property": "C61", "status": "proved", "theorems": ["load_result"], "note": ""},
{"property": "C62", "status": "proved", "theorems": ["boundary_species_values", "boundary_species_refuted", "boundary_species_status"], "note": "species table assumed complete for the positive part; refuted otherwise"},
{"property": "C63", "status": "proved", "theorems": ["mpi_gas_rank_0", "mpi_gas_kept", "mpi_gas_new_refuted", "mpi_gas_erase_refuted"], "note": "One process with three instances; the scatter of the values is not modelled."},
{"property": "C64", "status": "proved", "theorems": ["yaml_recorders", "yaml_recorders_wrap_refuted"], "note": "Requests are atomic steps (the instance map has a lock)."},
{"property": "C65", "status": "proved", "theorems": ["sessions_agree"], "note": "Collective calls synchronize; error mode 2, Ith concentrations and BMI updates not modelled."},
{"property": "C66", "status": "proved", "theorems": ["vectors_current", "concentrations_use_given", "mapping_after_vectors_refuted", "state_apply_vectors_refuted"], "note": "Positive part for vectors given since the ranges were last replaced; the orders that fail are refuted."},
{"property": "C67", "status": "proved", "theorems": ["sessions_end", "selected_output_gathered", "missing_table_refuted", "unreceived_table_refuted", "short_mask_refuted"], "note": "Positive part for admissible sessions; hangs shown."},
{"property": "C68", "status": "proved", "theorems": ["run_string_failures", "run_string_errors_refuted", "error_string_refuted"], "note": "Failures of worker instances are reported; the others are refuted."},
{"property": "C69", "status": "proved", "theorems": ["cell_copied", "cell_refused", "cell_not_cleared_refuted", "cell_outside_refuted"], "note": "Thread build, exact arithmetic; the removal promised by the documentation is refuted."},
{"property": "C70", "status": "proved", "theorems": ["check_stops", "check_message_refuted"], "note": "Thread build."},
{"property": "C71", "status": "proved", "theorems": ["species_set", "species_set_off", "species_set_local", "species_set_short_refuted", "species_dry_refuted", "species_round_trip"], "note": "Doubles are rationals; build without MPI."},
{"property": "C72", "status": "proved", "theorems": ["species_read", "species_read_shared", "species_read_after_set", "species_inactive_refuted", "species_unknown_refuted", "species_read_missing_refuted"], "note": "The three getters share one model, differing in the map read."},
{"property": "C73", "status": "proved", "theorems": ["transfer_cells", "transfer_exact", "transfer_again", "transfer_viscosity_refuted", "transfer_temperature_refuted", "transfer_empty_name_refuted"], "note": "transfer_exact lists what is not carried; uz solids left out"},
{"property": "C74", "status": "proved", "theorems": ["rebalance_mpi_moves"], "note": "exchanges taken one pair after the other; partition_uz_solids off"},
{"property": "C75", "status": "proved", "theorems": ["utility_solutions", "utility_density", "utility_dry", "utility_of_reported", "utility_before_find_refuted", "utility_density_refuted", "utility_short_refuted", "c_utility_same"], "note": "Amounts of every set for every unit, component list and number of sets; solutions with other numbers are untouched; a dry set becomes pure water; reported concentrations give the solution back up to a factor. Refuted: mass fractions with H2O as a component, a call before FindComponents, short vectors. The C wrapper is the same function on the first n values."},
{"property": "C76", "status": "proved", "theorems": ["species_all_or_nothing", "species_win", "species_dropped_refuted", "get_ith_species_current", "get_ith_species_stale_refuted"], "note": "All histories of staging calls; the staged components are applied first and have no effect on the cells when species are staged too (species_win). Refuted with saving off."},
{"property": "C77", "status": "proved", "theorems": ["headings_of_current", "select_visits_all", "select_values", "select_added_refuted", "select_load_refuted", "set_current_unchecked_refuted"], "note": "Thread build, error handler mode 0. Refuted for definitions changed after the run."},
{"property": "C78", "status": "proved", "theorems": ["auto_wanted", "auto_off", "auto_listed", "auto_values", "auto_stale_refuted", "auto_old_array_refuted", "auto_no_table_refuted", "auto_case_refuted", "auto_solid_solution_refuted", "auto_choice_refuted"], "note": "The options and names are stated independently as the relation wanted; the value theorem goes through the model of RunCells and GetSelectedOutput (SelOut). The text of the definition is taken at its meaning."},
{"property": "C79", "status": "proved", "theorems": ["get_array_fills", "set_array_reads", "array_no_instance", "array_null", "array_null_refuted", "array_not_covering", "array_not_filled_refuted", "selected_output_throws_refuted", "array_empty_refuted", "cell2module_negative_refuted", "backward_list"], "note": "Positive claims for sufficient arrays; the violations (NULL, unfilled arrays, exceptions, empty vectors) are refuted by counterexamples holding for all instances. The methods are parameters."},
{"property": "C80", "status": "proved", "theorems": ["f90_table", "f90_table_larger", "f90_table_rows_refuted", "f90_table_unallocated_refuted", "f90_vector", "f90_cells_unallocated_refuted", "f90_set_table", "f90_set_checked", "f90_set_rows_refuted", "f90_set_short_refuted", "f90_backward_list", "f90_backward_refuted", "f90_round_trip"], "note": "Exact extents and reallocated tables are right; larger tables are refuted for all extents. Undefined contents of fresh arrays are an arbitrary value."},
{"property": "C81", "status": "proved", "theorems": ["announced_delivered", "texts_current", "error_text_cut", "on_set_bool", "prefix_set", "prefix_set_memory", "on_read_by_c", "error_text_lost_refuted", "on_announced_refuted", "on_set_by_c_refuted", "components_stale_refuted", "one_number_refuted", "prefix_set_memory_refuted"], "note": "histories where components change in FindComponents only and the number of cells is fixed, as an inductive predicate; 8-byte numbers are a parameter"},
{"property": "C82", "status": "proved", "theorems": ["c_text_delivered", "f_logical_delivered", "f_prefix_delivered", "f_components_delivered", "f_headings_delivered", "f_nth_set", "grid_consistent", "c_on_overflow_refuted", "f_no_components_refuted", "f_no_headings_refuted", "f_error_refuted", "f_nth_spelling_refuted", "grid_refuted"], "note": ""},
{"property": "C83", "status": "proved", "theorems": ["raw_solution", "raw_exchange", "raw_gas_phase", "raw_kinetics", "raw_pp", "raw_ssa", "raw_surface", "raw_names_refuted", "raw_redox_refuted", "raw_isotopes_refuted", "raw_exchange_refuted", "raw_mixture", "raw_reaction", "raw_temperature", "raw_pressure", "raw_reaction_refuted"], "note": "guarded round trip for each kind; the guards are necessary: refuted without them"},
{"property": "C84", "status": "proved", "theorems": ["raw_file", "raw_settles"], "note": ""},
{"property": "C85", "status": "proved", "theorems": ["reload_module", "reload_workers", "reload_pressure_refuted", "reload_number_refuted"], "note": "Joins the models of Files (order of writing) and Raw (lines and reading). The joining constructors are arbitrary."},
{"property": "C86", "status": "proved", "theorems": ["written_nearest", "written_bound", "written_same", "written_not_mark", "run_cells_time", "run_cells_absent", "run_cells_clock", "simulate_reacts", "simulate_drift_refuted", "clock_stands_refuted"], "note": "Doubles are exact rationals in this topic; only the decimal written in the RUN_CELLS text is rounded."},
{"property": "C87", "status": "proved", "theorems": ["steps_count", "steps_incremental", "steps_cumulative", "block_cells", "block_clock", "steps_mark_refuted", "time_reported", "time_reported_refuted"], "note": "Errors that stop a run are left out; the chemistry of a step is not part of the model."},
{"property": "C88", "status": "proved", "theorems": ["run_in_step", "run_lined", "dump_lined", "lines_unique", "line_range", "sel_recorded", "sel_recorded_own", "stopped_lines_refuted", "error_lines_refuted", "sel_other_flag_refuted"], "note": "The engine is an arbitrary sequence of events; files are not modelled. What the text of a dump is (appended to the earlier one or not) is modelled, but no theorem states it."},
{"property": "C89", "status": "proved", "theorems": ["components_current", "components_after_load", "components_stale_refuted"], "note": ""},
{"property": "C90", "status": "proved", "theorems": ["accumulated_run", "current_part_exists", "accumulated_again", "loaded_last"], "note": ""},
{"property": "C91", "status": "proved", "theorems": ["mpi_dump_as_threads", "mpi_dump_exact", "mpi_dump_write_error_refuted"], "note": "Pieces are numbered and may fail one by one; sizes are supposed to fit an int; the raw text of a reactant is a parameter (topic Raw has its form)."},
{"property": "C92", "status": "proved", "theorems": ["ids_history", "ids_name_one", "ids_worker_destroyed_refuted", "ids_lost_workers_refuted", "ids_wrap_refuted"], "note": "Guarded by may_all: ids of workers are not destroyed by the user, fewer than 2^31 instances. The refuted cases hold for all histories and modules."},
{"property": "C93", "status": "proved", "theorems": ["instances_no_race", "modules_no_race", "phast_no_race", "modules_made_race_refuted", "phast_get_race_refuted", "module_destroy_race_refuted"], "note": "Accesses to the maps and their locks only; the order of the accesses of one call is that of the code."},
{"property": "C94", "status": "proved", "theorems": ["uz_exchange", "rebalance_uz_moves", "rebalance_uz_silent", "uz_exchange_refuted"], "note": "Moved parts are those of Raw's model of texts; that no errors are reported holds for all contents."},
{"property": "C95", "status": "proved", "theorems": ["print_threads", "print_mpi", "print_failed", "print_failed_mpi", "turns_possible", "print_failed_distribution_refuted", "print_mask_refuted"], "note": "Results of a cell are a parameter that depends on the cell only (C08); the refuted cases are witnesses."},
{"property": "C96", "status": "proved", "theorems": ["run_error_string", "run_error_string_when", "error_string_race_refuted"], "note": "GetConcentrations is taken to succeed; its own report would be added otherwise."},
{"property": "C97", "status": "proved", "theorems": ["recorded_as_meant", "replay_as_direct", "replay_fortran_messages_refuted", "replay_unread_refuted", "replay_names_refuted", "recorded_mix_lengths"], "note": "Direct topic. replay_as_direct is the guarded claim; the calls it leaves out are refuted by the witnesses."},
{"property": "C98", "status": "proved", "theorems": ["range_as_written", "delete_as_asked", "delete_all", "delete_after_failure", "delete_too_large", "delete_less_refuted", "delete_to_largest_refuted"], "note": "Delete topic."},
{"property": "C99", "status": "proved", "theorems": ["delete_cells_written", "init_text_deletes", "delete_one", "find_components_deletes_nothing"], "note": "Delete topic; init_text_deletes joins it to the Init topic."},
{"property": "C100", "status": "proved", "theorems": ["heading_as_written", "heading_unnumbered", "heading_dumped", "heading_descending_refuted", "heading_readers_refuted"], "note": "Copy topic."},
{"property": "C101", "status": "proved", "theorems": ["define_range", "define_headed", "define_failed", "define_largest_refuted", "define_failed_refuted"], "note": "Copy topic."},
{"property": "C102", "status": "proved", "theorems": ["copy_as_asked", "copy_then_delete", "copy_moves_cell", "copy_after_failure", "copy_ranges_refuted", "copy_chain_refuted"], "note": "Copy topic."},
{"property": "C103", "status": "proved", "theorems": ["lists_documented", "lists_automatic", "lists_counted", "lists_by_index", "lists_in_fortran", "lists_headings_refuted", "lists_unchecked_refuted"], "note": "Lists topic."},
{"property": "C104", "status": "proved", "theorems": ["set_as_listed", "get_as_listed", "pointer_as_listed", "info_as_listed", "listed_refuted", "uninitialized_refuted"], "note": "Lists topic."},
{"property": "C105", "status": "proved", "theorems": ["worker_dispatches", "worker_registered", "worker_follows", "worker_separates", "worker_goes_on", "worker_reports", "worker_viscosity_refuted", "worker_failure_refuted", "worker_number_refuted", "worker_changed_refuted"], "note": "Methods of the module and functions of the program are arbitrary code on the state of the process. The exact sequence of calls is for programs that register before the loop and whose functions return and leave the number; worker_separates and worker_goes_on have no condition."},
{"property": "C106", "status": "proved", "theorems": ["python_backward", "python_backward_cells", "python_stoichiometry", "python_int_vector", "stoichiometry_again_refuted", "python_vector_refuted"], "note": "Generated SWIG code is assumed to give new empty output vectors; rows have fewer than 2^31 elements, names and elements are distinct (they are keys of maps in the code)."},
{"property": "C107", "status": "proved", "theorems": ["start_recorded", "start_single", "start_once", "start_empty", "start_two_refuted", "start_again_refuted"], "note": "OpenMP build. yaml-cpp is taken at its interface as for C41; documents are those of the recorder with calls the reader knows. The constructed instance is an arbitrary function of its mapping."},
{"property": "C108", "status": "proved", "theorems": ["modes_last", "modes_failed_cell", "modes_failed_cell_mpi", "modes_silent_refuted", "modes_refused_refuted"], "note": "Guarded theorems for both builds, and two refuted readings: failures pass unseen in mode 3, and a refused mode resets the mode to 0."},
{"property": "C109", "status": "proved", "theorems": ["balance_collects", "balance_cell_partition", "balance_avg_partition", "balance_avg_completes", "balance_as_threads", "balance_zero_times_refuted", "balance_avg_threads_refuted"], "note": "By cell always completes; by averages completes for ordinary times, with witnesses for undefined behaviour and for the difference between builds."}
]}
