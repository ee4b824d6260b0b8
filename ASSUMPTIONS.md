# Assumptions of the property theorems

The answers of `Print Assumptions`, written by `tools/gen_assumptions.py`.

## Closed under the global context

C05_ghosts_and_frame, C06_history_independent, C06_stale_lists, C14_each_pair_once, C16_identity, C17_acceleration_cleared, C22_courant_reported, C22_limit_only_warns, C25_second_update_is_void, C26_failure_exits, C29_distribution_only_removes, C30_explicit_never_assigns, C31_iterations_in_order, C31_parallel_loops, C32_constructed, C33_schedule, C34_alphabetical, C34_alphabetical_beyond_refuted, C34_distinct_names, C36_settings_accepted, C36_settings_read, C49_duration, C50_runs, C50_unrecognised_types, C54_unknown_method, C62_passive, C63_courant_errors, C63_log, C71_step, C71_steps, C72_create, C72_resume, C76_rows, C76_shipped, C80_step_ends

## `ClassicalDedekindReals.sig_forall_dec`, `FunctionalExtensionality.functional_extensionality_dep`

C63_decimals

## `ClassicalDedekindReals.sig_forall_dec`, `ClassicalDedekindReals.sig_not_dec`, `FunctionalExtensionality.functional_extensionality_dep`

C01_neighbour_search_exact, C02_neighbour_lists_exact, C03_symmetric_exact, C04_memory_safe_exact, C08_weight_law, C08_weight_strictly_decreasing, C08_weight_vanishes_at_re, C09_reference_values, C10_full_lattice, C10_number_density, C11_pair_collision, C12_collisions_conserve, C13_no_energy_from_collisions, C14_walls_immovable, C15_nonfluid_never_move, C17_prediction, C18_free_fall, C19_momentum, C19_uniform_flow, C20_minimum_pressure, C21_gradient_repulsive, C22_courant_number, C23_planar, C24_explicit_pressure, C26_failure_exits_step, C26_implicit_nonnegative, C27_zero_off_interior, C28_matrix, C28_solution, C28_solvable, C29_free_surface, C32_backwards, C32_completes, C32_ends, C32_step_count, C33_exact, C33_short_period, C35_gravity, C35_right_angles, C36_radii, C36_usable, C48_dambreak, C48_hydrostatic, C51_implicit_completes, C51_runs_complete, C51_step_total_exact, C52_pressure_gradient, C53_whole_step, C54_factory, C62_warned_once, C64_when, C65_create, C65_run, C65_solver, C65_step, C66_create, C66_run, C66_step, C70_orientation_refuted, C74_densities_refuted, C74_energy, C74_no_new_extremes, C74_power, C74_unstable_refuted, C75_collision_turns_refuted, C75_pressure_refuted, C75_viscosity_balanced, C75_viscosity_torque_refuted, C78_falling_body, C78_lattice, C78_rest, C81_reference, C83_explicit, C84_attained, C84_between, C87_differences, C87_proportional

## `ClassicalDedekindReals.sig_forall_dec`, `ClassicalDedekindReals.sig_not_dec`, `Classical_Prop.classic`, `FunctionalExtensionality.functional_extensionality_dep`

C02_neighbour_lists_binary64, C03_symmetric_binary64, C04_memory_safe_binary64, C07_exact_in_binary64_refuted, C07_margin_binary64, C08_decreasing_binary64, C08_weight_binary64, C10_density_binary64, C10_never_nan, C15_nonfluid_binary64, C15_numbers_stay_refuted, C20_minimum_binary64, C20_search_is_mutual, C22_courant_binary64, C22_nan_unnoticed, C23_planar_binary64, C24_accuracy_binary64, C24_explicit_binary64, C24_monotone_binary64, C25_pressure_refreshed_refuted, C26_step_nonnegative_binary64, C30_surface_reported_refuted, C32_binary64, C32_dambreak_steps, C32_hydrostatic_steps, C33_dambreak_files, C33_hydrostatic_files, C36_nan_ratio_refuted, C36_radii_float, C37_loaded, C37_target_exists, C37_unknown_method, C37_unsupported, C37_untouched, C38_infinite_velocity_refuted, C38_prof_round_trip, C39_column_order, C39_csv_round_trip, C39_csv_rows, C39_tiny_time_refuted, C40_vtu_round_trip, C40_zero_reference_refuted, C41_default_density_refuted, C41_density_is_number_density, C42_binary_layout, C42_too_many, C43_binary_refused, C44_csv_fixed_point, C44_prof_fixed_point, C44_subnormal_refuted, C45_bad_last_value, C45_bad_row, C45_blank_accepted, C45_every_truncation, C45_truncated_rejected_refuted, C46_nan_contained_refuted, C46_nan_never_completes, C47_bad_extension, C47_cancelled, C47_changes, C47_completes, C47_no_answer, C47_not_a_directory, C47_terminates_refuted, C47_written, C48_dambreak_float, C48_dambreak_run, C48_hydrostatic_float, C48_hydrostatic_run, C48_shipped_csv, C48_shipped_prof, C51_step_safe_binary64, C55_every_missing_column, C55_missing_column_rejected_refuted, C56_no_file_lost_refuted, C56_others_kept, C57_refusal_clean_refuted, C58_only_output, C59_completes, C59_restart, C59_stored, C60_missing_arrays, C60_shipped_vtu_empty, C60_shipped_vtu_refuted, C61_ascii_document, C61_binary_document, C61_csv_document, C61_prof_document, C62_text, C62_warned_once_binary64, C63_courant_line, C63_line, C63_short_line, C63_time_step_refuted, C64_fine_binary64, C64_report_refuted, C66_binary64_refuted, C67_dambreak_loads, C67_hydrostatic_loads, C68_dambreak, C68_hydrostatic, C68_loop_ends, C68_program_ends, C69_axes, C69_numbers, C69_order_refuted, C69_run, C70_run, C70_step, C72_any_output_refuted, C72_run_again, C72_same_end_refuted, C73_loaded, C73_sound, C76_last_line_refuted, C76_negative_type_refuted, C76_same_particles, C76_tab_refuted, C77_blank_refuted, C77_dambreak, C77_earlier_results, C77_safe_dambreak, C77_safe_hydrostatic, C77_safe_keeps, C77_same_second_refuted, C79_inventory, C79_prof_exactly, C79_vtu_never, C80_assert, C80_exit, C80_goes_on, C80_throw, C81_export, C81_neighbours, C81_neighbours_refuted, C81_reference_refuted, C81_vtu, C81_vtu_refuted, C81_weight_beyond, C81_weight_half, C82_arguments, C82_completed, C82_end, C82_exit, C82_passive, C82_progress, C82_silent, C82_streams, C82_text, C83_explicit_binary64, C83_implicit, C84_bound, C84_monotone, C84_step, C84_support, C85_clock_refuted, C85_job, C85_took, C85_written, C86_listed_assert, C86_listed_twice, C86_pair_assert, C86_pair_lost, C86_search, C86_step, C86_twins, C87_double_refuted
