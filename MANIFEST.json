{
 "claims": [
  {
   "property": "C01",
   "status": "proved",
   "theorems": [
    "C01_neighbour_search_exact"
   ],
   "note": "Exact arithmetic; for every domain, radius, particle list and history of the searcher object. The result list is also shown to exist (the search completes)."
  },
  {
   "property": "C02",
   "status": "proved",
   "theorems": [
    "C02_neighbour_lists_exact",
    "C02_neighbour_lists_binary64"
   ],
   "note": "Proved for exact arithmetic and for IEEE binary64."
  },
  {
   "property": "C03",
   "status": "proved",
   "theorems": [
    "C03_symmetric_exact",
    "C03_symmetric_binary64"
   ],
   "note": "Proved for exact arithmetic and for IEEE binary64 (bit-equal distances)."
  },
  {
   "property": "C04",
   "status": "proved",
   "theorems": [
    "C04_memory_safe_exact",
    "C04_memory_safe_binary64"
   ],
   "note": "Every failure (out of bounds, overflow, bad cast, divergence) is an outcome different from Ok; the theorems show Ok. In binary64 coordinates may be infinite but not NaN."
  },
  {
   "property": "C05",
   "status": "proved",
   "theorems": [
    "C05_ghosts_and_frame"
   ],
   "note": "For every arithmetic."
  },
  {
   "property": "C06",
   "status": "proved",
   "theorems": [
    "C06_history_independent",
    "C06_stale_lists"
   ],
   "note": "For every arithmetic: the whole outcome is independent of the history of the searcher object; old neighbour lists of non-Ghost particles have no influence. A particle that becomes Ghost keeps its old list, as in the code."
  },
  {
   "property": "C07",
   "status": "proved",
   "theorems": [
    "C07_exact_in_binary64_refuted",
    "C07_margin_binary64"
   ],
   "note": "The property is false of the code: C07_exact_in_binary64_refuted exhibits two particles closer than re that do not list each other. C07_margin_binary64 proves the search exact up to a relative margin of 2^-19."
  },
  {
   "property": "C08",
   "status": "proved",
   "theorems": [
    "C08_weight_binary64",
    "C08_decreasing_binary64",
    "C08_weight_law",
    "C08_weight_strictly_decreasing",
    "C08_weight_vanishes_at_re"
   ],
   "note": "Exact arithmetic and doubles."
  },
  {
   "property": "C09",
   "status": "proved",
   "theorems": [
    "C09_reference_values"
   ],
   "note": "Exact arithmetic, every radius and spacing. The reference sums run over a fixed lattice of 9^dim cells; the theorems say for which radii this is the complete lattice and that it is truncated beyond 5 l0."
  },
  {
   "property": "C10",
   "status": "proved",
   "theorems": [
    "C10_density_binary64",
    "C10_never_nan",
    "C10_number_density",
    "C10_full_lattice"
   ],
   "note": "Value in exact arithmetic; sign in doubles."
  },
  {
   "property": "C11",
   "status": "proved",
   "theorems": [
    "C11_pair_collision"
   ],
   "note": "Exact arithmetic, all velocities, masses and positions of a pair."
  },
  {
   "property": "C12",
   "status": "proved",
   "theorems": [
    "C12_collisions_conserve"
   ],
   "note": "Exact arithmetic; the whole collision stage with in-place updates, any number of particles."
  },
  {
   "property": "C13",
   "status": "proved",
   "theorems": [
    "C13_no_energy_from_collisions"
   ],
   "note": "Exact arithmetic; the whole collision stage."
  },
  {
   "property": "C14",
   "status": "proved",
   "theorems": [
    "C14_each_pair_once",
    "C14_walls_immovable"
   ],
   "note": "For every arithmetic; stated on the trace of impulses of the stage."
  },
  {
   "property": "C15",
   "status": "proved",
   "theorems": [
    "C15_nonfluid_binary64",
    "C15_numbers_stay_refuted",
    "C15_nonfluid_never_move"
   ],
   "note": "Exact arithmetic and doubles, runs of every length, every solver. In doubles a coordinate can turn NaN (refuted with a witness: the impulse of a collision overflows and is multiplied by the wall's inverse density 0)."
  },
  {
   "property": "C16",
   "status": "proved",
   "theorems": [
    "C16_identity"
   ],
   "note": "For every arithmetic, runs of every length, every solver."
  },
  {
   "property": "C17",
   "status": "proved",
   "theorems": [
    "C17_acceleration_cleared",
    "C17_prediction"
   ],
   "note": "First theorem for every arithmetic; the closed form of the prediction in exact arithmetic."
  },
  {
   "property": "C18",
   "status": "proved",
   "theorems": [
    "C18_free_fall"
   ],
   "note": "Exact arithmetic, any number of steps; other particles may be present as long as the falling one stays out of range of them."
  },
  {
   "property": "C19",
   "status": "proved",
   "theorems": [
    "C19_uniform_flow",
    "C19_momentum"
   ],
   "note": "Exact arithmetic."
  },
  {
   "property": "C20",
   "status": "proved",
   "theorems": [
    "C20_minimum_binary64",
    "C20_search_is_mutual",
    "C20_minimum_pressure"
   ],
   "note": "Exact arithmetic and doubles."
  },
  {
   "property": "C21",
   "status": "proved",
   "theorems": [
    "C21_gradient_repulsive"
   ],
   "note": "Exact arithmetic."
  },
  {
   "property": "C22",
   "status": "proved",
   "theorems": [
    "C22_courant_binary64",
    "C22_courant_number",
    "C22_courant_reported",
    "C22_nan_unnoticed",
    "C22_limit_only_warns"
   ],
   "note": "Value in exact arithmetic and in doubles; the other two theorems for every arithmetic."
  },
  {
   "property": "C23",
   "status": "proved",
   "theorems": [
    "C23_planar_binary64",
    "C23_planar"
   ],
   "note": "Exact arithmetic and doubles, runs of every length, every solver."
  },
  {
   "property": "C24",
   "status": "proved",
   "theorems": [
    "C24_explicit_binary64",
    "C24_monotone_binary64",
    "C24_accuracy_binary64",
    "C24_explicit_pressure"
   ],
   "note": "Exact arithmetic and doubles."
  },
  {
   "property": "C25",
   "status": "proved",
   "theorems": [
    "C25_pressure_refreshed_refuted",
    "C25_second_update_is_void"
   ],
   "note": "The property is false of the code: C25_pressure_refreshed_refuted (binary64, one step of the shipped dam-break settings). C25_second_update_is_void proves for every arithmetic that the stored pressures are those of the first update."
  },
  {
   "property": "C26",
   "status": "proved",
   "theorems": [
    "C26_implicit_nonnegative",
    "C26_step_nonnegative_binary64",
    "C26_failure_exits",
    "C26_failure_exits_step"
   ],
   "note": "For every solver: clipping in exact arithmetic and binary64, and the exit code after a failed solve."
  },
  {
   "property": "C27",
   "status": "proved",
   "theorems": [
    "C27_zero_off_interior"
   ],
   "note": "Exact arithmetic, for every solver that returns solutions of the system it is given."
  },
  {
   "property": "C28",
   "status": "proved",
   "theorems": [
    "C28_matrix",
    "C28_solution",
    "C28_solvable"
   ],
   "note": "Exact arithmetic: every row of the assembled matrix, uniqueness and non-negativity of the solution. BiCGSTAB itself is not modelled. Existence of the solution included (C28_solvable)."
  },
  {
   "property": "C29",
   "status": "proved",
   "theorems": [
    "C29_free_surface",
    "C29_distribution_only_removes"
   ],
   "note": "First theorem in exact arithmetic for both detectors; the comparison of the detectors for every arithmetic."
  },
  {
   "property": "C30",
   "status": "proved",
   "theorems": [
    "C30_surface_reported_refuted",
    "C30_explicit_never_assigns"
   ],
   "note": "The property is false of the code with the explicit method: C30_surface_reported_refuted (binary64). C30_explicit_never_assigns: for every arithmetic, no step changes any boundary condition."
  },
  {
   "property": "C31",
   "status": "proved",
   "theorems": [
    "C31_parallel_loops",
    "C31_iterations_in_order"
   ],
   "note": "All 14 distinct omp parallel for loops (the 15th, MPS::setBoundaryCondition, duplicates FreeSurface's and is never called); each iteration is a program of single memory accesses, arbitrary interleaving, sequentially consistent memory, any arithmetic."
  },
  {
   "property": "C32",
   "status": "proved",
   "theorems": [
    "C32_step_count",
    "C32_constructed",
    "C32_ends",
    "C32_completes",
    "C32_backwards",
    "C32_binary64",
    "C32_dambreak_steps",
    "C32_hydrostatic_steps"
   ],
   "note": "Exact arithmetic: number of steps, times, ending, completion (assertions off, solver succeeding), and dt <= 0. Binary64: ends, or time stands still and the run never completes; the shipped cases take 2001 (not 2000) and 5000 steps."
  },
  {
   "property": "C33",
   "status": "proved",
   "theorems": [
    "C33_dambreak_files",
    "C33_hydrostatic_files",
    "C33_schedule",
    "C33_exact",
    "C33_short_period"
   ],
   "note": "Schedule for every arithmetic; exact lateness bound for period >= dt; one file per step for period <= dt; files of the two shipped cases in binary64, where some come one step after the expected one."
  },
  {
   "property": "C34",
   "status": "proved",
   "theorems": [
    "C34_distinct_names",
    "C34_alphabetical",
    "C34_alphabetical_beyond_refuted"
   ],
   "note": "Distinctness for all numbers, alphabetical order below 10000, and the counterexample 9999/10000 beyond."
  },
  {
   "property": "C35",
   "status": "proved",
   "theorems": [
    "C35_gravity",
    "C35_right_angles"
   ],
   "note": "Exact sin, cos and pi; the rotation formula, the length and the right angles."
  },
  {
   "property": "C36",
   "status": "proved",
   "theorems": [
    "C36_settings_read",
    "C36_settings_accepted",
    "C36_radii",
    "C36_usable",
    "C36_radii_float",
    "C36_nan_ratio_refuted"
   ],
   "note": "Every arithmetic: C36_settings_read/accepted (each field stands under its key; files with all entries are accepted). Exact arithmetic: radii and usability. Binary64: reMax covers the radii unless one of them is NaN (C36_nan_ratio_refuted). YAML parsing and scalar conversion are parameters (yaml-cpp not modelled). The particle path is specified by the relation denotes (SpecLoader), not by the model's resolve."
  },
  {
   "property": "C37",
   "status": "proved",
   "theorems": [
    "C37_untouched",
    "C37_loaded",
    "C37_target_exists",
    "C37_unsupported",
    "C37_unknown_method"
   ],
   "note": "Loader preserves all that existed for every outcome; copies exactly the two inputs; exits -1 on an existing target (also when both inputs have one name), an unsupported extension, or an unknown method (no output file written; needs NDEBUG reading of asserts, dbg = false)."
  },
  {
   "property": "C38",
   "status": "proved",
   "theorems": [
    "C38_prof_round_trip",
    "C38_infinite_velocity_refuted"
   ],
   "note": "Proved for every finite time and writable particle list; \"as printed\" means: the double nearest to the 6-digit decimal nearest to the value. Without finiteness it is false (C38_infinite_velocity_refuted). printf %g, strtod, istream extraction and (for CSV) csv.h are modelled or assumed as described in DESIGN.md."
  },
  {
   "property": "C39",
   "status": "proved",
   "theorems": [
    "C39_csv_round_trip",
    "C39_csv_rows",
    "C39_column_order",
    "C39_tiny_time_refuted"
   ],
   "note": "Round trip for every reader of cells that understands printed numbers; rows of arbitrary CSV files and column order in general. The time must be zero or at least 1e-300 in magnitude (C39_tiny_time_refuted). printf %g, strtod, istream extraction and (for CSV) csv.h are modelled or assumed as described in DESIGN.md."
  },
  {
   "property": "C40",
   "status": "proved",
   "theorems": [
    "C40_vtu_round_trip",
    "C40_zero_reference_refuted"
   ],
   "note": "Proved when number densities and their ratio to n0 are finite; with n0 = 0 the exported file cannot be loaded (C40_zero_reference_refuted). printf %g, strtod, istream extraction and (for CSV) csv.h are modelled or assumed as described in DESIGN.md."
  },
  {
   "property": "C41",
   "status": "proved",
   "theorems": [
    "C41_default_density_refuted",
    "C41_density_is_number_density"
   ],
   "note": "False of the code: C41_default_density_refuted. What holds instead: C41_density_is_number_density."
  },
  {
   "property": "C42",
   "status": "proved",
   "theorems": [
    "C42_binary_layout",
    "C42_too_many"
   ],
   "note": "Proved while 3n fits an int, for both byte orders; beyond that the code overflows (C42_too_many). NaN payloads are not modelled: NaN is recovered as NaN."
  },
  {
   "property": "C43",
   "status": "proved",
   "theorems": [
    "C43_binary_refused"
   ],
   "note": "For every binary file the exporter can write."
  },
  {
   "property": "C44",
   "status": "proved",
   "theorems": [
    "C44_prof_fixed_point",
    "C44_csv_fixed_point",
    "C44_subnormal_refuted"
   ],
   "note": "prof and csv, for normal (or zero) values; false for subnormal numbers (C44_subnormal_refuted). VTU export also prints number densities, which loading does not restore."
  },
  {
   "property": "C45",
   "status": "proved",
   "theorems": [
    "C45_truncated_rejected_refuted",
    "C45_every_truncation",
    "C45_blank_accepted",
    "C45_bad_row",
    "C45_bad_last_value"
   ],
   "note": "False of the code: C45_truncated_rejected_refuted; C45_every_truncation shows undefined behaviour for every missing row; C45_blank_accepted: an empty file loads as no particles at time NaN. C45_bad_row: text that cannot begin a number where a row begins is undefined behaviour; C45_bad_last_value: as last value of the file it is silently taken as 0."
  },
  {
   "property": "C46",
   "status": "proved",
   "theorems": [
    "C46_nan_contained_refuted",
    "C46_nan_never_completes"
   ],
   "note": "The property is false of the code: C46_nan_contained_refuted. C46_nan_never_completes shows that no search completes for any particle set with such a NaN."
  },
  {
   "property": "C47",
   "status": "proved",
   "theorems": [
    "C47_changes",
    "C47_written",
    "C47_completes",
    "C47_cancelled",
    "C47_bad_extension",
    "C47_not_a_directory",
    "C47_no_answer",
    "C47_terminates_refuted"
   ],
   "note": "For all file systems (every entry in a directory), answers and particle lists. One refinement is false and recorded: C47_terminates_refuted, the question repeats for ever when standard input ends without an answer (C47_no_answer for all such inputs). Not modelled: symbolic links, permissions, a full disk."
  },
  {
   "property": "C48",
   "status": "proved",
   "theorems": [
    "C48_dambreak",
    "C48_hydrostatic",
    "C48_dambreak_float",
    "C48_hydrostatic_float",
    "C48_dambreak_run",
    "C48_hydrostatic_run",
    "C48_shipped_prof",
    "C48_shipped_csv"
   ],
   "note": "The generators have no input, so the runs are complete. Exact arithmetic: the particles are exactly the grid points of the intended shapes (independent of the loops). Binary64: the same list up to 1e-15 m; the written input.prof equals the shipped one byte for byte; the shipped prof and csv files load as these particles and lie in the domain of their settings (csv cells read by the model's own decimal reader)."
  },
  {
   "property": "C49",
   "status": "proved",
   "theorems": [
    "C49_duration"
   ],
   "note": "All durations in nanoseconds, including negative ones."
  },
  {
   "property": "C50",
   "status": "proved",
   "theorems": [
    "C50_unrecognised_types",
    "C50_runs"
   ],
   "note": "For every arithmetic and whatever the outcome of the step."
  },
  {
   "property": "C51",
   "status": "proved",
   "theorems": [
    "C51_step_total_exact",
    "C51_runs_complete",
    "C51_step_safe_binary64",
    "C51_implicit_completes"
   ],
   "note": "Exact arithmetic: complete. Binary64: the only other possibility is a NaN coordinate at one of the searches of the step. With an exact solver (Gaussian elimination, built in GaussR.v) every implicit step completes unless two particles coincide."
  },
  {
   "property": "C52",
   "status": "proved",
   "theorems": [
    "C52_pressure_gradient"
   ],
   "note": "Exact arithmetic."
  },
  {
   "property": "C53",
   "status": "proved",
   "theorems": [
    "C53_whole_step"
   ],
   "note": "Exact arithmetic, exact linear solver. Prediction and pressure stages under the hypothesis that no two particles that are not Ghost share a place at that moment (the code divides by their distance)."
  },
  {
   "property": "C54",
   "status": "proved",
   "theorems": [
    "C54_factory",
    "C54_unknown_method"
   ],
   "note": "Exact arithmetic for the construction; the exit for unknown methods in every arithmetic (builds without asserts)."
  },
  {
   "property": "C55",
   "status": "proved",
   "theorems": [
    "C55_missing_column_rejected_refuted",
    "C55_every_missing_column"
   ],
   "note": "False of the code: C55_missing_column_rejected_refuted; C55_every_missing_column for all files."
  },
  {
   "property": "C56",
   "status": "proved",
   "theorems": [
    "C56_no_file_lost_refuted",
    "C56_others_kept"
   ],
   "note": "False of the code: C56_no_file_lost_refuted (earlier outputs replaced); C56_others_kept: nothing but output files is at risk, for all runs."
  },
  {
   "property": "C57",
   "status": "proved",
   "theorems": [
    "C57_refusal_clean_refuted"
   ],
   "note": "False of the code: C57_refusal_clean_refuted: method name mistyped, copies left behind, the corrected case exits -1 although it completes in a clean directory."
  },
  {
   "property": "C58",
   "status": "proved",
   "theorems": [
    "C58_only_output"
   ],
   "note": "For all file systems, inputs and outcomes. Symbolic links, permissions and full disks are not modelled."
  },
  {
   "property": "C59",
   "status": "proved",
   "theorems": [
    "C59_stored",
    "C59_restart",
    "C59_completes"
   ],
   "note": "C59_stored (completed run = simulation of the loaded input, files stored), C59_restart (outputs reload), C59_completes (converse)."
  },
  {
   "property": "C60",
   "status": "proved",
   "theorems": [
    "C60_missing_arrays",
    "C60_shipped_vtu_refuted",
    "C60_shipped_vtu_empty"
   ],
   "note": "False of the code: C60_shipped_vtu_refuted (witness: the shipped dam break VTU file loads as no particles); C60_missing_arrays for all files."
  },
  {
   "property": "C61",
   "status": "proved",
   "theorems": [
    "C61_ascii_document",
    "C61_binary_document",
    "C61_prof_document",
    "C61_csv_document"
   ],
   "note": "No hypothesis on the particles. XML is specified in SpecXml (tags nest, attributes quoted, no special characters in text); numerals are specified by their digits. The appended data of the binary format is C42."
  },
  {
   "property": "C62",
   "status": "proved",
   "theorems": [
    "C62_passive",
    "C62_warned_once",
    "C62_warned_once_binary64",
    "C62_text"
   ],
   "note": "Exact arithmetic: the printed position is the final one. Binary64: up to the sign of a zero, or NaN after an overflowing impulse (C15)."
  },
  {
   "property": "C63",
   "status": "proved",
   "theorems": [
    "C63_log",
    "C63_courant_errors",
    "C63_decimals",
    "C63_line",
    "C63_short_line",
    "C63_courant_line",
    "C63_time_step_refuted"
   ],
   "note": "For every arithmetic; text of decimals at binary64. The one-digit time step is refuted by C63_time_step_refuted."
  },
  {
   "property": "C64",
   "status": "proved",
   "theorems": [
    "C64_report_refuted",
    "C64_when",
    "C64_fine_binary64"
   ],
   "note": "Refuted by a realistic run in binary64; C64_when gives the exact bound in exact arithmetic, C64_fine_binary64 a sufficient bound in binary64."
  },
  {
   "property": "C65",
   "status": "proved",
   "theorems": [
    "C65_step",
    "C65_create",
    "C65_run",
    "C65_solver"
   ],
   "note": "Exact arithmetic, all outcomes; the solver is assumed to respect units, which is proved of exact elimination (C65_solver)."
  },
  {
   "property": "C66",
   "status": "proved",
   "theorems": [
    "C66_step",
    "C66_create",
    "C66_run",
    "C66_binary64_refuted"
   ],
   "note": "Exact arithmetic, any solver; in binary64 refuted by C66_binary64_refuted."
  },
  {
   "property": "C67",
   "status": "proved",
   "theorems": [
    "C67_dambreak_loads",
    "C67_hydrostatic_loads"
   ],
   "note": "Assumes of yaml-cpp only that it reads the flat YAML subset of these files as Yaml.v does (reads_plainly)."
  },
  {
   "property": "C68",
   "status": "proved",
   "theorems": [
    "C68_program_ends",
    "C68_loop_ends",
    "C68_dambreak",
    "C68_hydrostatic"
   ],
   "note": "C68_loop_ends and C68_program_ends for every case, C68_dambreak and C68_hydrostatic for the shipped ones. A coordinate that has become NaN ends the run in the conversion to int (C86)."
  },
  {
   "property": "C69",
   "status": "proved",
   "theorems": [
    "C69_numbers",
    "C69_axes",
    "C69_run",
    "C69_order_refuted"
   ],
   "note": "C69_numbers, C69_axes, C69_run for regular states; without the condition on collisions refuted by C69_order_refuted."
  },
  {
   "property": "C70",
   "status": "proved",
   "theorems": [
    "C70_step",
    "C70_run",
    "C70_orientation_refuted"
   ],
   "note": "C70_step and C70_run when the surface is not detected by distribution; for detection by distribution refuted by C70_orientation_refuted."
  },
  {
   "property": "C71",
   "status": "proved",
   "theorems": [
    "C71_step",
    "C71_steps"
   ],
   "note": "For every arithmetic and every outcome. Neighbours of ghosts are not written by a step and may differ."
  },
  {
   "property": "C72",
   "status": "proved",
   "theorems": [
    "C72_create",
    "C72_resume",
    "C72_run_again",
    "C72_any_output_refuted",
    "C72_same_end_refuted"
   ],
   "note": "C72_resume for every arithmetic; C72_run_again for prof outputs printed without loss; without that refuted by C72_any_output_refuted and C72_same_end_refuted."
  },
  {
   "property": "C73",
   "status": "proved",
   "theorems": [
    "C73_loaded",
    "C73_sound"
   ],
   "note": "For every file; the values of the particles are C38-C45, C55, C60."
  },
  {
   "property": "C74",
   "status": "proved",
   "theorems": [
    "C74_power",
    "C74_no_new_extremes",
    "C74_energy",
    "C74_unstable_refuted",
    "C74_densities_refuted"
   ],
   "note": "C74_power, C74_no_new_extremes and C74_energy for one density; the limit 1 is sharp (C74_unstable_refuted); false for two densities (C74_densities_refuted)."
  },
  {
   "property": "C75",
   "status": "proved",
   "theorems": [
    "C75_viscosity_balanced",
    "C75_viscosity_torque_refuted",
    "C75_pressure_refuted",
    "C75_collision_turns_refuted"
   ],
   "note": "C75_viscosity_balanced for one density; refuted for two densities (C74_densities_refuted), for the moment, for pressure forces and for the angular momentum in collisions."
  },
  {
   "property": "C76",
   "status": "proved",
   "theorems": [
    "C76_rows",
    "C76_same_particles",
    "C76_shipped",
    "C76_tab_refuted",
    "C76_last_line_refuted",
    "C76_negative_type_refuted"
   ],
   "note": "C76_rows, C76_same_particles and C76_shipped; lines with tabs, a last line without newline and negative types are lost (three refutations)."
  },
  {
   "property": "C77",
   "status": "proved",
   "theorems": [
    "C77_earlier_results",
    "C77_dambreak",
    "C77_blank_refuted",
    "C77_safe_keeps",
    "C77_safe_dambreak",
    "C77_safe_hydrostatic",
    "C77_same_second_refuted"
   ],
   "note": "C77_earlier_results, C77_dambreak, C77_safe_keeps, C77_safe_dambreak and C77_safe_hydrostatic; refuted for paths with blanks and for two safe runs in one second."
  },
  {
   "property": "C78",
   "status": "proved",
   "theorems": [
    "C78_falling_body",
    "C78_lattice",
    "C78_rest"
   ],
   "note": "C78_falling_body and C78_rest for bodies nowhere denser than the reference state, C78_lattice for pieces of the lattice."
  },
  {
   "property": "C79",
   "status": "proved",
   "theorems": [
    "C79_inventory",
    "C79_prof_exactly",
    "C79_vtu_never"
   ],
   "note": "C79_inventory lists the causes as disjunction; runs for each cause that can be computed stand beside it. The other direction is proved for prof files (C79_prof_exactly)."
  },
  {
   "property": "C80",
   "status": "proved",
   "theorems": [
    "C80_exit",
    "C80_throw",
    "C80_assert",
    "C80_step_ends",
    "C80_goes_on"
   ],
   "note": "One theorem for each way of ending; the causes are necessary conditions, with a run for each beside them."
  },
  {
   "property": "C81",
   "status": "proved",
   "theorems": [
    "C81_weight_half",
    "C81_weight_beyond",
    "C81_reference",
    "C81_reference_refuted",
    "C81_neighbours",
    "C81_neighbours_refuted",
    "C81_export",
    "C81_vtu",
    "C81_vtu_refuted"
   ],
   "note": "Each test is also an Example or theorem with its own inputs. _reference is in exact arithmetic; the doubles of the test are computed. The refuted ones are inputs on which the test would fail with the code unchanged."
  },
  {
   "property": "C82",
   "status": "proved",
   "theorems": [
    "C82_passive",
    "C82_exit",
    "C82_silent",
    "C82_completed",
    "C82_end",
    "C82_arguments",
    "C82_progress",
    "C82_text",
    "C82_streams"
   ],
   "note": "Errors are the messages followed by exit(-1); the Courant message of C63, after which the run continues, is not among them. _passive supposes that the total time fits into 64 bits (C64). _text excludes the message of argparse, whose text is not modelled, and supposes names without slashes."
  },
  {
   "property": "C83",
   "status": "proved",
   "theorems": [
    "C83_explicit_binary64",
    "C83_explicit",
    "C83_implicit"
   ],
   "note": "The members keep their order but may have any numbers. With implicit pressures both runs are supposed to complete and no two particles to be in one place; in doubles the members' pressures may differ there by rounding, since the solver sees another matrix. The Courant number and the time of a step are those of all particles and are not compared."
  },
  {
   "property": "C84",
   "status": "proved",
   "theorems": [
    "C84_bound",
    "C84_between",
    "C84_attained",
    "C84_support",
    "C84_monotone",
    "C84_step"
   ],
   "note": "The support theorem supposes that no particle solved for is below n0; the monotonicity that the same particles are solved for in both calculations. Surface, Ghost and DummyWall particles have the prescribed pressure zero (C27)."
  },
  {
   "property": "C85",
   "status": "proved",
   "theorems": [
    "C85_job",
    "C85_took",
    "C85_clock_refuted",
    "C85_written"
   ],
   "note": "Drawing, upload and posting of the comment are not modelled: the drawing is supposed to fail only when the VTU file is missing. Undefined behaviour in the run (only: a coordinate that has become NaN) leaves the workflow without a known result."
  },
  {
   "property": "C86",
   "status": "proved",
   "theorems": [
    "C86_search",
    "C86_step",
    "C86_twins",
    "C86_pair_lost",
    "C86_pair_assert",
    "C86_listed_twice",
    "C86_listed_assert"
   ],
   "note": "C86_search and C86_step are equivalences; C86_twins, C86_pair_lost and C86_listed_twice suppose that assertions are off (NDEBUG), C86_pair_assert and C86_listed_assert that they are on. The third alternative of C68, C77, C79 and C85 now names the outcome."
  },
  {
   "property": "C87",
   "status": "proved",
   "theorems": [
    "C87_differences",
    "C87_proportional",
    "C87_double_refuted"
   ],
   "note": "About the three functions of the correction, not about the pressure calculators, which fix the constant (zero at the surface, C27, and clipping at zero, C24 and C26)."
  }
 ]
}