{
 "C01": {
  "note": "Exact arithmetic; for every domain, radius, particle list and history of the searcher object. The result list is also shown to exist (the search completes)."
 },
 "C02": {
  "note": "Proved for exact arithmetic and for IEEE binary64."
 },
 "C03": {
  "note": "Proved for exact arithmetic and for IEEE binary64 (bit-equal distances)."
 },
 "C04": {
  "note": "Every failure (out of bounds, overflow, bad cast, divergence) is an outcome different from Ok; the theorems show Ok. In binary64 coordinates may be infinite but not NaN."
 },
 "C05": {
  "note": "For every arithmetic."
 },
 "C06": {
  "note": "For every arithmetic: the whole outcome is independent of the history of the searcher object; old neighbour lists of non-Ghost particles have no influence. A particle that becomes Ghost keeps its old list, as in the code."
 },
 "C07": {
  "note": "The property is false of the code: C07_exact_in_binary64_refuted exhibits two particles closer than re that do not list each other. C07_margin_binary64 proves the search exact up to a relative margin of 2^-19."
 },
 "C46": {
  "note": "The property is false of the code: C46_nan_contained_refuted. C46_nan_never_completes shows that no search completes for any particle set with such a NaN."
 },
 "C08": {
  "note": "Exact arithmetic and doubles."
 },
 "C09": {
  "note": "Exact arithmetic, every radius and spacing. The reference sums run over a fixed lattice of 9^dim cells; the theorems say for which radii this is the complete lattice and that it is truncated beyond 5 l0."
 },
 "C10": {
  "note": "Value in exact arithmetic; sign in doubles."
 },
 "C11": {
  "note": "Exact arithmetic, all velocities, masses and positions of a pair."
 },
 "C12": {
  "note": "Exact arithmetic; the whole collision stage with in-place updates, any number of particles."
 },
 "C13": {
  "note": "Exact arithmetic; the whole collision stage."
 },
 "C14": {
  "note": "For every arithmetic; stated on the trace of impulses of the stage."
 },
 "C15": {
  "note": "Exact arithmetic and doubles, runs of every length, every solver. In doubles a coordinate can turn NaN (refuted with a witness: the impulse of a collision overflows and is multiplied by the wall's inverse density 0)."
 },
 "C16": {
  "note": "For every arithmetic, runs of every length, every solver."
 },
 "C17": {
  "note": "First theorem for every arithmetic; the closed form of the prediction in exact arithmetic."
 },
 "C18": {
  "note": "Exact arithmetic, any number of steps; other particles may be present as long as the falling one stays out of range of them."
 },
 "C19": {
  "note": "Exact arithmetic."
 },
 "C20": {
  "note": "Exact arithmetic and doubles."
 },
 "C21": {
  "note": "Exact arithmetic."
 },
 "C22": {
  "note": "Value in exact arithmetic and in doubles; the other two theorems for every arithmetic."
 },
 "C23": {
  "note": "Exact arithmetic and doubles, runs of every length, every solver."
 },
 "C24": {
  "note": "Exact arithmetic and doubles."
 },
 "C25": {
  "note": "The property is false of the code: C25_pressure_refreshed_refuted (binary64, one step of the shipped dam-break settings). C25_second_update_is_void proves for every arithmetic that the stored pressures are those of the first update."
 },
 "C26": {
  "note": "For every solver: clipping in exact arithmetic and binary64, and the exit code after a failed solve."
 },
 "C27": {
  "note": "Exact arithmetic, for every solver that returns solutions of the system it is given."
 },
 "C28": {
  "note": "Exact arithmetic: every row of the assembled matrix, uniqueness and non-negativity of the solution. BiCGSTAB itself is not modelled. Existence of the solution included (C28_solvable)."
 },
 "C29": {
  "note": "First theorem in exact arithmetic for both detectors; the comparison of the detectors for every arithmetic."
 },
 "C30": {
  "note": "The property is false of the code with the explicit method: C30_surface_reported_refuted (binary64). C30_explicit_never_assigns: for every arithmetic, no step changes any boundary condition."
 },
 "C50": {
  "note": "For every arithmetic and whatever the outcome of the step."
 },
 "C51": {
  "note": "Exact arithmetic: complete. Binary64: the only other possibility is a NaN coordinate at one of the searches of the step. With an exact solver (Gaussian elimination, built in GaussR.v) every implicit step completes unless two particles coincide."
 },
 "C31": {
  "note": "All 14 distinct omp parallel for loops (the 15th, MPS::setBoundaryCondition, duplicates FreeSurface's and is never called); each iteration is a program of single memory accesses, arbitrary interleaving, sequentially consistent memory, any arithmetic."
 },
 "C32": {
  "note": "Exact arithmetic: number of steps, times, ending, completion (assertions off, solver succeeding), and dt <= 0. Binary64: ends, or time stands still and the run never completes; the shipped cases take 2001 (not 2000) and 5000 steps."
 },
 "C33": {
  "note": "Schedule for every arithmetic; exact lateness bound for period >= dt; one file per step for period <= dt; files of the two shipped cases in binary64, where some come one step after the expected one."
 },
 "C34": {
  "note": "Distinctness for all numbers, alphabetical order below 10000, and the counterexample 9999/10000 beyond."
 },
 "C49": {
  "note": "All durations in nanoseconds, including negative ones."
 },
 "C35": {
  "note": "Exact sin, cos and pi; the rotation formula, the length and the right angles."
 },
 "C52": {
  "note": "Exact arithmetic."
 },
 "C53": {
  "note": "Exact arithmetic, exact linear solver. Prediction and pressure stages under the hypothesis that no two particles that are not Ghost share a place at that moment (the code divides by their distance)."
 },
 "C54": {
  "note": "Exact arithmetic for the construction; the exit for unknown methods in every arithmetic (builds without asserts)."
 },
 "C38": {
  "note": "Proved for every finite time and writable particle list; \"as printed\" means: the double nearest to the 6-digit decimal nearest to the value. Without finiteness it is false (C38_infinite_velocity_refuted). printf %g, strtod, istream extraction and (for CSV) csv.h are modelled or assumed as described in DESIGN.md."
 },
 "C39": {
  "note": "Round trip for every reader of cells that understands printed numbers; rows of arbitrary CSV files and column order in general. The time must be zero or at least 1e-300 in magnitude (C39_tiny_time_refuted). printf %g, strtod, istream extraction and (for CSV) csv.h are modelled or assumed as described in DESIGN.md."
 },
 "C40": {
  "note": "Proved when number densities and their ratio to n0 are finite; with n0 = 0 the exported file cannot be loaded (C40_zero_reference_refuted). printf %g, strtod, istream extraction and (for CSV) csv.h are modelled or assumed as described in DESIGN.md."
 },
 "C41": {
  "note": "False of the code: C41_default_density_refuted. What holds instead: C41_density_is_number_density."
 },
 "C42": {
  "note": "Proved while 3n fits an int, for both byte orders; beyond that the code overflows (C42_too_many). NaN payloads are not modelled: NaN is recovered as NaN."
 },
 "C43": {
  "note": "For every binary file the exporter can write."
 },
 "C44": {
  "note": "prof and csv, for normal (or zero) values; false for subnormal numbers (C44_subnormal_refuted). VTU export also prints number densities, which loading does not restore."
 },
 "C45": {
  "note": "False of the code: C45_truncated_rejected_refuted; C45_every_truncation shows undefined behaviour for every missing row; C45_blank_accepted: an empty file loads as no particles at time NaN. C45_bad_row: text that cannot begin a number where a row begins is undefined behaviour; C45_bad_last_value: as last value of the file it is silently taken as 0."
 },
 "C55": {
  "note": "False of the code: C55_missing_column_rejected_refuted; C55_every_missing_column for all files."
 },
 "C36": {
  "note": "Every arithmetic: C36_settings_read/accepted (each field stands under its key; files with all entries are accepted). Exact arithmetic: radii and usability. Binary64: reMax covers the radii unless one of them is NaN (C36_nan_ratio_refuted). YAML parsing and scalar conversion are parameters (yaml-cpp not modelled). The particle path is specified by the relation denotes (SpecLoader), not by the model's resolve."
 },
 "C37": {
  "note": "Loader preserves all that existed for every outcome; copies exactly the two inputs; exits -1 on an existing target (also when both inputs have one name), an unsupported extension, or an unknown method (no output file written; needs NDEBUG reading of asserts, dbg = false)."
 },
 "C56": {
  "note": "False of the code: C56_no_file_lost_refuted (earlier outputs replaced); C56_others_kept: nothing but output files is at risk, for all runs."
 },
 "C57": {
  "note": "False of the code: C57_refusal_clean_refuted: method name mistyped, copies left behind, the corrected case exits -1 although it completes in a clean directory."
 },
 "C58": {
  "note": "For all file systems, inputs and outcomes. Symbolic links, permissions and full disks are not modelled."
 },
 "C59": {
  "note": "C59_stored (completed run = simulation of the loaded input, files stored), C59_restart (outputs reload), C59_completes (converse)."
 },
 "C47": {
  "note": "For all file systems (every entry in a directory), answers and particle lists. One refinement is false and recorded: C47_terminates_refuted, the question repeats for ever when standard input ends without an answer (C47_no_answer for all such inputs). Not modelled: symbolic links, permissions, a full disk."
 },
 "C48": {
  "note": "The generators have no input, so the runs are complete. Exact arithmetic: the particles are exactly the grid points of the intended shapes (independent of the loops). Binary64: the same list up to 1e-15 m; the written input.prof equals the shipped one byte for byte; the shipped prof and csv files load as these particles and lie in the domain of their settings (csv cells read by the model's own decimal reader)."
 },
 "C60": {
  "note": "False of the code: C60_shipped_vtu_refuted (witness: the shipped dam break VTU file loads as no particles); C60_missing_arrays for all files."
 },
 "C61": {
  "note": "No hypothesis on the particles. XML is specified in SpecXml (tags nest, attributes quoted, no special characters in text); numerals are specified by their digits. The appended data of the binary format is C42."
 },
 "C62": {
  "note": "Exact arithmetic: the printed position is the final one. Binary64: up to the sign of a zero, or NaN after an overflowing impulse (C15)."
 },
 "C63": {
  "note": "For every arithmetic; text of decimals at binary64. The one-digit time step is refuted by C63_time_step_refuted."
 },
 "C64": {
  "note": "Refuted by a realistic run in binary64; C64_when gives the exact bound in exact arithmetic, C64_fine_binary64 a sufficient bound in binary64."
 },
 "C65": {
  "note": "Exact arithmetic, all outcomes; the solver is assumed to respect units, which is proved of exact elimination (C65_solver)."
 },
 "C66": {
  "note": "Exact arithmetic, any solver; in binary64 refuted by C66_binary64_refuted."
 },
 "C67": {
  "note": "Assumes of yaml-cpp only that it reads the flat YAML subset of these files as Yaml.v does (reads_plainly)."
 },
 "C68": {
  "note": "C68_loop_ends and C68_program_ends for every case, C68_dambreak and C68_hydrostatic for the shipped ones. A coordinate that has become NaN ends the run in the conversion to int (C86)."
 },
 "C69": {
  "note": "C69_numbers, C69_axes, C69_run for regular states; without the condition on collisions refuted by C69_order_refuted."
 },
 "C70": {
  "note": "C70_step and C70_run when the surface is not detected by distribution; for detection by distribution refuted by C70_orientation_refuted."
 },
 "C71": {
  "note": "For every arithmetic and every outcome. Neighbours of ghosts are not written by a step and may differ."
 },
 "C72": {
  "note": "C72_resume for every arithmetic; C72_run_again for prof outputs printed without loss; without that refuted by C72_any_output_refuted and C72_same_end_refuted."
 },
 "C73": {
  "note": "For every file; the values of the particles are C38-C45, C55, C60."
 },
 "C74": {
  "note": "C74_power, C74_no_new_extremes and C74_energy for one density; the limit 1 is sharp (C74_unstable_refuted); false for two densities (C74_densities_refuted)."
 },
 "C75": {
  "note": "C75_viscosity_balanced for one density; refuted for two densities (C74_densities_refuted), for the moment, for pressure forces and for the angular momentum in collisions."
 },
 "C76": {
  "note": "C76_rows, C76_same_particles and C76_shipped; lines with tabs, a last line without newline and negative types are lost (three refutations)."
 },
 "C77": {
  "note": "C77_earlier_results, C77_dambreak, C77_safe_keeps, C77_safe_dambreak and C77_safe_hydrostatic; refuted for paths with blanks and for two safe runs in one second."
 },
 "C78": {
  "note": "C78_falling_body and C78_rest for bodies nowhere denser than the reference state, C78_lattice for pieces of the lattice."
 },
 "C79": {
  "note": "C79_inventory lists the causes as disjunction; runs for each cause that can be computed stand beside it. The other direction is proved for prof files (C79_prof_exactly)."
 },
 "C80": {
  "note": "One theorem for each way of ending; the causes are necessary conditions, with a run for each beside them."
 },
 "C81": {
  "note": "Each test is also an Example or theorem with its own inputs. _reference is in exact arithmetic; the doubles of the test are computed. The refuted ones are inputs on which the test would fail with the code unchanged."
 },
 "C82": {
  "note": "Errors are the messages followed by exit(-1); the Courant message of C63, after which the run continues, is not among them. _passive supposes that the total time fits into 64 bits (C64). _text excludes the message of argparse, whose text is not modelled, and supposes names without slashes."
 },
 "C83": {
  "note": "The members keep their order but may have any numbers. With implicit pressures both runs are supposed to complete and no two particles to be in one place; in doubles the members' pressures may differ there by rounding, since the solver sees another matrix. The Courant number and the time of a step are those of all particles and are not compared."
 },
 "C84": {
  "note": "The support theorem supposes that no particle solved for is below n0; the monotonicity that the same particles are solved for in both calculations. Surface, Ghost and DummyWall particles have the prescribed pressure zero (C27)."
 },
 "C85": {
  "note": "Drawing, upload and posting of the comment are not modelled: the drawing is supposed to fail only when the VTU file is missing. Undefined behaviour in the run (only: a coordinate that has become NaN) leaves the workflow without a known result."
 },
 "C86": {
  "note": "C86_search and C86_step are equivalences; C86_twins, C86_pair_lost and C86_listed_twice suppose that assertions are off (NDEBUG), C86_pair_assert and C86_listed_assert that they are on. The third alternative of C68, C77, C79 and C85 now names the outcome."
 },
 "C87": {
  "note": "About the three functions of the correction, not about the pressure calculators, which fix the constant (zero at the surface, C27, and clipping at zero, C24 and C26)."
 }
}