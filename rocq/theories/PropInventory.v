(** * Property C79: every way into undefined behaviour

    [bad_file], [bad_domain], [bad_run]: SpecInventory.  The solver is any that returns
    vectors of the right length ([sized]).  The theorem says what must be the case if a
    run is undefined; the Examples are runs for each cause that can be computed. *)
From Verif Require Import InventoryFacts InventoryCases LoaderCases SimCases StepCasesF.
Open Scope list_scope.
Open Scope Z_scope.
#[local] Remove Hints Rnum : typeclass_instances.

Theorem C79_inventory parse as_int as_dbl as_bool cell_int cell_dbl fsin fcos M_PI big dbg S real clk fuel setting out fs fs' u : sized S ->
  program parse as_int as_dbl as_bool cell_int cell_dbl fsin fcos M_PI big dbg S real clk fuel setting out fs = (fs', Undef u) ->
  exists sb y s pp cores, fs setting = Some (File sb) /\ parse sb = Some y /\
    @loadSettingYaml F64 as_int as_dbl as_bool dbg (parent setting) y = Ok (s, pp, cores) /\
    ((exists e, fs pp = Some e /\ bad_file (extension pp) (bytes_of e) u) \/
     bad_domain s \/
     exists t ps m, loadParticles cell_int cell_dbl dbg (s_rho0 s) fs pp = Ok (t, ps) /\ @factoryCreate F64 fsin fcos M_PI s ps = Ok m /\ bad_run S real clk t s m u).
Proof. exact (inventory parse as_int as_dbl as_bool cell_int cell_dbl fsin fcos M_PI big dbg S real clk fuel setting out fs fs' u). Qed.
Example C79_solver_case : sized solver0.
Proof. exact solver0_sized. Qed.
(** a prof file that announces two particles and has one and a half *)
Example C79_prof_case : exists fs', startI tickF (prof_only cut_file) = (fs', Undef Uninit). Proof. exact run_cut. Qed.
(** a CSV file of one line; one without the column z *)
Example C79_one_line_case : exists fs', startI tickF (csv_only (lit "0")) = (fs', Undef NullDeref). Proof. exact run_one_line. Qed.
Example C79_column_case : exists fs', startI tickF (csv_only flat_file) = (fs', Undef Uninit). Proof. exact run_flat. Qed.
(** a domain of 1e9 m with a search radius of 0.75 m *)
Example C79_domain_case : exists fs', startI tickF (world "wide" []) = (fs', Undef IntOverflow). Proof. exact run_wide. Qed.
(** dt: .nan *)
Example C79_nan_case : exists fs', startI tickF (world "nan step" []) = (fs', Undef BadCast). Proof. exact run_nan. Qed.
(** the remaining time of a run until 1e300 s; a clock beyond 64 bits *)
Example C79_long_case : exists fs', startI slow (world "long" []) = (fs', Undef BadCast). Proof. exact run_long. Qed.
Example C79_clock_case : exists fs', startI late_clock (world "prof" []) = (fs', Undef IntOverflow). Proof. exact run_late. Qed.
Print Assumptions C79_inventory.

(** For prof files without assertions the condition is exact; VTU files are never the
    cause. *)
Theorem C79_prof_exactly rho file : (exists u, prof_load false rho file = Undef u) <-> cut_short file.
Proof. exact (prof_exactly rho file). Qed.
Example C79_prof_exactly_case : cut_short cut_file. Proof. exact cut_sample. Qed.
Print Assumptions C79_prof_exactly.
Theorem C79_vtu_never dbg rho file u : vtu_load dbg rho file <> Undef u.
Proof. exact (vtu_clean dbg rho file u). Qed.
Print Assumptions C79_vtu_never.
