(** * Property C80: every other way in which a run ends early

    [refused], [thrown], [goes_on]: SpecEndings; [bad_domain]: SpecInventory.  With C79
    this covers every outcome of the program but the completed run.  The solver is any that
    returns vectors of the right length ([sized]). *)
From Verif Require Import EndingsFacts EndingsCases LoaderCases SimCases StepCasesF.
Open Scope list_scope.
Open Scope Z_scope.
#[local] Remove Hints Rnum : typeclass_instances.

(** the program never exits with another status than -1 before the end *)
Theorem C80_exit parse as_int as_dbl as_bool cell_int cell_dbl fsin fcos M_PI big dbg S real clk fuel setting out fs fs' c : sized S ->
  program parse as_int as_dbl as_bool cell_int cell_dbl fsin fcos M_PI big dbg S real clk fuel setting out fs = (fs', Exit c) ->
  c = -1 /\ (fs setting = None \/ fs out <> Some Folder \/
    exists sb y s pp cores, (fs setting = Some (File sb) /\ parse sb = Some y /\
      @loadSettingYaml F64 as_int as_dbl as_bool dbg (parent setting) y = Ok (s, pp, cores)) /\
      refused S fs setting out pp s).
Proof. exact (fun Z => end_exit parse as_int cell_int as_dbl cell_dbl as_bool fsin fcos M_PI big dbg S real clk fuel setting out fs Z fs' c). Qed.
Example C80_solver_case : sized solver0 /\ sized no_solution.
Proof. exact (conj solver0_sized no_solution_sized). Qed.
(** one run for each cause: no settings file; no particle file; settings.yml as particle
    file; binary data in the VTU file; a copy in the output directory; pressure method
    Explicitly; a solver that gives up; a directory named output_0000.csv *)
Example C80_nothing_case : ends_exit (fun _ => None). Proof. exact e_nothing. Qed.
Example C80_gone_case : ends_exit (world "gone" []). Proof. exact e_gone. Qed.
Example C80_text_case : ends_exit (world "text" []). Proof. exact e_text. Qed.
Example C80_binary_case : ends_exit (world "vtu" [(vtu_path, File raw_data)]). Proof. exact e_binary. Qed.
Example C80_copy_case : ends_exit (world "good" [(out_dir ++ [lit "in.prof"], File [])]). Proof. exact e_copy. Qed.
Example C80_method_case : ends_exit (world "typo" []). Proof. exact e_method. Qed.
Example C80_gives_up_case : exists fs', startE false no_solution 10 (world "implicit" []) = (fs', Exit (-1)). Proof. exact e_solver. Qed.
Example C80_directory_case : ends_exit (world "good" [(outputPath out_dir "csv" 0, Folder)]). Proof. exact e_folder. Qed.
Print Assumptions C80_exit.

Theorem C80_throw parse as_int as_dbl as_bool cell_int cell_dbl fsin fcos M_PI big dbg S real clk fuel setting out fs fs' : sized S ->
  program parse as_int as_dbl as_bool cell_int cell_dbl fsin fcos M_PI big dbg S real clk fuel setting out fs = (fs', Throw) ->
  fs setting = Some Folder \/ exists sb, fs setting = Some (File sb) /\ (parse sb = None \/
    exists y, parse sb = Some y /\ (@loadSettingYaml F64 as_int as_dbl as_bool dbg (parent setting) y = Throw \/
      exists s pp cores, @loadSettingYaml F64 as_int as_dbl as_bool dbg (parent setting) y = Ok (s, pp, cores) /\
        (bad_domain s \/ thrown fs setting out pp (loadParticles cell_int cell_dbl dbg (s_rho0 s) fs pp)))).
Proof. exact (fun Z => end_throw parse as_int cell_int as_dbl cell_dbl as_bool fsin fcos M_PI big dbg S real clk fuel setting out fs Z fs'). Qed.
(** a directory as settings file; one that is not YAML; a word as time step; no CSV file;
    a word as time in the VTU file; a file named vtu in the output directory *)
Example C80_folder_case : ends_throw (put (world "good" []) setting_path Folder). Proof. exact t_folder. Qed.
Example C80_yaml_case : ends_throw (world "{" []). Proof. exact t_yaml. Qed.
Example C80_word_case : ends_throw (world "word" []). Proof. exact t_word. Qed.
Example C80_csv_case : ends_throw (world "csv" []). Proof. exact t_csv. Qed.
Example C80_time_case : ends_throw (world "vtu" [(vtu_path, File no_time)]). Proof. exact t_time. Qed.
Example C80_file_case : ends_throw (world "good" [(out_dir ++ [lit "vtu"], File [])]). Proof. exact t_file. Qed.
Print Assumptions C80_throw.

(** Only the debug build ends by an assertion, and only for unusable settings, or in a step
    before the finish time in which two particles are in one place. *)
Theorem C80_assert parse as_int as_dbl as_bool cell_int cell_dbl fsin fcos M_PI big dbg S real clk fuel setting out fs fs' : sized S ->
  program parse as_int as_dbl as_bool cell_int cell_dbl fsin fcos M_PI big dbg S real clk fuel setting out fs = (fs', AssertFail) ->
  dbg = true /\ exists sb y s pp cores, (fs setting = Some (File sb) /\ parse sb = Some y /\
    @loadSettingYaml F64 as_int as_dbl as_bool dbg (parent setting) y = Ok (s, pp, cores)) /\
    (bad_lattice s \/ exists t ps m, loadParticles cell_int cell_dbl dbg (s_rho0 s) fs pp = Ok (t, ps) /\
       @factoryCreate F64 fsin fcos M_PI s ps = Ok m /\ in_one_place_later S t s m).
Proof. exact (fun Z => end_assert parse as_int cell_int as_dbl cell_dbl as_bool fsin fcos M_PI big dbg S real clk fuel setting out fs Z fs'). Qed.
(** a radius that is not larger than the particle distance; a particle distance of 1e-200;
    four dimensions; two particles in one place *)
Example C80_narrow_case : ends_assert (world "narrow" []). Proof. exact a_narrow. Qed.
Example C80_tiny_case : ends_assert (world "tiny" []). Proof. exact a_tiny. Qed.
Example C80_dimension_case : ends_assert (world "4d" []). Proof. exact a_4d. Qed.
Example C80_assert_case : ends_assert (put (world "good" []) particle_path (File twice)). Proof. exact a_twice. Qed.
Print Assumptions C80_assert.

(** No step hangs, whatever the positions: the search walks each of its lists to the end. *)
Theorem C80_step_ends {N : Num} S m : sound m -> sized S -> stepForward S m <> Diverge.
Proof. exact (step_ends S m). Qed.
Example C80_step_ends_case : exists m : @mps F64, sound m /\ sized solver0 /\ ~ numeric (m_ps m). Proof. exact nan_sound. Qed.
Print Assumptions C80_step_ends.

(** A run that is still going after [fuel] steps has not reached its finish time: it does
    not hang in a step. *)
Theorem C80_goes_on parse as_int as_dbl as_bool cell_int cell_dbl fsin fcos M_PI big dbg S real clk fuel setting out fs fs' : sized S ->
  program parse as_int as_dbl as_bool cell_int cell_dbl fsin fcos M_PI big dbg S real clk fuel setting out fs = (fs', Diverge) ->
  exists sb y s pp cores, (fs setting = Some (File sb) /\ parse sb = Some y /\
    @loadSettingYaml F64 as_int as_dbl as_bool dbg (parent setting) y = Ok (s, pp, cores)) /\
    exists t ps m, loadParticles cell_int cell_dbl dbg (s_rho0 s) fs pp = Ok (t, ps) /\
       @factoryCreate F64 fsin fcos M_PI s ps = Ok m /\ goes_on S fuel t s m.
Proof. exact (fun Z => end_diverge parse as_int cell_int as_dbl cell_dbl as_bool fsin fcos M_PI big dbg S real clk fuel setting out fs Z fs'). Qed.
Example C80_goes_on_case : exists fs', startE false solver0 0 (world "good" []) = (fs', Diverge). Proof. exact d_fuel. Qed.
Print Assumptions C80_goes_on.
