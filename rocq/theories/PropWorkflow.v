(** * Property C85: the workflow that computes the hydrostatic case for every pull request

    Vocabulary: [SpecWorkflow] (cloned: a fresh checkout, built), [Workflow] (job,
    calculationTime: the regular expression of the step that comments), [SpecShipped]
    (usual_clock, hyd_settings, meets_nan), [SpecGenerator] (close, in_hyd_domain),
    [SpecSim] (reached, time_at). *)
From Coq Require Import String.
From Verif Require Import LoaderCases SimCases StepCasesF EndingsCases GeneratorCases ShippedCases ScriptCases MessagesCases WorkflowCases WorkflowFacts SpecMessages SpecWorkflow.
Open Scope list_scope.
Open Scope Z_scope.
#[local] Remove Hints Rnum : typeclass_instances.

(** On a fresh checkout the generator replaces the particle file and the program computes the
    generated particles.  Either all 5000 steps complete; then the comment shows the state
    after step 5000 and the time the run took.  Or a step before fails; then no comment is
    written, and if the solver failed it is the picture that is found missing, not the run
    that is found to have failed.  ([Unknown]: undefined behaviour in the run.) *)
Theorem C85_job parse as_int as_dbl as_bool cell_int cell_dbl fsin fcos M_PI big S real fin clk fuel what usage root fs :
  reads_plainly parse as_int as_dbl as_bool -> sized S -> usual_clock real clk -> (Z.to_nat 5000 <= fuel)%nat ->
  in_int64 (fin - real) = true -> has_blank root = false -> 0 <= fin - real -> cloned root fs ->
  exists exact ps m fs' r, @hydrostatic Rnum false = Ok exact /\ Forall2 close exact ps /\ Forall in_hyd_domain ps /\
    factoryCreate fsin fcos M_PI (hyd_settings false (path_text (root ++ [lit "input"; lit "hydrostatic"; lit "input.prof"]))) ps = Ok m /\
    hydrostaticJob parse as_int as_dbl as_bool cell_int cell_dbl fsin fcos M_PI big S real fin clk fuel what usage root fs = (fs', r) /\
    ((exists mk picture, steps S (Z.to_nat 5000) m mk /\
        toVtuBinary big (@time_at F64 (@nofZ F64 0) (literal 2 1000) (Z.to_nat 5000)) (rv_n0 (m_rvN mk)) (m_ps mk) = Ok picture /\
        r = Commented picture (lit (calHourMinuteSecond (fin - real)))) \/
     ((forall picture t, r <> Commented picture t) /\ exists k m', Z.of_nat k < 5000 /\ steps S k m m' /\
        (((exists j ts b, S j ts b = None) /\ r = Failed "Visualize results") \/ (meets_nan m' /\ r = Unknown)))).
Proof. intros RP SZ CK FU IN NB. exact (job_forward parse as_int as_dbl as_bool cell_int cell_dbl fsin fcos M_PI big S real fin clk fuel what usage root RP SZ CK FU IN NB fs). Qed.
Example C85_job_case : reads_plainly flat_yaml read_int read_dbl read_bool /\ sized solver0 /\ usual_clock 0 tickF /\ in_int64 (5000000000 - 0) = true /\ has_blank repo = false /\
  0 <= 5000000000 - 0 /\ cloned repo clone_disk /\ clone_disk (repo ++ [lit "input"; lit "hydrostatic"; lit "input.prof"]) = Some (File (lit "old")).
Proof. exact (conj plain_reader (conj solver0_sized (conj tick_usual (conj eq_refl (conj eq_refl (conj (Zle_bool_imp_le 0 (5000000000 - 0) eq_refl) (conj clone_ok eq_refl))))))). Qed.
Print Assumptions C85_job.

(** The time in the comment: what the run printed at its end, if both paths are free of
    blanks and the clock was not set back by a second or more. *)
Theorem C85_took parse as_int as_dbl as_bool cell_int cell_dbl fsin fcos M_PI big S real fin clk fuel what dbg setting out fs fs' w st :
  mainSay parse as_int as_dbl as_bool cell_int cell_dbl fsin fcos M_PI big dbg S real fin clk fuel false (Some setting) (Some out) fs = (fs', w, Ok st) ->
  has_blank setting = false -> has_blank out = false ->
  calculationTime (consoleText what w) = if - 1000000000 <? fin - real then lit (calHourMinuteSecond (fin - real)) else [].
Proof. exact (took_completed parse as_int as_dbl as_bool cell_int cell_dbl fsin fcos M_PI big S real fin clk fuel what dbg setting out fs fs' w st). Qed.
Example C85_took_case : (exists fs' w st, startW 5000000000 = (fs', w, Ok st)) /\ has_blank setting_path = false /\ has_blank out_dir = false /\ calHourMinuteSecond (5000000000 - 0) = "0h 00m 5s"%string.
Proof. exact (conj (completed_ok _ forwards) (conj eq_refl (conj eq_refl eq_refl))). Qed.
Print Assumptions C85_took.

(** The program measures by the system clock.  A clock that is set back during the run, and
    the comment has no time although the run completed. *)
Theorem C85_clock_refuted : exists parse as_int as_dbl as_bool cell_int cell_dbl fsin fcos M_PI big S real fin clk fuel dbg setting out fs fs' w st,
  mainSay parse as_int as_dbl as_bool cell_int cell_dbl fsin fcos M_PI big dbg S real fin clk fuel false (Some setting) (Some out) fs = (fs', w, Ok st) /\
  in_int64 (fin - real) = true /\ has_blank setting = false /\ has_blank out = false /\ forall what, calculationTime (consoleText what w) = [].
Proof. exact clock_back. Qed.
Print Assumptions C85_clock_refuted.

(** A picture is evidence: an output file that was not there, or is not what was there, has a
    number below the number of files of a state the run has reached. *)
Theorem C85_written parse as_int as_dbl as_bool cell_int cell_dbl fsin fcos M_PI big S real clk fuel dbg setting out fs fs' o f1 i m kind z :
  program parse as_int as_dbl as_bool cell_int cell_dbl fsin fcos M_PI big dbg S real clk fuel setting out fs = (fs', o) ->
  load parse as_int as_dbl as_bool cell_int cell_dbl dbg setting out fs = (f1, Ok i) ->
  factoryCreate fsin fcos M_PI (i_settings i) (i_particles i) = Ok m -> 0 <= z -> fs' (outputPath out kind z) <> fs (outputPath out kind z) ->
  exists k st, reached S real clk (newSim (i_start i) (i_settings i) m) k st /\ z < si_file st.
Proof. exact (program_written parse as_int as_dbl as_bool cell_int cell_dbl fsin fcos M_PI big S real clk fuel dbg setting out fs fs' o f1 i m kind z). Qed.
Example C85_written_case : exists fs' o f1 i m,
  program parseE read_int read_dbl read_bool read_int read_dbl fid fid c20 false false solver0 0 tickF 10 setting_path out_dir (world "good" []) = (fs', o) /\
  load parseE read_int read_dbl read_bool read_int read_dbl false setting_path out_dir (world "good" []) = (f1, Ok i) /\
  @factoryCreate F64 fid fid c20 (i_settings i) (i_particles i) = Ok m /\ fs' (outputPath out_dir "vtu" 1) <> world "good" [] (outputPath out_dir "vtu" 1).
Proof. exact (appears_spec _ _ _ good_appears). Qed.
Print Assumptions C85_written.
