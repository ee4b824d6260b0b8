(** * Properties C71, C72 and C73: what a step depends on, continuing a run, loaded particles

    Vocabulary: [SpecResume] (agree: outcomes of the same kind with related results; alike:
    particles of equal number, type, position, velocity and density; same_result: alike, and all that a step
    computes is equal, ghosts' neighbours apart; same_setup: the same machine but for particles, the searcher's memory and
    the Courant number; same_marks: equal boundary conditions; marking: the implicit method; continued: alike, and
    same_result once there was a step; made: just constructed and numbered 0, 1, ...), [SpecRestart] (exact: printed without loss; printable: a particle printed
    without loss), [Spec] (sound, steps), [SpecSim] (time_at). *)
From Coq Require Import String.
From Verif Require Import StageCases StepFacts StepCasesF SimCases LoaderCases ResumeCases ResumeFacts ResumeRun ResumeFiles RestartCases SpecResume SpecRestart.
Open Scope Z_scope.

(** C71: one step, whatever its outcome *)
Theorem C71_step (N : Num) S (m r : mps) : sound m -> sound r -> same_setup m r -> Forall2 alike (m_ps m) (m_ps r) ->
  agree (fun m' r' => same_setup m' r' /\ m_ns m' = m_ns r' /\ m_courant m' = m_courant r' /\ (m_cflErrors m' - m_cflErrors m = m_cflErrors r' - m_cflErrors r)%nat /\
    Forall2 same_result (m_ps m') (m_ps r') /\ (marking (m_calc m) \/ same_marks m r -> same_marks m' r')) (stepForward S m) (stepForward S r).
Proof. exact (step_agree S m r). Qed.
(** any number of steps *)
Theorem C71_steps (N : Num) S k (m r m' : mps) : sound m -> sound r -> same_setup m r -> Forall2 alike (m_ps m) (m_ps r) -> steps S k m m' ->
  exists r', steps S k r r' /\ continued k m' r' /\ ((marking (m_calc m) /\ (0 < k)%nat) \/ same_marks m r -> same_marks m' r').
Proof. exact (steps_agree S k m r m'). Qed.
(** other pressures, number densities, minimum pressures and neighbours to start with *)
Example C71_case : exists m r m', sound m /\ sound r /\ same_setup m r /\ Forall2 alike (m_ps m) (m_ps r) /\ steps no_solver 3 m m' /\ List.length (m_ps m) = 3%nat /\
  ~ Forall2 same_result (m_ps m) (m_ps r) /\ same_marks m r.
Proof. exact littered_case. Qed.
Print Assumptions C71_step.
Print Assumptions C71_steps.

(** C72: the simulator can be built for any particles if it could be built for as many *)
Theorem C72_create (N : Num) fsin fcos M_PI s ps m qs : factoryCreate fsin fcos M_PI s ps = Ok m -> List.length qs = List.length ps ->
  exists r, factoryCreate fsin fcos M_PI s qs = Ok r /\ same_setup m r /\ m_ps r = qs.
Proof. exact (create_again fsin fcos M_PI s ps m qs). Qed.
(** a run started at the time of an output, from particles alike to those of the output,
    ends at the same time in the same state, and shows nothing on its way that the first run did not
    pass through *)
Theorem C72_resume (N : Num) fsin fcos M_PI s S real clk fuel t0 ps0 m0 st o qs r real' clk' fuel' st' :
  factoryCreate fsin fcos M_PI s ps0 = Ok m0 -> indexed ps0 -> at_rest ps0 -> run S real clk fuel (newSim t0 s m0) = Ok st -> In o (si_out st) ->
  Forall2 alike (m_ps (o_mps o)) qs -> at_rest qs -> factoryCreate fsin fcos M_PI s qs = Ok r -> run S real' clk' fuel' (newSim (o_time o) s r) = Ok st' ->
  si_time st' = si_time st /\ si_step st = o_step o + si_step st' /\ continued (Z.to_nat (si_step st')) (si_mps st) (si_mps st') /\
  (0 < si_step st' -> Forall2 (fun p q => p_bc p = p_bc q) ps0 qs -> same_marks (si_mps st) (si_mps st')) /\
  (forall o', In o' (si_out st') -> o_time o' = time_at t0 (s_dt s) (Z.to_nat (o_step o + o_step o')) /\
     exists m', steps S (Z.to_nat (o_step o + o_step o')) m0 m' /\ continued (Z.to_nat (o_step o')) m' (o_mps o')).
Proof. exact (resume_run fsin fcos M_PI s S real clk fuel t0 ps0 m0 st o qs r real' clk' fuel' st'). Qed.
(** two drops, taken up again after the first of three steps *)
Example C72_resume_case : exists s t0 ps0 m0 st o qs r st', @factoryCreate F64 fid fid c20 s ps0 = Ok m0 /\ indexed ps0 /\ at_rest ps0 /\ @run F64 solver0 0 tickF 10 (@newSim F64 t0 s m0) = Ok st /\ In o (si_out st) /\
  Forall2 alike (m_ps (o_mps o)) qs /\ at_rest qs /\ @factoryCreate F64 fid fid c20 s qs = Ok r /\ @run F64 solver0 0 tickF 10 (@newSim F64 (o_time o) s r) = Ok st' /\
  0 < o_step o /\ 0 < si_step st' /\ Forall2 (fun p q => p_bc p = p_bc q) ps0 qs.
Proof. exact resumed_case. Qed.
Print Assumptions C72_create.
Print Assumptions C72_resume.

(** the whole program: an output of a completed run, copied over the input file, if it was
    printed without loss *)
Theorem C72_run_again parse as_int as_dbl as_bool cell_int cell_dbl fsin fcos M_PI big dbg S real clk fuel setting out fs fs' st o real2 clk2 fuel2 out2 fs2 fs2' st2 sb y s pp cores :
  program parse as_int as_dbl as_bool cell_int cell_dbl fsin fcos M_PI big dbg S real clk fuel setting out fs = (fs', Ok st) -> In o (si_out st) ->
  fs setting = Some (File sb) -> parse sb = Some y -> @loadSettingYaml F64 as_int as_dbl as_bool dbg (parent setting) y = Ok (s, pp, cores) -> extension pp = lit ".prof" ->
  exact (o_time o) -> Forall printable (m_ps (o_mps o)) -> Z.of_nat (List.length (m_ps (o_mps o))) <= int_max ->
  fs2 setting = fs setting -> fs2 pp = fs' (outputPath out "prof" (o_number o)) ->
  program parse as_int as_dbl as_bool cell_int cell_dbl fsin fcos M_PI big dbg S real2 clk2 fuel2 setting out2 fs2 = (fs2', Ok st2) ->
  si_time st2 = si_time st /\ si_step st = o_step o + si_step st2 /\ continued (Z.to_nat (si_step st2)) (si_mps st) (si_mps st2) /\
  (0 < si_step st2 -> same_marks (si_mps st) (si_mps st2)).
Proof. exact (run_again parse as_int as_dbl as_bool cell_int cell_dbl fsin fcos M_PI big dbg S real clk fuel setting out fs fs' st o real2 clk2 fuel2 out2 fs2 fs2' st2 sb y s pp cores). Qed.
Example C72_run_again_case : exists fs' st o fs2' st2 s cores,
  fall true (case_world drops) = (fs', Ok st) /\ In o (si_out st) /\
  case_world drops setting_path = Some (File (lit "fall")) /\ parse_fall (lit "fall") = Some conf_fall /\
  @loadSettingYaml F64 read_int read_dbl read_bool true (parent setting_path) conf_fall = Ok (s, particle_path, cores) /\ extension particle_path = lit ".prof" /\
  exact (o_time o) /\ Forall printable (m_ps (o_mps o)) /\ Z.of_nat (List.length (m_ps (o_mps o))) <= int_max /\
  case_world (input_of o) setting_path = case_world drops setting_path /\ case_world (input_of o) particle_path = fs' (outputPath out_dir "prof" (o_number o)) /\
  fall true (case_world (input_of o)) = (fs2', Ok st2) /\ 0 < o_step o /\ 0 < si_step st2.
Proof. exact drops_case. Qed.
Print Assumptions C72_run_again.
(** without that it is false: the prof format keeps six digits.  The first output of this run puts two
    particles in one place, and the run made from it stops at an assertion *)
Theorem C72_any_output_refuted : exists fs fs' st o fs2,
  fall true fs = (fs', Ok st) /\ In o (si_out st) /\ finite (o_time o) /\ Forall writable (m_ps (o_mps o)) /\
  (forall p, p <> particle_path -> fs2 p = fs p) /\ fs2 particle_path = fs' (outputPath out_dir "prof" (o_number o)) /\ snd (fall true fs2) = AssertFail.
Proof. exact pair_case. Qed.
Print Assumptions C72_any_output_refuted.
(** and where the second run completes it need not end in the same state *)
Theorem C72_same_end_refuted : exists fs fs' st o fs2 fs2' st2,
  fall true fs = (fs', Ok st) /\ In o (si_out st) /\ finite (o_time o) /\ Forall writable (m_ps (o_mps o)) /\
  (forall p, p <> particle_path -> fs2 p = fs p) /\ fs2 particle_path = fs' (outputPath out_dir "prof" (o_number o)) /\ fall true fs2 = (fs2', Ok st2) /\
  si_time st = si_time st2 /\ map p_pos (m_ps (si_mps st2)) <> map p_pos (m_ps (si_mps st)).
Proof. exact odd_case. Qed.
Print Assumptions C72_same_end_refuted.

(** C73: every loader constructs its particles and numbers them in order, whatever the file *)
Theorem C73_loaded cell_int cell_dbl dbg rho fs p t ps : loadParticles cell_int cell_dbl dbg rho fs p = Ok (t, ps) -> made ps.
Proof. exact (loaded_made cell_int cell_dbl dbg rho fs p t ps). Qed.
(** so every run of the program is one of a sound simulator, and every output is one of its states *)
Theorem C73_sound parse as_int as_dbl as_bool cell_int cell_dbl fsin fcos M_PI big dbg S real clk fuel setting out fs fs' st :
  program parse as_int as_dbl as_bool cell_int cell_dbl fsin fcos M_PI big dbg S real clk fuel setting out fs = (fs', Ok st) ->
  exists m0, made (m_ps m0) /\ sound m0 /\ steps S (Z.to_nat (si_step st)) m0 (si_mps st) /\
  forall o, In o (si_out st) -> steps S (Z.to_nat (o_step o)) m0 (o_mps o).
Proof. exact (program_sound parse as_int as_dbl as_bool cell_int cell_dbl fsin fcos M_PI big dbg S real clk fuel setting out fs fs' st). Qed.
Example C73_case : exists fs' st, start (world "good" []) = (fs', Ok st) /\ List.length (si_out st) = 2%nat.
Proof. exact good_case. Qed.
Example C73_loaded_case : exists t ps, loadParticles read_int read_dbl true c20 (world "good" []) particle_path = Ok (t, ps) /\ List.length ps = 3%nat.
Proof. exact loaded_case. Qed.
Print Assumptions C73_loaded.
Print Assumptions C73_sound.
