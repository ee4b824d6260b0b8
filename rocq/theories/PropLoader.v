(** * Properties C36, C37, C56-C59: settings, particle file and output directory

    Vocabulary: [SpecLoader].  says conv y k a: the first entry k of the YAML map y is a
    scalar that reads as a; settings_in y dir s pp cores: every field of s, the particle
    file pp and the number of cores stand in y under their keys (denotes dir t pp: the text t,
    followed name by name from dir, or from the root if it begins with a slash, leads to pp); largest a b c m: m is one
    of a, b, c and not below any; preserved: no existing file or directory is changed;
    only_output: nothing is changed except new entries in the output directory and output
    files in its subdirectories; stored_in: the three files of an output hold what the
    exporter writes; room: the output directory can take the output.  [parse], [as_int],
    [as_dbl], [as_bool] (YAML), [cell_int], [cell_dbl] (CSV cells), the solver, the clock
    and sin, cos, M_PI are arbitrary. *)
From Coq Require Import Reals Lra String.
From Verif Require Import StepCasesF SimCases SpecR LoaderR LoaderCases FilesCases.
Open Scope Z_scope.

(** C36, for every arithmetic: which settings a file gives, and which files are accepted *)
Theorem C36_settings_read (N : Num) as_int as_dbl as_bool dbg dir y s pp cores :
  loadSettingYaml as_int as_dbl as_bool dbg dir y = Ok (s, pp, cores) ->
  settings_in as_int as_dbl as_bool y dir s pp cores /\ s_asserts s = dbg.
Proof. exact (fun H => let K := proj1 (settings_loaded as_int as_dbl as_bool dbg dir y s pp cores) H in conj (proj1 (proj2 K)) (proj1 K)). Qed.
Theorem C36_settings_accepted (N : Num) as_int as_dbl as_bool dbg dir y s pp cores :
  settings_in as_int as_dbl as_bool y dir s pp cores ->
  exists s', loadSettingYaml as_int as_dbl as_bool dbg dir y = Ok (s', pp, cores) /\ settings_in as_int as_dbl as_bool y dir s' pp cores.
Proof. exact (settings_accepted as_int as_dbl as_bool dbg dir y s pp cores). Qed.
Example C36_settings_case : exists s pp cores, @loadSettingYaml Rnum read_int read_R read_bool true dirR confR = Ok (s, pp, cores) /\
  pp = [lit "home"; lit "case"; lit "in.prof"] /\ cores = 4.
Proof. exact confR_loads. Qed.
(** C36: a particle path upwards, and an absolute one *)
Example C36_path_case : denotes (dirR ++ [lit "sub"]) (lit "../././in//x.prof") (dirR ++ [lit "in"; lit "x.prof"]) /\ denotes dirR (lit "/x.prof") [lit "x.prof"].
Proof. exact up_path. Qed.
Print Assumptions C36_settings_read.
Print Assumptions C36_settings_accepted.

(** C36: the search radius covers the three radii *)
Theorem C36_radii as_int (as_dbl : list ascii -> option R) as_bool dbg dir y (s : @settings Rnum) pp cores :
  @loadSettingYaml Rnum as_int as_dbl as_bool dbg dir y = Ok (s, pp, cores) ->
  (s_reMax s = s_reN s \/ s_reMax s = s_reG s \/ s_reMax s = s_reL s) /\
  (s_reN s <= s_reMax s /\ s_reG s <= s_reMax s /\ s_reL s <= s_reMax s)%R.
Proof. exact (radii_R as_int as_bool as_dbl dbg dir y s pp cores). Qed.
Print Assumptions C36_radii.
(** C36: settings with these properties can be simulated (C51, C53, C54) *)
Theorem C36_usable as_int (as_dbl : list ascii -> option R) as_bool dbg dir y (s : @settings Rnum) pp cores rN rG rL :
  @loadSettingYaml Rnum as_int as_dbl as_bool dbg dir y = Ok (s, pp, cores) ->
  (s_dim s = 2 \/ s_dim s = 3)%Z -> (0 < s_l0 s)%R ->
  says as_dbl y "radiusRatioForNumberDensity" rN -> says as_dbl y "radiusRatioForGradient" rG -> says as_dbl y "radiusRatioForLaplacian" rL ->
  (1 < rN)%R -> (1 < rG)%R -> (1 < rL)%R ->
  (xMin (s_domain s) <= xMax (s_domain s))%R -> (yMin (s_domain s) <= yMax (s_domain s))%R -> (zMin (s_domain s) <= zMax (s_domain s))%R ->
  usable s.
Proof. exact (usable_R as_int as_bool as_dbl dbg dir y s pp cores rN rG rL). Qed.
Example C36_usable_case : exists s pp cores, @loadSettingYaml Rnum read_int read_R read_bool true dirR confR = Ok (s, pp, cores) /\
  (s_dim s = 2 \/ s_dim s = 3)%Z /\ (0 < s_l0 s)%R /\
  says read_R confR "radiusRatioForNumberDensity" 3%R /\ says read_R confR "radiusRatioForGradient" 2%R /\ says read_R confR "radiusRatioForLaplacian" 3%R /\
  (xMin (s_domain s) <= xMax (s_domain s) /\ yMin (s_domain s) <= yMax (s_domain s) /\ zMin (s_domain s) <= zMax (s_domain s))%R.
Proof. exact confR_usable. Qed.
Print Assumptions C36_usable.
(** C36 in binary64: none of the radii is above reMax; it covers them unless one is NaN *)
Theorem C36_radii_float as_int (as_dbl : list ascii -> option f64) as_bool dbg dir y (s : @settings F64) pp cores :
  @loadSettingYaml F64 as_int as_dbl as_bool dbg dir y = Ok (s, pp, cores) ->
  @largest F64 (s_reN s) (s_reG s) (s_reL s) (s_reMax s) /\
  (is_nan (s_reN s : f64) = false -> is_nan (s_reG s : f64) = false -> is_nan (s_reL s : f64) = false ->
   @nle F64 (s_reN s) (s_reMax s) = true /\ @nle F64 (s_reG s) (s_reMax s) = true /\ @nle F64 (s_reL s) (s_reMax s) = true).
Proof. exact (radii_F as_int as_bool as_dbl dbg dir y s pp cores). Qed.
Theorem C36_nan_ratio_refuted : exists y s pp cores, @loadSettingYaml F64 read_int read_nan read_bool true dirR y = Ok (s, pp, cores) /\
  finite (s_reG s) /\ @nle F64 (s_reG s) (s_reMax s) = false.
Proof. exact nan_case. Qed.
Print Assumptions C36_radii_float.
Print Assumptions C36_nan_ratio_refuted.

(** C37: whatever the outcome, the loader changes nothing that was there *)
Theorem C37_untouched parse as_int as_dbl as_bool cell_int cell_dbl dbg setting out fs fs' o :
  load parse as_int as_dbl as_bool cell_int cell_dbl dbg setting out fs = (fs', o) -> preserved fs fs'.
Proof. exact (load_preserved parse as_int as_dbl as_bool cell_int cell_dbl dbg setting out fs fs' o). Qed.
Print Assumptions C37_untouched.
(** C37: what a successful load has read and copied *)
Theorem C37_loaded parse as_int as_dbl as_bool cell_int cell_dbl dbg setting out fs fs' i :
  load parse as_int as_dbl as_bool cell_int cell_dbl dbg setting out fs = (fs', Ok i) ->
  exists sb y pp cores pb,
    fs setting = Some (File sb) /\ parse sb = Some y /\
    @loadSettingYaml F64 as_int as_dbl as_bool dbg (parent setting) y = Ok (i_settings i, pp, cores) /\
    loadParticles cell_int cell_dbl dbg (s_rho0 (i_settings i)) fs pp = Ok (i_start i, i_particles i) /\
    fs pp = Some (File pb) /\ fs out = Some Folder /\
    fs (out ++ [filename setting]) = None /\ fs (out ++ [filename pp]) = None /\ filename setting <> filename pp /\
    fs' = put (put fs (out ++ [filename setting]) (File sb)) (out ++ [filename pp]) (File pb).
Proof. exact (load_ok parse as_int as_dbl as_bool cell_int cell_dbl dbg setting out fs fs' i). Qed.
Example C37_loaded_case : exists f1 i, load parseF read_int read_dbl read_bool read_int read_dbl false setting_path out_dir (world "typo" []) = (f1, Ok i).
Proof. destruct unknown_case as (f1 & i & H & _). exists f1, i. exact H. Qed.
Print Assumptions C37_loaded.
(** C37: a copy target that exists *)
Theorem C37_target_exists parse as_int as_dbl as_bool cell_int cell_dbl dbg setting out fs sb y s pp cores t ps :
  fs setting = Some (File sb) -> parse sb = Some y ->
  @loadSettingYaml F64 as_int as_dbl as_bool dbg (parent setting) y = Ok (s, pp, cores) ->
  loadParticles cell_int cell_dbl dbg (s_rho0 s) fs pp = Ok (t, ps) -> fs out = Some Folder ->
  fs (out ++ [filename setting]) <> None \/ fs (out ++ [filename pp]) <> None ->
  snd (load parse as_int as_dbl as_bool cell_int cell_dbl dbg setting out fs) = Exit (-1).
Proof. exact (load_target_exists parse as_int as_dbl as_bool cell_int cell_dbl dbg setting out fs sb y s pp cores t ps). Qed.
Example C37_target_case : let fs := world "good" [(out_dir ++ [lit "in.prof"], File [])] in
  exists y s pp cores t ps, fs setting_path = Some (File (lit "good")) /\ parseF (lit "good") = Some y /\
  @loadSettingYaml F64 read_int read_dbl read_bool false (parent setting_path) y = Ok (s, pp, cores) /\
  loadParticles read_int read_dbl false (s_rho0 s) fs pp = Ok (t, ps) /\ fs out_dir = Some Folder /\ fs (out_dir ++ [filename pp]) <> None.
Proof. exact target_case. Qed.
Print Assumptions C37_target_exists.
(** C37: an unsupported particle file *)
Theorem C37_unsupported parse as_int as_dbl as_bool cell_int cell_dbl dbg setting out fs sb y s pp cores :
  fs setting = Some (File sb) -> parse sb = Some y ->
  @loadSettingYaml F64 as_int as_dbl as_bool dbg (parent setting) y = Ok (s, pp, cores) ->
  ~ In (extension pp) [lit ".csv"; lit ".prof"; lit ".vtu"] ->
  load parse as_int as_dbl as_bool cell_int cell_dbl dbg setting out fs = (fs, Exit (-1)).
Proof. exact (load_bad_extension parse as_int as_dbl as_bool cell_int cell_dbl dbg setting out fs sb y s pp cores). Qed.
Example C37_unsupported_case : exists y s pp cores, parseF (lit "text") = Some y /\ @loadSettingYaml F64 read_int read_dbl read_bool false case_dir y = Ok (s, pp, cores) /\
  ~ In (extension pp) [lit ".csv"; lit ".prof"; lit ".vtu"].
Proof. exact text_case. Qed.
Print Assumptions C37_unsupported.
(** C37: an unknown pressure method: no output file is written *)
Theorem C37_unknown_method parse as_int as_dbl as_bool cell_int cell_dbl fsin fcos M_PI big dbg S real clk fuel setting out fs f1 i :
  fs setting <> None -> fs out = Some Folder ->
  load parse as_int as_dbl as_bool cell_int cell_dbl dbg setting out fs = (f1, Ok i) -> dbg = false ->
  s_method (i_settings i) <> "Implicit"%string -> s_method (i_settings i) <> "Explicit"%string -> room out f1 ->
  exists fs', program parse as_int as_dbl as_bool cell_int cell_dbl fsin fcos M_PI big dbg S real clk fuel setting out fs = (fs', Exit (-1)) /\
    forall kind k, fs' (outputPath out kind k) = fs (outputPath out kind k).
Proof. exact (program_method parse as_int as_dbl as_bool cell_int cell_dbl fsin fcos M_PI big dbg S real clk fuel setting out fs f1 i). Qed.
Example C37_unknown_case : exists f1 i, load parseF read_int read_dbl read_bool read_int read_dbl false setting_path out_dir (world "typo" []) = (f1, Ok i) /\
  s_method (i_settings i) = "Explicitly"%string /\ room out_dir f1.
Proof. exact unknown_case. Qed.
Print Assumptions C37_unknown_method.

(** C56 is false: a run into a directory with earlier results replaces them *)
Theorem C56_no_file_lost_refuted : exists fs fs' st p b,
  program parseF read_int read_dbl read_bool read_int read_dbl fid fid c20 false false solver0 0 tickF 10 setting_path out_dir fs = (fs', Ok st) /\
  fs p = Some (File b) /\ fs' p <> Some (File b).
Proof. exact lost_case. Qed.
Print Assumptions C56_no_file_lost_refuted.
(** ... but only output files are at risk *)
Theorem C56_others_kept parse as_int as_dbl as_bool cell_int cell_dbl fsin fcos M_PI big dbg S real clk fuel setting out fs fs' o p e :
  program parse as_int as_dbl as_bool cell_int cell_dbl fsin fcos M_PI big dbg S real clk fuel setting out fs = (fs', o) ->
  fs p = Some e -> (forall kind k, In kind kinds -> 0 <= k -> p <> outputPath out kind k) \/ e = Folder -> fs' p = Some e.
Proof. exact (others_kept parse as_int as_dbl as_bool cell_int cell_dbl fsin fcos M_PI big dbg S real clk fuel setting out fs fs' o p e). Qed.
Example C56_others_case : exists fs' st, start (world "good" []) = (fs', Ok st) /\ world "good" [] particle_path = Some (File particlesF) /\
  forall kind k, particle_path <> outputPath out_dir kind k.
Proof. destruct good_case as (fs' & st & E & _). exists fs', st. split; [exact E|]. split; [reflexivity|]. intros kind k H. discriminate H. Qed.
Print Assumptions C56_others_kept.

(** C57 is false: a refused input leaves copies behind, and because of them the corrected
    input is refused as well, although it runs in a clean directory *)
Theorem C57_refusal_clean_refuted : exists fs fs' p b,
  start fs = (fs', Exit (-1)) /\ fs p = None /\ fs' p = Some (File b) /\
  snd (start (corrected_case fs')) = Exit (-1) /\ exists st, snd (start (corrected_case fs)) = Ok st.
Proof. exact typo_case. Qed.
Print Assumptions C57_refusal_clean_refuted.

(** C58 *)
Theorem C58_only_output parse as_int as_dbl as_bool cell_int cell_dbl fsin fcos M_PI big dbg S real clk fuel setting out fs fs' o :
  program parse as_int as_dbl as_bool cell_int cell_dbl fsin fcos M_PI big dbg S real clk fuel setting out fs = (fs', o) -> only_output out fs fs'.
Proof. exact (program_only parse as_int as_dbl as_bool cell_int cell_dbl fsin fcos M_PI big dbg S real clk fuel setting out fs fs' o). Qed.
Example C58_case : exists fs' st, start (world "good" []) = (fs', Ok st) /\ List.length (si_out st) = 2%nat.
Proof. exact good_case. Qed.
Print Assumptions C58_only_output.

(** C59: a completed run is the simulation of what was loaded, and has stored its outputs *)
Theorem C59_stored parse as_int as_dbl as_bool cell_int cell_dbl fsin fcos M_PI big dbg S real clk fuel setting out fs fs' st :
  program parse as_int as_dbl as_bool cell_int cell_dbl fsin fcos M_PI big dbg S real clk fuel setting out fs = (fs', Ok st) ->
  exists sb y pp cores pb i m,
    fs setting = Some (File sb) /\ parse sb = Some y /\
    @loadSettingYaml F64 as_int as_dbl as_bool dbg (parent setting) y = Ok (i_settings i, pp, cores) /\
    loadParticles cell_int cell_dbl dbg (s_rho0 (i_settings i)) fs pp = Ok (i_start i, i_particles i) /\
    fs pp = Some (File pb) /\
    factoryCreate fsin fcos M_PI (i_settings i) (i_particles i) = Ok m /\
    run S real clk fuel (newSim (i_start i) (i_settings i) m) = Ok st /\
    fs' (out ++ [filename setting]) = Some (File sb) /\ fs' (out ++ [filename pp]) = Some (File pb) /\
    Forall (stored_in big (s_vtkBinary (i_settings i)) out fs') (si_out st).
Proof. exact (program_ok parse as_int as_dbl as_bool cell_int cell_dbl fsin fcos M_PI big dbg S real clk fuel setting out fs fs' st). Qed.
Print Assumptions C59_stored.
(** C59: every prof output of a completed run can be loaded, and gives the state that was
    printed, if it is finite *)
Theorem C59_restart parse as_int as_dbl as_bool cell_int cell_dbl fsin fcos M_PI big dbg S real clk fuel setting out fs fs' st o rho :
  program parse as_int as_dbl as_bool cell_int cell_dbl fsin fcos M_PI big dbg S real clk fuel setting out fs = (fs', Ok st) ->
  In o (si_out st) -> finite (o_time o) -> Forall writable (m_ps (o_mps o)) -> Z.of_nat (List.length (m_ps (o_mps o))) <= int_max ->
  exists t ps, loadParticles cell_int cell_dbl dbg rho fs' (outputPath out "prof" (o_number o)) = Ok (t, ps) /\
    as_printed (o_time o) t /\ restored as_printed (fun _ d => d = rho) (fun _ => 0) (m_ps (o_mps o)) ps.
Proof. exact (restart parse as_int as_dbl as_bool cell_int cell_dbl fsin fcos M_PI big dbg S real clk fuel setting out fs fs' st o rho). Qed.
Example C59_case : exists fs' st o, start (world "good" []) = (fs', Ok st) /\ nth_error (si_out st) 1 = Some o /\ finite (o_time o) /\
  Forall writable (m_ps (o_mps o)) /\ List.length (m_ps (o_mps o)) = 3%nat.
Proof. exact restart_case. Qed.
Print Assumptions C59_restart.
(** C59: the run completes whenever the simulation does and there is room for the files *)
Theorem C59_completes parse as_int as_dbl as_bool cell_int cell_dbl fsin fcos M_PI big dbg S real clk fuel setting out fs sb y s pp cores pb t ps m st :
  fs setting = Some (File sb) -> parse sb = Some y ->
  @loadSettingYaml F64 as_int as_dbl as_bool dbg (parent setting) y = Ok (s, pp, cores) ->
  loadParticles cell_int cell_dbl dbg (s_rho0 s) fs pp = Ok (t, ps) -> fs pp = Some (File pb) ->
  factoryCreate fsin fcos M_PI s ps = Ok m -> run S real clk fuel (@newSim F64 t s m) = Ok st -> Forall (vtu_fine big (s_vtkBinary s)) (si_out st) ->
  room out fs -> fs (out ++ [filename setting]) = None -> fs (out ++ [filename pp]) = None -> filename setting <> filename pp ->
  ~ In (filename setting) (map lit kinds) -> ~ In (filename pp) (map lit kinds) ->
  exists fs', program parse as_int as_dbl as_bool cell_int cell_dbl fsin fcos M_PI big dbg S real clk fuel setting out fs = (fs', Ok st).
Proof. exact (program_done parse as_int as_dbl as_bool cell_int cell_dbl fsin fcos M_PI big dbg S real clk fuel setting out fs sb y s pp cores pb t ps m st). Qed.
Example C59_completes_case : let fs := world "good" [] in exists y s pp cores t ps m st,
  fs setting_path = Some (File (lit "good")) /\ parseF (lit "good") = Some y /\
  @loadSettingYaml F64 read_int read_dbl read_bool false (parent setting_path) y = Ok (s, pp, cores) /\
  loadParticles read_int read_dbl false (s_rho0 s) fs pp = Ok (t, ps) /\ fs pp = Some (File particlesF) /\
  @factoryCreate F64 fid fid c20 s ps = Ok m /\ @run F64 solver0 0 tickF 10 (@newSim F64 t s m) = Ok st /\ Forall (vtu_fine false (s_vtkBinary s)) (si_out st) /\
  room out_dir fs /\ fs (out_dir ++ [filename setting_path]) = None /\ fs (out_dir ++ [filename pp]) = None /\ filename setting_path <> filename pp /\
  ~ In (filename setting_path) (map lit kinds) /\ ~ In (filename pp) (map lit kinds).
Proof. exact completes_case. Qed.
Print Assumptions C59_completes.
