(** * Properties C67, C68: the cases in /repo/input

    Vocabulary: [SpecShipped] (dam_settings, hyd_settings: the settings as decimal numbers;
    installed: the two files of a case are in [dir], the output directory is free;
    spaced; usual_clock: the clock does not run backwards and the run takes less than 2^48 ns;
    case_ends), [SpecEnds] (ends, agrees), [Yaml] (reads_plainly: what is assumed of
    yaml-cpp), [SpecGenerator] (close: off by at most 1e-15; in_dam_domain, in_hyd_domain),
    [SimF] (multiples d a b c: the numbers d j + c for a <= j < a + b), [Shipped] (the files). *)
From Verif Require Import GeneratorCases StepCasesF SimF ShippedCases LoaderCases SimCases SpecShipped.
Open Scope list_scope.
Open Scope Z_scope.
#[local] Remove Hints Rnum : typeclass_instances.

(** C67: the shipped settings files load with exactly the values they show, the shipped
    particle files with the particles of the generator, all in the domain and no two closer
    than the particle distance (up to rounding); the simulator is constructed. *)
Theorem C67_dambreak_loads parse as_int as_dbl as_bool cell_int cell_dbl fsin fcos pi dbg fs dir out :
  reads_plainly parse as_int as_dbl as_bool -> installed fs dir out dambreak_yml (file dambreak_prof) ->
  let s := dam_settings dbg (path_text (dir ++ [lit "input.prof"])) in
  exists f1 exact ps m, load parse as_int as_dbl as_bool cell_int cell_dbl dbg (dir ++ [lit "settings.yml"]) out fs = (f1, Ok (mkI s ps (@nofZ F64 0))) /\ room out f1 /\
    @dambreak Rnum dbg = Ok exact /\ Forall2 close exact ps /\ Forall in_dam_domain ps /\ spaced (25 / 1000 - 2 / 10 ^ 15) ps /\ factoryCreate fsin fcos pi s ps = Ok m.
Proof. intros RP. exact (case_dam _ _ _ _ cell_int cell_dbl fsin fcos pi dbg RP fs dir out). Qed.
Print Assumptions C67_dambreak_loads.
Theorem C67_hydrostatic_loads parse as_int as_dbl as_bool cell_int cell_dbl fsin fcos pi dbg fs dir out :
  reads_plainly parse as_int as_dbl as_bool -> installed fs dir out hydrostatic_yml (file hydrostatic_prof) ->
  let s := hyd_settings dbg (path_text (dir ++ [lit "input.prof"])) in
  exists f1 exact ps m, load parse as_int as_dbl as_bool cell_int cell_dbl dbg (dir ++ [lit "settings.yml"]) out fs = (f1, Ok (mkI s ps (@nofZ F64 0))) /\ room out f1 /\
    @hydrostatic Rnum dbg = Ok exact /\ Forall2 close exact ps /\ Forall in_hyd_domain ps /\ spaced (12 / 1000 - 2 / 10 ^ 15) ps /\ factoryCreate fsin fcos pi s ps = Ok m.
Proof. intros RP. exact (case_hyd _ _ _ _ cell_int cell_dbl fsin fcos pi dbg RP fs dir out). Qed.
Print Assumptions C67_hydrostatic_loads.
Example C67_case : reads_plainly flat_yaml read_int read_dbl read_bool /\
  installed (shipped_disk dambreak_yml dambreak_prof) [lit "in"] [lit "out"] dambreak_yml (file dambreak_prof) /\
  installed (shipped_disk hydrostatic_yml hydrostatic_prof) [lit "in"] [lit "out"] hydrostatic_yml (file hydrostatic_prof).
Proof. exact (conj plain_reader (conj (disk_installed _ _) (disk_installed _ _))). Qed.

(** C68: writing its files gives the program no further ends than those of the time loop;
    the time loop, when the clock is fit for the report, ends in four ways only. *)
Theorem C68_program_ends parse as_int as_dbl as_bool cell_int cell_dbl fsin fcos pi big dbg S real clk fuel setting out fs f1 i m :
  fs setting <> None -> fs out = Some Folder ->
  load parse as_int as_dbl as_bool cell_int cell_dbl dbg setting out fs = (f1, Ok i) -> room out f1 -> factoryCreate fsin fcos pi (i_settings i) (i_particles i) = Ok m ->
  (s_vtkBinary (i_settings i) = true -> Z.of_nat (List.length (i_particles i)) * 3 <= int_max) ->
  snd (program parse as_int as_dbl as_bool cell_int cell_dbl fsin fcos pi big dbg S real clk fuel setting out fs) = run S real clk fuel (newSim (i_start i) (i_settings i) m).
Proof. exact (program_ends parse as_int as_dbl as_bool cell_int cell_dbl fsin fcos pi big dbg S real clk fuel setting out fs f1 i m). Qed.
Print Assumptions C68_program_ends.
Theorem C68_loop_ends S real clk fuel (st0 : @sim F64) n : fresh st0 -> sound (si_mps st0) -> sized S ->
  radiusF (s_reMax (m_settings (si_mps st0))) -> proper_domainF (s_domain (m_settings (si_mps st0))) ->
  nlt (time_at (si_start st0) (si_dt st0) n) (si_end st0) = false -> Z.of_nat n < int_max -> (n <= fuel)%nat ->
  (forall k st, (0 < k <= n)%nat -> agrees st0 k st -> exists r, timeStepReport real (clk (k - 1)%nat) st = Ok r) ->
  ends S st0 n (run S real clk fuel st0).
Proof. exact (run_ways S real clk fuel st0 n). Qed.
Print Assumptions C68_loop_ends.

(** The shipped cases: the dam break does 2001 steps and saves 51 outputs, the hydrostatic
    case 5000 and 101, unless an assertion fails, the solver fails or a coordinate is NaN. *)
Theorem C68_dambreak parse as_int as_dbl as_bool cell_int cell_dbl fsin fcos pi big dbg S real clk fuel fs dir out :
  reads_plainly parse as_int as_dbl as_bool -> installed fs dir out dambreak_yml (file dambreak_prof) -> sized S -> usual_clock real clk -> (Z.to_nat 2001 <= fuel)%nat ->
  let s := dam_settings dbg (path_text (dir ++ [lit "input.prof"])) in
  exists f1 ps m, load parse as_int as_dbl as_bool cell_int cell_dbl dbg (dir ++ [lit "settings.yml"]) out fs = (f1, Ok (mkI s ps (@nofZ F64 0))) /\ factoryCreate fsin fcos pi s ps = Ok m /\
    case_ends S dbg m 2001 (multiples 40 0 26 0 ++ multiples 40 26 25 1)
      (snd (program parse as_int as_dbl as_bool cell_int cell_dbl fsin fcos pi big dbg S real clk fuel (dir ++ [lit "settings.yml"]) out fs)).
Proof. intros RP. exact (run_dam _ _ _ _ cell_int cell_dbl fsin fcos pi big dbg RP S real clk fuel fs dir out). Qed.
Print Assumptions C68_dambreak.
Theorem C68_hydrostatic parse as_int as_dbl as_bool cell_int cell_dbl fsin fcos pi big dbg S real clk fuel fs dir out :
  reads_plainly parse as_int as_dbl as_bool -> installed fs dir out hydrostatic_yml (file hydrostatic_prof) -> sized S -> usual_clock real clk -> (Z.to_nat 5000 <= fuel)%nat ->
  let s := hyd_settings dbg (path_text (dir ++ [lit "input.prof"])) in
  exists f1 ps m, load parse as_int as_dbl as_bool cell_int cell_dbl dbg (dir ++ [lit "settings.yml"]) out fs = (f1, Ok (mkI s ps (@nofZ F64 0))) /\ factoryCreate fsin fcos pi s ps = Ok m /\
    case_ends S dbg m 5000 (multiples 50 0 21 0 ++ multiples 50 21 79 1 ++ [5000])
      (snd (program parse as_int as_dbl as_bool cell_int cell_dbl fsin fcos pi big dbg S real clk fuel (dir ++ [lit "settings.yml"]) out fs)).
Proof. intros RP. exact (run_hyd _ _ _ _ cell_int cell_dbl fsin fcos pi big dbg RP S real clk fuel fs dir out). Qed.
Print Assumptions C68_hydrostatic.
Example C68_case : sized solver0 /\ usual_clock 0 tickF /\ reads_plainly flat_yaml read_int read_dbl read_bool /\
  installed (shipped_disk dambreak_yml dambreak_prof) [lit "in"] [lit "out"] dambreak_yml (file dambreak_prof).
Proof. exact (conj solver0_sized (conj tick_usual (conj plain_reader (disk_installed _ _)))). Qed.
