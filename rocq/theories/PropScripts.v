(** * Properties C76, C77: the shell scripts of the repository

    Vocabulary: [SpecScripts] (laid: a line made of words and spaces; numbered: the first word
    is a numeral; checkout: the built repository with the files of a case; usable; below;
    visible: what the shell's * matches; runs_of: any number of runs of the script),
    [SpecFiles] (csv_text, lines_text, as_printed, restored, writable, time_like),
    [SpecShipped] (case_ends, usual_clock), [SpecGenerator] (close, in_dam_domain). *)
From Verif Require Import FilesFacts GeneratorCases FilesCases LoaderCases SimCases StepCasesF ShippedCases SimF ScriptFacts RunnerFacts ScriptCases SpecScripts.
Open Scope list_scope.
Open Scope Z_scope.
#[local] Remove Hints Rnum : typeclass_instances.

(** C76: scripts/prof_to_csv.sh.  The time line, the count line, and one row for every
    row of seven words that begins with a numeral. *)
Theorem C76_rows time count lines rows : ~ In nl time -> ~ In nl count -> Forall2 laid lines rows -> Forall (fun r => List.length r = 7%nat) rows ->
  prof_to_csv (lines_text (time :: count :: lines)) = csv_text time count prof_columns (filter numbered rows).
Proof. intros A B. exact (prof_converted time count lines rows (proj1 (not_in_no _ _) A) (proj1 (not_in_no _ _) B)). Qed.
Print Assumptions C76_rows.
Example C76_rows_case : exists lines rows, Forall2 laid lines rows /\ Forall (fun r => List.length r = 7%nat) rows /\
  lines = [lit " 1  0.5 0 0 0 0 0"] /\ rows = [map lit ["1"; "0.5"; "0"; "0"; "0"; "0"; "0"]%string].
Proof. exact rows_case. Qed.
(** a file the program has written holds the same particles for the loader before and after *)
Theorem C76_same_particles cell_int cell_dbl dbg rho t ps :
  (forall z, in_int z = true -> cell_int (showZ z) = Some z) -> (forall x, finite x -> exists y, cell_dbl (show x) = Some y /\ as_printed x y) ->
  time_like t -> Forall writable ps -> Forall (fun p : Files.particle => 0 <= p_type p) ps -> Z.of_nat (List.length ps) <= int_max ->
  exists t' ps', prof_load dbg rho (toProf t ps) = Ok (t', ps') /\ csv_load cell_int cell_dbl dbg rho (prof_to_csv (toProf t ps)) = Ok (t', ps') /\
    as_printed t t' /\ restored as_printed (fun _ d => d = rho) (fun _ => 0) ps ps'.
Proof. intros A B. exact (script_same cell_int cell_dbl A B dbg rho t ps). Qed.
Example C76_same_case : (forall z, in_int z = true -> int_cell (showZ z) = Some z) /\ (forall x, finite x -> exists y, dbl_cell (show x) = Some y /\ as_printed x y) /\
  time_like clock /\ Forall writable pair /\ Forall (fun p : Files.particle => 0 <= p_type p) pair /\ Z.of_nat (List.length pair) <= int_max.
Proof. exact same_case. Qed.
Print Assumptions C76_same_particles.
(** the CSV files in /repo/input are what the script makes of the prof files beside them *)
Theorem C76_shipped : prof_to_csv (file dambreak_prof) = file dambreak_csv /\ prof_to_csv (file hydrostatic_prof) = file hydrostatic_csv.
Proof. exact shipped_csv. Qed.
Print Assumptions C76_shipped.

(** That it keeps the particles of every file the program reads is false: particles are
    lost without a message when their line has a tab for a space, ... *)
Theorem C76_tab_refuted : exists f rho t ps t' qs, f = lines_text [lit "0"; lit "2"; lit "1 0.5 0 0 0 0 0"; lit "2" ++ ascii_of_nat 9 :: lit "0.75 0 0 0 0 0"] /\
  prof_load false rho f = Ok (t, ps) /\ csv_load int_cell dbl_cell false rho (prof_to_csv f) = Ok (t', qs) /\ List.length ps = 2%nat /\ List.length qs = 1%nat.
Proof. exact tab_case. Qed.
Print Assumptions C76_tab_refuted.
(** ... when it is the last line and has no newline, ... *)
Theorem C76_last_line_refuted : exists f rho t ps t' qs, f = lines_text [lit "0"; lit "2"; lit "1 0.5 0 0 0 0 0"] ++ lit "2 0.75 0 0 0 0 0" /\
  prof_load false rho f = Ok (t, ps) /\ csv_load int_cell dbl_cell false rho (prof_to_csv f) = Ok (t', qs) /\ List.length ps = 2%nat /\ List.length qs = 1%nat.
Proof. exact last_line_case. Qed.
Print Assumptions C76_last_line_refuted.
(** ... when their type is negative *)
Theorem C76_negative_type_refuted : exists f rho t ps t' qs, f = lines_text [lit "0"; lit "2"; lit "1 0.5 0 0 0 0 0"; lit "-1 0.75 0 0 0 0 0"] /\
  prof_load false rho f = Ok (t, ps) /\ csv_load int_cell dbl_cell false rho (prof_to_csv f) = Ok (t', qs) /\ List.length ps = 2%nat /\ List.length qs = 1%nat.
Proof. exact negative_case. Qed.
Print Assumptions C76_negative_type_refuted.

(** C77: scripts/runner.sh.  Whatever is visible in the directory of the results makes no
    difference to what the script does and leaves behind. *)
Theorem C77_earlier_results mps err con root cwd project fs fs0 : has_blank root = false ->
  let out := root ++ [lit "result"; project] in
  usable fs (root ++ [lit "result"]) -> usable fs out -> usable fs0 (root ++ [lit "result"]) -> usable fs0 out ->
  (forall q, q <> root ++ [lit "result"] -> q <> out -> ~ visible out q -> fs q = fs0 q) ->
  runner mps err con root cwd project fs = runner mps err con root cwd project fs0.
Proof. intros NB. exact (runner_same root project NB mps err con cwd fs fs0). Qed.
Example C77_earlier_case : let out := repo ++ [lit "result"; lit "dambreak"] in
  let fs := repo_disk (lit "dambreak") dambreak_yml (file dambreak_prof) old_results in let fs0 := repo_disk (lit "dambreak") dambreak_yml (file dambreak_prof) [] in
  has_blank repo = false /\ usable fs (repo ++ [lit "result"]) /\ usable fs out /\ usable fs0 (repo ++ [lit "result"]) /\ usable fs0 out /\
  (forall q, q <> repo ++ [lit "result"] -> q <> out -> ~ visible out q -> fs q = fs0 q) /\ fs (out ++ [lit "settings.yml"]) <> fs0 (out ++ [lit "settings.yml"]).
Proof. exact earlier_case. Qed.
Print Assumptions C77_earlier_results.
(** After any number of runs, the dam break runs as in an empty directory (C68) *)
Theorem C77_dambreak parse as_int as_dbl as_bool cell_int cell_dbl fsin fcos pi big dbg S real clk fuel err con root cwd fs0 fs :
  reads_plainly parse as_int as_dbl as_bool -> sized S -> usual_clock real clk -> has_blank root = false ->
  checkout root (lit "dambreak") dambreak_yml (file dambreak_prof) fs0 -> runs_of root (lit "dambreak") fs0 fs -> (Z.to_nat 2001 <= fuel)%nat ->
  exists exact ps m, @dambreak Rnum dbg = Ok exact /\ Forall2 close exact ps /\ Forall in_dam_domain ps /\
    factoryCreate fsin fcos pi (dam_settings dbg (path_text (root ++ [lit "input"; lit "dambreak"; lit "input.prof"]))) ps = Ok m /\
    case_ends S dbg m 2001 (multiples 40 0 26 0 ++ multiples 40 26 25 1)
      (snd (runner (program parse as_int as_dbl as_bool cell_int cell_dbl fsin fcos pi big dbg S real clk fuel) err con root cwd (lit "dambreak") fs)).
Proof. intros RP SZ CK NB. exact (runner_dam parse as_int as_dbl as_bool cell_int cell_dbl fsin fcos pi big dbg RP S real clk fuel SZ CK err con root cwd NB fs0 fs). Qed.
Example C77_dambreak_case : reads_plainly flat_yaml read_int read_dbl read_bool /\ sized solver0 /\ usual_clock 0 tickF /\ has_blank repo = false /\
  checkout repo (lit "dambreak") dambreak_yml (file dambreak_prof) (repo_disk (lit "dambreak") dambreak_yml (file dambreak_prof) old_results) /\
  runs_of repo (lit "dambreak") (repo_disk (lit "dambreak") dambreak_yml (file dambreak_prof) old_results)
    (fst (runner toy (lit "") (lit "a log") repo repo (lit "dambreak") (repo_disk (lit "dambreak") dambreak_yml (file dambreak_prof) old_results))).
Proof. exact (conj plain_reader (conj solver0_sized (conj tick_usual (conj eq_refl (conj dam_checkout runs_case))))). Qed.
Print Assumptions C77_dambreak.
(** ... unless a name in the path of the repository has a space, a tab or a line end: then the script empties
    result/dambreak of the directory it is called from, and does not run the program *)
Theorem C77_blank_refuted c mps err con : In c [" "; ascii_of_N 9; ascii_of_N 10]%char ->
  exists root cwd fs n p b, In n root /\ In c n /\ checkout root (lit "dambreak") dambreak_yml (file dambreak_prof) fs /\ ~ below root p /\ fs p = Some (File b) /\
  fst (runner mps err con root cwd (lit "dambreak") fs) p = None /\ snd (runner mps err con root cwd (lit "dambreak") fs) = Exit 127.
Proof. exact (blank_case c mps err con). Qed.
Print Assumptions C77_blank_refuted.
(** scripts/safe_runner.sh into a directory of its own loses nothing ... *)
Theorem C77_safe_keeps parse as_int as_dbl as_bool cell_int cell_dbl fsin fcos pi big dbg S real clk fuel err con root cwd project folder fs : has_blank root = false ->
  (forall q, below (root ++ [lit "result"; folder]) q -> fs q = None) ->
  preserved fs (fst (safe_runner (program parse as_int as_dbl as_bool cell_int cell_dbl fsin fcos pi big dbg S real clk fuel) err con root cwd project folder fs)).
Proof. intros NB. exact (safe_kept root project folder NB parse as_int as_dbl as_bool cell_int cell_dbl fsin fcos pi big dbg S real clk fuel err con cwd fs). Qed.
Print Assumptions C77_safe_keeps.
(** ... and runs the cases *)
Theorem C77_safe_dambreak parse as_int as_dbl as_bool cell_int cell_dbl fsin fcos pi big dbg S real clk fuel err con root cwd folder fs :
  reads_plainly parse as_int as_dbl as_bool -> sized S -> usual_clock real clk -> has_blank root = false ->
  checkout root (lit "dambreak") dambreak_yml (file dambreak_prof) fs -> usable fs (root ++ [lit "result"; folder]) ->
  (forall q, below (root ++ [lit "result"; folder]) q -> fs q = None) -> (Z.to_nat 2001 <= fuel)%nat ->
  exists exact ps m, @dambreak Rnum dbg = Ok exact /\ Forall2 close exact ps /\ Forall in_dam_domain ps /\
    factoryCreate fsin fcos pi (dam_settings dbg (path_text (root ++ [lit "input"; lit "dambreak"; lit "input.prof"]))) ps = Ok m /\
    case_ends S dbg m 2001 (multiples 40 0 26 0 ++ multiples 40 26 25 1)
      (snd (safe_runner (program parse as_int as_dbl as_bool cell_int cell_dbl fsin fcos pi big dbg S real clk fuel) err con root cwd (lit "dambreak") folder fs)).
Proof. intros RP SZ CK NB. exact (safe_dam parse as_int as_dbl as_bool cell_int cell_dbl fsin fcos pi big dbg RP S real clk fuel SZ CK err con root cwd NB fs folder). Qed.
Print Assumptions C77_safe_dambreak.
Theorem C77_safe_hydrostatic parse as_int as_dbl as_bool cell_int cell_dbl fsin fcos pi big dbg S real clk fuel err con root cwd folder fs :
  reads_plainly parse as_int as_dbl as_bool -> sized S -> usual_clock real clk -> has_blank root = false ->
  checkout root (lit "hydrostatic") hydrostatic_yml (file hydrostatic_prof) fs -> usable fs (root ++ [lit "result"; folder]) ->
  (forall q, below (root ++ [lit "result"; folder]) q -> fs q = None) -> (Z.to_nat 5000 <= fuel)%nat ->
  exists exact ps m, @hydrostatic Rnum dbg = Ok exact /\ Forall2 close exact ps /\ Forall in_hyd_domain ps /\
    factoryCreate fsin fcos pi (hyd_settings dbg (path_text (root ++ [lit "input"; lit "hydrostatic"; lit "input.prof"]))) ps = Ok m /\
    case_ends S dbg m 5000 (multiples 50 0 21 0 ++ multiples 50 21 79 1 ++ [5000])
      (snd (safe_runner (program parse as_int as_dbl as_bool cell_int cell_dbl fsin fcos pi big dbg S real clk fuel) err con root cwd (lit "hydrostatic") folder fs)).
Proof. intros RP SZ CK NB. exact (safe_hyd parse as_int as_dbl as_bool cell_int cell_dbl fsin fcos pi big dbg RP S real clk fuel SZ CK err con root cwd NB fs folder). Qed.
Print Assumptions C77_safe_hydrostatic.
Example C77_safe_case : has_blank repo = false /\ let fs := repo_disk (lit "hydrostatic") hydrostatic_yml (file hydrostatic_prof) old_results in
  checkout repo (lit "hydrostatic") hydrostatic_yml (file hydrostatic_prof) fs /\ usable fs (repo ++ [lit "result"; new_folder]) /\
  (forall q, below (repo ++ [lit "result"; new_folder]) q -> fs q = None).
Proof. exact (conj eq_refl hyd_checkout). Qed.
(** ... but the name of the directory has the time in whole seconds: a second run in the same
    second overwrites the logs of the first and is refused *)
Theorem C77_same_second_refuted : exists fs fs1 fs2 st p a b,
  let run log := safe_runner (program parseF read_int read_dbl read_bool read_int read_dbl fid fid c20 false false solver0 0 tickF 10) (lit "") (lit log) repo repo (lit "case") (lit "20240101120000-case-") in
  run "first run"%string fs = (fs1, Ok st) /\ run "second run"%string fs1 = (fs2, Exit (-1)) /\ fs1 p = Some (File a) /\ fs2 p = Some (File b) /\ a <> b.
Proof. exact twice_case. Qed.
Print Assumptions C77_same_second_refuted.
