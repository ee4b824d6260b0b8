(** * Everything the program prints (src/main.cpp, src/loader.cpp, src/particles_loader/,
    src/mps_factory.cpp, src/pressure_calculator/pressure_poisson_equation.cpp,
    src/particles_exporter.cpp, and the simulation as in Console.v)

    The program of Program.v with the command line and a record of what has been printed
    when it ends, whichever way.  Where it ends in undefined behaviour or by an assertion
    inside a time step, the record holds what was printed before the stage of the step in
    which that happens.  Not modelled: what the C++ library prints when an assertion or an
    uncaught exception ends the program; the text of the usage message. *)
From Verif Require Export Program Console.
Open Scope list_scope.
Open Scope Z_scope.

Inductive message :=
| SettingFile (p : path)                 (* main.cpp:31 *)
| OutputDirectory (p : path)             (* main.cpp:44 *)
| NoSetting (p : path)                   (* main.cpp:27-28, on both streams *)
| NoOutput (p : path)                    (* main.cpp:40-41, on both streams *)
| BadArguments                           (* main.cpp:55-57 *)
| Unsupported (ext : list ascii)         (* loader.cpp:49 *)
| CannotRead (kind : string) (p : path)  (* prof.cpp:17, vtu.cpp:19 *)
| BinaryVtu (p : path)                   (* vtu.cpp:27 *)
| Taken (p : path)                       (* loader.cpp:63 *)
| BadMethod (m : string)                 (* mps_factory.cpp:68-69 *)
| SolverFailed                           (* pressure_poisson_equation.cpp:50 *)
| CannotWrite (p : path)                 (* particles_exporter.cpp:55, 71, 185, 359 *)
| Event (e : @event F64).                (* Console.v *)

(** code that works on the file system and prints *)
Definition say (A : Type) : Type := filesystem -> filesystem * list message * outcome A.
Definition next {A B} (m : say A) (k : A -> say B) : say B := fun fs =>
  match m fs with
  | (fs', w, Ok a) => let '(fs2, w', o) := k a fs' in (fs2, w ++ w', o)
  | (fs', w, Undef u) => (fs', w, Undef u)
  | (fs', w, AssertFail) => (fs', w, AssertFail)
  | (fs', w, Exit c) => (fs', w, Exit c)
  | (fs', w, Throw) => (fs', w, Throw)
  | (fs', w, Diverge) => (fs', w, Diverge)
  end.
Notation "x <<~ m ;; k" := (next m (fun x => k)) (at level 61, m at next level, right associativity).
Notation "' p <<~ m ;; k" := (next m (fun p => k)) (at level 61, p pattern, m at next level, right associativity).
Definition print (l : list message) : say unit := fun fs => (fs, l, Ok tt).
Definition stop_with {A} (e : message) : say A := fun fs => (fs, [e], Exit (-1)).
(** code that prints nothing *)
Definition silently {A} (a : act A) : say A := fun fs => let '(fs', o) := a fs in (fs', [], o).
(** code that prints [e] where it calls exit, and nothing else *)
Definition or_says {A} (e : message) (a : act A) : say A := fun fs =>
  let '(fs', o) := a fs in (fs', match o with Exit _ => [e] | _ => [] end, o).

Section Messages.
Variable parse : list ascii -> option node.
Variable as_int : list ascii -> option Z.
Variable as_dbl : list ascii -> option f64.
Variable as_bool : list ascii -> option bool.
Variable cell_int : list ascii -> option Z.
Variable cell_dbl : list ascii -> option f64.
Variable fsin fcos : f64 -> f64.
Variable M_PI : f64.
Variable big dbg : bool.

(** Loader::getParticlesLoader, src/loader.cpp:40-52; prof.cpp:13-19, vtu.cpp:16-30 *)
Definition particlesSay (rho : f64) (p : path) : say (f64 * list particle) := fun fs =>
  let ext := extension p in
  (if text_eqb ext (lit ".csv") then
     silently (ret (match fs p with Some e => csv_load cell_int cell_dbl dbg rho (bytes_of e) | None => Throw end))
   else if text_eqb ext (lit ".prof") then
     match fs p with Some e => silently (ret (prof_load dbg rho (bytes_of e))) | None => stop_with (CannotRead "prof" p) end
   else if text_eqb ext (lit ".vtu") then
     match fs p with Some e => or_says (BinaryVtu p) (ret (vtu_load dbg rho (bytes_of e))) | None => stop_with (CannotRead "vtu" p) end
   else stop_with (Unsupported ext)) fs.
(** Loader::copyInputFileToOutputDirectory, src/loader.cpp:60-68 *)
Definition copySay (p out : path) : say unit := or_says (Taken (out ++ [filename p])) (copyInputFile p out).
(** Loader::load, src/loader.cpp:17-32 *)
Definition loadSay (setting out : path) : say input := fun fs =>
  (y <<~ silently (ret (yaml_file parse fs setting)) ;;
   '(s, pp, _) <<~ silently (ret (loadSettingYaml as_int as_dbl as_bool dbg (parent setting) y)) ;;
   '(t, ps) <<~ particlesSay (s_rho0 s) pp ;;
   _ <<~ copySay setting out ;;
   _ <<~ copySay pp out ;;
   silently (ret (Ok (mkI s ps t)))) fs.

(** ParticlesExporter::toProf, toVtu, toCsv where the file cannot be opened;
    Saver::save, src/saver.cpp:13-32 *)
Definition writeSay (p : path) (text : outcome (list ascii)) : say unit := or_says (CannotWrite p) (write_file p text).
Definition saveFilesSay (bin : bool) (out : path) (o : @output F64) : say unit :=
  let t := o_time o in let ps := m_ps (o_mps o) in
  _ <<~ writeSay (outputPath out "prof" (o_number o)) (Ok (toProf t ps)) ;;
  _ <<~ writeSay (outputPath out "vtu" (o_number o)) (toVtu big bin t (rv_n0 (m_rvN (o_mps o))) ps) ;;
  writeSay (outputPath out "csv" (o_number o)) (Ok (toCsv t ps)).
Fixpoint saveAllSay (bin : bool) (out : path) (l : list output) : say unit :=
  match l with
  | [] => silently (ret (Ok tt))
  | o :: r => _ <<~ saveFilesSay bin out o ;; saveAllSay bin out r
  end.

(** MPS::stepForward, src/mps.cpp:34-63: the warnings of the three searches, then the
    message of the solver or of the Courant number *)
Definition stepSay (S : solver) (m : @mps F64) : say mps :=
  '(ns, ps) <<~ silently (ret (stepMove m)) ;;
  _ <<~ print (map Event (searchWarnings (m_ns m) (m_ps m))) ;;
  '(ns', ps') <<~ silently (ret (stepCollide m ns ps)) ;;
  _ <<~ print (map Event (searchWarnings ns ps)) ;;
  _ <<~ silently (ret (setNeighbors ns' ps')) ;;
  _ <<~ print (map Event (searchWarnings ns' ps')) ;;
  m' <<~ or_says SolverFailed (ret (stepForward S m)) ;;
  _ <<~ print (if nlt (s_cfl (m_settings m)) (m_courant m') then [Event (CourantError (m_courant m'))] else []) ;;
  silently (ret (Ok m')).
(** the loop of Simulation::run, src/simulation.cpp:34-45 *)
Definition iterationSay (S : solver) (real : Z) (clock : Z * Z) (st : @sim F64) : say sim :=
  m <<~ stepSay S (si_mps st) ;;
  k <<~ silently (ret (cint (si_step st + 1)%Z)) ;;
  let st := mkSim m (si_start st) (nadd (si_time st) (si_dt st)) (si_end st) (si_dt st) (si_period st) k (si_file st) (si_out st) in
  r <<~ silently (ret (reportLog real clock st)) ;;
  _ <<~ print [Event r] ;;
  silently (ret (if saveCondition st then save st else Ok st)).
Fixpoint loopSay (S : solver) (real : Z) (clk : nat -> Z * Z) (bin : bool) (out : path) (fuel k : nat) (st : @sim F64) : say sim :=
  if nlt (si_time st) (si_end st) then
    match fuel with
    | O => silently (ret Diverge)
    | Datatypes.S fuel' =>
        st' <<~ iterationSay S real (clk k) st ;;
        _ <<~ saveAllSay bin out (news st st') ;;
        loopSay S real clk bin out fuel' (Datatypes.S k) st'
    end
  else silently (ret (Ok st)).
(** Simulation::run, src/simulation.cpp:29-63; [fin] is realEndTime *)
Definition runSay (S : solver) (real fin : Z) (clk : nat -> Z * Z) (bin : bool) (out : path) (fuel : nat) (st : @sim F64) : say sim :=
  _ <<~ print [Event Start] ;;
  st' <<~ silently (ret (save st)) ;;
  _ <<~ saveAllSay bin out (news st st') ;;
  st'' <<~ loopSay S real clk bin out fuel 0 st' ;;
  d <<~ silently (ret (cint64 (fin - real))) ;;
  _ <<~ print [Event (End (calHourMinuteSecond d))] ;;
  silently (ret (Ok st'')).

(** The actions of the two options, src/main.cpp:22-48.  create_directories on a path that
    is a file throws; like a missing option this is caught at main.cpp:54-59. *)
Definition settingOption (v : option path) : say unit := fun fs =>
  match v with
  | None => (fs, [], Ok tt)
  | Some p => (if there fs p then print [SettingFile p] else stop_with (NoSetting p)) fs
  end.
Definition outputOption (v : option path) : say unit := fun fs =>
  match v with
  | None => (fs, [], Ok tt)
  | Some p => match fs p with
              | None => stop_with (NoOutput p) fs
              | Some Folder => print [OutputDirectory p] fs
              | Some (File _) => (_ <<~ print [OutputDirectory p] ;; stop_with BadArguments) fs
              end
  end.
(** main, src/main.cpp:19-68.  [setting] and [out] are the values of the options -s and -o,
    if given; argparse calls the actions in the order of the command line, -o first if
    [flip].  An option given twice and unknown options are not modelled. *)
Definition mainSay (S : solver) (real fin : Z) (clk : nat -> Z * Z) (fuel : nat) (flip : bool) (setting out : option path) : say sim :=
  _ <<~ (if flip then _ <<~ outputOption out ;; settingOption setting else _ <<~ settingOption setting ;; outputOption out) ;;
  match setting, out with
  | Some setting, Some out =>
      i <<~ loadSay setting out ;;
      _ <<~ silently (newSaver out) ;;
      m <<~ or_says (BadMethod (s_method (i_settings i))) (ret (factoryCreate fsin fcos M_PI (i_settings i) (i_particles i))) ;;
      runSay S real fin clk (s_vtkBinary (i_settings i)) out fuel (newSim (i_start i) (i_settings i) m)
  | _, _ => stop_with BadArguments
  end.
End Messages.

(** ** The texts *)

(** operator<< of a std::filesystem::path writes std::quoted of its text *)
Definition dquote : ascii := "034".
Definition backslash : ascii := "092".
Definition stdQuoted (l : list ascii) : list ascii :=
  dquote :: flat_map (fun c => if Ascii.eqb c dquote || Ascii.eqb c backslash then [backslash; c] else [c]) l ++ [dquote].
Definition quoted_path (p : path) : string := text (stdQuoted (lit (path_text p))).

(** stdout; [usage] and [what] are texts of argparse and of std::exception *)
Definition sayCout (what : string) (e : message) : string :=
  (match e with
   | SettingFile p => "Setting file: " ++ path_text p ++ newline
   | OutputDirectory p => "Output directory: " ++ path_text p ++ newline
   | NoSetting p => "ERROR: The setting file " ++ path_text p ++ " does not exist" ++ newline
   | NoOutput p => "ERROR: The output directory " ++ path_text p ++ " does not exist" ++ newline
   | BadArguments => what ++ newline
   | Event ev => coutText ev
   | _ => ""
   end)%string.
(** stderr *)
Definition sayCerr (what usage : string) (e : message) : string :=
  (match e with
   | NoSetting p => "ERROR: The setting file " ++ path_text p ++ " does not exist" ++ newline
   | NoOutput p => "ERROR: The output directory " ++ path_text p ++ " does not exist" ++ newline
   | BadArguments => what ++ newline ++ usage
   | Unsupported ext => "unsupported file format: " ++ text (stdQuoted ext) ++ newline
   | CannotRead kind p => "cannot read " ++ kind ++ " file: " ++ quoted_path p ++ newline
   | BinaryVtu p => "Error: Binary VTU files are not supported: " ++ quoted_path p ++ newline
   | Taken p => "file " ++ quoted_path p ++ " already exists in the output directory" ++ newline
   | BadMethod m => "Invalid pressure calculation method: " ++ m ++ newline ++ "Please select either Implicit or Explicit." ++ newline
   | SolverFailed => "Pressure calculation failed." ++ newline
   | CannotWrite p => "cannot write " ++ quoted_path p ++ newline
   | Event ev => cerrText ev
   | _ => ""
   end)%string.
