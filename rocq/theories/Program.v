(** * The whole program: command line, loading, output directories, simulation, files
    (src/main.cpp, src/simulation.cpp, src/saver.cpp) *)
From Verif Require Export Loader Sim.
Open Scope list_scope.
Open Scope Z_scope.

(** fs::create_directories of a path whose parent is a directory *)
Definition create_dir (p : path) : act unit := fun fs =>
  match fs p, fs (parent p) with
  | Some Folder, _ => (fs, Ok tt)
  | None, Some Folder => (put fs p Folder, Ok tt)
  | _, _ => (fs, Throw)
  end.
(** std::ofstream ofs(path): a file that exists is emptied; "cannot write" and exit(-1) if
    [p] is a directory or is not in one.  [text] is what is then written, which can itself
    go wrong. *)
Definition write_file (p : path) (text : outcome (list ascii)) : act unit := fun fs =>
  match fs p, fs (parent p) with
  | Some Folder, _ => (fs, Exit (-1))
  | _, Some Folder => match text with
                      | Ok b => (put fs p (File b), Ok tt)
                      | _ => (put fs p (File []), (_ <- text ;; Ok tt))
                      end
  | _, _ => (fs, Exit (-1))
  end.

(** The Saver constructor, src/saver.cpp:5-11 *)
Definition newSaver (out : path) : act unit :=
  _ <~ create_dir (out ++ [lit "prof"]) ;; _ <~ create_dir (out ++ [lit "vtu"]) ;; create_dir (out ++ [lit "csv"]).

(** dir / "prof" / ("output_" ... ".prof") and the like, src/saver.cpp:16-31 *)
Definition outputPath (out : path) (kind : string) (k : Z) : path :=
  out ++ [lit kind; lit (outputName k ("." ++ kind))].

Section Program.
Variable parse : list ascii -> option node.
Variable as_int : list ascii -> option Z.
Variable as_dbl : list ascii -> option f64.
Variable as_bool : list ascii -> option bool.
Variable cell_int : list ascii -> option Z.
Variable cell_dbl : list ascii -> option f64.
Variable fsin fcos : f64 -> f64.
Variable M_PI : f64.
Variable big : bool.          (* byte order of the machine *)
Variable dbg : bool.          (* assertions compiled in *)

(** ParticlesExporter::toVtu, src/particles_exporter.cpp:346-354 *)
Definition toVtu (bin : bool) (t n0 : f64) (ps : list particle) : outcome (list ascii) :=
  if bin then toVtuBinary big t n0 ps else Ok (toVtuAscii big t n0 ps).

(** The files of Saver::save, src/saver.cpp:13-32 *)
Definition saveFiles (bin : bool) (out : path) (o : @output F64) : act unit :=
  let t := o_time o in let ps := m_ps (o_mps o) in
  _ <~ write_file (outputPath out "prof" (o_number o)) (Ok (toProf t ps)) ;;
  _ <~ write_file (outputPath out "vtu" (o_number o)) (toVtu bin t (rv_n0 (m_rvN (o_mps o))) ps) ;;
  write_file (outputPath out "csv" (o_number o)) (Ok (toCsv t ps)).
Fixpoint saveAll (bin : bool) (out : path) (l : list output) : act unit :=
  match l with
  | [] => ret (Ok tt)
  | o :: r => _ <~ saveFiles bin out o ;; saveAll bin out r
  end.

(** Simulation::run, src/simulation.cpp:29-48, with the files written on the way: what
    [Sim.save] has appended to the record is written before the run continues *)
Definition news (st st' : @sim F64) : list output := skipn (List.length (si_out st)) (si_out st').
Fixpoint loopFiles (S : solver) (real : Z) (clk : nat -> Z * Z) (bin : bool) (out : path) (fuel k : nat) (st : sim) : act sim :=
  if nlt (si_time st) (si_end st) then
    match fuel with
    | O => ret Diverge
    | Datatypes.S fuel' =>
        st' <~ ret (iteration S real (clk k) st) ;;
        _ <~ saveAll bin out (news st st') ;;
        loopFiles S real clk bin out fuel' (Datatypes.S k) st'
    end
  else ret (Ok st).
Definition runFiles (S : solver) (real : Z) (clk : nat -> Z * Z) (bin : bool) (out : path) (fuel : nat) (st : sim) : act sim :=
  st' <~ ret (save st) ;;
  _ <~ saveAll bin out (news st st') ;;
  loopFiles S real clk bin out fuel 0 st'.

(** main, src/main.cpp:19-68, and the Simulation constructor, src/simulation.cpp:17-27.
    The arguments are given and paths as in [Loader]; an output path that is a file makes
    create_directories throw, which main turns into exit(-1). *)
Definition program (S : solver) (real : Z) (clk : nat -> Z * Z) (fuel : nat) (setting out : path) : act sim := fun fs =>
  match fs setting, fs out with
  | Some _, Some Folder =>
      (i <~ load parse as_int as_dbl as_bool cell_int cell_dbl dbg setting out ;;
       _ <~ newSaver out ;;
       m <~ ret (factoryCreate fsin fcos M_PI (i_settings i) (i_particles i)) ;;
       runFiles S real clk (s_vtkBinary (i_settings i)) out fuel (newSim (i_start i) (i_settings i) m)) fs
  | _, _ => (fs, Exit (-1))
  end.
End Program.
