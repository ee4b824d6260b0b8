(** * Property C82: everything the program prints; no end without a reason

    The program of C80 with its command line and its two output streams (Messages.v);
    [wrong_arguments], [wrong_input], [error], [headers]: SpecMessages. *)
From Coq Require Import String.
From Verif Require Import SpecConsole.
From Verif Require Import MessagesMore MessagesCases EndingsCases LoaderCases SimCases StepCasesF.
Open Scope list_scope.
Open Scope Z_scope.
#[local] Remove Hints Rnum : typeclass_instances.

(** Printing does not change what the program does: it ends as [program] does, with the same
    files.  (The total time is an int64: C64.) *)
Theorem C82_passive parse as_int as_dbl as_bool cell_int cell_dbl fsin fcos M_PI big dbg S real fin clk fuel flip setting out fs fs' w o : in_int64 (fin - real) = true ->
  mainSay parse as_int as_dbl as_bool cell_int cell_dbl fsin fcos M_PI big dbg S real fin clk fuel flip (Some setting) (Some out) fs = (fs', w, o) ->
  program parse as_int as_dbl as_bool cell_int cell_dbl fsin fcos M_PI big dbg S real clk fuel setting out fs = (fs', o).
Proof. exact (main_erased parse as_int cell_int as_dbl cell_dbl as_bool fsin fcos M_PI big dbg S real fin clk fuel fs flip setting out fs' w o). Qed.
(** the clock of the runs below *)
Example C82_passive_case : in_int64 (5000000000 - 0) = true. Proof. reflexivity. Qed.
Print Assumptions C82_passive.

(** When the program stops with exit, the status is -1, the last message is an error and
    says what is wrong, and no other error was printed before it. *)
Theorem C82_exit parse as_int as_dbl as_bool cell_int cell_dbl fsin fcos M_PI big dbg S real fin clk fuel flip setting out fs fs' w c : sized S ->
  mainSay parse as_int as_dbl as_bool cell_int cell_dbl fsin fcos M_PI big dbg S real fin clk fuel flip setting out fs = (fs', w, Exit c) ->
  c = -1 /\ exists w0 e, w = w0 ++ [e] /\ Forall (fun e => ~ error e) w0 /\ error e /\
    (wrong_arguments fs setting out e \/
     exists se o sb y s pp cores, setting = Some se /\ out = Some o /\ fs se = Some (File sb) /\ parse sb = Some y /\
       @loadSettingYaml F64 as_int as_dbl as_bool dbg (parent se) y = Ok (s, pp, cores) /\ wrong_input S fs se o pp s e).
Proof. exact (fun Z => main_exit parse as_int cell_int as_dbl cell_dbl as_bool fsin fcos M_PI big dbg S real fin clk fuel fs Z flip setting out fs' w c). Qed.
Example C82_sized_case : sized solver0 /\ sized no_solution. Proof. exact (conj solver0_sized no_solution_sized). Qed.
(** no settings file *)
Example C82_setting_case : stops_saying (startM solver0 10 false (Some setting_path) (Some out_dir) (fun _ => None))
  (lines ["ERROR: The setting file /home/case/settings.yml does not exist"]) (lines ["ERROR: The setting file /home/case/settings.yml does not exist"]).
Proof. exact (seen_stops _ _ _ m_setting). Qed.
(** no output directory, option -o first *)
Example C82_output_case : stops_saying (startM solver0 10 true (Some setting_path) (Some out_dir) (fun _ => None))
  (lines ["ERROR: The output directory /home/out does not exist"]) (lines ["ERROR: The output directory /home/out does not exist"]).
Proof. exact (seen_stops _ _ _ m_output). Qed.
(** no option -o *)
Example C82_missing_case : stops_saying (startM solver0 10 true (Some setting_path) None (world "good" []))
  (lines ["Setting file: /home/case/settings.yml"; "?"]) (lines ["?"] ++ "Usage").
Proof. exact (seen_stops _ _ _ m_missing). Qed.
(** a file as output directory *)
Example C82_file_case : stops_saying (startM solver0 10 false (Some setting_path) (Some setting_path) (world "good" []))
  (lines ["Setting file: /home/case/settings.yml"; "Output directory: /home/case/settings.yml"; "?"]) (lines ["?"] ++ "Usage").
Proof. exact (seen_stops _ _ _ m_file). Qed.
(** no particle file *)
Example C82_gone_case : stops_saying (startM solver0 10 false (Some setting_path) (Some out_dir) (world "gone" []))
  (lines ["Setting file: /home/case/settings.yml"; "Output directory: /home/out"]) (lines ["cannot read prof file: ""/home/case/gone.prof"""]).
Proof. exact (seen_stops _ _ _ m_gone). Qed.
(** another format *)
Example C82_text_case : stops_saying (startM solver0 10 false (Some setting_path) (Some out_dir) (world "text" []))
  (lines ["Setting file: /home/case/settings.yml"; "Output directory: /home/out"]) (lines ["unsupported file format: "".yml"""]).
Proof. exact (seen_stops _ _ _ m_text). Qed.
(** binary data *)
Example C82_binary_case : stops_saying (startM solver0 10 false (Some setting_path) (Some out_dir) (world "vtu" [(vtu_path, File raw_data)]))
  (lines ["Setting file: /home/case/settings.yml"; "Output directory: /home/out"]) (lines ["Error: Binary VTU files are not supported: ""/home/case/in.vtu"""]).
Proof. exact (seen_stops _ _ _ m_binary). Qed.
(** a copy exists *)
Example C82_copy_case : stops_saying (startM solver0 10 false (Some setting_path) (Some out_dir) (world "good" [(out_dir ++ [lit "in.prof"], File [])]))
  (lines ["Setting file: /home/case/settings.yml"; "Output directory: /home/out"]) (lines ["file ""/home/out/in.prof"" already exists in the output directory"]).
Proof. exact (seen_stops _ _ _ m_copy). Qed.
(** unknown method *)
Example C82_method_case : stops_saying (startM solver0 10 false (Some setting_path) (Some out_dir) (world "typo" []))
  (lines ["Setting file: /home/case/settings.yml"; "Output directory: /home/out"]) (lines ["Invalid pressure calculation method: Explicitly"; "Please select either Implicit or Explicit."]).
Proof. exact (seen_stops _ _ _ m_method). Qed.
(** the solver gives up *)
Example C82_solver_case : stops_saying (startM no_solution 10 false (Some setting_path) (Some out_dir) (world "implicit" []))
  (lines ["Setting file: /home/case/settings.yml"; "Output directory: /home/out"; ""; "*** START SIMULATION ***"]) (lines ["Pressure calculation failed."]).
Proof. exact (seen_stops _ _ _ m_solver). Qed.
(** a directory in the place of an output file *)
Example C82_folder_case : stops_saying (startM solver0 10 false (Some setting_path) (Some out_dir) (world "good" [(outputPath out_dir "csv" 0, Folder)]))
  (lines ["Setting file: /home/case/settings.yml"; "Output directory: /home/out"; ""; "*** START SIMULATION ***"]) (lines ["cannot write ""/home/out/csv/output_0000.csv"""]).
Proof. exact (seen_stops _ _ _ m_folder). Qed.
Print Assumptions C82_exit.

(** Any other end is without an error message: a completed run, an exception, a failed
    assertion, undefined behaviour, a run that goes on. *)
Theorem C82_silent parse as_int as_dbl as_bool cell_int cell_dbl fsin fcos M_PI big dbg S real fin clk fuel flip setting out fs fs' w o : sized S ->
  mainSay parse as_int as_dbl as_bool cell_int cell_dbl fsin fcos M_PI big dbg S real fin clk fuel flip setting out fs = (fs', w, o) -> (forall c, o <> Exit c) -> Forall (fun e => ~ error e) w.
Proof. exact (fun Z => main_silent parse as_int cell_int as_dbl cell_dbl as_bool fsin fcos M_PI big dbg S real fin clk fuel fs Z flip setting out fs' w o). Qed.
Print Assumptions C82_silent.

(** A completed run has printed its arguments and the log of C63. *)
Theorem C82_completed parse as_int as_dbl as_bool cell_int cell_dbl fsin fcos M_PI big dbg S real fin clk fuel flip setting out fs fs' w st' :
  mainSay parse as_int as_dbl as_bool cell_int cell_dbl fsin fcos M_PI big dbg S real fin clk fuel flip setting out fs = (fs', w, Ok st') ->
  exists se o sb y s pp cores t ps m l, setting = Some se /\ out = Some o /\ fs se = Some (File sb) /\ parse sb = Some y /\
    @loadSettingYaml F64 as_int as_dbl as_bool dbg (parent se) y = Ok (s, pp, cores) /\
    loadParticles cell_int cell_dbl dbg (s_rho0 s) fs pp = Ok (t, ps) /\ @factoryCreate F64 fsin fcos M_PI s ps = Ok m /\
    w = headers flip se o ++ map Event l /\ runLog S real fin clk fuel (newSim t s m) = Ok (st', l).
Proof. exact (main_completed parse as_int cell_int as_dbl cell_dbl as_bool fsin fcos M_PI big dbg S real fin clk fuel fs flip setting out fs' w st'). Qed.
Example C82_completed_case : completes_saying (startM solver0 10 false (Some setting_path) (Some out_dir) (world "good" []))
  (lines ["Setting file: /home/case/settings.yml"; "Output directory: /home/out"; ""; "*** START SIMULATION ***"; "1: dt=0.001s   t=0.001s   fin=0.0s   elapsed=0h 00m 0s   remain=0h 00m 0s   ave=0.000s/step   last=0.000s/step   out=1files   Courant=0.00"; ""; "Total Simulation time = 0h 00m 5s"; ""; "*** END SIMULATION ***"])
  (lines ["   1: t=0.001s"]).
Proof. apply (seen_completes _ _ _ m_good). exact m_good_ok. Qed.
Print Assumptions C82_completed.

(** "END SIMULATION" is printed only by a run that completes. *)
Theorem C82_end parse as_int as_dbl as_bool cell_int cell_dbl fsin fcos M_PI big dbg S real fin clk fuel flip setting out fs fs' w o x :
  mainSay parse as_int as_dbl as_bool cell_int cell_dbl fsin fcos M_PI big dbg S real fin clk fuel flip setting out fs = (fs', w, o) -> In (Event (End x)) w -> exists st, o = Ok st.
Proof. exact (main_end parse as_int cell_int as_dbl cell_dbl as_bool fsin fcos M_PI big dbg S real fin clk fuel fs flip setting out fs' w o x). Qed.
Print Assumptions C82_end.

(** First come the options, each repeated once, in the order of the command line, up to the
    first one that is wrong; no such line is printed later. *)
Theorem C82_arguments parse as_int as_dbl as_bool cell_int cell_dbl fsin fcos M_PI big dbg S real fin clk fuel flip setting out fs fs' w o :
  mainSay parse as_int as_dbl as_bool cell_int cell_dbl fsin fcos M_PI big dbg S real fin clk fuel flip setting out fs = (fs', w, o) ->
  exists said rest, w = said ++ rest /\ Forall (fun e => ~ header e) rest /\ arguments_said fs (given flip setting out) said rest.
Proof. exact (main_arguments parse as_int cell_int as_dbl cell_dbl as_bool fsin fcos M_PI big dbg S real fin clk fuel fs flip setting out fs' w o). Qed.
(** the setting file is missing: it is not repeated; an output directory that is a file is *)
Example C82_arguments_case :
  stops_saying (startM solver0 10 false (Some setting_path) (Some out_dir) (fun _ => None))
    (lines ["ERROR: The setting file /home/case/settings.yml does not exist"]) (lines ["ERROR: The setting file /home/case/settings.yml does not exist"]) /\
  stops_saying (startM solver0 10 false (Some setting_path) (Some setting_path) (world "good" []))
    (lines ["Setting file: /home/case/settings.yml"; "Output directory: /home/case/settings.yml"; "?"]) (lines ["?"] ++ "Usage").
Proof. exact (conj (seen_stops _ _ _ m_setting) (seen_stops _ _ _ m_file)). Qed.
Print Assumptions C82_arguments.

(** A run that starts but does not complete has printed the reports of the steps done, as a
    completed run does, and after them at most what one step prints and one error. *)
Theorem C82_progress parse as_int as_dbl as_bool cell_int cell_dbl fsin fcos M_PI big dbg S real fin clk fuel flip setting out fs fs' w o :
  mainSay parse as_int as_dbl as_bool cell_int cell_dbl fsin fcos M_PI big dbg S real fin clk fuel flip setting out fs = (fs', w, o) -> (forall st, o <> Ok st) -> In (Event Start) w ->
  exists se q sb y s pp cores t ps m, setting = Some se /\ out = Some q /\ fs se = Some (File sb) /\ parse sb = Some y /\
    @loadSettingYaml F64 as_int as_dbl as_bool dbg (parent se) y = Ok (s, pp, cores) /\
    loadParticles cell_int cell_dbl dbg (s_rho0 s) fs pp = Ok (t, ps) /\ @factoryCreate F64 fsin fcos M_PI s ps = Ok m /\
    exists ws mk outs tail, w = headers flip se q ++ map Event (Start :: concat ws) ++ tail /\ within_step tail /\ steps S (List.length ws) m mk /\
      forall j v, nth_error ws j = Some v -> exists m', steps S (Datatypes.S j) m m' /\ printed (newSim t s m) real (clk j) (Datatypes.S j) m' outs v.
Proof. exact (main_progress parse as_int cell_int as_dbl cell_dbl as_bool fsin fcos M_PI big dbg S real fin clk fuel fs flip setting out fs' w o). Qed.
(** the file after the first step cannot be written *)
Example C82_progress_case : stops_saying (startM solver0 10 false (Some setting_path) (Some out_dir) (world "good" [(outputPath out_dir "csv" 1, Folder)]))
  (lines ["Setting file: /home/case/settings.yml"; "Output directory: /home/out"; ""; "*** START SIMULATION ***"; "1: dt=0.001s   t=0.001s   fin=0.0s   elapsed=0h 00m 0s   remain=0h 00m 0s   ave=0.000s/step   last=0.000s/step   out=1files   Courant=0.00"])
  (lines ["   1: t=0.001s"; "cannot write ""/home/out/csv/output_0001.csv"""]).
Proof. exact (seen_stops _ _ _ m_second). Qed.
Print Assumptions C82_progress.

(** From the text on the error stream one can tell which of the errors it was, and the path
    or name in question. *)
Theorem C82_text what usage e e' : proper_message e -> proper_message e' -> sayCerr what usage e = sayCerr what usage e' -> e = e'.
Proof. exact (cerr_inj what usage e e'). Qed.
Example C82_texts_case : proper_message (CannotRead "prof" (case_dir ++ [lit "gone.prof"])) /\ proper_message (Unsupported (lit ".yml")) /\ proper_message SolverFailed.
Proof. split; [|split; exact I]. split; [left; reflexivity|]. repeat constructor; cbn; intuition discriminate. Qed.
Print Assumptions C82_text.

(** The arguments are repeated on the standard output only.  The text of an error is on the
    error stream, ends a line and names the file, format or method in question; wrong paths
    on the command line are on both streams. *)
Theorem C82_streams what usage e :
  (header e -> sayCerr what usage e = ""%string /\ names e (sayCout what e)) /\
  (error e -> names e (sayCerr what usage e) /\ sayCerr what usage e <> ""%string /\ (sayCout what e = ""%string \/ exists r, sayCerr what usage e = (sayCout what e ++ r)%string)) /\
  (forall p, e = NoSetting p \/ e = NoOutput p -> sayCout what e = sayCerr what usage e) /\
  (error e -> e <> BadArguments -> exists t, sayCerr what usage e = (t ++ newline)%string).
Proof. exact (streams what usage e). Qed.
(** a name with a double quote and a backslash *)
Example C82_streams_case : let e := CannotWrite [lit "a""b\c"] in
  error e /\ names e (sayCerr "?" "Usage" e) /\ sayCerr "?" "Usage" e = (lines ["cannot write ""/a\""b\\c"""])%string.
Proof. cbv zeta. split; [exact I|]. split; [exact (proj1 (proj1 (proj2 (streams "?" "Usage" (CannotWrite [lit "a""b\c"]))) I))|vm_compute; reflexivity]. Qed.
Print Assumptions C82_streams.
