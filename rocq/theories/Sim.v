(** * The simulation: time loop, output schedule, progress report
    (src/simulation.cpp, src/simulation.hpp, src/saver.cpp) *)
From Verif Require Export Step Text.
Open Scope Z_scope.

(** int64_t, the representation of std::chrono::nanoseconds (and of the duration of
    std::chrono::system_clock in libstdc++) *)
Definition int64_min : Z := -9223372036854775808.
Definition int64_max : Z := 9223372036854775807.
Definition in_int64 (z : Z) : bool := (int64_min <=? z) && (z <=? int64_max).
Definition cint64 (z : Z) : outcome Z := if in_int64 z then Ok z else Undef IntOverflow.

(** Simulation::calHourMinuteSecond, src/simulation.hpp:42-53, of a duration of [d]
    nanoseconds.  duration_cast divides like C++ integers do, towards zero; the
    subtractions cannot overflow since they move [d] towards 0. *)
Definition calHourMinuteSecond (d : Z) : string :=
  let h := Z.quot d 3600000000000 in
  let d := d - h * 3600000000000 in
  let m := Z.quot d 60000000000 in
  let d := d - m * 60000000000 in
  let s := Z.quot d 1000000000 in
  (dec h ++ "h " ++ setw 2 "0" (dec m) ++ "m " ++ dec s ++ "s")%string.

(** the names of the files of Saver::save, src/saver.cpp:16-31 *)
Definition outputName (fileNumber : Z) (ext : string) : string :=
  ("output_" ++ setw 4 "0" (dec fileNumber) ++ ext)%string.

Section Sim.
Context {N : Num}.
Local Open Scope num_scope.

(** (int64_t) x *)
Definition to_int64 (x : num) : outcome Z :=
  match ntrunc x with
  | Some z => if in_int64 z then Ok z else Undef BadCast
  | None => Undef BadCast
  end.

(** One call of Saver::save: what it exports, under which number, after how many time
    steps.  What the three files contain is modelled in the exporter files. *)
Record output := mkO { o_number : Z; o_step : Z; o_time : num; o_mps : mps }.

(** Simulation, src/simulation.hpp:24-34, with Saver::fileNumber; [si_out] records
    the calls of Saver::save so far *)
Record sim := mkSim {
  si_mps : mps;
  si_start : num; si_time : num; si_end : num; si_dt : num; si_period : num;
  si_step : Z;
  si_file : Z;
  si_out : list output
}.

(** Simulation::Simulation, src/simulation.cpp:17-27, given what the loader and the
    factory made of the input *)
Definition newSim (startTime : num) (s : settings) (m : mps) : sim :=
  mkSim m startTime startTime (s_endTime s) (s_dt s) (s_outputPeriod s) 0 0 [].

(** Saver::save, src/saver.cpp:13-32 *)
Definition save (st : sim) : outcome sim :=
  f <- cint (si_file st + 1)%Z ;;
  Ok (mkSim (si_mps st) (si_start st) (si_time st) (si_end st) (si_dt st) (si_period st) (si_step st) f
            (si_out st ++ [mkO (si_file st) (si_step st) (si_time st) (si_mps st)])).

(** Simulation::saveCondition, src/simulation.cpp:105-108 *)
Definition saveCondition (st : sim) : bool :=
  nle (si_period st * # (si_file st)) (si_time st - si_start st).

(** Simulation::timeStepReport, src/simulation.cpp:65-103: the texts "elapsed" and
    "remain".  Clock readings are in nanoseconds; [real] is realStartTime.  The numbers
    that are only printed are left out. *)
Definition timeStepReport (real : Z) (clock : Z * Z) (st : sim) : outcome (string * string) :=
  let '(stepStart, stepEnd) := clock in
  elapsedTime <- cint64 (stepEnd - real)%Z ;;
  let elapsed := calHourMinuteSecond elapsedTime in
  remain <- (if (si_step st =? 0)%Z then Ok "-h --m --s"%string
             else
               let ave := # elapsedTime / (# (si_step st) * #1000000000) in
               totalTime <- to_int64 (ave * (si_end st - si_start st) / si_dt st * #1000000000) ;;
               d <- cint64 (totalTime - elapsedTime)%Z ;;
               Ok (calHourMinuteSecond d)) ;;
  _ <- cint64 (stepEnd - stepStart)%Z ;;
  Ok (("elapsed=" ++ elapsed)%string, ("remain=" ++ remain)%string).

(** the body of the loop in Simulation::run, src/simulation.cpp:34-45 *)
Definition iteration (S : solver) (real : Z) (clock : Z * Z) (st : sim) : outcome sim :=
  m <- stepForward S (si_mps st) ;;
  k <- cint (si_step st + 1)%Z ;;
  let st := mkSim m (si_start st) (si_time st + si_dt st) (si_end st) (si_dt st) (si_period st) k (si_file st) (si_out st) in
  _ <- timeStepReport real clock st ;;
  if saveCondition st then save st else Ok st.

(** Simulation::run, src/simulation.cpp:29-48.  [clk k] are the two clock readings of
    iteration [k]; [Diverge] when more than [fuel] iterations are needed. *)
Fixpoint loop (S : solver) (real : Z) (clk : nat -> Z * Z) (fuel k : nat) (st : sim) : outcome sim :=
  if nlt (si_time st) (si_end st) then
    match fuel with
    | O => Diverge
    | Datatypes.S fuel' => st' <- iteration S real (clk k) st ;; loop S real clk fuel' (Datatypes.S k) st'
    end
  else Ok st.
Definition run (S : solver) (real : Z) (clk : nat -> Z * Z) (fuel : nat) (st : sim) : outcome sim :=
  st <- save st ;; loop S real clk fuel 0 st.
End Sim.
