(** * Properties C32-C34, C49: the simulation loop and its output

    Vocabulary: [SpecSim] (fresh: a simulation before its first step; reached: the loop
    has performed k iterations; time_at, schedule), [SimFacts] (breaks: the outcome is
    that of the initial save or of an iteration and is not a normal end), [SimR]
    (needed = max 0 (ceil ((end - start) / dt)), due_step j = ceil (j * period / dt),
    clock_fine: clock readings do not overflow the report), [SimF] (dambreak_like,
    hydrostatic_like: start 0 and the time settings of the shipped cases). *)
From Coq Require Import Reals Lra String.
From Verif Require Import SimFacts SimR SimF SimCases.
Open Scope R_scope.
#[local] Remove Hints F64 : typeclass_instances.

(** C32 (exact arithmetic): a run that completes has made exactly the expected steps *)
Theorem C32_step_count S real clk fuel (st st' : @sim Rnum) : fresh st -> 0 < si_dt st -> run S real clk fuel st = Ok st' ->
  si_step st' = needed st /\ si_time st' = si_start st + IZR (needed st) * si_dt st /\
  (forall k, (0 <= k < needed st)%Z -> si_start st + IZR k * si_dt st < si_end st) /\ si_end st <= si_time st' /\
  steps S (Z.to_nat (needed st)) (si_mps st) (si_mps st').
Proof. exact (C32_count_lemma S real clk fuel st st'). Qed.
Example C32_count_case : exists m st', fresh (trip m) /\ 0 < si_dt (trip m) /\ run no_solver 0 tick 3 (trip m) = Ok st' /\ needed (trip m) = 3%Z.
Proof. destruct trip_runs as (m & st' & _ & _ & E). exists m, st'. split; [apply trip_fresh|]. split; [simpl; lra|]. split; [exact E|apply trip_needed]. Qed.
Print Assumptions C32_step_count.

(** a simulation as main constructs it is fresh, starts at the time of the particle file and
    has the times of the settings (every arithmetic) *)
Theorem C32_constructed (N : Num) (t : num) s m : let st := newSim t s m in
  fresh st /\ si_start st = t /\ si_end st = s_endTime s /\ si_dt st = s_dt s /\ si_period st = s_outputPeriod s /\ si_mps st = m.
Proof. exact (newSim_fields t s m). Qed.
Print Assumptions C32_constructed.

(** it does not go on: from [needed] iterations on, the outcome no longer depends on the
    bound on the number of iterations, and is not "more iterations needed" *)
Theorem C32_ends S real clk (st : @sim Rnum) : fresh st -> 0 < si_dt st ->
  exists o, (forall fuel, (needed st <= Z.of_nat fuel)%Z -> run S real clk fuel st = o) /\ ((exists st', o = Ok st') \/ breaks S real clk st o).
Proof. exact (C32_ends_lemma S real clk st). Qed.
Example C32_ends_case : exists m : @mps Rnum, ready m /\ fresh (trip m) /\ 0 < si_dt (trip m).
Proof. destruct trip_complete as (m & RD & _). exists m. split; [exact RD|]. split; [apply trip_fresh|simpl; lra]. Qed.
Print Assumptions C32_ends.

(** and it does complete, when assertions are off and the solver succeeds *)
Theorem C32_completes S real clk (st : @sim Rnum) : fresh st -> 0 < si_dt st -> ready (si_mps st) -> sized S ->
  s_asserts (m_settings (si_mps st)) = false ->
  (forall det q, m_calc (si_mps st) = Implicit det q -> q_asserts q = false /\ forall k ts b, S k ts b <> None) ->
  (needed st < int_max)%Z -> clock_fine real clk st ->
  exists st', run S real clk (Z.to_nat (needed st)) st = Ok st'.
Proof. exact (C32_completes_lemma S real clk st). Qed.
Example C32_completes_case : exists m, ready m /\ s_asserts (m_settings m) = false /\ (forall det q, m_calc m <> Implicit det q) /\ (needed (trip m) < int_max)%Z /\ clock_fine 0 tick (trip m).
Proof. exact trip_complete. Qed.
Print Assumptions C32_completes.

(** time standing still or running backwards *)
Theorem C32_backwards S real clk fuel (st st' : @sim Rnum) : fresh st -> si_dt st <= 0 -> si_start st < si_end st -> run S real clk fuel st <> Ok st'.
Proof. exact (C32_backwards_lemma S real clk fuel st st'). Qed.
Example C32_backwards_case : exists m : @mps Rnum, ready m /\ fresh (reverse m) /\ si_dt (reverse m) <= 0 /\ si_start (reverse m) < si_end (reverse m).
Proof. destruct trip_complete as (m & RD & _). exists m. split; [exact RD|]. split; [repeat split|]. simpl. lra. Qed.
Print Assumptions C32_backwards.

(** C32 in binary64: with finite times and dt > 0 the run ends, unless adding dt stops
    changing the time before the end; in that case it never completes *)
Theorem C32_binary64 S real clk (st : @sim F64) : fresh st -> fin (si_start st) = true -> fin (si_dt st) = true -> fin (si_end st) = true -> 0 < F2r (si_dt st) ->
  (exists n o, (forall fuel, (n <= fuel)%nat -> run S real clk fuel st = o) /\ ((exists st', o = Ok st') \/ breaks S real clk st o)) \/
  ((exists n, Bplus mode_NE (@time_at F64 (si_start st) (si_dt st) n) (si_dt st) = @time_at F64 (si_start st) (si_dt st) n /\
     @nlt F64 (@time_at F64 (si_start st) (si_dt st) n) (si_end st) = true) /\ forall fuel st', run S real clk fuel st <> Ok st').
Proof. exact (C32_binary64_lemma S real clk st). Qed.
(** the first alternative: the shipped dam-break times; the second one: a late start *)
Example C32_binary64_case : exists m st', machineD = Ok m /\ fresh (dambreak_sim m) /\ @run F64 solver0 0 tickF (Z.to_nat 2001) (dambreak_sim m) = Ok st'.
Proof. destruct dambreak_runs as (m & st' & E & R). exists m, st'. split; [exact E|]. split; [repeat split|exact R]. Qed.
Example C32_binary64_late S real clk fuel m st' : fresh (late m) /\ @run F64 S real clk fuel (late m) <> Ok st'.
Proof. destruct (late_stands m) as [A L]. split; [repeat split|]. apply (@run_stuck F64 _ _ _ _ 0); [repeat split|exact A|exact L]. Qed.
Print Assumptions C32_binary64.

(** the shipped dam-break case takes 2001 steps instead of 2000, hydrostatic 5000; the
    files come after steps [multiples d a b c] = d * j + c for j = a, ..., a + b - 1 *)
Theorem C32_dambreak_steps S real clk fuel (st st' : @sim F64) : fresh st -> dambreak_like st -> run S real clk fuel st = Ok st' ->
  si_step st' = 2001%Z.
Proof. exact (fun F D E => proj1 (dambreak_lemma S real clk fuel st st' F D E)). Qed.
Theorem C33_dambreak_files S real clk fuel (st st' : @sim F64) : fresh st -> dambreak_like st -> run S real clk fuel st = Ok st' ->
  map o_step (si_out st') = multiples 40 0 26 0 ++ multiples 40 26 25 1.
Proof. exact (fun F D E => proj2 (dambreak_lemma S real clk fuel st st' F D E)). Qed.
Example C32_dambreak_case : exists m st', machineD = Ok m /\ fresh (dambreak_sim m) /\ dambreak_like (dambreak_sim m) /\ @run F64 solver0 0 tickF (Z.to_nat 2001) (dambreak_sim m) = Ok st'.
Proof. destruct dambreak_runs as (m & st' & E & R). exists m, st'. split; [exact E|]. split; [repeat split|]. split; [repeat split|exact R]. Qed.
Print Assumptions C32_dambreak_steps.
Print Assumptions C33_dambreak_files.
Theorem C32_hydrostatic_steps S real clk fuel (st st' : @sim F64) : fresh st -> hydrostatic_like st -> run S real clk fuel st = Ok st' ->
  si_step st' = 5000%Z.
Proof. exact (fun F D E => proj1 (hydrostatic_lemma S real clk fuel st st' F D E)). Qed.
Theorem C33_hydrostatic_files S real clk fuel (st st' : @sim F64) : fresh st -> hydrostatic_like st -> run S real clk fuel st = Ok st' ->
  map o_step (si_out st') = multiples 50 0 21 0 ++ multiples 50 21 79 1 ++ [5000%Z].
Proof. exact (fun F D E => proj2 (hydrostatic_lemma S real clk fuel st st' F D E)). Qed.
Example C32_hydrostatic_case : exists m st', machineD = Ok m /\ fresh (hydrostatic_sim m) /\ hydrostatic_like (hydrostatic_sim m) /\ @run F64 solver0 0 tickF (Z.to_nat 5000) (hydrostatic_sim m) = Ok st'.
Proof. destruct hydrostatic_runs as (m & st' & E & R). exists m, st'. split; [exact E|]. split; [repeat split|]. split; [repeat split|exact R]. Qed.
Print Assumptions C32_hydrostatic_steps.
Print Assumptions C33_hydrostatic_files.

(** C33, for every arithmetic *)
Theorem C33_schedule (N : Num) S real clk (st st' : sim) k : fresh st -> reached S real clk st k st' -> schedule S st k (si_out st').
Proof. exact (reached_schedule S real clk st k st'). Qed.
Example C33_schedule_case : exists m st', fresh (trip m) /\ @reached Rnum no_solver 0 tick (trip m) 3 st' /\ List.length (si_out st') = 3%nat.
Proof. destruct trip_reached as (m & st' & k & _ & R & -> & L). exists m, st'. split; [apply trip_fresh|]. split; [exact R|exact L]. Qed.
Print Assumptions C33_schedule.

(** in exact arithmetic with period >= dt *)
Theorem C33_exact S real clk (st st' : @sim Rnum) k : fresh st -> 0 < si_dt st -> si_dt st <= si_period st -> reached S real clk st k st' ->
  (forall j, (j < List.length (si_out st'))%nat <-> (due_step st j <= Z.of_nat k)%Z) /\
  (forall j o, nth_error (si_out st') j = Some o -> o_number o = Z.of_nat j /\ o_step o = due_step st j /\
     steps S (Z.to_nat (due_step st j)) (si_mps st) (o_mps o) /\
     IZR (Z.of_nat j) * si_period st <= o_time o - si_start st < IZR (Z.of_nat j) * si_period st + si_dt st).
Proof. exact (C33_lemma S real clk st st' k). Qed.
Example C33_exact_case : exists m st', fresh (trip m) /\ 0 < si_dt (trip m) /\ si_dt (trip m) <= si_period (trip m) /\ @reached Rnum no_solver 0 tick (trip m) 3 st' /\ List.length (si_out st') = 3%nat.
Proof. destruct trip_reached as (m & st' & k & _ & R & -> & L). exists m, st'. split; [apply trip_fresh|]. split; [simpl; lra|]. split; [simpl; lra|]. split; [exact R|exact L]. Qed.
Print Assumptions C33_exact.

(** with period <= dt there is one file per step, however late *)
Theorem C33_short_period S real clk (st st' : @sim Rnum) k : fresh st -> 0 < si_dt st -> si_period st <= si_dt st -> reached S real clk st k st' ->
  List.length (si_out st') = Datatypes.S k /\ (forall j o, nth_error (si_out st') j = Some o -> o_step o = Z.of_nat j).
Proof. exact (C33_short_lemma S real clk st st' k). Qed.
Example C33_short_case : exists m st', fresh (hasty m) /\ 0 < si_dt (hasty m) /\ si_period (hasty m) <= si_dt (hasty m) /\ @reached Rnum no_solver 0 tick (hasty m) 3 st'.
Proof. destruct hasty_runs as (m & st' & _ & R). exists m, st'. split; [repeat split|]. split; [simpl; lra|]. split; [simpl; lra|exact R]. Qed.
Print Assumptions C33_short_period.

(** C34 *)
Theorem C34_distinct_names z z' e : (0 <= z)%Z -> (0 <= z')%Z -> outputName z e = outputName z' e -> z = z'.
Proof. exact (outputName_inj z z' e). Qed.
Example C34_distinct_case : outputName 7 ".vtu" = "output_0007.vtu"%string /\ outputName 12345 ".csv" = "output_12345.csv"%string.
Proof. split; reflexivity. Qed.
Print Assumptions C34_distinct_names.
Theorem C34_alphabetical z z' e : (0 <= z < z')%Z -> (z' < 10000)%Z -> String.compare (outputName z e) (outputName z' e) = Lt.
Proof. exact (outputName_order z z' e). Qed.
Example C34_alphabetical_case : String.compare (outputName 99 ".prof") (outputName 100 ".prof") = Lt.
Proof. reflexivity. Qed.
Print Assumptions C34_alphabetical.
(** ... and not beyond *)
Theorem C34_alphabetical_beyond_refuted : exists z z', (0 <= z < z')%Z /\ forall e, String.compare (outputName z e) (outputName z' e) = Gt.
Proof. exact (ex_intro _ 9999%Z (ex_intro _ 10000%Z (conj (conj (Zle_bool_imp_le 0 9999 eq_refl) (eq_refl : Z.compare 9999 10000 = Lt)) (fun e => eq_refl)))). Qed.
Print Assumptions C34_alphabetical_beyond_refuted.

(** C49: [d] in nanoseconds *)
Theorem C49_duration d : exists h m s, calHourMinuteSecond d = (dec h ++ "h " ++ setw 2 "0" (dec m) ++ "m " ++ dec s ++ "s")%string /\
  (3600 * h + 60 * m + s = Z.quot d 1000000000 /\ Z.abs m < 60 /\ Z.abs s < 60 /\ (0 <= d -> 0 <= h /\ 0 <= m /\ 0 <= s) /\ (d <= 0 -> h <= 0 /\ m <= 0 /\ s <= 0))%Z.
Proof. exact (hms_spec d). Qed.
Example C49_case : calHourMinuteSecond 3723999999999 = "1h 02m 3s"%string /\ calHourMinuteSecond (-3723999999999) = "-1h -2m -3s"%string.
Proof. split; vm_compute; reflexivity. Qed.
Print Assumptions C49_duration.
