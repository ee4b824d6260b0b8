(** * Properties C62-C64: what a simulation prints

    Vocabulary: [Console] (event: what is printed, with the values shown), [SpecConsole]
    (warnings i, courant_errors: the events of a kind; printed: what is printed during one
    step; decimals), [SpecLine] (progress_line, short_line, warning_text,
    courant_text: the lines and the numbers they show), [SpecF] (kept3: the same position up to the sign of a zero, or NaN). *)
From Coq Require Import Reals Lra String.
From Flocq Require Import Core.Core.
From Verif Require Import ConsoleF ReportF ShippedCases ConsoleF LineFacts.
Open Scope Z_scope.

(** recording what is printed does not change the run *)
Theorem C62_passive {N : Num} S real fin clk fuel st st' :
  (exists log, runLog S real fin clk fuel st = Ok (st', log)) <-> run S real clk fuel st = Ok st' /\ in_int64 (fin - real) = true.
Proof. exact (C62_erase S real fin clk fuel st st'). Qed.
Example C62_passive_case : exists m st' log, runLog solver0 0 1000000000 slow 2 (lost_sim m) = Ok (st', log) /\ outputs log = lost_text.
Proof. destruct lost_case as (m & st' & log & _ & _ & _ & _ & _ & _ & R & T & _). exists m, st', log. auto. Qed.
Print Assumptions C62_passive.

(** C62: a particle that leaves the domain is warned about exactly once, with its final
    position; no other particle is ever warned about *)
Theorem C62_warned_once S real fin clk fuel (st st' : @sim Rnum) log i p p' : sound (si_mps st) -> runLog S real fin clk fuel st = Ok (st', log) ->
  nth_error (m_ps (si_mps st)) i = Some p -> nth_error (m_ps (si_mps st')) i = Some p' ->
  (p_type p <> Ghost -> p_type p' = Ghost -> warnings (Z.of_nat i) log = [OutOfDomain (Z.of_nat i) (p_pos p')] /\ outside (s_domain (m_settings (si_mps st))) (p_pos p')) /\
  (p_type p = Ghost \/ p_type p' <> Ghost -> warnings (Z.of_nat i) log = []).
Proof. exact (C62_R S real fin clk fuel st st' log i p p'). Qed.
Example C62_warned_once_case : exists m st' log p, sound m /\ m_ps m = strays /\ runLog no_solver 0 7 tick 3 (trip m) = Ok (st', log) /\ nth_error (m_ps m) 1 = Some p /\ p_type p <> Ghost /\
  outside (s_domain (m_settings m)) (p_pos p).
Proof. exact stray_runs. Qed.
Print Assumptions C62_warned_once.
Theorem C62_warned_once_binary64 S real fin clk fuel (st st' : @sim F64) log i p p' : sound (si_mps st) -> runLog S real fin clk fuel st = Ok (st', log) ->
  nth_error (m_ps (si_mps st)) i = Some p -> nth_error (m_ps (si_mps st')) i = Some p' ->
  (p_type p <> Ghost -> p_type p' = Ghost -> exists x, warnings (Z.of_nat i) log = [OutOfDomain (Z.of_nat i) x] /\ outside (s_domain (m_settings (si_mps st))) x /\ kept3 x (p_pos p')) /\
  (p_type p = Ghost \/ p_type p' <> Ghost -> warnings (Z.of_nat i) log = []).
Proof. exact (C62_F S real fin clk fuel st st' log i p p'). Qed.
(** one particle outside, one inside: the whole text *)
Example C62_binary64_case : exists m st' log p q, sound m /\ m_ps m = lost /\ runLog solver0 0 1000000000 slow 2 (lost_sim m) = Ok (st', log) /\
  outputs log = lost_text /\ nth_error (m_ps (si_mps st')) 2 = Some p /\ p_type p = Ghost /\ nth_error (m_ps (si_mps st')) 1 = Some q /\ p_type q = Fluid.
Proof. destruct lost_case as (m & st' & log & p & q & _ & SD & EP & _ & H). exists m, st', log, p, q. auto. Qed.
Print Assumptions C62_warned_once_binary64.

(** the text of a warning *)
Theorem C62_text id x : warning_text id x (cerrText (@OutOfDomain F64 id x)).
Proof. exact (line_warning id x). Qed.
Print Assumptions C62_text.

(** C63: the whole log of a completed run *)
Theorem C63_log {N : Num} S real fin clk fuel st st' log : fresh st -> runLog S real fin clk fuel st = Ok (st', log) ->
  exists ws, log = Start :: concat ws ++ [End (calHourMinuteSecond (fin - real))] /\ si_step st' = Z.of_nat (List.length ws) /\
    forall k w, nth_error ws k = Some w -> exists m, steps S (Datatypes.S k) (si_mps st) m /\ printed st real (clk k) (Datatypes.S k) m (si_out st') w.
Proof. exact (C63_lemma S real fin clk fuel st st' log). Qed.
Example C63_case : exists m st' log, fresh (lost_sim m) /\ runLog solver0 0 1000000000 slow 2 (lost_sim m) = Ok (st', log) /\ outputs log = lost_text.
Proof. destruct lost_case as (m & st' & log & _ & _ & _ & _ & _ & F & R & T & _). exists m, st', log. auto. Qed.
Print Assumptions C63_log.
Theorem C63_courant_errors {N : Num} S real fin clk fuel st st' log : runLog S real fin clk fuel st = Ok (st', log) ->
  m_cflErrors (si_mps st') = (m_cflErrors (si_mps st) + List.length (courant_errors log))%nat.
Proof. exact (C63_errors S real fin clk fuel st st' log). Qed.
Print Assumptions C63_courant_errors.
(** times are shown to the nearest millisecond, and so on *)
Theorem C63_decimals n x : (0 < n)%nat -> is_finite x = true -> decimals n x (printF n x).
Proof. exact (decimals_printF n x). Qed.
Example C63_decimals_case : exists x : f64, is_finite x = true /\ printF 3 x = "0.002"%string.
Proof. exists (bits 0x3f589374bc6a7efa). split; vm_compute; reflexivity. Qed.
Print Assumptions C63_decimals.
(** the lines themselves: every value of the report is shown, the time step with one digit *)
Theorem C63_line k dt t fin el re ave last f c : is_finite dt = true -> is_finite t = true -> is_finite fin = true -> is_finite ave = true -> is_finite last = true -> is_finite c = true ->
  progress_line k dt t fin el re ave last f c (coutText (@Report F64 k dt t fin el re ave last f c)).
Proof. exact (line_report k dt t fin el re ave last f c). Qed.
Theorem C63_short_line k dt t fin el re ave last f c : is_finite t = true -> short_line k t (cerrText (@Report F64 k dt t fin el re ave last f c)).
Proof. exact (line_short k dt t fin el re ave last f c). Qed.
Theorem C63_courant_line c : courant_text c (cerrText (@CourantError F64 c)).
Proof. exact (line_courant c). Qed.
Example C63_line_case : exists dt t fin ave last c, is_finite dt = true /\ is_finite t = true /\ is_finite fin = true /\ is_finite ave = true /\ is_finite last = true /\ is_finite c = true /\
  coutText (@Report F64 12 dt t fin "elapsed=0h 00m 06s" "remain=0h 01m 00s" ave last 3 c) =
  ("12: dt=0.001s   t=0.012s   fin=2.0s   elapsed=0h 00m 06s   remain=0h 01m 00s   ave=0.500s/step   last=0.001s/step   out=3files   Courant=0.01" ++ newline)%string.
Proof. exists (bits 0x3f50624dd2f1a9fc), (bits 0x3f889374bc6a7efa), (bits 0x4000000000000000), (bits 0x3fe0000000000000), (bits 0x3f50624dd2f1a9fc), (bits 0x3f889374bc6a7efa). do 6 (split; [reflexivity|]). vm_compute. reflexivity. Qed.
Print Assumptions C63_line.
Print Assumptions C63_short_line.
Print Assumptions C63_courant_line.
(** the time step is shown with one digit: half as large again, and the same text *)
Theorem C63_time_step_refuted : exists x y : f64, is_finite x = true /\ is_finite y = true /\ (3 * B2R x <= 2 * B2R y)%R /\ (0 < B2R x)%R /\ printG1 x = "0.002"%string /\ printG1 y = "0.002"%string.
Proof. exact dt_case. Qed.
Print Assumptions C63_time_step_refuted.

(** C64: the progress report can end in undefined behaviour: a run to 10^6 s with steps of
    0.001 s, the first of which takes ten seconds *)
Theorem C64_report_refuted : exists m m1, machineD = Ok m /\ sound m /\ fresh (endless m) /\ stepForward solver0 m = Ok m1 /\
  forall fuel, (0 < fuel)%nat -> run solver0 0 sluggish fuel (endless m) = Undef BadCast.
Proof. exact endless_stops. Qed.
Print Assumptions C64_report_refuted.
(** exactly when: when the estimated total time in nanoseconds is 2^63 or more *)
Theorem C64_when real a b (st : @sim Rnum) : 0 < si_step st -> (0 < si_dt st)%R -> (si_start st <= si_end st)%R ->
  0 <= b - real <= int64_max -> 0 <= b - a <= int64_max ->
  let estimate := (IZR (b - real) / IZR (si_step st) * ((si_end st - si_start st) / si_dt st))%R in
  ((estimate < 2 ^ 63)%R -> exists x, timeStepReport real (a, b) st = Ok x) /\ ((2 ^ 63 <= estimate)%R -> timeStepReport real (a, b) st = Undef BadCast).
Proof. exact (C64_lemma real a b st). Qed.
Example C64_case m : let st := @mkSim Rnum m 0%R 1%R 10%R (1 / 1000)%R 1%R 7 1 [] in
  0 < si_step st /\ (0 < si_dt st)%R /\ (si_start st <= si_end st)%R /\ 0 <= 900 - 500 <= int64_max /\ 0 <= 900 - 800 <= int64_max.
Proof. cbn [si_step si_dt si_start si_end]. unfold int64_max. repeat split; try lia; lra. Qed.
Print Assumptions C64_when.
(** in doubles: there is no failure while the run has taken at most 2^e ns, when
    end - start <= 2^t, dt >= 2^-d and e + t + d <= 61 *)
Theorem C64_fine_binary64 real a b (st : @sim F64) e t d :
  0 < si_step st <= int_max ->
  (let x := @nsub F64 (si_end st) (si_start st) in is_finite x = true /\ 0 <= B2R x <= bpow radix2 t)%R ->
  (is_finite (si_dt st) = true /\ bpow radix2 (- d) <= B2R (si_dt st))%R ->
  0 <= e -> -900 <= t -> -900 <= d -> -900 <= t + d -> e + t + d <= 61 ->
  0 <= b - real <= 2 ^ e -> 0 <= b - a <= int64_max -> b - real <= int64_max -> exists r, timeStepReport real (a, b) st = Ok r.
Proof. exact (report_fine real a b st e t d). Qed.
Example C64_fine_case m : let st := @mkSim F64 m (@nofZ F64 0) (@nofZ F64 0) (literal 2 1) (literal 1 1000) (literal 4 100) 7 1 [] in
  0 < si_step st <= int_max /\ (let x := @nsub F64 (si_end st) (si_start st) in is_finite x = true /\ 0 <= B2R x <= bpow radix2 1)%R /\
  (is_finite (si_dt st) = true /\ bpow radix2 (- (10)) <= B2R (si_dt st))%R.
Proof. cbn [si_step si_dt si_start si_end]. split; [unfold int_max; lia|]. exact (conj upto_2 least_1). Qed.
Print Assumptions C64_fine_binary64.
