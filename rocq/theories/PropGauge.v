(** * Property C87: only differences of pressures act

    Vocabulary: [SpecGauge] (raised, amplified). *)
From Coq Require Import Reals Lra.
From Verif Require Import StepCasesF GaugeFacts GaugeCases ForcesCases SpecGauge.
Open Scope R_scope.

(** C87: all pressures raised by one constant; accelerations, velocities and positions after the correction are the same *)
Theorem C87_differences (s : @settings Rnum) rv re c (ps qs ps1 ps2 : list partR) : Forall2 (raised c) ps qs -> setMinimumPressure re ps = Ok ps1 -> calPressureGradient s rv re ps1 = Ok ps2 ->
  exists qs1 qs2, setMinimumPressure re qs = Ok qs1 /\ calPressureGradient s rv re qs1 = Ok qs2 /\ Forall2 (raised c) ps2 qs2 /\
    Forall2 (raised c) (moveParticleUsingPressureGradient s ps2) (moveParticleUsingPressureGradient s qs2).
Proof. exact (differences s rv re c ps qs ps1 ps2). Qed.
(** two particles that the pressures set in motion *)
Example C87_case : exists (s : @settings Rnum) rv (ps qs ps1 ps2 : list partR), Forall2 (raised 100) ps qs /\ setMinimumPressure (s_reG s) ps = Ok ps1 /\ calPressureGradient s rv (s_reG s) ps1 = Ok ps2 /\
  momentum (moveParticleUsingPressureGradient s ps2) <> momentum ps.
Proof.
  destruct couple_pressure as (s & rv & ps & ps1 & ps2 & _ & _ & _ & _ & _ & _ & _ & _ & A & B & C). exists s, rv, ps, (map (lift 100) ps), ps1, ps2.
  exact (conj (lift_raised 100 ps) (conj A (conj B C))).
Qed.
Print Assumptions C87_differences.

(** C87: pressures and accelerations multiplied by a factor that is not negative; so are the accelerations found *)
Theorem C87_proportional (s : @settings Rnum) rv re k (ps qs ps1 ps2 : list partR) : 0 <= k -> Forall2 (amplified k) ps qs -> setMinimumPressure re ps = Ok ps1 -> calPressureGradient s rv re ps1 = Ok ps2 ->
  exists qs1 qs2, setMinimumPressure re qs = Ok qs1 /\ calPressureGradient s rv re qs1 = Ok qs2 /\ Forall2 (amplified k) ps2 qs2.
Proof. exact (proportional s rv re k ps qs ps1 ps2). Qed.
Example C87_case_proportional : exists (s : @settings Rnum) rv (ps qs ps1 ps2 : list partR), 0 <= 3 /\ Forall2 (amplified 3) ps qs /\ setMinimumPressure (s_reG s) ps = Ok ps1 /\ calPressureGradient s rv (s_reG s) ps1 = Ok ps2 /\
  momentum (moveParticleUsingPressureGradient s ps2) <> momentum ps.
Proof.
  destruct couple_pressure as (s & rv & ps & ps1 & ps2 & _ & _ & _ & _ & _ & _ & _ & _ & A & B & C). exists s, rv, ps, (map (amp 3) ps), ps1, ps2.
  split; [lra|]. exact (conj (amp_amplified 3 ps) (conj A (conj B C))).
Qed.
Print Assumptions C87_proportional.

(** C87: in double a constant swallows the differences: the particle is pushed to the left without it, and stays further right with it *)
Theorem C87_double_refuted : exists (s : @settings F64) rv re c ps qs ps1 ps2 qs1 qs2 p q, qs = map (fun p : partF => set_press p (@nadd F64 (p_press p) c)) ps /\
  setMinimumPressure re ps = Ok ps1 /\ calPressureGradient s rv re ps1 = Ok ps2 /\ setMinimumPressure re qs = Ok qs1 /\ calPressureGradient s rv re qs1 = Ok qs2 /\
  nth_error (moveParticleUsingPressureGradient s ps2) 0 = Some p /\ nth_error (moveParticleUsingPressureGradient s qs2) 0 = Some q /\ nlt (vx (p_pos p)) (vx (p_pos q)) = true.
Proof. exact rounding_acts. Qed.
Print Assumptions C87_double_refuted.
